(* The small languages in which PyBox writes its generated modules, and their
   meaning over the reals.

   A generated line is 'cell = expression'.  The expression is kept as the
   sequence of tokens that the f.write calls emit; it is read back with the
   usual precedence (power, then product, then sum), which Python and Fortran
   share on this subset, and evaluated exactly.  Simplifications: real
   arithmetic instead of binary64; a numeral token holds its value, not its
   spelling (Python prints floats so that they read back unchanged). *)
From Coq Require Import List Bool Arith Lia ZArith QArith Reals Qreals Lra.
From Verif Require Import Base.
Import ListNotations.
Open Scope nat_scope.
Open Scope list_scope.

(* Real power with rational exponent; None where it is undefined
   (0 to a negative power, a negative number to a fractional power). *)
Definition qpow (x : R) (q : Q) : option R :=
  let r := Qred q in
  if (Qden r =? 1)%positive then
    if (0 <=? Qnum r)%Z then Some (x ^ Z.to_nat (Qnum r))%R
    else if Req_EM_T x 0 then None else Some (/ x ^ Z.to_nat (- Qnum r))%R
  else if Rlt_dec 0 x then Some (Rpower x (Q2R q))
  else if Req_EM_T x 0 then (if (0 <? Qnum r)%Z then Some 0%R else None)
  else None.

Inductive arr := AY | AR.          (* concentrations y, reaction rates r *)

Inductive tok :=
| TNum (q : Q)                     (* 1.0, 2.0, ... *)
| TRef (a : arr) (i : nat)         (* y[i] or y(i), with the index as printed *)
| TStar | TPow | TPlus | TMinus
| TCont.                           (* ' & \n    ' Fortran continuation *)

Inductive atom := ANum (q : Q) | ARef (a : arr) (i : nat).
Definition factor := (atom * option Q)%type.       (* atom, exponent *)
Definition fterm := (bool * list factor)%type.     (* negative?, factors *)
Definition expr := list fterm.

Definition tok_atom (t : tok) : option atom :=
  match t with TNum q => Some (ANum q) | TRef a i => Some (ARef a i) | _ => None end.

(* Reads what follows an atom: its exponent, the remaining factors of the
   term, the remaining terms. *)
Fixpoint p_after (pow_ok : bool) (l : list tok) {struct l} : option (option Q * list factor * expr) :=
  match l with
  | [] => Some (None, [], [])
  | TCont :: l' => p_after pow_ok l'
  | TPow :: TNum q :: l' =>
      if pow_ok then
        match p_after false l' with
        | Some (None, fs, ts) => Some (Some q, fs, ts)
        | _ => None
        end
      else None
  | TStar :: t :: l' =>
      match tok_atom t, p_after true l' with
      | Some a, Some (e, fs, ts) => Some (None, (a, e) :: fs, ts)
      | _, _ => None
      end
  | TPlus :: t :: l' =>
      match tok_atom t, p_after true l' with
      | Some a, Some (e, fs, ts) => Some (None, [], (false, (a, e) :: fs) :: ts)
      | _, _ => None
      end
  | TMinus :: t :: l' =>
      match tok_atom t, p_after true l' with
      | Some a, Some (e, fs, ts) => Some (None, [], (true, (a, e) :: fs) :: ts)
      | _, _ => None
      end
  | _ => None
  end.

(* A whole right-hand side; an empty one is a syntax error. *)
Definition p_expr (l : list tok) : option expr :=
  match l with
  | TPlus :: _ | TMinus :: _ =>
      match p_after true l with Some (None, [], ts) => Some ts | _ => None end
  | t :: l' =>
      match tok_atom t, p_after true l' with
      | Some a, Some (e, fs, ts) => Some ((false, (a, e) :: fs) :: ts)
      | _, _ => None
      end
  | [] => None
  end.

(* Index base and literal precision of a language.  In Fortran arrays start at
   1 and a literal such as 0.65 is a single precision number, so its value is
   some rounding of the decimal one. *)
Record lang := Lang { loc : nat -> option nat; lit : Q -> Q }.
Definition python : lang := Lang Some (fun q => q).
Definition one_based (i : nat) : option nat := match i with 0 => None | S j => Some j end.
Definition fortran (rnd : Q -> Q) : lang := Lang one_based rnd.

(* Values representable in single precision; a rounding leaves them alone. *)
Definition single (q : Q) : Prop :=
  exists (m : Z) (e : nat), (Z.abs m < 2 ^ 24)%Z /\ (e < 100) /\
    (q == inject_Z (m * 2 ^ Z.of_nat e) \/ q == m # (2 ^ Pos.of_nat e)).
Definition is_rounding (rnd : Q -> Q) : Prop := forall q, single q -> rnd q == q.

Section Eval.
Variable L : lang.
Variable env : arr -> list R.

Definition omap2 {A B C} (f : A -> B -> C) (x : option A) (y : option B) : option C :=
  match x, y with Some a, Some b => Some (f a b) | _, _ => None end.

Definition e_atom (a : atom) : option R :=
  match a with
  | ANum q => Some (Q2R (lit L q))
  | ARef v i => match loc L i with Some j => nth_error (env v) j | None => None end
  end.
Definition e_factor (f : factor) : option R :=
  let '(a, e) := f in
  match e_atom a, e with
  | Some x, Some q => qpow x (lit L q)
  | Some x, None => Some x
  | None, _ => None
  end.
Fixpoint e_factors (fs : list factor) : option R :=
  match fs with
  | [] => Some 1%R
  | f :: fs' => omap2 Rmult (e_factor f) (e_factors fs')
  end.
Definition e_term (t : fterm) : option R :=
  let '(neg, fs) := t in
  match e_factors fs with Some x => Some (if neg then - x else x)%R | None => None end.
Fixpoint e_expr (e : expr) : option R :=
  match e with
  | [] => Some 0%R
  | t :: e' => omap2 Rplus (e_term t) (e_expr e')
  end.

Definition value (l : list tok) : option R :=
  match p_expr l with Some e => e_expr e | None => None end.
End Eval.

(* Programs: assignments to cells of the output array, and OpenMP markers,
   which are comments for a sequential reading.  E: right-hand sides. *)
Inductive gitem (C E : Type) :=
| Assign (c : C) (rhs : E)
| OmpParallel | OmpSingle | OmpEndSingle | OmpEndParallel.
Arguments Assign {C E}. Arguments OmpParallel {C E}. Arguments OmpSingle {C E}.
Arguments OmpEndSingle {C E}. Arguments OmpEndParallel {C E}.
Notation item C := (gitem C (list tok)).

Section Run.
Context {C D E : Type} `{EqB D}.
Variable addr : C -> option D.            (* cell as printed -> location; None: out of bounds *)
Variable val : E -> option R.

Definition mem := D -> R.
Definition upd (m : mem) (d : D) (x : R) : mem := fun d' => if eqb d' d then x else m d'.

Definition assign (m : mem) (c : C) (e : E) : option mem :=
  match addr c, val e with
  | Some d, Some x => Some (upd m d x)
  | _, _ => None
  end.

Fixpoint run (p : list (gitem C E)) (m : mem) : option mem :=
  match p with
  | [] => Some m
  | Assign c e :: p' => match assign m c e with Some m' => run p' m' | None => None end
  | _ :: p' => run p' m
  end.
End Run.
