(* The value a KPP rate expression denotes, over the reals. *)
From Coq Require Import List Bool Arith Ascii String ZArith QArith Reals Qreals.
From Verif Require Import Base PyStr SpecRate.
Import ListNotations.
Import Coq.Lists.List.
Open Scope nat_scope.
Open Scope list_scope.

(* The tree follows the usual precedence: level 0 sums, 1 products, 2 signed
   factors and powers, 3 the rest; + - * / associate to the left, ** to the
   right.  Grouping that differs must be written with brackets. *)
Fixpoint at_level (l : nat) (e : rexpr) : Prop :=
  match e with
  | RLit _ _ | RVar _ | RPhot _ => True
  | RExp e | RParen e => at_level 0 e
  | RNeg e => l <= 2 /\ at_level 2 e
  | RBin op a b =>
      (In op [s_ "+"; s_ "-"] /\ l = 0 /\ at_level 0 a /\ at_level 1 b) \/
      (In op [s_ "*"; s_ "/"] /\ l <= 1 /\ at_level 1 a /\ at_level 2 b) \/
      (op = s_ "**" /\ l <= 2 /\ at_level 3 a /\ at_level 2 b)
  end.
Definition well_formed (e : rexpr) : Prop := at_level 0 e.

(* Names start with a letter. *)
Fixpoint proper_names (e : rexpr) : Prop :=
  match e with
  | RLit _ _ | RPhot _ => True
  | RVar x => match x with c :: _ => is_digit c = false | [] => False end
  | RExp e | RParen e | RNeg e => proper_names e
  | RBin _ a b => proper_names a /\ proper_names b
  end.

(* Built from integer literals only. *)
Fixpoint integer (e : rexpr) : bool :=
  match e with
  | RLit m ex => match ex with None => negb (has_point m) | Some _ => false end
  | RVar _ | RPhot _ | RExp _ => false
  | RParen e | RNeg e => integer e
  | RBin _ a b => integer a && integer b
  end.

(* A quotient or power of two integers, or EXP of one, is given no value here:
   Fortran computes it in integers, Python does not.

   means var J e v: with the variables var and the photolysis rates J, the
   expression e has the value v. *)
Inductive means (var : str -> option R) (J : nat -> option R) : rexpr -> R -> Prop :=
| m_lit m ex q : read_literal kpp_letter (show kpp (RLit m ex)) = Some q -> means var J (RLit m ex) (Q2R q)
| m_var x v : var x = Some v -> means var J (RVar x) v
| m_phot k z v : dec_digits 0 k = Some z -> J (Z.to_nat z) = Some v -> means var J (RPhot k) v
| m_exp e v : means var J e v -> integer e = false -> means var J (RExp e) (exp v)
| m_paren e v : means var J e v -> means var J (RParen e) v
| m_neg e v : means var J e v -> means var J (RNeg e) (- v)
| m_add a b x y : means var J a x -> means var J b y -> means var J (RBin (s_ "+") a b) (x + y)
| m_sub a b x y : means var J a x -> means var J b y -> means var J (RBin (s_ "-") a b) (x - y)
| m_mul a b x y : means var J a x -> means var J b y -> means var J (RBin (s_ "*") a b) (x * y)
| m_div a b x y : means var J a x -> means var J b y -> y <> 0%R -> integer a && integer b = false -> means var J (RBin (s_ "/") a b) (x / y)
| m_pow a b x y : means var J a x -> means var J b y -> (0 < x)%R -> integer a && integer b = false ->
    means var J (RBin (s_ "**") a b) (Rpower x y)
| m_pow_int a b x n : means var J a x -> means var J b (IZR n) -> x <> 0%R -> integer a && integer b = false ->
    means var J (RBin (s_ "**") a b) (powerRZ x n)
| m_pow_zero a b y : means var J a 0 -> means var J b y -> (0 < y)%R -> integer a && integer b = false ->
    means var J (RBin (s_ "**") a b) 0.
