(* Rate expressions as they are written in a KPP file and in the generated
   languages. *)
From Coq Require Import List Bool Arith Lia Ascii String ZArith QArith.
From Verif Require Import Base PyStr.
Import ListNotations.
Import Coq.Lists.List.
Open Scope nat_scope.
Open Scope list_scope.

(* ------------------------------------------------------------------ *)
(* Reading a numeric literal: mantissa, exponent letter, exponent. *)
Definition exponent_value (s : str) : option Z :=
  match s with
  | c :: ds =>
      if Ascii.eqb c "-" then match ds with [] => None | _ => option_map Z.opp (dec_digits 0 ds) end
      else if Ascii.eqb c "+" then match ds with [] => None | _ => dec_digits 0 ds end
      else dec_digits 0 s
  | [] => None
  end.
(* Text before the first exponent letter, and after it. *)
Fixpoint split_exponent (letter : ascii -> bool) (s : str) : str * option str :=
  match s with
  | [] => ([], None)
  | c :: s' => if letter c then ([], Some s')
               else let (m, e) := split_exponent letter s' in (c :: m, e)
  end.
(* A literal with a decimal point or an exponent is real, the others are
   integers; only the fraction of an integer has denominator 1. *)
Definition real_literal (q : Q) : Q := if (Qden q =? 1)%positive then Qmake (2 * Qnum q) 2 else q.
Definition has_point (m : str) : bool := existsb (fun c => Ascii.eqb c ".") m.
Definition read_literal (letter : ascii -> bool) (s : str) : option Q :=
  match split_exponent letter s with
  | (m, None) => option_map (fun q => if has_point m then real_literal q else q) (dec_unsigned m)
  | (m, Some e) =>
      match dec_unsigned m, exponent_value e with
      | Some q, Some z => Some (real_literal (q * Qpower (10 # 1) z))
      | _, _ => None
      end
  end.
(* KPP (Fortran) literals may use D or E, Python only e and E; the lower case
   letters are left out. *)
Definition kpp_letter (c : ascii) : bool := Ascii.eqb c "D" || Ascii.eqb c "E".
Definition py_letter (c : ascii) : bool := Ascii.eqb c "E".

(* ------------------------------------------------------------------ *)
(* Expressions.  A literal is mantissa and optional exponent (letter, sign,
   digits). *)
Inductive rexpr :=
| RLit (mant : str) (ex : option (bool * str * str))     (* true: letter D; sign; digits *)
| RVar (x : str)
| RPhot (k : str)                                        (* the photolysis rate J(k) *)
| RExp (e : rexpr)                                       (* EXP(e) *)
| RParen (e : rexpr)
| RBin (op : str) (a b : rexpr)
| RNeg (e : rexpr).

Definition show_ex (d : bool -> str -> str -> str) (ex : option (bool * str * str)) : str :=
  match ex with None => [] | Some (l, sg, ds) => d l sg ds end.

(* Concrete syntax: how the exponential function, exponents and photolysis
   rates are spelled. *)
Record syntax := Syntax { exp_name : str; exponent : bool -> str -> str -> str; phot : str -> str }.
Fixpoint show (S : syntax) (e : rexpr) : str :=
  match e with
  | RLit m ex => m ++ show_ex (exponent S) ex
  | RVar x => x
  | RPhot k => phot S k
  | RExp e => exp_name S ++ "("%char :: show S e ++ [")"%char]
  | RParen e => "("%char :: show S e ++ [")"%char]
  | RBin op a b => show S a ++ op ++ show S b
  | RNeg e => "-"%char :: show S e
  end.

Definition sign_or_plus (sg : str) : str := match sg with [] => ["+"%char] | _ => sg end.
Definition kpp_exponent (d : bool) (sg ds : str) : str := (if d then "D"%char else "E"%char) :: sg ++ ds.
(* D without a sign becomes E+ *)
Definition e_exponent (d : bool) (sg ds : str) : str := "E"%char :: (if d then sign_or_plus sg else sg) ++ ds.

Definition kpp : syntax := Syntax (s_ "EXP") kpp_exponent (fun k => s_ "J(" ++ k ++ s_ ")").
Definition numba : syntax := Syntax (s_ "numba_exp") e_exponent (fun k => s_ "J[" ++ k ++ s_ "]").
Definition fortran_text : syntax := Syntax (s_ "EXP") e_exponent (fun k => s_ "J(" ++ k ++ s_ ")").

(* ------------------------------------------------------------------ *)
(* Expressions as they occur in KPP files. *)
Definition is_ident_char (c : ascii) : bool :=
  let n := nat_of_ascii c in
  ((48 <=? n) && (n <=? 57)) || ((65 <=? n) && (n <=? 90)) || ((97 <=? n) && (n <=? 122)) || (n =? 95).
Definition contains (w t : str) : Prop := exists a b, t = a ++ w ++ b.
(* Names that the conversion leaves alone. *)
Definition safe_name (x : str) : Prop :=
  x <> [] /\ Forall (fun c => is_ident_char c = true) x /\
  ~ contains (s_ "EXP") x /\ ~ contains (s_ "dlog") x /\
  (forall c, In c ["1"; "2"; "3"; "4"; "5"; "6"; "7"; "8"; "9"]%char -> ~ contains ["D"%char; c] x) /\
  (forall y, x <> y ++ ["D"%char]).
Definition digits (s : str) : Prop := s <> [] /\ Forall (fun c => is_digit c = true) s.
Definition mantissa (s : str) : Prop := s <> [] /\ Forall (fun c => is_digit c = true \/ c = "."%char) s.
Definition good_exponent (ex : option (bool * str * str)) : Prop :=
  match ex with
  | None => True
  | Some (d, sg, ds) => In sg [[]; ["-"%char]; ["+"%char]] /\ digits ds /\
                        (d = true -> sg = [] -> hd_error ds <> Some "0"%char)
  end.
Fixpoint good (e : rexpr) : Prop :=
  match e with
  | RLit m ex => mantissa m /\ good_exponent ex
  | RVar x => safe_name x
  | RPhot k => digits k
  | RExp e | RParen e | RNeg e => good e
  | RBin op a b => In op [s_ "+"; s_ "-"; s_ "*"; s_ "/"; s_ "**"] /\ good a /\ good b
  end.

(* ------------------------------------------------------------------ *)
(* t is s with every J(..) written J[..]; the argument of J contains no
   bracket and every other character stays. *)
Inductive jtext : str -> str -> Prop :=
| jt_nil : jtext [] []
| jt_phot k s t : ~ In "("%char k -> ~ In ")"%char k -> jtext s t ->
    jtext (s_ "J(" ++ k ++ s_ ")" ++ s) (s_ "J[" ++ k ++ s_ "]" ++ t)
| jt_char c s t : ~ (c = "J"%char /\ hd_error s = Some "("%char) -> jtext s t -> jtext (c :: s) (c :: t).
