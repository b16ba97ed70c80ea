(* What reading back a generated source file should give. *)
From Coq Require Import List Bool Arith Ascii String ZArith QArith.
From Verif Require Import Base PyStr SpecRate ModelLang.
Import ListNotations.
Import Coq.Lists.List.
Open Scope nat_scope.
Open Scope list_scope.

(* The text Python prints for a non-negative float of value q: digits and a
   point, possibly with an exponent, as in 0.65, 2.0, 1e-05. *)
Definition decimal (m : str) : Prop := m <> [] /\ Forall (fun c => is_digit c = true \/ c = "."%char) m.
Definition float_text (l : str) (q : Q) : Prop :=
  exists m ex, l = m ++ ex /\ decimal m /\
    (ex = [] \/ exists sg ds, ex = "e"%char :: sg ++ ds /\ In sg [[]; ["-"%char]; ["+"%char]] /\ digits ds) /\
    exists q', read_literal (Ascii.eqb "e") l = Some q' /\ q' == q.

(* Numerals of a program. *)
Definition toks_numerals (l : list tok) : list Q := flat_map (fun t => match t with TNum q => [q] | _ => [] end) l.
Definition numerals {C} (p : list (item C)) : list Q := flat_map (fun i => match i with Assign _ l => toks_numerals l | _ => [] end) p.
(* num prints every number of the program so that it can be read back. *)
Definition prints (num : Q -> str) {C} (p : list (item C)) : Prop := forall q, In q (numerals p) -> float_text (num q) q.

(* The program with each numeral in lowest terms and without line breaks. *)
Definition plain_toks (l : list tok) : list tok :=
  flat_map (fun t => match t with TNum q => [TNum (Qred q)] | TCont => [] | _ => [t] end) l.
Definition plain {C} (p : list (item C)) : list (item C) :=
  map (fun i => match i with Assign c l => Assign c (plain_toks l) | o => o end) p.

(* One line of text. *)
Definition one_line (s : str) : Prop := ~ In NL s.
