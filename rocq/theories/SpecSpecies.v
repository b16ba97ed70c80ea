(* What a user expects of the yield file and of the SMILES file. *)
From Coq Require Import String List Bool Arith Ascii.
From Verif Require Import Base PyStr SpecMech.
Import ListNotations.
Import Coq.Lists.List.
Open Scope nat_scope.
Open Scope list_scope.

(* A yield file: one row per line, a SMILES and a number between blanks, then
   anything; lines end in \n, \r\n or \r, the last one may lack its end. *)
Definition line_blank (c : ascii) : Prop := is_space c = true /\ c <> NL /\ c <> CR.
Definition word (w : str) : Prop := w <> [] /\ Forall (fun c => is_space c = false) w.
Definition row_line (r : str * str) (l : str) : Prop :=
  exists b1 b2 t, l = b1 ++ fst r ++ b2 ++ snd r ++ t /\
    Forall line_blank b1 /\ Forall line_blank b2 /\ b2 <> [] /\ word (fst r) /\ word (snd r) /\
    (t = [] \/ exists c t', t = c :: t' /\ is_space c = true) /\ ~ In NL t /\ ~ In CR t.
Definition line_end (e : str) : Prop := e = [NL] \/ e = [CR; NL] \/ e = [CR].
Inductive yield_file : list (str * str) -> str -> Prop :=
| yf_end : yield_file [] []
| yf_last r l : row_line r l -> yield_file [r] l
| yf_row r l e rs rest : row_line r l -> line_end e -> yield_file rs rest -> yield_file (r :: rs) (l ++ e ++ rest).

(* The number on the first row of a SMILES. *)
Definition first_number (rows : list (str * str)) (s : str) : option str :=
  match find (fun r => str_eqb (fst r) s) rows with Some r => Some (snd r) | None => None end.

(* The SMILES file: records (name, SMILES if it has one).  The SMILES of a name
   is that of its last record. *)
Definition last_record (recs : list (str * option str)) (s : str) : option (option str) :=
  match find (fun r => str_eqb (fst r) s) (rev recs) with Some r => Some (snd r) | None => None end.

(* SMILES text without the characters XML escapes and without a line break. *)
Definition plain_smiles (t : str) : Prop :=
  t <> [] /\ Forall (fun c => c <> "&"%char /\ c <> "<"%char /\ c <> ">"%char /\ c <> "034"%char /\ c <> NL) t.

(* The records looked at: those of the mechanism's species, except the four
   names that have no SMILES. *)
Definition looked_at (species : list str) (s : str) : Prop := In s species /\ ~ In s [s_ "OH"; s_ "HO2"; s_ "O3"; s_ "hv"].

(* The SMILES the file gives for a name: that of its last record, if it has
   any. *)
Definition own_smiles (recs : list (str * option str)) (s : str) : option str :=
  match last_record recs s with Some (Some t) => Some t | _ => None end.
