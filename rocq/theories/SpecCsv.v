(* Reading a CSV file, as csv.reader of Python does with its default (excel)
   dialect on a file opened with newline=''. *)
From Coq Require Import List Bool Ascii String.
From Verif Require Import Base PyStr.
Import ListNotations.
Import Coq.Lists.List.
Open Scope list_scope.

Definition comma : ascii := ","%char.
Definition quote : ascii := """"%char.
Definition cr : ascii := ascii_of_nat 13.
Definition lf : ascii := ascii_of_nat 10.

(* At the start of a record, after a carriage return that ended one, at the
   start of a field, in a plain field, in a quoted one, after a quote in it. *)
Inductive csv_state := SRec | SCr | SField | SPlain | SQuoted | SQuoteEnd.

(* The records of the text t, with the field f and the fields fs of the current
   record read so far. *)
Fixpoint csv_go (st : csv_state) (f : str) (fs : list str) (t : str) : list (list str) :=
  match t with
  | [] => match st with SRec | SCr => [] | _ => [fs ++ [f]] end
  | c :: t =>
      let next_field f := csv_go SField [] (fs ++ [f]) t in
      let end_record r := r :: csv_go (if Ascii.eqb c cr then SCr else SRec) [] [] t in
      let eol := Ascii.eqb c lf || Ascii.eqb c cr in
      let field_start :=
        if eol then end_record (fs ++ [[]])
        else if Ascii.eqb c comma then next_field []
        else if Ascii.eqb c quote then csv_go SQuoted [] fs t
        else csv_go SPlain [c] fs t in
      match st with
      | SRec => if eol then end_record [] else field_start
      | SCr => if Ascii.eqb c lf then csv_go SRec [] [] t else if eol then end_record [] else field_start
      | SField => field_start
      | SPlain => if eol then end_record (fs ++ [f]) else if Ascii.eqb c comma then next_field f else csv_go SPlain (f ++ [c]) fs t
      | SQuoted => if Ascii.eqb c quote then csv_go SQuoteEnd f fs t else csv_go SQuoted (f ++ [c]) fs t
      | SQuoteEnd => if Ascii.eqb c quote then csv_go SQuoted (f ++ [quote]) fs t
                     else if eol then end_record (fs ++ [f]) else if Ascii.eqb c comma then next_field f else csv_go SPlain (f ++ [c]) fs t
      end
  end.
Definition csv_read (t : str) : list (list str) := csv_go SRec [] [] t.

Example csv_read_example :
  csv_read (s_ "a,""b,""""c"""",""" ++ [cr; lf] ++ s_ ",d" ++ [lf; lf] ++ s_ "e") =
  [[s_ "a"; s_ "b,""c"","]; [[]; s_ "d"]; []; [s_ "e"]].
Proof. reflexivity. Qed.
