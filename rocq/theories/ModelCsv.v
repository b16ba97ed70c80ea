(* Model of the file of names saved with the results, ODE_solver.py:286-288 and
   f2py/ODE_solver.py:229-231:
     w = csv.writer(open(filename+"_output_names.csv", "w"))
     for specie, number in species_dict2array.items():
         w.writerow([specie, number])
   on a system where "w" does not translate newlines (not Windows). *)
From Coq Require Import List Bool Ascii String.
From Verif Require Import Base PyStr PyDict ParseShow SpecCsv.
Import ListNotations.
Import Coq.Lists.List.
Open Scope list_scope.

(* csv.writer, excel dialect: a field with a delimiter, a quote or a character
   of the line terminator is quoted, quotes in it are doubled. *)
Definition csv_special (c : ascii) : bool := Ascii.eqb c comma || Ascii.eqb c quote || Ascii.eqb c cr || Ascii.eqb c lf.
Definition csv_quoted (s : str) : str := quote :: flat_map (fun c => if Ascii.eqb c quote then [quote; quote] else [c]) s ++ [quote].
Definition csv_field (s : str) : str := if existsb csv_special s then csv_quoted s else s.
Fixpoint csv_join (fs : list str) : str :=
  match fs with
  | [] => []
  | [f] => csv_field f
  | f :: fs' => csv_field f ++ comma :: csv_join fs'
  end.
(* writerow; a record of one empty field is written as two quotes. *)
Definition csv_row (fs : list str) : str :=
  match fs with [[]] => [quote; quote] | _ => csv_join fs end ++ [cr; lf].

Definition names_csv (sp2a : dict str nat) : str := flat_map (fun p => csv_row [fst p; dec (snd p)]) sp2a.
