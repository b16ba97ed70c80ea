(* The statements with which the generated rate files set rate_values. *)
From Coq Require Import List Arith.
From Verif Require Import Base PyStr PyDict ModelLang ModelGen.
Import ListNotations.
Open Scope list_scope.

(* for key in rate_dict.keys(): f.write('rate_values[%s] =%s')
   (Parse_eqn_file.py:801-802 and 1272-1273). *)
Definition gen_rates_python (rate_dict : dict nat str) : list (gitem nat str) :=
  map (fun p => Assign (fst p) (snd p)) rate_dict.
(* write_rate_file_fortran, 1752-1766. *)
Definition gen_rates_fortran (omp : option (list nat)) (rate_dict : dict nat str) : list (gitem nat str) :=
  omp_frame omp (map (fun p => [Assign (fst p + 1) (snd p)]) rate_dict).
