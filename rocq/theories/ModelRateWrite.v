(* The text of the two rate files: write_rate_file_numba and
   write_rate_file_fortran, character by character. *)
From Coq Require Import List Bool Arith Ascii String ZArith QArith.
From Verif Require Import Base PyStr PyDict ModelLang ModelGen ParseShow ModelWrite ModelRateText.
Import ListNotations.
Import Coq.Lists.List.
Open Scope nat_scope.
Open Scope list_scope.

Definition text_lines (l : list string) : list str := map s_ l.
(* '    rate_values[%s] =%s \n'  (Parse_eqn_file.py:1273). *)
Definition numba_rate_line (p : nat * str) : str := s_ "    rate_values[" ++ dec (fst p) ++ s_ "] =" ++ snd p ++ s_ " ".
(* Parse_eqn_file.py:810-1276, Rate_coefficients_numba.py. *)
Definition write_rates_numba (date : str) (rate_dict : dict nat str) : str :=
  unlines (text_lines numba_top ++ [s_ "# File created at " ++ date ++ s_ " "] ++ text_lines numba_module ++ text_lines numba_fixed) ++
  unlines (map numba_rate_line rate_dict) ++ unlines (text_lines numba_end).

(* '    rate_values(%s) =%s \n' %(key+1,..)  (1763). *)
Definition fortran_rate_line (p : nat * str) : str := s_ "    rate_values(" ++ dec (fst p + 1) ++ s_ ") =" ++ snd p ++ s_ " ".
(* The directives (1755-1761, 1765-1767), which have a blank after NOWAIT that
   the other files do not have. *)
Fixpoint rate_chunks (i : nat) (breaks : list nat) (d : dict nat str) : list str :=
  match d with
  | [] => []
  | p :: d' =>
      (if i =? 0 then [s_ "!$OMP PARALLEL &"; s_ "!$OMP& SHARED(rate_values, J)  "; s_ "!$OMP SINGLE "] else []) ++
      (if inb i breaks then [s_ "!$OMP END SINGLE NOWAIT "; s_ "!$OMP SINGLE "] else []) ++ fortran_rate_line p :: rate_chunks (S i) breaks d'
  end.
Definition fortran_rate_lines (omp : option (list nat)) (d : dict nat str) : list str :=
  match omp with
  | None => map fortran_rate_line d
  | Some breaks => rate_chunks 0 breaks d ++ [s_ "!$OMP END SINGLE NOWAIT "; s_ "!$OMP END PARALLEL "]
  end.
(* Parse_eqn_file.py:1278-1770, Rate_coefficients.f90. *)
Definition write_rates_fortran (omp : option (list nat)) (rate_dict : dict nat str) : str :=
  unlines (text_lines fortran_top ++ [s_ "    REAL(8), intent(out), dimension(" ++ dec (List.length rate_dict) ++ s_ ") :: rate_values "] ++
           text_lines fortran_fixed) ++
  unlines (fortran_rate_lines omp rate_dict) ++ unlines (text_lines fortran_end).
