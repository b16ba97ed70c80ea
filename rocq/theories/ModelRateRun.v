(* A call of evaluate_rates up to the statements of the reactions. *)
From Coq Require Import List Bool Arith Ascii String ZArith QArith Reals.
From Verif Require Import Base PyStr SpecRate ModelExpr ModelRateBody.
Import ListNotations.
Import Coq.Lists.List.

Fixpoint bindings (l : list (string * R)) (x : str) : option R :=
  match l with [] => None | (k, v) :: l' => if eqb x (s_ k) then Some v else bindings l' x end.

(* Parse_eqn_file.py:889 evaluate_rates(ttime,RO2,H2O,temp,rate_values,J); the
   callers pass numpy.zeros(63) for J (ODE_solver.py:99,166, test_modules.py:285). *)
Definition numba_start (ttime RO2 H2O temp : R) : renv :=
  REnv (bindings [("ttime"%string, ttime); ("RO2"%string, RO2); ("H2O"%string, H2O); ("temp"%string, temp)])
       (fun k => if (k <? 63)%nat then Some 0%R else None).
Definition numba_run (ttime RO2 H2O temp : R) : option renv :=
  obind (numba_program numba_body) (fun p => run_stmts numba_lang p (numba_start ttime RO2 H2O temp)).

(* Parse_eqn_file.py:1308 evaluate_rates(RO2,H2O,TEMP,ttime,rate_values); J is a
   local array without initial values. *)
Definition fortran_start (ttime RO2 H2O TEMP : R) : renv :=
  REnv (bindings [("ttime"%string, ttime); ("ro2"%string, RO2); ("h2o"%string, H2O); ("temp"%string, TEMP)])
       (fun _ => None).
Definition fortran_run (ttime RO2 H2O TEMP : R) : option renv :=
  obind (fortran_program fortran_body) (fun p => run_stmts fortran_lang p (fortran_start ttime RO2 H2O TEMP)).
