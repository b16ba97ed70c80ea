(* Model of dydt_func in the gas-phase and aerosol drivers: the total peroxy
   radical concentration, the rates, the reactant products and the sums, one
   after the other. *)
From Coq Require Import List Bool Arith ZArith QArith Reals.
From Verif Require Import Base PyStr PyDict ModelParse ModelLang ModelGen ModelRhs ModelOmp ModelExpr ModelRate ModelRateFile
  ModelRateBody ModelRateRun RateSym ModelRo2.
Import ListNotations.
Open Scope nat_scope.
Open Scope list_scope.

(* ODE_solver.py:70-108 (dydt_func) with the modules generated for the parsed
   mechanism [st] of [n] equations (Gas_simulation.py:120-160).  Simplification:
   start_time+t is taken in the reals. *)
Definition gas_dydt_numba (st : pstate) (n : nat) (start_time t H2O temp : R) (y : list R) : option (list R) :=
  match RO2_sum (write_RO2_indices (p_sp2a st)) y, gen_reactants_numba n (p_sp2a st) (p_reac st) (p_loss st) with
  | Ok RO2, Ok p1 =>
      obind (numba_run (start_time + t) RO2 H2O temp) (fun en =>
      obind (returned n (run (cell 0 n) (text_value numba_lang en)
                             (gen_rates_python (convert_dict convert_numba (p_rate st))) zeros)) (fun rates =>
      rhs_numba p1 (snd (gen_loss_gain_numba (p_sp2a st) (p_loss st) (p_gain st))) n (List.length y) rates y))
  | _, _ => None
  end.

(* What a generated subroutine with body [p] does: its statements in order, or,
   when it was written with OpenMP directives, the statements of one parallel
   execution. *)
Definition runs_as {C E} (omp : option (list nat)) (p tr : list (gitem C E)) : Prop :=
  match omp with
  | None => tr = p
  | Some _ => exists bs t, omp_program p = Some bs /\ execution bs t /\ tr = as_items t
  end.

(* f2py/ODE_solver.py:56-91 and Aerosol/f2py/ODE_solver.py:76-96: [y] is the
   gas-phase part of the state, [RO2] the sum over the state, [pr], [p1], [p2]
   the statements executed by the three subroutines, [a0] and [m0] what the
   arrays rate_values and reactants held before. *)
Definition gas_dydt_fortran (rnd : Q -> Q) (pr : list (gitem nat str)) (p1 p2 : list (item nat)) (n : nat)
    (a0 m0 : nat -> R) (RO2 : res R) (start_time t H2O temp : R) (y : list R) : option (list R) :=
  match RO2 with
  | Ok RO2 =>
      obind (fortran_run (start_time + t) RO2 H2O temp) (fun en =>
      obind (returned n (run (cell 1 n) (text_value fortran_lang en) pr a0)) (fun rates =>
      rhs_fortran rnd p1 p2 n (List.length y) m0 rates y))
  | Err _ => None
  end.
