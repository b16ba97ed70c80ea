(* The right-hand side of the gas-phase models from the generated files as the
   interpreter or the compiler reads them. *)
From Coq Require Import List Bool Arith Ascii String ZArith QArith Reals.
From Flocq Require Import Core BinarySingleNaN.
From Verif Require Import Base PyStr PyDict ModelExpr ModelLang ModelRhs ModelParse ModelRo2 ModelSource ModelRateRead ModelSolver.
Import ListNotations.
Import Coq.Lists.List.
Open Scope nat_scope.
Open Scope list_scope.

(* dydt_func of ODE_solver.py:79-113: [rs], [s1], [s2] are the modules
   Rate_coefficients_numba, Reactants_conc_numba and Loss_Gain_numba as
   imported (180-182), [RO2] the sum over the state (91). *)
Definition gas_dydt_files (rs : pyrates) (s1 s2 : source nat) (n : nat) (RO2 : res R) (start_time t H2O temp : R) (y : list R) : option (list R) :=
  match RO2 with
  | Ok RO2 =>
      obind (call_rates_python rs [(start_time + t)%R; RO2; H2O; temp] n zeros) (fun rates =>
      rhs_numba (src_prog s1) (src_prog s2) n (List.length y) rates y)
  | Err _ => None
  end.
(* The function Gas_simulation hands to the integrator, from the three modules
   as imported (ODE_solver.py:79-113, 180-182), at the clock time start_time+t. *)
Definition files_rhs_at (rs : pyrates) (s1 s2 : source nat) (n : nat) (RO2_indices : list nat) (H2O temp : R) (clock : b64) (y : list R) : res (list R) :=
  match gas_dydt_files rs s1 s2 n (RO2_sum RO2_indices y) (B2R clock) 0 H2O temp y with Some d => Ok d | None => Err ValueError end.
(* f2py/ODE_solver.py:56-91: the same with the compiled subroutines; [tr],
   [tr1], [tr2] are the statements one call executes. *)
Definition gas_dydt_compiled (rnd : Q -> Q) (rs : frates) (tr : list (gitem nat xexp)) (tr1 tr2 : list (item nat)) (n : nat) (a0 m0 : nat -> R)
    (RO2 : res R) (start_time t H2O temp : R) (y : list R) : option (list R) :=
  match RO2 with
  | Ok RO2 =>
      obind (call_rates_fortran rs tr [RO2; H2O; temp; (start_time + t)%R] a0) (fun rates =>
      rhs_fortran rnd tr1 tr2 n (List.length y) m0 rates y)
  | Err _ => None
  end.
