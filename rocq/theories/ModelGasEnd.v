(* The function f2py/Gas_simulation_f2py.py hands to the integrator, from the
   three Fortran files as the compiler reads them. *)
From Coq Require Import List Bool Arith Ascii String ZArith QArith Reals.
From Flocq Require Import Core BinarySingleNaN.
From Verif Require Import Base PyStr PyDict ModelExpr ModelLang ModelRhs ModelParse ModelRo2 ModelOmp ModelGas ModelSource ModelRateRead ModelSolver ModelGasFiles.
Import ListNotations.
Import Coq.Lists.List.
Open Scope nat_scope.
Open Scope list_scope.

(* One evaluation of dydt_func (f2py/ODE_solver.py:59-96): the statements the
   three subroutines execute (with OpenMP their order is open) and what their
   output arrays held before. *)
Record compiled_call := CompiledCall {
  cc_rates : list (gitem nat xexp); cc_reactants : list (item nat); cc_loss_gain : list (item nat); cc_a0 : nat -> R; cc_m0 : nat -> R }.

(* The statements are those of the files [rs], [s1], [s2]
   (f2py/ODE_solver.py:133-137), in one of the orders OpenMP allows. *)
Definition is_compiled_call (rs : frates) (s1 s2 : fsource nat) (o1 o2 o3 : option (list nat)) (c : compiled_call) : Prop :=
  runs_as o3 (fr_rates rs) (cc_rates c) /\ runs_as o1 (f_prog s1) (cc_reactants c) /\ runs_as o2 (f_prog s2) (cc_loss_gain c).

(* f2py/ODE_solver.py:59-96 at the given time of day. *)
Definition compiled_dydt (rnd : Q -> Q) (rs : frates) (n : nat) (RO2_indices : list nat) (H2O temp : R) (c : compiled_call) (clock : R) (y : list R) : option (list R) :=
  gas_dydt_compiled rnd rs (cc_rates c) (cc_reactants c) (cc_loss_gain c) n (cc_a0 c) (cc_m0 c) (RO2_sum RO2_indices y) clock 0 H2O temp y.
Definition compiled_rhs_at (rnd : Q -> Q) (rs : frates) (n : nat) (RO2_indices : list nat) (H2O temp : R) (calls : b64 -> list R -> compiled_call) (clock : b64) (y : list R) : res (list R) :=
  match compiled_dydt rnd rs n RO2_indices H2O temp (calls clock y) (B2R clock) y with Some d => Ok d | None => Err ValueError end.
