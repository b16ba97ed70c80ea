(* Model of run_simulation in the aerosol driver, Aerosol/f2py/ODE_solver.py:
   the right-hand side with the generated Fortran modules, what it leaves in
   its attributes, and the loop over the batches. *)
From Coq Require Import List Bool Arith ZArith QArith Reals.
From Flocq Require Import Core BinarySingleNaN.
From Verif Require Import Base PyStr PyDict ModelParse ModelLang ModelGen ModelRhs ModelExpr ModelRo2 ModelRate ModelRateFile ModelGas
  ModelSolver ModelPart ModelAero ModelYield.
Import ListNotations.
Open Scope nat_scope.
Open Scope list_scope.

(* One call of dydt_func: the statements the three generated subroutines
   execute (OpenMP leaves their order open), what the output arrays
   rate_values and reactants held before, and the order in which the size bins
   are done. *)
Record call := Call {
  c_rates : list (gitem nat str); c_reactants : list (item nat); c_loss_gain : list (item nat);
  c_a0 : nat -> R; c_m0 : nat -> R; c_bins : list nat }.

(* A call that executes the modules generated for the parsed mechanism [st] of
   [n] equations, with the OpenMP options o1, o2, o3
   (Aerosol_simulation_f2py.py:158-189, Parse_eqn_file.py). *)
Definition is_call (st : pstate) (n nb : nat) (o1 o2 o3 : option (list nat)) (c : call) : Prop :=
  (exists p1, gen_reactants_fortran o1 n (p_sp2a st) (p_reac st) (p_loss st) = Ok p1 /\ runs_as o1 p1 (c_reactants c)) /\
  runs_as o2 (gen_loss_gain_fortran o2 (p_sp2a st) (p_loss st) (p_gain st)) (c_loss_gain c) /\
  runs_as o3 (gen_rates_fortran o3 (convert_dict convert_fortran (p_rate st))) (c_rates c) /\
  Permutation.Permutation (c_bins c) (seq 0 nb).

Section Run.
Context (st : pstate) (n : nat) (rnd : Q -> Q) (H2O temp : R).
Context (d : prepared) (q : pc2) (nb : nat) (y_core nper : list R) (core_density core_mw diss : R).

(* ODE_solver.py:76-96: the gas phase at the given time of day.  RO2 is summed
   over the whole state. *)
Definition aerosol_gas (c : call) (clock : R) (y : list R) : list R -> option (list R) :=
  gas_dydt_fortran rnd (c_rates c) (c_reactants c) (c_loss_gain c) n (c_a0 c) (c_m0 c)
    (RO2_sum (write_RO2_indices (p_sp2a st)) y) clock 0 H2O temp.

(* ODE_solver.py:57-156, the derivative. *)
Definition aerosol_dydt (c : call) (clock : R) (y : list R) : option (list R) :=
  aerosol_rhs (aerosol_gas c clock y) d q nb y_core nper core_density core_mw diss temp (c_bins c) y.

(* ODE_solver.py:126-129, 147-148: the attributes total_SOA_mass and size_array
   after the call (those for RH, temp and water_activity are not read). *)
Definition aerosol_attributes (c : call) (clock : R) (y : list R) : option (R * list R) :=
  obind (aerosol_dydt c clock y) (fun _ =>
  obind (partition_inputs d q y_core nper core_density core_mw diss temp y) (fun inp =>
  obind (dydt_partition (d_ns d) (d_nc d) nb (d_include d) inp (c_bins c)) (fun r =>
  let '(soa, _, size, _) := r in Some (soa, size)))).

(* The function handed to the solver: the time of day is start_time+t (71);
   [calls t y] is the call of dydt_func at t and y. *)
Definition aerosol_dydt_func (calls : b64 -> list R -> call) (start_time t : b64) (y : list R) : res (list R) :=
  match aerosol_dydt (calls t y) (B2R (fadd start_time t)) y with Some dy => Ok dy | None => Err ValueError end.
Definition aerosol_observe (calls : b64 -> list R -> call) (start_time t : b64) (y : list R) : res (R * list R) :=
  match aerosol_attributes (calls t y) (B2R (fadd start_time t)) y with Some o => Ok o | None => Err ValueError end.

(* ODE_solver.py:207-301.  t runs from 0 in every batch (210, 256-262).  The
   Jacobian is not used (278). *)
Definition aerosol_simulation (simulate : recording_solver (list R)) (jac : b64 -> list R -> res (nat * nat -> R))
    (calls : b64 -> list R -> call) (start_time : b64) (sp2a : dict str nat) (conc : dict str R) (y_cond : list R)
    (simulation_time batch_step : b64) : res (list b64 * list (list R) * list (R * list R)) :=
  do y0 <- aerosol_initial (d_ns d) (d_nc d) nb sp2a conc y_cond;
  record_run simulate (aerosol_dydt_func calls start_time) jac (aerosol_observe calls start_time)
    simulation_time batch_step (repeat 0%R (List.length y0)) (0%R, repeat 0%R nb) y0.
End Run.
