(* The fixed-yield driver with the text of Partitioning.f90. *)
From Coq Require Import String List Bool Arith Reals.
From Flocq Require Import Core BinarySingleNaN.
From Verif Require Import Base PyStr PyDict SpecKin ModelExpr ModelPart ModelAero ModelPartText ModelFort PartCall ModelSolver ModelYield ModelAeroFiles.
Import ListNotations.
Import Coq.Lists.List.
Open Scope nat_scope.
Open Scope list_scope.

(* Aerosol/f2py/Fixed_yield/ODE_solver_fixedyield.py:60-135 (dydt_func): [p] is
   the compiled routine of the Partitioning.f90 that
   Aerosol_sim_fixed_yield.py:376 writes (partition_file of ModelAeroFiles).  One
   thread does the size bins in the order [bins]; [g] and [g'] are what its memory
   and its private variables held before.  The arguments (110-113) are those of
   the aerosol driver.  dy_dt is a column of zeros of the length of y0 (71);
   adding an array of another length (118) raises an exception. *)
Definition yield_call_file (p : fsub) (g g' : garbage) (d : prepared) (q : pc2) (nb : nat)
    (y_core nper : list R) (core_density core_mw diss temp : R) (bins : list nat) (y : list R) : option (list R * attributes) :=
  obind (partition_inputs d q y_core nper core_density core_mw diss temp y) (fun inp =>
  let Pressure_gas := map (fun c => c / avogadro * 8314000 * temp)%R (firstn (d_ns d) y) in
  obind (call_fsub p bins g g' (actuals inp (not_used d))) (fun results =>
  match results with
  | [VS soa; VV aw; VV size; VV dy_calc] =>
      if negb (List.length dy_calc =? d_ns d + d_nc d * nb) then None else
      obind (rdiv (last Pressure_gas 0%R) (last (i_psat inp) 0 * 101325)%R) (fun RH =>
      Some (map (fun v => 0 + v)%R dy_calc, Attributes soa size temp RH aw))
  | _ => None
  end)).

(* What one call of dydt_func leaves to the compiler and the threads. *)
Record ycall := YCall { yc_before : garbage; yc_private : garbage; yc_bins : list nat }.

Section Run.
Context (p : fsub) (d : prepared) (q : pc2) (nb : nat) (y_core nper : list R) (core_density core_mw diss temp : R).
Definition yfile_call (c : ycall) (y : list R) : option (list R * attributes) :=
  yield_call_file p (yc_before c) (yc_private c) d q nb y_core nper core_density core_mw diss temp (yc_bins c) y.

(* The function handed to the solver, and the attributes the loop reads after a
   batch (ODE_solver_fixedyield.py:128-129, 256-257).  The time is not used. *)
Definition yfile_func (calls : b64 -> list R -> ycall) (t : b64) (y : list R) : res (list R) :=
  match yfile_call (calls t y) y with Some r => Ok (fst r) | None => Err ValueError end.
Definition yfile_observe (calls : b64 -> list R -> ycall) (t : b64) (y : list R) : res (R * list R) :=
  match yfile_call (calls t y) y with Some r => Ok (a_soa (snd r), a_size (snd r)) | None => Err ValueError end.

(* ODE_solver_fixedyield.py:185-265 from the state of the set-up. *)
Definition yield_simulation_file (simulate : recording_solver (list R)) (jac : b64 -> list R -> res (nat * nat -> R))
    (calls : b64 -> list R -> ycall) (y0 : list R) (simulation_time batch_step : b64) : res (list b64 * list (list R) * list (R * list R)) :=
  record_run simulate (yfile_func calls) jac (yfile_observe calls)
    simulation_time batch_step (repeat 0%R (List.length y0)) (0%R, repeat 0%R nb) y0.
End Run.
