(* The right-hand side of the aerosol driver from the four generated Fortran
   files as the compiler reads them, and the attributes it leaves behind. *)
From Coq Require Import List Bool Arith Ascii String ZArith QArith Reals.
From Flocq Require Import Core BinarySingleNaN.
From Verif Require Import Base PyStr PyDict SpecKin ModelExpr ModelLang ModelRhs ModelParse ModelRo2 ModelSource ModelRateRead ModelGasFiles
  ModelPart ModelAero ModelPartText ModelFort PartCall ModelSolver ModelYield ModelAeroRun.
Import ListNotations.
Import Coq.Lists.List.
Open Scope nat_scope.
Open Scope list_scope.

(* The arguments of dydt_partition that the routine does not use:
   ignore_index_fortran (Property_calculation.py:81, 133, 144,
   Aerosol_simulation_f2py.py:319; f2py truncates the flags to integers),
   Latent_heat_gas (Property_calculation.py:147, Aerosol_simulation_f2py.py:300,
   308) and the constants of Aerosol_simulation_f2py.py:88-107. *)
Definition not_used (d : prepared) : unused :=
  Unused (map Int_part (d_flag d)) (repeat 0%R (List.length (d_include d) - 1) ++ [2500%R])
    9.8 0 (1380648 / 10 ^ 29) 461 1005 287 2500.

(* Aerosol_simulation_f2py.py:423: the file written for the set-up. *)
Definition partition_file (date : str) (d : prepared) (nb : nat) : str :=
  partition_text date (d_ns d + d_nc d * nb) nb (d_ns d) (d_nc d) (d_include d).

(* ODE_solver.py:147-151: the attributes of dydt_func after a call. *)
Record attributes := Attributes { a_soa : R; a_size : list R; a_temp : R; a_RH : R; a_water_activity : list R }.

(* Aerosol/f2py/ODE_solver.py:57-156 (dydt_func): [gas] is the gas-phase
   right-hand side of y[0:num_species-1] (85-96), [p] the compiled routine of
   Partitioning.f90, of which one thread does the size bins in the order [bins];
   [g] and [g'] are what its memory and its private variables held before.
   Adding an array of another length to dy_dt raises an exception (141). *)
Definition aerosol_call (gas : list R -> option (list R)) (p : fsub) (g g' : garbage) (d : prepared) (q : pc2) (nb : nat)
    (y_core nper : list R) (core_density core_mw diss temp : R) (bins : list nat) (y : list R) : option (list R * attributes) :=
  obind (gas (firstn (d_ns d - 1) y)) (fun dydt_gas =>
  if negb (List.length dydt_gas =? d_ns d - 1) then None else
  obind (partition_inputs d q y_core nper core_density core_mw diss temp y) (fun inp =>
  let Pressure_gas := map (fun c => c / avogadro * 8314000 * temp)%R (firstn (d_ns d) y) in
  obind (call_fsub p bins g g' (actuals inp (not_used d))) (fun results =>
  match results with
  | [VS soa; VV aw; VV size; VV dy_calc] =>
      let dy := dydt_gas ++ repeat 0%R (1 + d_nc d * nb) in
      if negb (List.length dy_calc =? List.length dy) then None else
      obind (rdiv (last Pressure_gas 0%R) (last (i_psat inp) 0 * 101325)%R) (fun RH =>
      Some (map (fun p => fst p + snd p)%R (combine dy dy_calc), Attributes soa size temp RH aw))
  | _ => None
  end))).

(* The same with the compiled gas-phase files; RO2 is summed over the whole
   state (80), the time of day is start_time+t (71). *)
Definition aerosol_call_files (rnd : Q -> Q) (rs : frates) (tr : list (gitem nat xexp)) (tr1 tr2 : list (item nat)) (n : nat) (a0 m0 : nat -> R)
    (RO2_indices : list nat) (p : fsub) (g g' : garbage) (d : prepared) (q : pc2) (nb : nat) (y_core nper : list R)
    (core_density core_mw diss : R) (bins : list nat) (start_time t H2O temp : R) (y : list R) : option (list R * attributes) :=
  aerosol_call (gas_dydt_compiled rnd rs tr tr1 tr2 n a0 m0 (RO2_sum RO2_indices y) start_time t H2O temp)
    p g g' d q nb y_core nper core_density core_mw diss temp bins y.

(* What one call of dydt_func leaves to the compiler and the threads: the
   statements the three gas-phase subroutines execute, what their output arrays
   and the memory of dydt_partition held before, and the order of the size
   bins. *)
Record fcall := FCall {
  fc_rates : list (gitem nat xexp); fc_reactants : list (item nat); fc_loss_gain : list (item nat);
  fc_a0 : nat -> R; fc_m0 : nat -> R; fc_before : garbage; fc_private : garbage; fc_bins : list nat }.

Section Run.
Context (rnd : Q -> Q) (rs : frates) (n : nat) (RO2_indices : list nat) (p : fsub) (H2O temp : R).
Context (d : prepared) (q : pc2) (nb : nat) (y_core nper : list R) (core_density core_mw diss : R).

(* Aerosol/f2py/ODE_solver.py:57-156 at the given time of day. *)
Definition files_call (c : fcall) (clock : R) (y : list R) : option (list R * attributes) :=
  aerosol_call_files rnd rs (fc_rates c) (fc_reactants c) (fc_loss_gain c) n (fc_a0 c) (fc_m0 c) RO2_indices p (fc_before c) (fc_private c)
    d q nb y_core nper core_density core_mw diss (fc_bins c) clock 0 H2O temp y.

(* The function handed to the solver, and the attributes the loop reads after a
   batch (ODE_solver.py:71, 147-148). *)
Definition files_func (calls : b64 -> list R -> fcall) (start_time t : b64) (y : list R) : res (list R) :=
  match files_call (calls t y) (B2R (fadd start_time t)) y with Some r => Ok (fst r) | None => Err ValueError end.
Definition files_observe (calls : b64 -> list R -> fcall) (start_time t : b64) (y : list R) : res (R * list R) :=
  match files_call (calls t y) (B2R (fadd start_time t)) y with Some r => Ok (a_soa (snd r), a_size (snd r)) | None => Err ValueError end.

(* ODE_solver.py:207-301, as aerosol_simulation of ModelAeroRun. *)
Definition aerosol_simulation_files (simulate : recording_solver (list R)) (jac : b64 -> list R -> res (nat * nat -> R))
    (calls : b64 -> list R -> fcall) (start_time : b64) (sp2a : dict str nat) (conc : dict str R) (y_cond : list R)
    (simulation_time batch_step : b64) : res (list b64 * list (list R) * list (R * list R)) :=
  do y0 <- aerosol_initial (d_ns d) (d_nc d) nb sp2a conc y_cond;
  record_run simulate (files_func calls start_time) jac (files_observe calls start_time)
    simulation_time batch_step (repeat 0%R (List.length y0)) (0%R, repeat 0%R nb) y0.
End Run.
