(* Model of the fixed yield driver: Aerosol/f2py/Fixed_yield/
   Aerosol_sim_fixed_yield.py and ODE_solver_fixedyield.py.  The property
   functions, the size distribution and the partitioning routine are those of
   the aerosol driver (ModelAero, ModelPart), the yield file is read by
   extract_species (ModelSpecies). *)
From Coq Require Import List Bool Arith String ZArith Reals.
From Flocq Require Import Core BinarySingleNaN.
From Verif Require Import Base PyStr PyDict SpecKin ModelExpr ModelSolver ModelPart ModelAero ModelSpecies.
Import ListNotations.
Import Coq.Lists.List.
Open Scope nat_scope.
Open Scope list_scope.

(* Aerosol_sim_fixed_yield.py:106: saturation vapour pressure of water, Pa. *)
Definition sat_vap_water (temp : R) : R :=
  exp (-5800.2206 / temp + 1.3914993 - 0.048640239 * temp + 0.000041764768 * temp ^ 2
       - 0.000000014452093 * temp ^ 3 + 6.5459673 * ln temp)%R.
(* 108 *)
Definition H2O_yield (RH temp : R) : R := (RH * avogadro * sat_vap_water temp * / 1000000 / (8.314472 * temp))%R.

(* 259-262 *)
Definition total_voc_ppb (temp : R) : R := (30 * (273.15 + (temp - 273.15)) / (12.187 * 136.24))%R.

(* 263-265: y_gas[species_dict2array[smiles]] = concentration_dict[Pybel_object]*... *)
Definition set_product (sp2a : dict str nat) (conc : dict nat R) (voc : R) (y : list R) (so : str * obj chem) : res (list R) :=
  do c <- match dget (o_id (snd so)) conc with Some c => Ok c | None => Err KeyError end;
  do i <- lookup (fst so) sp2a;
  store i (c * voc * 24600000000)%R y.
Definition yield_gas (n : nat) (sp2a : dict str nat) (objects : dict str (obj chem)) (conc : dict nat R) (voc : R) : res (list R) :=
  foldM (set_product sp2a conc voc) objects (repeat 0%R n).

(* 157-366 with files_exist False: from the text of the yield file to the
   starting state; ignore_vp is False (126).  The size distribution gives
   y_core (one number per bin). *)
Definition molecules (objects : dict str (obj chem)) : dict str chem := map (fun so => (fst so, o_mol (snd so))) objects.
Definition yield_setup (readstring : str -> res chem) (to_float : str -> res R) (text : str) (cutoff temp RH : R)
    (nb : nat) (y_core : list R) (diss : R) : res (yields chem R * prepared * list R) :=
  do ys <- extract_species readstring to_float text;
  do p <- Pure_component1 (y_number ys) (y_species ys) (y_sp2a ys) (y_smiles ys) (molecules (y_objects ys)) false cutoff;
  do y_gas <- yield_gas (y_number ys) (y_sp2a ys) (y_objects ys) (y_conc ys) (total_voc_ppb temp);
  do d <- prepare (y_number ys) (y_sp2a ys) p false temp;
  do y_cond <- initial_condensed (d_nc d) nb y_core diss RH nb;
  Ok (ys, d, (y_gas ++ [H2O_yield RH temp]) ++ y_cond).

(* ODE_solver_fixedyield.py:60-133 (dydt_func): the derivative, and what the
   function leaves in its attributes total_SOA_mass and size_array. *)
Definition yield_rhs (d : prepared) (q : pc2) (nb : nat) (y_core nper : list R) (core_density core_mw diss temp : R)
    (bins : list nat) (y : list R) : option (list R * (R * list R)) :=
  obind (partition_inputs d q y_core nper core_density core_mw diss temp y) (fun inp =>
  obind (dydt_partition (d_ns d) (d_nc d) nb (d_include d) inp bins) (fun r =>
  let '(soa, _, size, dy) := r in Some (map (fun v => 0 + v)%R dy, (soa, size)))).

(* dydt_func.RH (125): Pressure_gas[-1]/(Psat[-1]*101325.0). *)
Definition reported_RH (d : prepared) (temp : R) (y : list R) : R :=
  (nth (d_ns d - 1) y 0 / avogadro * 8314000 * temp / (Rpower 10 (water_vp temp) * 101325))%R.

Section Recorded.
(* The solver here also tells at which time and state dydt_func was called
   last; [observe] gives the attributes that call left. *)
Context {S O : Type}.
Definition recording_solver := problem S -> b64 -> res (S * (b64 * S)).
Context (simulate : recording_solver) (rhs : b64 -> S -> res S) (jac : b64 -> S -> res (nat * nat -> R)) (observe : b64 -> S -> res O).

(* ODE_solver_fixedyield.py:217-266: the loop, with a row of y_matrix and a row
   of SOA_matrix and size_matrix for each batch.  usejac is False; the
   Jacobian is not used. *)
Fixpoint record_loop (simulation_time batch_step : b64) (zero_row : S) (zero_obs : O) (rows : nat) (total_time : b64) (y : S) (out : option S)
  : res (list b64 * list S * list O) :=
  if Bltb total_time simulation_time then
    do y0 <- (if Beqb total_time fzero then Ok y
              else match out with Some o => Ok o | None => Err UnboundLocalError end);
    do r1 <- simulate (Problem rhs jac y0 fzero) batch_step;
    let '(y1, (t, z)) := r1 in
    do o1 <- observe t z;
    let total_time := fadd total_time batch_step in
    match rows with
    | 0 => Err IndexError
    | Datatypes.S rows' =>
        do r <- record_loop simulation_time batch_step zero_row zero_obs rows' total_time y0 (Some y1);
        Ok (total_time :: fst (fst r), y1 :: snd (fst r), o1 :: snd r)
    end
  else Ok ([], repeat zero_row rows, repeat zero_obs rows).
Definition record_run (simulation_time batch_step : b64) (zero_row : S) (zero_obs : O) (y0 : S) : res (list b64 * list S * list O) :=
  do q <- py_div simulation_time batch_step;
  do n <- py_trunc q;
  if (n <? 0)%Z then Err ValueError
  else record_loop simulation_time batch_step zero_row zero_obs (Z.to_nat n) fzero y0 None.
End Recorded.
Arguments recording_solver S : clear implicits.
