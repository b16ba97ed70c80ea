(* Model of the aerosol drivers: the water vapour input, the property arrays
   (Aerosol/Property_calculation.py), the size distribution
   (Aerosol/Size_distributions.py), the set-up in
   Aerosol/f2py/Aerosol_simulation_f2py.py and the state vector and right-hand
   side of Aerosol/f2py/ODE_solver.py.  Numbers are reals; an operation without
   a finite result gives None or an exception. *)
From Coq Require Import List Bool Arith String Reals.
From Verif Require Import Base PyStr PyDict SpecKin ModelExpr ModelSolver ModelPart.
Import ListNotations.
Import Coq.Lists.List.
Open Scope nat_scope.
Open Scope list_scope.

(* Gas_simulation.py:77-85, f2py/Gas_simulation_f2py.py:77-85,
   Aerosol_simulation_f2py.py:84-93. *)
Definition H2O_conc (RH temp : R) : option R :=
  let temp_celsius := (temp - 273.15)%R in
  obind (rdiv temp_celsius (temp_celsius + 238.3)) (fun q =>
  let Psat := (610.78 * exp (q * 17.2694))%R in
  let Pw := (RH * Psat)%R in
  obind (rdiv Pw (temp_celsius + 273.16)) (fun p =>
  let Wconc := (0.002166 * p)%R in
  let Wconc := (Wconc * / 1000000)%R in
  Some (Wconc * (1 / (18 / 1000)) * (60221409 * 10 ^ 16))%R)).

(* What UManSysProp and Pybel return for one molecule: liquid density (g/cc),
   molar weight, log10 of the vapour pressure, numbers of C, H and O atoms
   (Property_calculation.py:113-127; the library is not modelled). *)
Record chem := Chem { c_density : R; c_molwt : R; c_vp : R; c_C : nat; c_H : nat; c_O : nat }.

(* Property_calculation.py:70-80, 145-159 (Delta_H and Latent_heat_gas are all
   0 and left out). *)
Record pc1 := Pc1 {
  pc_density : list R; pc_mw : list R; pc_vp : list R; pc_oc : list R; pc_hc : list R;
  pc_ignore : list nat; pc_include : list nat; pc_flag : list R }.

Definition store (i : nat) (v : R) (l : list R) : res (list R) :=
  if i <? List.length l then Ok (set_nth i v l) else Err IndexError.
Definition lookup {V} (k : str) (d : dict str V) : res V := match dget k d with Some v => Ok v | None => Err KeyError end.

(* One round of the loop, Property_calculation.py:108-144. *)
Definition compound_step (sp2a : dict str nat) (smiles : dict str str) (objects : dict str chem)
    (ignore_vp : bool) (cutoff : R) (p : pc1) (compound : str) : res pc1 :=
  if dmem compound smiles then
    do sm <- lookup compound smiles;
    do c <- lookup sm objects;
    do i <- lookup compound sp2a;
    do de <- store i (c_density c * 1000)%R (pc_density p);
    do mw <- store i (c_molwt c) (pc_mw p);
    if c_C c =? 0 then Err ZeroDivisionError else
    do oc <- store i (INR (c_O c) / INR (c_C c))%R (pc_oc p);
    do hc <- store i (INR (c_H c) / INR (c_C c))%R (pc_hc p);
    do vp <- store i (c_vp c) (pc_vp p);
    if ignore_vp && (if Rlt_dec cutoff (c_vp c) then true else false) then
      do fl <- store i 1%R (pc_flag p);
      Ok (Pc1 de mw vp oc hc (pc_ignore p ++ [i]) (pc_include p) fl)
    else Ok (Pc1 de mw vp oc hc (pc_ignore p) (pc_include p ++ [i]) (pc_flag p))
  else
    do i <- lookup compound sp2a;
    do fl <- store i 1%R (pc_flag p);
    Ok (Pc1 (pc_density p) (pc_mw p) (pc_vp p) (pc_oc p) (pc_hc p) (pc_ignore p ++ [i]) (pc_include p) fl).

Definition Pure_component1 (num_species : nat) (species_dict : dict nat str) (sp2a : dict str nat)
    (smiles : dict str str) (objects : dict str chem) (ignore_vp : bool) (cutoff : R) : res pc1 :=
  foldM (compound_step sp2a smiles objects ignore_vp cutoff) (dvals species_dict)
    (Pc1 (repeat 1000%R num_species) (repeat 200%R num_species) (repeat 100%R num_species)
         (repeat 0%R num_species) (repeat 0%R num_species) [] [] (repeat 0%R num_species)).

(* sorted() on a list of integers. *)
Fixpoint insert (x : nat) (l : list nat) : list nat :=
  match l with [] => [x] | y :: l' => if x <=? y then x :: l else y :: insert x l' end.
Definition sorted (l : list nat) : list nat := fold_right insert [] l.

(* ODE_solver.py:103-106, Aerosol_simulation_f2py.py:303-306: log10 of the
   saturation vapour pressure of water in atm. *)
Definition water_vp (temp : R) : R :=
  (ln (exp (-5800.2206 / temp + 1.3914993 - 0.048640239 * temp + 0.000041764768 * temp ^ 2
            - 0.000000014452093 * temp ^ 3 + 6.5459673 * ln temp) * 0.00000986923) / ln 10)%R.

(* Aerosol_simulation_f2py.py:286-319.  The two ion keys added at 391-392 are
   objects, not species names, and left out. *)
Record prepared := Prepared {
  d_ns : nat; d_nc : nat; d_density : list R; d_mw : list R; d_vp : list R;
  d_include : list nat; d_flag : list R; d_sp2a : dict str nat }.

Definition shave (ignore_vp : bool) (include : list nat) (l : list R) : res (list R) :=
  if ignore_vp then mapM (py_nth l) include else Ok l.

Definition prepare (num_species : nat) (sp2a : dict str nat) (p : pc1) (ignore_vp : bool) (temp : R) : res prepared :=
  let include := sorted (pc_include p) in
  do de <- shave ignore_vp include (pc_density p);
  do mw <- shave ignore_vp include (pc_mw p);
  do vp <- shave ignore_vp include (pc_vp p);
  let de := de ++ [1000%R] in
  let mw := mw ++ [18%R] in
  let vp := vp ++ [water_vp temp] in
  let num_species := num_species + 1 in
  Ok (Prepared num_species (List.length de) de mw vp
        (include ++ [num_species - 1]) (pc_flag p ++ [0%R]) (dset (s_ "H2O") (num_species - 1) sp2a)).

(* Property_calculation.py:163-202. *)
Record pc2 := Pc2 { q_alpha : list R; q_dstar : list R; q_vel : list R; q_gamma : list R }.
Definition Pure_component2 (num_species : nat) (y_mw : list R) (R_gas temp : R) : option pc2 :=
  obind (omap (fun m => obind (ModelExpr.rpow m (- 2 / 3)) (fun p => Some (1.9 * p)%R)) y_mw) (fun dstar =>
  obind (omap (fun m => obind (rdiv (8 * R_gas * temp) (PI * (m * / 1000))) (fun q => ModelExpr.rpow q (/ 2))) y_mw) (fun vel =>
  obind (omap (fun dv => obind (rdiv (3 * fst dv) (snd dv * 100)) (fun q => Some (q * / 100)%R)) (combine dstar vel)) (fun gamma =>
  Some (Pc2 (repeat 0.1%R num_species) dstar vel gamma)))).

(* numpy.linspace(start,stop,num=n); with more than one point the last is set
   to stop. *)
Definition linspace (start stop : R) (n : nat) : list R :=
  match n with
  | 0 => []
  | 1 => [start]
  | S (S k) =>
      let step := ((stop - start) / INR (n - 1))%R in
      map (fun i => INR i * step + start)%R (seq 0 (S k)) ++ [stop]
  end.

(* scipy.stats.lognorm.pdf(x, shape, loc=0, scale): nan unless shape and scale
   are positive; 0 for x <= 0. *)
Definition lognorm_pdf (x shape scale : R) : option R :=
  if Rlt_dec 0 shape then if Rlt_dec 0 scale then
    if Rlt_dec 0 x then
      Some (1 / (shape * (x / scale) * sqrt (2 * PI)) * exp (- (ln (x / scale)) ^ 2 / (2 * shape ^ 2)) / scale)%R
    else Some 0%R
  else None else None.

(* The logarithm of a number that is not positive has no finite value. *)
Definition log_ (x : R) : option R := if Rlt_dec 0 x then Some (ln x) else None.

(* Size_distributions.py:37-88 (the unused x, pdf, mode, mean are left out). *)
Definition lognormal (num_bins : nat) (total_conc meansize std lowersize uppersize : R) : option (list R * list R) :=
  obind (log_ meansize) (fun mu =>
  obind (log_ std) (fun shape =>
  let scale := exp mu in
  obind (log_ lowersize) (fun lo =>
  obind (log_ uppersize) (fun up =>
  let x_output := map exp (linspace lo up num_bins) in
  obind (omap (fun x => lognorm_pdf x shape scale) x_output) (fun pdf_output =>
  obind (omap (fun p => rdiv p (rsum pdf_output)) pdf_output) (fun q =>
  Some (map (fun v => v * total_conc)%R q, x_output))))))).

(* Aerosol_simulation_f2py.py:397-401, core material of one density and molar
   weight in all bins (371-372). *)
Definition avogadro : R := (60221409 * 10 ^ 16)%R.
Definition core_molecules (x_nper : list (R * R)) (core_density core_mw : R) : option (list R) :=
  omap (fun p => obind (rdiv (4 / 3 * PI * (fst p * / 1000000) ^ 3 * core_density) (core_mw * / 1000)) (fun q =>
                 Some (q * avogadro * snd p)%R)) x_nper.

(* Aerosol_simulation_f2py.py:355, 405-412: y_cond, with water in the last slot
   of every bin. *)
Definition water_step (nc : nat) (y_core : list R) (diss RH : R) (y : list R) (step : nat) : res (list R) :=
  do c <- py_nth y_core step;
  match rdiv RH (1 - RH) with
  | None => Err ZeroDivisionError
  | Some q => store ((nc - 1) + step * nc) (c * diss * q)%R y
  end.
Definition initial_condensed (nc nb : nat) (y_core : list R) (diss RH : R) (nx : nat) : res (list R) :=
  foldM (water_step nc y_core diss RH) (seq 0 nx) (repeat 0%R (nc * nb)).

(* Aerosol/f2py/ODE_solver.py:207-223.  "specie is not 'H2O'" compares object
   identity; equal names that are written as literals are one object in
   CPython.  y0[a:b]=y_cond[:] replaces the slice by the whole of y_cond. *)
Definition set_gas (sp2a : dict str nat) (y : list R) (sc : str * R) : res (list R) :=
  do i <- lookup (fst sc) sp2a;
  store i (if eqb (fst sc) (s_ "H2O") then snd sc else snd sc * Cfactor)%R y.
Definition slice_assign (a b : nat) (new y : list R) : list R := firstn a y ++ new ++ skipn b y.
Definition aerosol_initial (ns nc nb : nat) (sp2a : dict str nat) (conc : dict str R) (y_cond : list R) : res (list R) :=
  do y <- foldM (set_gas sp2a) conc (repeat 0%R (ns + nc * nb));
  Ok (slice_assign ns (ns + nb * nc) y_cond y).

(* The constants the driver passes on (Aerosol_simulation_f2py.py:98-107,
   372-373, 396). *)
Definition Rgas : R := 8.3144598%R.
Definition sigma : R := 0.072%R.

(* Aerosol/f2py/ODE_solver.py:101-135: the arguments of dydt_partition for the
   state y. *)
Definition partition_inputs (d : prepared) (q : pc2) (y_core nper : list R) (core_density core_mw diss temp : R) (y : list R) : option inputs :=
  obind (omap (nth_error (firstn (d_ns d) y)) (d_include d)) (fun cg =>
  let vp := removelast (d_vp d) ++ [water_vp temp] in
  Some (Inputs y y_core diss (map (fun c => c / avogadro * core_mw)%R y_core)
    (d_density d) (repeat core_density (List.length y_core)) (d_mw d) (map (Rpower 10) vp)
    (q_dstar q) (q_alpha q) cg nper (q_gamma q) sigma avogadro Rgas temp)).

(* Aerosol/f2py/ODE_solver.py:57-156 (dydt_func): [gas] is the gas-phase
   right-hand side of y[0:num_species-1]; the size bins are done in the order
   [bins]. *)
Definition aerosol_rhs (gas : list R -> option (list R)) (d : prepared) (q : pc2) (nb : nat) (y_core nper : list R)
    (core_density core_mw diss temp : R) (bins : list nat) (y : list R) : option (list R) :=
  obind (gas (firstn (d_ns d - 1) y)) (fun dydt_gas =>
  if negb (List.length dydt_gas =? d_ns d - 1) then None else
  obind (partition_inputs d q y_core nper core_density core_mw diss temp y) (fun inp =>
  obind (dydt_partition (d_ns d) (d_nc d) nb (d_include d) inp bins) (fun r =>
  let dy := dydt_gas ++ repeat 0%R (1 + d_nc d * nb) in
  Some (map (fun p => fst p + snd p)%R (combine dy (snd r)))))).
