(* Chemistry and condensation together as a system of differential equations. *)
From Coq Require Import String List Bool Arith Reals.
From Verif Require Import Base PyStr PyDict SpecMech SpecKin SpecRo2 ModelRate RateExpr SpecRate SpecRateValue SpecMcmEnv SpecGas ModelSolver SpecTraj
  ModelPart SpecPart ModelAero SpecAero SpecAeroRun SpecChem.
Import ListNotations.
Import Coq.Lists.List.
Open Scope nat_scope.
Open Scope list_scope.

Section Aerosol.
(* A mechanism with its rate coefficients; the components that condense (gas
   component include[j] is component j of the particles, the last is water) with
   their properties; seed particles in nb size bins; water vapour for the rate
   coefficients and temperature. *)
Context (m : mech) (e : nat -> rexpr) (d : prepared) (q : pc2) (nb : nat) (y_core nper : list R) (core_density core_mw diss : R) (H2O temp : R).
Let sp := first_seen (reading_order m).
Let N := List.length sp.

(* The derivatives dy of the state y: the gases, water vapour, then the contents
   of the particles bin by bin.  r b is the radius of the particles of bin b. *)
Definition aerosol_slopes (clock : R) (y : list R) (dy : nat -> R) : Prop :=
  let c := concentration sp (firstn N y) in
  exists v inp r, coefficients m e clock (peroxy_total sp c) H2O temp v /\
    partition_inputs d q y_core nper core_density core_mw diss temp y = Some inp /\
    (forall b, b < nb -> is_radius (d_ns d) (d_nc d) inp b (r b)) /\
    (* condensation, proportional to the excess over the equilibrium *)
    (forall b j i, b < nb -> nth_error (d_include d) j = Some i ->
       dy (slot (d_ns d) (d_nc d) b j) = (transfer inp b (r b) j * (nth i y 0 - equilibrium (d_ns d) (d_nc d) inp b (r b) j))%R) /\
    (* what the particles gain the gas phase loses; the chemistry is by mass action *)
    (forall i s j, nth_error sp i = Some s -> nth_error (d_include d) j = Some i ->
       dy i = (expected m v c s - rsum (map (fun b => dy (slot (d_ns d) (d_nc d) b j)) (seq 0 nb)))%R) /\
    (forall i s, nth_error sp i = Some s -> ~ In i (d_include d) -> dy i = expected m v c s) /\
    dy N = (- rsum (map (fun b => dy (slot (d_ns d) (d_nc d) b (d_nc d - 1))) (seq 0 nb)))%R.

(* As obeys of SpecChem. *)
Definition aerosol_obeys (start T : R) (u : R -> list R) : Prop :=
  let n := d_ns d + d_nc d * nb in
  (forall t, (0 <= t <= T)%R -> List.length (u t) = n /\ nonneg (u t) /\ forall i, i < n -> continuous_on T u t i) /\
  exists jumps : list R, forall t, (0 <= t <= T)%R -> ~ In t jumps ->
    exists dy, aerosol_slopes (start + t) (u t) dy /\ forall i, i < n -> has_slope T u t i (dy i).

Definition aerosol_batch (start b : R) (y y1 : list R) : Prop := exists u, aerosol_obeys start b u /\ u 0%R = y /\ u b = y1.
End Aerosol.
