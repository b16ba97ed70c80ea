(* Condensation of a fixed set of products as a system of differential equations. *)
From Coq Require Import List Bool Arith Reals.
From Verif Require Import Base SpecKin SpecTraj ModelPart SpecPart ModelAero SpecAero SpecChem.
Import ListNotations.
Import Coq.Lists.List.
Open Scope nat_scope.
Open Scope list_scope.

Section Yield.
(* k components, the last of them water, with their properties; seed particles in
   nb size bins; temperature.  Every component is in the gas phase and in the
   particles of every bin; nothing reacts. *)
Context (k : nat) (d : prepared) (q : pc2) (nb : nat) (y_core nper : list R) (core_density core_mw diss temp : R).

(* The derivatives dy of the state y: the gases, then the contents of the
   particles bin by bin.  r b is the radius of the particles of bin b. *)
Definition yield_slopes (y : list R) (dy : nat -> R) : Prop :=
  exists inp r, partition_inputs d q y_core nper core_density core_mw diss temp y = Some inp /\
    (forall b, b < nb -> is_radius k k inp b (r b)) /\
    (* condensation, proportional to the excess over the equilibrium *)
    (forall b j, b < nb -> j < k -> dy (slot k k b j) = (transfer inp b (r b) j * (nth j y 0 - equilibrium k k inp b (r b) j))%R) /\
    (* what the particles gain the gas phase loses *)
    (forall j, j < k -> dy j = (- rsum (map (fun b => dy (slot k k b j)) (seq 0 nb)))%R).

(* As obeys of SpecChem. *)
Definition yield_obeys (T : R) (u : R -> list R) : Prop :=
  let n := k + k * nb in
  (forall t, (0 <= t <= T)%R -> List.length (u t) = n /\ nonneg (u t) /\ forall i, i < n -> continuous_on T u t i) /\
  exists jumps : list R, forall t, (0 <= t <= T)%R -> ~ In t jumps ->
    exists dy, yield_slopes (u t) dy /\ forall i, i < n -> has_slope T u t i (dy i).

Definition yield_batch (b : R) (y y1 : list R) : Prop := exists u, yield_obeys b u /\ u 0%R = y /\ u b = y1.
End Yield.
