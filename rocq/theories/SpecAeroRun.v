(* What a run of the aerosol model is asked to respect. *)
From Coq Require Import List Bool Arith Reals.
From Flocq Require Import Core BinarySingleNaN.
From Verif Require Import Base PyStr PyDict ModelParse SpecKin SpecPart SpecMethod SpecTraj ModelSolver ModelAero SpecAero ModelYield.
Import ListNotations.
Open Scope nat_scope.
Open Scope list_scope.

(* Seed particles: in each of the nb size bins some core material and some
   particles, with positive density, molar weight and dissociation. *)
Record seeds (nb : nat) (y_core nper : list R) (core_density core_mw diss : R) : Prop := {
  sd_core : List.length y_core = nb /\ Forall (Rlt 0) y_core;
  sd_nper : List.length nper = nb /\ Forall (Rlt 0) nper;
  sd_pos : (0 < core_density /\ 0 < core_mw /\ 0 < diss)%R }.

(* The amount, gas and particles together, of something of which a molecule of
   gas component i has [wt i] (atoms of one kind, mass, or 1 for one component
   only).  Component j of a particle is gas component include[j]. *)
Definition both_phases (wt : nat -> R) (ns nc nb : nat) (include : list nat) : quantity :=
  map (fun i => (wt i, i)) (seq 0 ns) ++
  flat_map (fun b => map (fun j => (wt (nth j include 0), slot ns nc b j)) (seq 0 nc)) (seq 0 nb).

(* Weights of the species of a mechanism in order; the component after them is
   water. *)
Definition by_species (sp : list str) (w : str -> R) (water : R) (i : nat) : R :=
  match nth_error sp i with Some s => w s | None => water end.

(* The set-up of the aerosol driver: property arrays d and q for the [n]
   species of the parsed mechanism, molecules with positive density and molar
   weight, seed particles. *)
Record aerosol_setup (st : pstate) (n : nat) (smiles : dict str str) (objects : dict str chem) (cutoff temp : R)
    (nb : nat) (y_core nper : list R) (core_density core_mw diss : R) (d : prepared) (q : pc2) : Prop := {
  as_arrays : exists p, Pure_component1 n (p_sp st) (p_sp2a st) smiles objects true cutoff = Ok p /\ prepare n (p_sp2a st) p true temp = Ok d;
  as_gas : Pure_component2 (d_nc d) (d_mw d) Rgas temp = Some q;
  as_molecules : forall i x c, dget i (p_sp st) = Some x -> molecule_of smiles objects x c -> sensible c;
  as_temp : (0 < temp)%R;
  as_seeds : seeds nb y_core nper core_density core_mw diss }.

(* An integrator without error for y' = f(t,y), when the driver hands over the
   function rhs. *)
Definition error_free_recording (f : R -> list R -> option (list R)) (rhs : b64 -> list R -> res (list R)) (simulate : recording_solver (list R)) : Prop :=
  forall jac y0 tf y1 last, simulate (Problem rhs jac y0 fzero) tf = Ok (y1, last) ->
    exists u, u 0%R = y0 /\ u (B2R tf) = y1 /\ solves f (B2R tf) u.

(* One batch of a recorded run from the state y: a fresh solver call from time
   0, then the attributes that its last evaluation of dydt_func left. *)
Definition recorded_batch {S O} (simulate : recording_solver S) (rhs : b64 -> S -> res S) (jac : b64 -> S -> res (nat * nat -> R))
    (observe : b64 -> S -> res O) (b : b64) (y : S) : res (S * O) :=
  do r <- simulate (Problem rhs jac y fzero) b; do o <- observe (fst (snd r)) (snd (snd r)); Ok (fst r, o).
