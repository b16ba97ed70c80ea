(* What a row of SOA_matrix and size_matrix should say about the same row of
   y_matrix. *)
From Coq Require Import List Arith Reals.
From Flocq Require Import Core BinarySingleNaN.
From Verif Require Import Base ModelSolver ModelYield ModelPart.
From Verif Require Import SpecKin SpecPart SpecGas SpecError.
Import ListNotations.

(* An integrator that evaluates the function last within eps of the state it
   returns, and at a state without negative concentrations. *)
Definition last_within (eps : R) (rhs_at : b64 -> list R -> res (list R)) (simulate : recording_solver (list R)) : Prop :=
  forall jac y tf y1 t z, (0 <= B2R tf)%R -> simulate (Problem rhs_at jac y fzero) tf = Ok (y1, (t, z)) ->
    length y1 = length y /\ nonneg z /\ close eps z y1.

(* The mass o and the radii differ from those of the state in inp by at most err:
   the mass in micrograms per m3, the radii by the volume of the particles of a
   bin. *)
Definition describes (ns nc nb : nat) (inp : inputs) (err : R) (o : R * list R) : Prop :=
  (Rabs (fst o - organic_mass ns nc nb inp) <= err)%R /\ length (snd o) = nb /\
  forall b, b < nb -> let r := nth b (snd o) 0%R in (0 < r)%R /\
    (Rabs (4 / 3 * Pi * r ^ 3 * (nth b (i_nper inp) 0 * 1000000) - particle_volume ns nc inp b * 1000) <= err)%R.
