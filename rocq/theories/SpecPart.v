(* What gas-to-particle partitioning should compute, written from the physics:
   bins of particles, each with nc condensed components and an involatile core,
   exchanging molecules with the gas phase.  The state vector lists ns gas
   concentrations, then nc amounts for bin 0, then for bin 1, ... *)
From Coq Require Import List Arith Reals.
From Verif Require Import SpecKin ModelPart.
Import ListNotations.

Section Spec.
Context (ns nc nb : nat) (inp : inputs).

(* Component j of bin b. *)
Definition slot (b j : nat) : nat := ns + b * nc + j.

Open Scope R_scope.
Definition amount (b j : nat) : R := nth (slot b j) (i_y inp) 0.       (* molecules per cm3 of air *)
Definition total_amount (b : nat) : R := rsum (map (amount b) (seq 0 nc)) + nth b (i_ycore inp) 0 * i_diss inp.
Definition mole_fraction (b j : nat) : R := amount b j / total_amount b.
Definition mass_of (b j : nat) : R := amount b j / i_NA inp * nth j (i_mw inp) 0.   (* g per cm3 of air *)
Definition particle_mass (b : nat) : R := rsum (map (mass_of b) (seq 0 nc)) + nth b (i_core_mass inp) 0.
Definition particle_volume (b : nat) : R :=
  rsum (map (fun j => mass_of b j / nth j (i_density inp) 0) (seq 0 nc)) + nth b (i_core_mass inp) 0 / nth b (i_core_density inp) 0.
Definition mean_density (b : nat) : R := particle_mass b / particle_volume b.

(* N spheres of radius r (m) take up the volume; grams to kilograms and cm3 to
   m3 are the factors 1e3 and 1e6.  Pi is the printed literal. *)
Definition is_radius (b : nat) (r : R) : Prop :=
  0 < r /\ 4 / 3 * Pi * r ^ 3 * (nth b (i_nper inp) 0 * 1000000) = particle_volume b * 1000.

(* Raoult's law with the Kelvin effect, as molecules per cm3. *)
Definition equilibrium (b : nat) (r : R) (j : nat) : R :=
  mole_fraction b j * (nth j (i_psat inp) 0 * 101325) *
  exp (2 * (nth j (i_mw inp) 0 / 1000) * i_sigma inp / (i_Rgas inp * i_temp inp * mean_density b * r)) *
  (i_NA inp / (8314459.8 * i_temp inp)).

(* Fuchs and Sutugin's correction, for Knudsen number Kn and accommodation a. *)
Definition fuchs_sutugin (Kn a : R) : R :=
  1 / (1 + ((1.33 + 0.71 / Kn) / (1 + 1 / Kn) + 4 * (1 - a) / (3 * a)) * Kn).

(* Molecules per second and unit of supersaturation (r in cm is 100 r). *)
Definition transfer (b : nat) (r : R) (j : nat) : R :=
  4 * Pi * (100 * r) * nth b (i_nper inp) 0 *
  (nth j (i_dstar inp) 0 * fuchs_sutugin (nth j (i_gamma inp) 0 / r) (nth j (i_alpha inp) 0)).

Definition growth (b : nat) (r : R) (j : nat) : R := transfer b r j * (nth j (i_cg inp) 0 - equilibrium b r j).

(* Mass that is neither water (the last component) nor core, in micrograms per m3. *)
Definition organic_mass : R :=
  rsum (map (fun b => rsum (map (mass_of b) (seq 0 (nc - 1)))) (seq 0 nb)) * 1e12.

(* Inputs with a physical meaning. *)
Record physical : Prop := {
  ph_len_y : length (i_y inp) = (ns + nc * nb)%nat;
  ph_len_nb : Forall (fun l => length l = nb) [i_ycore inp; i_core_mass inp; i_core_density inp; i_nper inp];
  ph_len_nc : Forall (fun l => length l = nc) [i_density inp; i_dstar inp; i_alpha inp; i_gamma inp; i_cg inp; i_mw inp; i_psat inp];
  ph_water : (1 <= nc)%nat;
  ph_amounts : forall b j, (b < nb)%nat -> (j < nc)%nat -> 0 <= amount b j;
  ph_core : Forall (Rlt 0) (i_ycore inp) /\ Forall (Rlt 0) (i_core_mass inp) /\ Forall (Rlt 0) (i_core_density inp) /\ Forall (Rlt 0) (i_nper inp);
  ph_comp : Forall (Rlt 0) (i_density inp) /\ Forall (Rlt 0) (i_dstar inp) /\ Forall (Rlt 0) (i_gamma inp) /\ Forall (Rlt 0) (i_mw inp);
  ph_alpha : Forall (fun a => 0 < a <= 1) (i_alpha inp);
  ph_const : 0 < i_diss inp /\ 0 < i_NA inp /\ 0 < i_Rgas inp /\ 0 < i_temp inp }.
End Spec.
