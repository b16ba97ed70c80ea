(* What a batched run is meant to compute. *)
From Coq Require Import List Bool Arith ZArith Reals.
From Flocq Require Import Core BinarySingleNaN.
From Verif Require Import Base ModelSolver.
Import ListNotations.
Open Scope nat_scope.
Open Scope list_scope.

(* The floating point number x is z * 2^e. *)
Definition is_num (x : b64) (z e : Z) : Prop :=
  is_finite x = true /\ B2R x = (IZR z * bpow radix2 e)%R.

(* The states after 1, 2, ..., n steps; [step k] is step number k. *)
Fixpoint states {S} (step : nat -> S -> res S) (k n : nat) (y : S) : res (list S) :=
  match n with
  | 0 => Ok []
  | Datatypes.S n' => do y1 <- step k y; do l <- states step (Datatypes.S k) n' y1; Ok (y1 :: l)
  end.

(* A solver that never gives up. *)
Definition never_fails {S} (simulate : solver S) : Prop :=
  forall pb tf, exists y, simulate pb tf = Ok y.

(* The sum of k copies of b, added one after the other. *)
Fixpoint accumulated (b : b64) (k : nat) : b64 :=
  match k with 0 => fzero | Datatypes.S k' => fadd (accumulated b k') b end.

(* Trajectories of an autonomous system of differential equations: u starts in
   y0, is in y1 at time T, and at every time t in [0,T] its components have
   the derivatives f (u t) (one-sided at the ends). *)
Definition trajectory (f : list R -> list R) (y0 : list R) (T : R) (y1 : list R) : Prop :=
  exists u : R -> list R, u 0%R = y0 /\ u T = y1 /\
    forall t, (0 <= t <= T)%R -> List.length (u t) = List.length y0 /\
      forall i, i < List.length y0 -> forall eps, (0 < eps)%R -> exists delta, (0 < delta)%R /\
        forall s, (0 <= s <= T)%R -> (Rabs (s - t) < delta)%R ->
          (Rabs (nth i (u s) 0 - nth i (u t) 0 - nth i (f (u t)) 0 * (s - t)) <= eps * Rabs (s - t))%R.

(* A solver without error, for systems whose right-hand side f does not depend
   on time. *)
Definition exact_for (f : list R -> list R) (simulate : solver (list R)) : Prop :=
  forall pb tf y1, (forall t y, pb_rhs pb t y = Ok (f y)) -> B2R (pb_t0 pb) = 0%R ->
    simulate pb tf = Ok y1 -> trajectory f (pb_y0 pb) (B2R tf) y1.
