(* Exact solutions of the equations a driver hands to its integrator. *)
From Coq Require Import List Bool Arith ZArith Reals.
From Flocq Require Import Core BinarySingleNaN.
From Verif Require Import Base SpecKin ModelSolver.
Import ListNotations.
Open Scope nat_scope.
Open Scope list_scope.

(* The i-th component of u is continuous at t, relative to [0,T]; it has slope
   d at t (one-sided at the ends). *)
Definition continuous_on (T : R) (u : R -> list R) (t : R) (i : nat) : Prop :=
  forall eps, (0 < eps)%R -> exists delta, (0 < delta)%R /\
    forall s, (0 <= s <= T)%R -> (Rabs (s - t) < delta)%R -> (Rabs (nth i (u s) 0 - nth i (u t) 0) <= eps)%R.
Definition has_slope (T : R) (u : R -> list R) (t : R) (i : nat) (d : R) : Prop :=
  forall eps, (0 < eps)%R -> exists delta, (0 < delta)%R /\
    forall s, (0 <= s <= T)%R -> (Rabs (s - t) < delta)%R ->
      (Rabs (nth i (u s) 0 - nth i (u t) 0 - d * (s - t)) <= eps * Rabs (s - t))%R.

(* On [0,T] the function u is continuous and satisfies u' = f(t,u), except at
   finitely many times: the photolysis rates jump at sunrise and sunset. *)
Definition solves (f : R -> list R -> option (list R)) (T : R) (u : R -> list R) : Prop :=
  (forall t, (0 <= t <= T)%R -> List.length (u t) = List.length (u 0%R) /\
     forall i, i < List.length (u 0%R) -> continuous_on T u t i) /\
  exists jumps : list R, forall t, (0 <= t <= T)%R -> ~ In t jumps ->
    exists d, f t (u t) = Some d /\ forall i, i < List.length (u 0%R) -> has_slope T u t i (nth i d 0%R).

(* An integrator without error for the equations y' = f(clock,y), where clock
   is start + t; rhs_at is the function the driver hands over. *)
Definition error_free (f : R -> list R -> option (list R)) (rhs_at : b64 -> list R -> res (list R)) (simulate : solver (list R)) : Prop :=
  forall start jac y0 tf y1, simulate (Problem (fun t => rhs_at (fadd start t)) jac y0 fzero) tf = Ok y1 ->
    exists u, u 0%R = y0 /\ u (B2R tf) = y1 /\ solves (fun t => f (B2R start + t)%R) (B2R tf) u.

(* Rate coefficients k r (of reaction r) as functions of the time and of the
   total peroxy radical: defined and continuous enough (Lipschitz in the peroxy
   radical on bounded sets, uniformly in time), and not negative where the
   total is not negative. *)
Definition regular_rates (n : nat) (k : nat -> R -> R -> R) (from until : R) : Prop :=
  (forall r t x, r < n -> (from <= t <= until)%R -> (0 <= x)%R -> (0 <= k r t x)%R) /\
  (forall M, exists L, (0 <= L)%R /\ forall r t x x', r < n -> (from <= t <= until)%R -> (Rabs x <= M)%R -> (Rabs x' <= M)%R ->
     (Rabs (k r t x) <= L)%R /\ (Rabs (k r t x - k r t x') <= L * Rabs (x - x'))%R).
