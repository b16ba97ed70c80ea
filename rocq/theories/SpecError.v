(* Integrators that make errors. *)
From Coq Require Import List Arith Reals.
From Flocq Require Import Core BinarySingleNaN.
From Verif Require Import Base SpecKin ModelSolver SpecSolver SpecMethod SpecTraj ModelYield.
Import ListNotations.

(* Two states that differ by at most delta in every component. *)
Definition close (delta : R) (y z : list R) : Prop := length y = length z /\ forall i, i < length y -> (Rabs (nth i y 0 - nth i z 0) <= delta)%R.

(* An integrator that is off by at most delta: for the function rhs_at of the
   clock, started anew at time 0 from a non-negative state, it returns a
   non-negative state within delta of an exact solution of y' = f(t,y) from that
   state.  CVODE's tolerances are meant to bring this about. *)
Definition off_by (delta : R) (f : R -> list R -> option (list R)) (rhs_at : b64 -> list R -> res (list R)) (simulate : solver (list R)) : Prop :=
  forall start jac y0 tf y1, nonneg y0 -> (0 <= B2R tf)%R -> simulate (Problem (fun t => rhs_at (fadd start t)) jac y0 fzero) tf = Ok y1 ->
    nonneg y1 /\ exists u, u 0%R = y0 /\ solves (fun t => f (B2R start + t)%R) (B2R tf) u /\ close delta (u (B2R tf)) y1.

(* The same for the aerosol drivers, whose function rhs contains the clock and
   whose integrator also reports where it evaluated rhs last. *)
Definition off_by_recording (delta : R) (f : R -> list R -> option (list R)) (rhs : b64 -> list R -> res (list R)) (simulate : recording_solver (list R)) : Prop :=
  forall jac y0 tf y1 last, nonneg y0 -> (0 <= B2R tf)%R -> simulate (Problem rhs jac y0 fzero) tf = Ok (y1, last) ->
    nonneg y1 /\ exists u, u 0%R = y0 /\ solves f (B2R tf) u /\ close delta (u (B2R tf)) y1.

(* The same when the exact solution is one of non-negative concentrations. *)
Definition off_by_physical (delta : R) (f : R -> list R -> option (list R)) (rhs : b64 -> list R -> res (list R)) (simulate : recording_solver (list R)) : Prop :=
  forall jac y0 tf y1 last, nonneg y0 -> (0 <= B2R tf)%R -> simulate (Problem rhs jac y0 fzero) tf = Ok (y1, last) ->
    nonneg y1 /\ exists u, u 0%R = y0 /\ solves f (B2R tf) u /\ (forall t, (0 <= t <= B2R tf)%R -> nonneg (u t)) /\ close delta (u (B2R tf)) y1.

(* The same for an integrator whose answers may be slightly negative, as those of
   CVODE are: it starts from any state with all components at least -eps. *)
Definition off_by_signed (eps delta : R) (f : R -> list R -> option (list R)) (rhs_at : b64 -> list R -> res (list R)) (simulate : solver (list R)) : Prop :=
  forall start jac y0 tf y1, Forall (fun c => - eps <= c)%R y0 -> (0 <= B2R tf)%R -> simulate (Problem (fun t => rhs_at (fadd start t)) jac y0 fzero) tf = Ok y1 ->
    exists u, u 0%R = y0 /\ solves (fun t => f (B2R start + t)%R) (B2R tf) u /\ close delta (u (B2R tf)) y1.
