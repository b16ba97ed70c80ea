(* What a numerical method for y' = f(t,y) does, up to rounding: it forms
   linear combinations of earlier states (with coefficients that add up to 1)
   and of values of f at any states of the same size it likes.  Runge-Kutta, Adams and BDF steps
   are of this kind, and so are Newton corrections with a Jacobian made of
   difference quotients of f. *)
From Coq Require Import List Bool Arith ZArith Reals.
From Flocq Require Import Core BinarySingleNaN.
From Verif Require Import Base SpecKin ModelSolver.
Import ListNotations.
Open Scope nat_scope.
Open Scope list_scope.

(* A linear quantity: coefficients with indices into the state. *)
Definition quantity := list (R * nat).
Definition amount_of (q : quantity) (y : list R) : R := rsum (map (fun p => fst p * nth (snd p) y 0)%R q).

Section Method.
Context (f : b64 -> list R -> res (list R)) (y0 : list R).
Definition combination (l : list (R * list R)) (i : nat) : R := rsum (map (fun p => fst p * nth i (snd p) 0)%R l).

Inductive computed : list R -> Prop :=
| c_start : computed y0
| c_step (past slopes : list (R * list R)) (y : list R) :
    (forall p, In p past -> computed (snd p)) ->
    rsum (map fst past) = 1%R ->
    (forall p, In p slopes -> exists t z, List.length z = List.length y0 /\ f t z = Ok (snd p)) ->
    List.length y = List.length y0 ->
    (forall i, i < List.length y0 -> nth i y 0%R = (combination past i + combination slopes i)%R) ->
    computed y.
End Method.

Definition linear_method (simulate : solver (list R)) : Prop :=
  forall pb tf y, simulate pb tf = Ok y -> computed (pb_rhs pb) (pb_y0 pb) y.
