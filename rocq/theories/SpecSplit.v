(* Operator splitting as it is meant: phases 0, 2, 4, ... solve the gas phase,
   phases 1, 3, 5, ... the partitioning, each from the end of the one before. *)
From Coq Require Import List Bool Arith ZArith Reals.
From Flocq Require Import Core BinarySingleNaN.
From Verif Require Import Base ModelSolver SpecSolver.
Import ListNotations.
Open Scope nat_scope.

Section Phases.
Context {S : Type} (simulate : solver S) (gas_only aerosol_only : b64 -> S -> res S) (jac : b64 -> S -> res (nat * nat -> R)).
Context (first gas_time part_time : b64).

Definition duration (k : nat) : b64 := if k =? 0 then first else if Nat.even k then gas_time else part_time.
Definition phase (k : nat) (y : S) : res S :=
  simulate (Problem (if Nat.even k then gas_only else aerosol_only) jac y fzero) (duration k).
(* The time after k phases, added up one after the other. *)
Fixpoint elapsed (k : nat) : b64 := match k with 0 => fzero | Datatypes.S k' => fadd (elapsed k') (duration k') end.
End Phases.

(* The same in whole seconds: a first phase of z, then p and g in turn. *)
Definition seconds (z g p : Z) (k : nat) : Z :=
  match k with 0 => 0%Z | Datatypes.S k' => (z + Z.of_nat (k / 2) * p + Z.of_nat (k' / 2) * g)%Z end.
