(* The chemistry of a mechanism as a system of differential equations, stated
   without reference to the code. *)
From Coq Require Import String List Bool Arith Reals.
From Verif Require Import Base PyStr SpecMech SpecKin SpecRo2 ModelRate RateExpr SpecRate SpecRateValue SpecMcmEnv SpecGas ModelSolver SpecTraj.
Import ListNotations.
Import Coq.Lists.List.
Open Scope nat_scope.
Open Scope list_scope.

(* The concentration of s when y lists those of the species sp, in order. *)
Fixpoint concentration (sp : list str) (y : list R) (s : str) : R :=
  match sp, y with
  | x :: sp', c :: y' => if str_eqb x s then c else concentration sp' y' s
  | _, _ => 0%R
  end.

(* On [0,T] the concentrations u are continuous and not negative, and change by
   mass action with the rate coefficients e of the mechanism m, at water vapour
   H2O and temperature temp.  The photolysis rates are those of the time of day
   start + t; they jump at sunrise and sunset, where u need not have a slope. *)
Definition obeys (m : mech) (e : nat -> rexpr) (H2O temp start T : R) (u : R -> list R) : Prop :=
  let sp := first_seen (reading_order m) in
  (forall t, (0 <= t <= T)%R -> List.length (u t) = List.length sp /\ nonneg (u t) /\
     forall i, i < List.length sp -> continuous_on T u t i) /\
  exists jumps : list R, forall t, (0 <= t <= T)%R -> ~ In t jumps ->
    let c := concentration sp (u t) in
    exists v, coefficients m e (start + t) (peroxy_total sp c) H2O temp v /\
      forall i s, nth_error sp i = Some s -> has_slope T u t i (expected m v c s).

(* States one after the other, each related to the one before it. *)
Inductive chained (step : list R -> list R -> Prop) : list R -> list (list R) -> Prop :=
| chained_end y : chained step y []
| chained_more y y1 rows : step y y1 -> chained step y1 rows -> chained step y (y1 :: rows).

(* From y to y1 in time b, from the time of day start on. *)
Definition one_batch (m : mech) (e : nat -> rexpr) (H2O temp start b : R) (y y1 : list R) : Prop :=
  exists u, obeys m e H2O temp start b u /\ u 0%R = y /\ u b = y1.

(* No rate coefficient depends on the sun. *)
Fixpoint sunless (x : rexpr) : Prop :=
  match x with
  | RPhot _ => False
  | RLit _ _ | RVar _ => True
  | RParen a | RNeg a | RExp a => sunless a
  | RBin _ a b => sunless a /\ sunless b
  end.
