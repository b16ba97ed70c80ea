(* The right-hand side a user expects from the gas-phase model. *)
From Coq Require Import String List Bool Arith Reals.
From Verif Require Import Base PyStr SpecMech SpecKin SpecRo2 ModelRate RateExpr SpecRate SpecRateValue SpecMcmEnv.
Import ListNotations.
Import Coq.Lists.List.
Open Scope nat_scope.
Open Scope list_scope.

(* The rate coefficient of equation k is written as the expression e k, and
   v k is its value at the given time of day, total peroxy radical, water
   vapour and temperature (MCM constants and photolysis rates). *)
Definition coefficients (m : mech) (e : nat -> rexpr) (ttime RO2 H2O T : R) (v : nat -> R) : Prop :=
  forall k r, nth_error m k = Some r ->
    rtext r = show kpp (e k) /\ good (e k) /\ well_formed (e k) /\ proper_names (e k) /\
    means (mcm_var RO2 H2O T) (mcm_J ttime) (e k) (v k).

(* dc(s)/dt by mass action with the coefficients v, 0 for the bath gases. *)
Definition expected (m : mech) (v : nat -> R) (c : str -> R) (s : str) : R :=
  if inb s bath then 0%R else kinetics m (map v (seq 0 (List.length m))) c s.

(* The mechanism has a peroxy radical, and none of the names that the list of
   radicals in the code gets wrong. *)
Definition peroxy_clean (sp : list str) : Prop :=
  (exists s, In s sp /\ is_peroxy s = true) /\
  ~ In (s_ "IBUTALBO2") sp /\ ~ In (s_ "IBUTALCO2") sp /\ ~ In (s_ "IBUTALBO2,IBUTALCO2") sp.
