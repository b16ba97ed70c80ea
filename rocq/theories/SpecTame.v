(* Rate expressions of the usual form: sums and products of terms that depend
   on temperature and water vapour only, of photolysis rates and of the total
   peroxy radical. *)
From Coq Require Import List Bool Arith Ascii String ZArith QArith Reals Qreals.
From Verif Require Import Base PyStr SpecMech SpecSun SpecTroe ModelRate RateExpr SpecRate SpecRateValue SpecMcmEnv.
Import ListNotations.
Import Coq.Lists.List.
Open Scope nat_scope.
Open Scope list_scope.

(* The value of an expression that mentions neither RO2 nor a photolysis rate. *)
Definition steady_var (H2O T : R) (x : str) : option R :=
  if eqb x (s_ "RO2") then None else mcm_var 0 H2O T x.
Definition steady (H2O T : R) (e : rexpr) (v : R) : Prop := means (steady_var H2O T) (fun _ => None) e v.

(* At water vapour H2O and temperature T: *)
Inductive tame (H2O T : R) : rexpr -> Prop :=
| tame_steady e v : steady H2O T e v -> (0 <= v)%R -> tame H2O T e
| tame_RO2 : tame H2O T (RVar (s_ "RO2"))
| tame_phot k z : dec_digits 0 k = Some z -> In (Z.to_nat z) (map fst mcm_table) -> tame H2O T (RPhot k)
| tame_paren e : tame H2O T e -> tame H2O T (RParen e)
| tame_add a b : tame H2O T a -> tame H2O T b -> tame H2O T (RBin (s_ "+") a b)
| tame_mul a b : tame H2O T a -> tame H2O T b -> tame H2O T (RBin (s_ "*") a b)
| tame_div a b v : tame H2O T a -> steady H2O T b v -> (0 < v)%R -> integer a && integer b = false -> tame H2O T (RBin (s_ "/") a b).

(* Every rate coefficient of the mechanism is written as a tame expression. *)
Definition tame_rates (m : mech) (e : nat -> rexpr) (H2O T : R) : Prop :=
  forall k r, nth_error m k = Some r ->
    rtext r = show kpp (e k) /\ good (e k) /\ well_formed (e k) /\ proper_names (e k) /\ tame H2O T (e k).

(* A class that can be read off the text, whatever the temperature and the
   water vapour.  The names are the constants of the MCM, TEMP and H2O. *)
Definition constant_names : list string :=
  map (fun e : entry => match e with (x, _, _, _) => x end) troe_table ++ map fst plain_table.
(* calculable: has a value; plus: the value is positive. *)
Inductive plus : rexpr -> Prop :=
| plus_lit m ex q : read_literal kpp_letter (show kpp (RLit m ex)) = Some q -> (0 < q)%Q -> plus (RLit m ex)
| plus_name x : In x (List.cons "TEMP"%string constant_names) -> plus (RVar (s_ x))
| plus_exp e : calculable e -> integer e = false -> plus (RExp e)
| plus_paren e : plus e -> plus (RParen e)
| plus_add a b : plus a -> plus b -> plus (RBin (s_ "+") a b)
| plus_mul a b : plus a -> plus b -> plus (RBin (s_ "*") a b)
| plus_div a b : plus a -> plus b -> integer a && integer b = false -> plus (RBin (s_ "/") a b)
| plus_pow a b : plus a -> calculable b -> integer a && integer b = false -> plus (RBin (s_ "**") a b)
with calculable : rexpr -> Prop :=
| calc_plus e : plus e -> calculable e
| calc_lit m ex q : read_literal kpp_letter (show kpp (RLit m ex)) = Some q -> calculable (RLit m ex)
| calc_water : calculable (RVar (s_ "H2O"))
| calc_paren e : calculable e -> calculable (RParen e)
| calc_neg e : calculable e -> calculable (RNeg e)
| calc_add a b : calculable a -> calculable b -> calculable (RBin (s_ "+") a b)
| calc_sub a b : calculable a -> calculable b -> calculable (RBin (s_ "-") a b)
| calc_mul a b : calculable a -> calculable b -> calculable (RBin (s_ "*") a b)
| calc_div a b : calculable a -> plus b -> integer a && integer b = false -> calculable (RBin (s_ "/") a b).
Inductive usual : rexpr -> Prop :=
| usual_plus e : plus e -> usual e
| usual_zero m ex q : read_literal kpp_letter (show kpp (RLit m ex)) = Some q -> (0 <= q)%Q -> usual (RLit m ex)
| usual_name x : In x ["RO2"; "H2O"]%string -> usual (RVar (s_ x))
| usual_phot k z : dec_digits 0 k = Some z -> In (Z.to_nat z) (map fst mcm_table) -> usual (RPhot k)
| usual_paren e : usual e -> usual (RParen e)
| usual_add a b : usual a -> usual b -> usual (RBin (s_ "+") a b)
| usual_mul a b : usual a -> usual b -> usual (RBin (s_ "*") a b)
| usual_div a b : usual a -> plus b -> integer a && integer b = false -> usual (RBin (s_ "/") a b).

(* The differences of the form 2*KCH3O2*(1-7.18*EXP(-885/TEMP))*RO2 found in
   the MCM are calculable; they are tame where the bracket is not negative. *)
