(* Mass-action kinetics of a mechanism, stated without reference to PyBox. *)
From Coq Require Import List Bool Arith Lia String ZArith QArith Reals Qreals Lra.
From Verif Require Import Base PyStr SpecMech.
Import ListNotations.
Import Coq.Lists.List.
Open Scope nat_scope.
Open Scope list_scope.

Fixpoint rsum (l : list R) : R := match l with [] => 0 | x :: l' => x + rsum l' end%R.
Fixpoint rprod (l : list R) : R := match l with [] => 1 | x :: l' => x * rprod l' end%R.

(* The natural number equal to q, if there is one. *)
Definition as_nat (q : Q) : option nat :=
  let r := Qred q in
  if (Qden r =? 1)%positive && (0 <=? Qnum r)%Z then Some (Z.to_nat (Qnum r)) else None.

(* x to the power q, for x >= 0 and q >= 0. *)
Definition rpow (x : R) (q : Q) : R :=
  match as_nat q with
  | Some n => x ^ n
  | None => if Rlt_dec 0 x then Rpower x (Q2R q) else 0
  end%R.

(* Product over the distinct reactants of concentration to the total
   coefficient. *)
Definition mass_action (c : str -> R) (ts : list term) : R :=
  rprod (map (fun s => rpow (c s) (total s ts)) (first_seen (names ts))).

(* Net number of molecules of s made by one event of reaction r. *)
Definition net (s : str) (r : reaction) : R := (Q2R (total s (rhs r)) - Q2R (total s (lhs r)))%R.

(* Rate of change of s in mechanism m with rate coefficients ks at
   concentrations c. *)
Definition kinetics (m : mech) (ks : list R) (c : str -> R) (s : str) : R :=
  rsum (map (fun rk => net s (fst rk) * (mass_action c (lhs (fst rk)) * snd rk))%R (combine m ks)).

(* Gases that PyBox holds constant. *)
Definition bath : list str := [s_ "AIR"; s_ "H2O"; s_ "O2"].

(* Concentration of species s in the state vector y, for a numbering sp2a of
   the species; entry of a table {species: {equation: coefficient}}. *)
Definition conc_of (sp2a : list (str * nat)) (y : list R) (s : str) : R :=
  match find (fun p => str_eqb (fst p) s) sp2a with Some p => nth (snd p) y 0%R | None => 0%R end.

Definition nonneg (l : list R) : Prop := Forall (fun x => 0 <= x)%R l.

(* Total weight (atoms, mass, charge) of one side of a reaction. *)
Definition weight (w : str -> R) (ts : list term) : R :=
  rsum (map (fun t => Q2R (fst t) * w (snd t))%R ts).
