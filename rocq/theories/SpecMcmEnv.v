(* What the names in an MCM rate expression stand for at given time, peroxy
   radical sum, water vapour and temperature. *)
From Coq Require Import List Bool Arith Ascii String ZArith QArith Reals Qreals.
From Verif Require Import Base PyStr SpecSun SpecTroe.
Import ListNotations.
Import Coq.Lists.List.

Definition mcm_names (RO2 H2O T : R) : list (string * R) :=
  [("TEMP"%string, T); ("H2O"%string, H2O); ("RO2"%string, RO2)] ++
  map (fun e => match e with (x, k0, ki, fc) => (x, troe (k0 T) (ki T) (fc T)) end) troe_table ++
  map (fun e => (fst e, snd e T H2O)) plain_table.
Definition mcm_var (RO2 H2O T : R) (x : str) : option R :=
  option_map snd (find (fun e => eqb x (s_ (fst e))) (mcm_names RO2 H2O T)).
Definition mcm_J (ttime : R) (k : nat) : option R :=
  option_map (fun r => photolysis (snd r) (cos_zenith ttime)) (find (fun r => Nat.eqb k (fst r)) mcm_table).
