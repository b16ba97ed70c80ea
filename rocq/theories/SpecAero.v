(* What the aerosol set-up should produce. *)
From Coq Require Import List Bool Arith String Reals.
From Verif Require Import PyStr PyDict ModelAero.
Import ListNotations.

(* The molecule of a species: its SMILES text and the object made from it. *)
Definition molecule_of (smiles : dict str str) (objects : dict str chem) (x : str) (c : chem) : Prop :=
  exists s, dget x smiles = Some s /\ dget s objects = Some c.

(* Species that stay in the gas phase: no SMILES, or too volatile. *)
Definition excluded (smiles : dict str str) (objects : dict str chem) (ignore_vp : bool) (cutoff : R) (x : str) : Prop :=
  dget x smiles = None \/ (ignore_vp = true /\ exists c, molecule_of smiles objects x c /\ (cutoff < c_vp c)%R).

(* Molecules whose properties make sense. *)
Definition sensible (c : chem) : Prop := (0 < c_density c)%R /\ (0 < c_molwt c)%R.
