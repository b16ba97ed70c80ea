(* What a user expects of the working directory between runs. *)
From Coq Require Import String List Bool Arith Ascii ZArith Permutation.
From Verif Require Import Base PyStr PyDict ModelParse ModelRo2 SpecRate ModelFiles.
Import ListNotations.
Import Coq.Lists.List.
Open Scope nat_scope.
Open Scope list_scope.

(* os.listdir gives every name once, in any order. *)
Definition lists_names (ls : dir -> list str) : Prop := forall d, Permutation (ls d) (dkeys d).

(* A name with one of these texts in it. *)
Definition stale (pats : list str) (name : str) : Prop := exists p, In p pats /\ contains p name.

(* Nothing stands in the way of cleaning: no directory has a stale name and no
   name contains two of the patterns. *)
Definition cleanable (pats : list str) (d : dir) : Prop :=
  forall name e p, dget name d = Some e -> In p pats -> contains p name ->
    (exists c, e = File c) /\ forall q, In q pats -> contains q name -> q = p.

(* What the solver should be given for a mechanism. *)
Definition inputs_of (n : Z) (st : pstate) : inputs :=
  Inputs (p_sp2a st) (p_sp st) n (write_RO2_indices (p_sp2a st)) [Gen Rates n st; Gen Reactants n st; Gen LossGain n st; Gen Jacobian n st].
Definition consistent (i : inputs) : Prop :=
  exists text n st, extract_mechanism text = Ok (n, st) /\ i = inputs_of n st.

(* Runs one after the other, each of which may be killed after any number of
   its steps: parse runs of any mechanism, and the saving of outputs. *)
Inductive gas_history (ls : dir -> list str) (compiles : content -> bool) (d : dir) : dir -> Prop :=
| gh_start : gas_history ls compiles d d
| gh_parse d' fn text k : gas_history ls compiles d d' ->
    gas_history ls compiles d (fst (exec compiles (firstn k (gas_acts ls fn text d')) d'))
| gh_save d' fn npy csv names k : gas_history ls compiles d d' ->
    gas_history ls compiles d (fst (exec compiles (firstn k (save_acts fn npy csv names)) d')).
(* Only simulations with the files already there, which save their outputs. *)
Inductive reuse_history (compiles : content -> bool) (d : dir) : dir -> Prop :=
| rh_start : reuse_history compiles d d
| rh_save d' fn npy csv names k : reuse_history compiles d d' ->
    reuse_history compiles d (fst (exec compiles (firstn k (save_acts fn npy csv names)) d')).

(* Files named after the mechanism that a parse run makes anew. *)
Definition gas_stale : list str := [s_ ".npy"; s_ ".pickle"; s_ ".npz"; s_ ".eqn.txt"].
Definition gas_fresh (fn : str) : list str :=
  [fn ++ s_ ".eqn.txt"; fn ++ s_ "_species_dict2array.pickle"; fn ++ s_ "_species_dict.pickle"; fn ++ s_ "_equations.pickle";
   fn ++ s_ "_reactant_indices.npy"; fn ++ s_ "_reactants_stoich_indices.npy"; s_ "reactants_indices_sparse_" ++ fn ++ s_ ".npz";
   s_ "loss_gain_" ++ fn ++ s_ ".npz"; fn ++ s_ "_RO2_indices.npy"].
Definition gas_modules : list str :=
  [s_ "Rate_coefficients_numba.py"; s_ "Reactants_conc_numba.py"; s_ "Loss_Gain_numba.py"; s_ "Jacobian_numba.py"].
Definition aerosol_stale : list str := s_ ".f90" :: gas_stale.
Definition aerosol_fresh (fn : str) : list str :=
  [fn ++ s_ ".eqn.txt"; fn ++ s_ "_species_dict2array.pickle"; fn ++ s_ "_species_dict.pickle"; fn ++ s_ "_Pybel_object_dict.pickle";
   fn ++ s_ "_SMILES_dict.pickle"; fn ++ s_ "_num_species_gas.pickle"; fn ++ s_ "_reactant_indices.npy"; fn ++ s_ "_reactants_stoich_indices.npy";
   fn ++ s_ "_RO2_indices.npy"; s_ "Rate_coefficients.f90"; s_ "Reactants_conc.f90"; s_ "Loss_Gain.f90"].
Definition yield_stale : list str := [s_ ".f90"; s_ ".npy"; s_ ".pickle"; s_ ".npz"].
Definition yield_fresh (fn : str) : list str :=
  [fn ++ s_ "_species_dict2array.pickle"; fn ++ s_ "_species_dict.pickle"; fn ++ s_ "_Pybel_object_dict.pickle";
   fn ++ s_ "_SMILES_dict.pickle"; fn ++ s_ "_num_species_gas.pickle"; fn ++ s_ "concentration_dict.pickle"].

(* A name in numba's cache for one of the generated modules: module, function,
   then line, Python and ABI version, without underscores. *)
Definition cache_name (name : str) : Prop :=
  exists m f t, In (m, f) [(s_ "Rate_coefficients_numba", s_ "evaluate_rates"); (s_ "Reactants_conc_numba", s_ "reactants");
                           (s_ "Loss_Gain_numba", s_ "dydt"); (s_ "Jacobian_numba", s_ "jacobian")] /\
    name = m ++ s_ "." ++ f ++ t /\ ~ In "_"%char t.
