(* Model of what the driver scripts do to the working directory:
   Gas_simulation.py:96-187, f2py/Gas_simulation_f2py.py:95-197,
   Aerosol/f2py/Aerosol_simulation_f2py.py:138-284 and
   Aerosol/f2py/Fixed_yield/Aerosol_sim_fixed_yield.py:140-235.
   Only names of the directory itself (without a slash) are modelled. *)
From Coq Require Import String List Bool Arith Ascii ZArith Permutation.
From Verif Require Import Base PyStr PyDict ModelParse ModelRo2.
Import ListNotations.
Import Coq.Lists.List.
Open Scope nat_scope.
Open Scope list_scope.

(* The modules the writers generate. *)
Inductive gen := Rates | Reactants | LossGain | Jacobian.

(* What a file holds.  Gen k n st is module k as made from the parsed tables;
   Partial is a file that was opened for writing and not completed. *)
Inductive content :=
| Bytes (s : str)
| Partial
| PSp2a (d : dict str nat) | PSp (d : dict nat str) | PEqs (n : Z)
| PRo2 (l : list nat)
| Gen (k : gen) (n : Z) (st : pstate)
| Other.

Inductive entry := File (c : content) | Dir.
Definition dir := dict str entry.

(* os.remove(name), open(name,'w') (truncates) and the write that completes it,
   and a call of f2py through os.system, whose failure is ignored. *)
Inductive act := Remove (name : str) | Open (name : str) | Put (name : str) (c : content) | Compile (source library : str).

Definition drop (name : str) (d : dir) : dir := filter (fun p => negb (eqb (fst p) name)) d.

Definition do_act (compiles : content -> bool) (a : act) (d : dir) : res dir :=
  match a with
  | Remove name => match dget name d with
                   | None => Err FileNotFoundError
                   | Some Dir => Err IsADirectoryError
                   | Some (File _) => Ok (drop name d)
                   end
  | Open name => match dget name d with Some Dir => Err IsADirectoryError | _ => Ok (dset name (File Partial) d) end
  | Put name c => match dget name d with Some Dir => Err IsADirectoryError | _ => Ok (dset name (File c) d) end
  | Compile source library =>
      match dget source d with
      | Some (File c) => if compiles c then Ok (dset library (File c) d) else Ok d
      | _ => Ok d
      end
  end.

(* The directory after a run that stops at its first exception, and the
   exception. *)
Fixpoint exec (compiles : content -> bool) (l : list act) (d : dir) : dir * option exn :=
  match l with
  | [] => (d, None)
  | a :: l' => match do_act compiles a d with Ok d' => exec compiles l' d' | Err e => (d, Some e) end
  end.

(* p in name *)
Definition has (p name : str) : bool := match find_sub p name with Some _ => true | None => false end.

(* for fname in os.listdir('.'): if p1 in fname: os.remove(fname)
                                 if p2 in fname: os.remove(fname) ... *)
Definition clean_pass (names : list str) (pats : list str) : list act :=
  flat_map (fun name => map (fun _ => Remove name) (filter (fun p => has p name) pats)) names.

(* Gas_simulation.py:106-114 *)
Definition gas_patterns : list str := [s_ ".npy"; s_ ".pickle"; s_ ".npz"; s_ ".eqn.txt"].
(* Gas_simulation.py:101-105, in the directory __pycache__ if there is one. *)
Definition cache_patterns : list str := [s_ "_numba_"].
(* f2py/Gas_simulation_f2py.py:98-104 *)
Definition f2py_patterns : list str := [s_ ".f90"; s_ ".eqn.txt"].
(* Aerosol_simulation_f2py.py:141-156: two passes. *)
Definition aerosol_passes : list (list str) := [[s_ ".f90"]; gas_patterns].
(* Aerosol_sim_fixed_yield.py:143-156: two passes. *)
Definition yield_passes : list (list str) := [[s_ ".f90"]; [s_ ".npy"; s_ ".pickle"; s_ ".npz"]].

(* with open(name,'wb') as handle: pickle.dump(c, handle), numpy.save, and the
   writers of modules. *)
Definition write_file (nc : str * content) : list act := [Open (fst nc); Put (fst nc) (snd nc)].

Section Drivers.
(* os.listdir: the names in any order. *)
Variable ls : dir -> list str.
Variable compiles : content -> bool.

(* Several passes, each over its own listing. *)
Fixpoint clean_passes (passes : list (list str)) (d : dir) : dir * option exn :=
  match passes with
  | [] => (d, None)
  | p :: ps => match exec compiles (clean_pass (ls d) p) d with
               | (d', None) => clean_passes ps d'
               | r => r
               end
  end.

Definition eqn_name (fn : str) : str := fn ++ s_ ".eqn.txt".
Definition sp2a_name (fn : str) : str := fn ++ s_ "_species_dict2array.pickle".
Definition sp_name (fn : str) : str := fn ++ s_ "_species_dict.pickle".
Definition eqs_name (fn : str) : str := fn ++ s_ "_equations.pickle".
Definition ro2_name (fn : str) : str := fn ++ s_ "_RO2_indices.npy".
Definition gas_module (k : gen) : str :=
  match k with
  | Rates => s_ "Rate_coefficients_numba.py" | Reactants => s_ "Reactants_conc_numba.py"
  | LossGain => s_ "Loss_Gain_numba.py" | Jacobian => s_ "Jacobian_numba.py"
  end.

(* Gas_simulation.py:116-168: the files written after a successful parse, in
   this order (Parse_eqn_file.py:823, 2161-2181, 2412-2416, 2964, 2127). *)
Definition gas_files (fn : str) (n : Z) (st : pstate) : list (str * content) :=
  [ (sp2a_name fn, PSp2a (p_sp2a st)); (sp_name fn, PSp (p_sp st)); (eqs_name fn, PEqs n);
    (gas_module Rates, Gen Rates n st);
    (fn ++ s_ "_reactant_indices.npy", Other); (fn ++ s_ "_reactants_stoich_indices.npy", Other);
    (s_ "reactants_indices_sparse_" ++ fn ++ s_ ".npz", Other); (gas_module Reactants, Gen Reactants n st);
    (s_ "loss_gain_" ++ fn ++ s_ ".npz", Other); (gas_module LossGain, Gen LossGain n st);
    (gas_module Jacobian, Gen Jacobian n st);
    (ro2_name fn, PRo2 (write_RO2_indices (p_sp2a st))) ].

(* Gas_simulation.py:96-168, files_exist False: everything done to the working
   directory; text is the mechanism file.  A parse that fails ends the run
   after the copy; any other failure ends it somewhere in this list. *)
Definition gas_acts (fn text : str) (d : dir) : list act :=
  clean_pass (ls d) gas_patterns ++ write_file (eqn_name fn, Bytes text) ++
  match extract_mechanism text with
  | Err _ => []
  | Ok (n, st) => flat_map write_file (gas_files fn n st)
  end.

(* What the solver is given: species_dict2array, species_dict, equations, the
   RO2 indices and the four imported modules. *)
Record inputs := Inputs { in_sp2a : dict str nat; in_sp : dict nat str; in_eqs : Z; in_ro2 : list nat; in_modules : list content }.

Definition load (name : str) (d : dir) : res content :=
  match dget name d with
  | None => Err FileNotFoundError
  | Some Dir => Err IsADirectoryError
  | Some (File Partial) => Err EOFError
  | Some (File c) => Ok c
  end.
Definition load_sp2a (name : str) (d : dir) := do c <- load name d; match c with PSp2a x => Ok x | _ => Err TypeError end.
Definition load_sp (name : str) (d : dir) := do c <- load name d; match c with PSp x => Ok x | _ => Err TypeError end.
Definition load_eqs (name : str) (d : dir) := do c <- load name d; match c with PEqs x => Ok x | _ => Err TypeError end.
Definition load_ro2 (name : str) (d : dir) := do c <- load name d; match c with PRo2 x => Ok x | _ => Err ValueError end.
(* import of a module: whatever the file holds, complete or not. *)
Definition import (name : str) (d : dir) : res content :=
  match dget name d with Some (File c) => Ok c | _ => Err ImportError end.

Definition all_gen : list gen := [Rates; Reactants; LossGain; Jacobian].

(* Gas_simulation.py:187 and ODE_solver.py:180-183. *)
Definition finish (modules : gen -> str) (fn : str) (sp2a : dict str nat) (sp : dict nat str) (n : Z) (d : dir) : res inputs :=
  do ro2 <- load_ro2 (ro2_name fn) d;
  do ms <- mapM (fun k => import (modules k) d) all_gen;
  Ok (Inputs sp2a sp n ro2 ms).

(* Gas_simulation.py:171-187: files_exist True. *)
Definition reuse (modules : gen -> str) (fn : str) (d : dir) : res inputs :=
  do sp2a <- load_sp2a (sp2a_name fn) d;
  do sp <- load_sp (sp_name fn) d;
  do n <- load_eqs (eqs_name fn) d;
  finish modules fn sp2a sp n d.

(* A whole run with files_exist False, given the list of its actions. *)
Definition parse_run (modules : gen -> str) (acts : list act) (fn text : str) (d : dir) : res (dir * inputs) :=
  match exec compiles acts d with
  | (_, Some e) => Err e
  | (d', None) => do r <- extract_mechanism text;
                  do i <- finish modules fn (p_sp2a (snd r)) (p_sp (snd r)) (fst r) d';
                  Ok (d', i)
  end.
Definition gas_run (fn text : str) (d : dir) : res (dir * inputs) := parse_run gas_module (gas_acts fn text d) fn text d.

(* ODE_solver.py:282-288, f2py/ODE_solver.py:225-231, save_output True: the
   matrix in two formats and the names.  The names are written to a file that
   is never closed; CPython closes it when the function returns. *)
Definition save_acts (fn : str) (npy csv : content) (names : str) : list act :=
  flat_map write_file [(fn ++ s_ "_output.npy", npy); (fn ++ s_ "_output_matrix.csv", csv); (fn ++ s_ "_output_names.csv", Bytes names)].
(* Aerosol/f2py/ODE_solver.py:303-316, save_output True: concentrations, times,
   organic mass, radii and the indices of the components. *)
Record outputs := Outputs { o_y : content; o_t : content; o_SOA : content; o_size : content; o_include : content }.
Definition aerosol_save_acts (fn : str) (c : outputs) : list act :=
  flat_map write_file
    [(fn ++ s_ "_y_output.pickle", o_y c); (fn ++ s_ "_t_output.pickle", o_t c); (fn ++ s_ "_SOA_output.pickle", o_SOA c);
     (fn ++ s_ "_size_output.pickle", o_size c); (fn ++ s_ "include_index.pickle", o_include c)].
(* Fixed_yield/ODE_solver_fixedyield.py:267-289: the same, and four of them as
   CSV. *)
Definition yield_save_acts (fn : str) (c csv : outputs) : list act :=
  aerosol_save_acts fn c ++ flat_map write_file
    [(fn ++ s_ "_y_output.csv", o_y csv); (fn ++ s_ "_t_output.csv", o_t csv); (fn ++ s_ "_SOA_output.csv", o_SOA csv);
     (fn ++ s_ "_size_output.csv", o_size csv)].

(* f2py/Gas_simulation_f2py.py:95-184; libraries are <module>.so. *)
Definition f2py_module (k : gen) : str :=
  match k with
  | Rates => s_ "rate_coeff_f2py.so" | Reactants => s_ "reactants_conc_f2py.so"
  | LossGain => s_ "loss_gain_f2py.so" | Jacobian => s_ "jacobian_f2py.so"
  end.
Definition f2py_source (k : gen) : str :=
  match k with
  | Rates => s_ "Rate_coefficients.f90" | Reactants => s_ "Reactants_conc.f90"
  | LossGain => s_ "Loss_Gain.f90" | Jacobian => s_ "Jacobian.f90"
  end.
Definition f2py_build (k : gen) (n : Z) (st : pstate) : list act :=
  write_file (f2py_source k, Gen k n st) ++ [Compile (f2py_source k) (f2py_module k)].
Definition f2py_writes (fn : str) (n : Z) (st : pstate) : list act :=
  flat_map write_file [(sp2a_name fn, PSp2a (p_sp2a st)); (sp_name fn, PSp (p_sp st)); (eqs_name fn, PEqs n)] ++
  f2py_build Rates n st ++
  flat_map write_file [(fn ++ s_ "_reactant_indices.npy", Other); (fn ++ s_ "_reactants_stoich_indices.npy", Other)] ++
  f2py_build Reactants n st ++ f2py_build LossGain n st ++
  write_file (ro2_name fn, PRo2 (write_RO2_indices (p_sp2a st))) ++
  f2py_build Jacobian n st.
Definition f2py_acts (fn text : str) (d : dir) : list act :=
  clean_pass (ls d) f2py_patterns ++ write_file (eqn_name fn, Bytes text) ++
  match extract_mechanism text with Err _ => [] | Ok (n, st) => f2py_writes fn n st end.
Definition f2py_run (fn text : str) (d : dir) : res (dir * inputs) := parse_run f2py_module (f2py_acts fn text d) fn text d.

(* Aerosol_simulation_f2py.py:138-252: cleaning, then the files written. *)
Definition aerosol_files (fn text : str) (n : Z) (st : pstate) : list (str * content) :=
  [ (eqn_name fn, Bytes text); (sp2a_name fn, PSp2a (p_sp2a st)); (sp_name fn, PSp (p_sp st));
    (fn ++ s_ "_Pybel_object_dict.pickle", Other); (fn ++ s_ "_SMILES_dict.pickle", Other); (fn ++ s_ "_num_species_gas.pickle", Other);
    (f2py_source Rates, Gen Rates n st); (fn ++ s_ "_reactant_indices.npy", Other); (fn ++ s_ "_reactants_stoich_indices.npy", Other);
    (f2py_source Reactants, Gen Reactants n st); (f2py_source LossGain, Gen LossGain n st);
    (ro2_name fn, PRo2 (write_RO2_indices (p_sp2a st))) ].
Definition aerosol_parse (fn text : str) (d : dir) : dir * option exn :=
  match clean_passes aerosol_passes d with
  | (d', None) => match extract_mechanism text with
                  | Ok (n, st) => exec compiles (flat_map write_file (aerosol_files fn text n st)) d'
                  | Err e => (d', Some e)
                  end
  | r => r
  end.
(* Aerosol_simulation_f2py.py:257-284: the pickles read with files_exist True,
   in this order; the same list in the fixed-yield driver, which then reads one
   more. *)
Definition aerosol_reuse (fn : str) (d : dir) : res (list content) :=
  mapM (fun s => load (fn ++ s) d)
    [s_ "_species_dict2array.pickle"; s_ "_species_dict.pickle"; s_ "_equations.pickle";
     s_ "_Pybel_object_dict.pickle"; s_ "_SMILES_dict.pickle"; s_ "_num_species_gas.pickle"].

(* Aerosol_sim_fixed_yield.py:140-196; the tables come from extract_species. *)
Definition yield_files (fn : str) (sp2a : dict str nat) (sp : dict nat str) : list (str * content) :=
  [ (sp2a_name fn, PSp2a sp2a); (sp_name fn, PSp sp);
    (fn ++ s_ "_Pybel_object_dict.pickle", Other); (fn ++ s_ "_SMILES_dict.pickle", Other); (fn ++ s_ "_num_species_gas.pickle", Other);
    (fn ++ s_ "concentration_dict.pickle", Other) ].
Definition yield_parse (fn : str) (sp2a : dict str nat) (sp : dict nat str) (d : dir) : dir * option exn :=
  match clean_passes yield_passes d with
  | (d', None) => exec compiles (flat_map write_file (yield_files fn sp2a sp)) d'
  | r => r
  end.
Definition yield_reuse (fn : str) (d : dir) : res (list content) :=
  do l <- aerosol_reuse fn d; do c <- load (fn ++ s_ "concentration_dict.pickle") d; Ok (l ++ [c]).
End Drivers.
