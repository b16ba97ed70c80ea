(* Model of Parse_eqn_file.extract_smiles_species (312-356) and
   extract_species (359-427).  Pybel is a parameter: [readstring s] is the
   molecule made from the SMILES s, or the exception. *)
From Coq Require Import String List Bool Arith Ascii.
From Verif Require Import Base PyStr PyRe PyDict.
Import ListNotations.
Import Coq.Lists.List.
Open Scope nat_scope.
Open Scope list_scope.

(* ------------------------------------------------------------------ *)
(* Iterating over open(filename,"r"): line ends \r\n and \r are read as \n, and
   the text is cut after every \n.  The \n at the end of a line is dropped
   here; the code only calls line.split(). *)
Fixpoint universal (s : str) : str :=
  match s with
  | [] => []
  | c :: s' =>
      if Ascii.eqb c CR then
        match s' with
        | d :: s'' => if Ascii.eqb d NL then NL :: universal s'' else NL :: universal s'
        | [] => [NL]
        end
      else c :: universal s'
  end.
Fixpoint drop_last_empty (ps : list str) : list str :=
  match ps with
  | [] => []
  | [ [] ] => []
  | p :: ps' => p :: drop_last_empty ps'
  end.
Definition file_lines (s : str) : list str := drop_last_empty (split_char NL (universal s)).

(* A molecule is a new object each time readstring is called; [o_id] tells
   objects apart (concentration_dict is keyed by the object). *)
Record obj (O : Type) := Obj { o_id : nat; o_mol : O }.
Arguments Obj {O} _ _. Arguments o_id {O} _. Arguments o_mol {O} _.

Section Yields.
Context {O F : Type}.
Variable readstring : str -> res O.
Variable to_float : str -> res F.

(* output_dict (414-425); Pybel_object_activity equals concentration_dict. *)
Record yields := Yields {
  y_species : dict nat str; y_sp2a : dict str nat; y_objects : dict str (obj O);
  y_smiles_array : list str; y_smiles : dict str str; y_conc_array : list F;
  y_number : nat; y_conc : dict nat F }.
Definition yields0 : yields := Yields [] [] [] [] [] [] 0 [].

(* One round of the loop (393-411). *)
Definition yield_line (st : yields) (line : str) : res yields :=
  let input := split_ws line in
  do smiles <- py_nth input 0;
  if inb smiles (dvals (y_species st)) then Ok st
  else
    do w <- py_nth input 1;
    do c <- to_float w;
    do o <- readstring smiles;
    let n := y_number st in
    Ok (Yields (dset n smiles (y_species st)) (dset smiles n (y_sp2a st)) (dset smiles (Obj n o) (y_objects st))
          (y_smiles_array st ++ [smiles]) (dset smiles smiles (y_smiles st)) (y_conc_array st ++ [c])
          (n + 1) (dset n c (y_conc st))).

(* 359-427 *)
Definition extract_species (text : str) : res yields := foldM yield_line (file_lines text) yields0.
End Yields.
Arguments yields O F : clear implicits.

(* ------------------------------------------------------------------ *)
(* re.search(r'<smiles>(.*?)</smiles>', s).group(1); None where the search
   finds nothing and .group raises AttributeError. *)
Fixpoint lazy_until (stop s : str) : option str :=
  match prefix_rest stop s with
  | Some _ => Some []
  | None => match s with
            | [] => None
            | c :: s' => if Ascii.eqb c NL then None else option_map (cons c) (lazy_until stop s')
            end
  end.
Fixpoint search_smiles (s : str) : option str :=
  let here := match prefix_rest (s_ "<smiles>") s with Some r => lazy_until (s_ "</smiles>") r | None => None end in
  match here with
  | Some g => Some g
  | None => match s with [] => None | _ :: s' => search_smiles s' end
  end.

(* A <species> node: its attribute species_name, if it has one, and the toxml()
   of its first <smiles> descendant, if it has one (minidom is not modelled). *)
Record xnode := Node { x_name : option str; x_xml : option str }.

(* minidom's toxml() of <smiles>text</smiles> (Text.writexml escapes the four
   characters; an empty element is written <smiles/>). *)
Definition escape (t : str) : str :=
  replace (s_ ">") (s_ "&gt;") (replace ["034"%char] (s_ "&quot;") (replace (s_ "<") (s_ "&lt;") (replace (s_ "&") (s_ "&amp;") t))).
Definition smiles_xml (t : str) : str :=
  match t with [] => s_ "<smiles/>" | _ => s_ "<smiles>" ++ escape t ++ s_ "</smiles>" end.

Section Smiles.
Context {O : Type}.
Variable readstring : str -> res O.

(* SMILES_dict, Pybel_object_dict and the local variable species_SMILES, which
   keeps its value from one round to the next. *)
Record smap := Smap { m_smiles : dict str str; m_objects : dict str O; m_last : option str }.

(* ['OH','HO2','O3','hv'] *)
Definition no_smiles : list str := [s_ "OH"; s_ "HO2"; s_ "O3"; s_ "hv"].

(* One round of the loop (334-348).  The except clause catches everything, so a
   missing or unreadable entry only prints a message. *)
Definition node_step (species : list str) (st : smap) (nd : xnode) : res smap :=
  match x_name nd with
  | None => Err KeyError
  | Some name =>
      if inb name no_smiles then Ok st
      else if inb name species then
        let last := match x_xml nd with
                    | None => m_last st
                    | Some xml => match search_smiles xml with Some g => Some g | None => m_last st end
                    end in
        match last with
        | None => Err UnboundLocalError
        | Some sm =>
            let d := dset name sm (m_smiles st) in
            do o <- readstring sm;
            Ok (Smap d (dset sm o (m_objects st)) last)
        end
      else Ok st
  end.

(* 312-356; [species] is species_dict.values(). *)
Definition extract_smiles (species : list str) (nodes : list xnode) : res smap :=
  foldM (node_step species) nodes (Smap [] [] None).
End Smiles.
Arguments smap O : clear implicits.
