(* Model of extract_mechanism, Parse_eqn_file.py:46-310. *)
From Coq Require Import List Bool Arith Lia Ascii String ZArith QArith.
From Verif Require Import Base PyStr PyRe PyDict.
Import ListNotations.
Open Scope nat_scope.
Open Scope list_scope.

(* Parse_eqn_file.py:81-83.  open(..).read() translates \r\n and \r to \n
   (universal newlines); .replace('\n','') then deletes every \n.
   The extra open(filename,'rU') of line 81 has no effect on the result (it
   raises on Python >= 3.11, which is later than the pinned code). *)
Fixpoint universal_newlines (s : str) : str :=
  match s with
  | [] => []
  | c :: s' =>
      if Ascii.eqb c CR
      then match s' with
           | d :: s'' => if Ascii.eqb d NL then NL :: universal_newlines s''
                         else NL :: universal_newlines s'
           | [] => [NL]
           end
      else c :: universal_newlines s'
  end.

Definition read_data (content : str) : str :=
  remove_char NL (universal_newlines content).

(* Parse_eqn_file.py:88: int(re.findall(r"\{(.*?)\}",data)[-1].strip('.')) *)
Definition count_equations (data : str) : res Z :=
  do l <- py_last (findall_labels data);
  py_int (strip (Ascii.eqb "."%char) l).

(* The name 'hv' that is not a chemical species (lines 215, 266). *)
Definition hv : str := s_ "hv".

(* Parse_eqn_file.py:184-211 (reactants) and 238-264 (products): split a
   coefficient off a word.  Every exception inside the try block gives
   coefficient 1.0, keeping whatever name has been assigned so far. *)
Definition split_coef (w : str) : Q * str :=
  match findall_numbers w with
  | [] => (1%Q, w)                              (* temp[0]: IndexError, caught *)
  | n :: more =>
      match find_sub n w with
      | Some 0 =>
          let rest := nth 1 (split1_str n w) [] in
          let name := match more with [] => rest | n2 :: _ => rest ++ n2 end in
          match py_float n with
          | Ok q => (q, name)
          | Err _ => (1%Q, name)
          end
      | _ => (1%Q, w)                           (* index <> 0 *)
      end
  end.

(* The dictionaries built by the loop (lines 112-124, 131).
   species_hess_data stays empty in the code and is omitted. *)
Record pstate := mkP {
  p_rate   : dict nat str;                 (* rate_dict *)
  p_stoich : dict nat (dict nat Q);        (* stoich_dict *)
  p_reac   : dict nat (dict nat str);      (* rate_dict_reactants *)
  p_loss   : dict str (dict nat Q);        (* loss_dict *)
  p_gain   : dict str (dict nat Q);        (* gain_dict *)
  p_sp     : dict nat str;                 (* species_dict *)
  p_sp2a   : dict str nat;                 (* species_dict2array *)
  p_hloss  : dict str (list nat);          (* species_hess_loss_data *)
  p_hgain  : dict str (list nat);          (* species_hess_gain_data *)
  p_step   : nat                           (* species_step *)
}.

Definition pstate0 : pstate := mkP [] [] [] [] [] [] [] [] [] 0.

(* Lines 219-222 and 268-271. *)
Definition register (nm : str) (st : pstate) : pstate :=
  if inb nm (dvals (p_sp st)) then st
  else mkP (p_rate st) (p_stoich st) (p_reac st) (p_loss st) (p_gain st)
           (dset (p_step st) nm (p_sp st)) (dset nm (p_step st) (p_sp2a st))
           (p_hloss st) (p_hgain st) (S (p_step st)).

(* Lines 224-226 and 273-275: append eq to the list of nm. *)
Definition hess_add (nm : str) (eq : nat) (h : dict str (list nat)) :=
  dset nm (dget_or [] nm h ++ [eq]) h.

(* Lines 228-231: loss_dict[nm][eq] += / = stoich. *)
Definition add_loss (nm : str) (eq : nat) (c : Q) (l : dict str (dict nat Q)) :=
  match dget2 nm eq l with
  | Some v => dset2 nm eq (v + c)%Q l
  | None => dset2 nm eq c l
  end.

(* Body of the reactant loop after the coefficient was split off
   (lines 215-233).  step is reactant_step. *)
Definition proc_reactant (eq step : nat) (it : Q * str) (st : pstate) : pstate :=
  let '(c, nm) := it in
  if eqb nm hv then st
  else
    let st1 := mkP (p_rate st) (dset2 eq step c (p_stoich st))
                   (dset2 eq step nm (p_reac st)) (p_loss st) (p_gain st)
                   (p_sp st) (p_sp2a st) (p_hloss st) (p_hgain st) (p_step st) in
    let st2 := register nm st1 in
    mkP (p_rate st2) (p_stoich st2) (p_reac st2)
        (add_loss nm eq c (p_loss st2)) (p_gain st2)
        (p_sp st2) (p_sp2a st2) (hess_add nm eq (p_hloss st2)) (p_hgain st2) (p_step st2).

(* Lines 277-280.  [last] is the Python variable 'reactant', i.e. the last
   reactant name of the equation: the code tests gain_dict[reactant] where
   gain_dict[product] is meant.  Testing membership in gain_dict[reactant]
   inserts an empty entry (defaultdict); the += branch raises KeyError when
   gain_dict[product] has no entry for eq, which the surrounding
   try/except swallows after gain_dict[product] was created. *)
Definition add_gain (last nm : str) (eq : nat) (c : Q) (g : dict str (dict nat Q)) :=
  let e := [] : dict nat Q in
  let g1 := dtouch e last g in
  if dmem eq (dget_or e last g1)
  then let g2 := dtouch e nm g1 in
       match dget eq (dget_or e nm g2) with
       | Some v => dset2 nm eq (v + c)%Q g2
       | None => g2
       end
  else dset2 nm eq c g1.

(* Body of the product loop after the coefficient was split off
   (lines 265-282). *)
Definition proc_product (eq : nat) (last : str) (it : Q * str) (st : pstate) : pstate :=
  let '(c, nm) := it in
  if eqb nm hv then st
  else
    let st2 := register nm st in
    mkP (p_rate st2) (p_stoich st2) (p_reac st2) (p_loss st2)
        (add_gain last nm eq c (p_gain st2))
        (p_sp st2) (p_sp2a st2) (p_hloss st2) (hess_add nm eq (p_hgain st2)) (p_step st2).

(* Lines 179-232: the reactant loop over the '+'-separated texts; carries
   (state, reactant_step, last reactant name).  A blank reactant raises
   IndexError (split()[0], line 180, outside the try). *)
Definition reactant_iter (eq : nat) (acc : pstate * nat * str) (x : str)
  : res (pstate * nat * str) :=
  let '(st, step, _) := acc in
  do w <- py_nth (split_ws x) 0;
  let it := split_coef w in
  Ok (proc_reactant eq step it st, S step, snd it).

(* Lines 233-289: the product loop; a blank product raises inside the try
   and is skipped. *)
Definition product_iter (eq : nat) (last : str) (st : pstate) (x : str) : pstate :=
  match split_ws x with
  | [] => st
  | w :: _ => proc_product eq last (split_coef w) st
  end.

(* Lines 139-153: reactant texts, product texts and the rate text. *)
Definition parse_body (b : str) : res (list str * list str * str) :=
  let full := remove_char TAB b in
  do head <- py_nth (split1 ":"%char full) 0;
  let equation := split1 "="%char head in
  do l <- py_nth equation 0;
  let reactants := map (strip (Ascii.eqb SP)) (split_char "+"%char l) in
  do r <- py_nth equation 1;
  let products := map (strip (Ascii.eqb SP)) (split_char "+"%char r) in
  do rate_full <- py_nth (split1 ":"%char full) 1;
  Ok (reactants, products, List.concat (split_ws (strip is_space rate_full))).

(* Line 153. *)
Definition set_rate (eq : nat) (rt : str) (st : pstate) : pstate :=
  mkP (dset eq rt (p_rate st)) (p_stoich st) (p_reac st) (p_loss st) (p_gain st)
      (p_sp st) (p_sp2a st) (p_hloss st) (p_hgain st) (p_step st).

(* One pass of the main loop, lines 137-289.  The initial value of the
   'last reactant' component is never read: the list of reactant texts is
   never empty. *)
Definition equation_iter (eqn_list : list str) (st : pstate) (eq : nat) : res pstate :=
  do b <- py_nth eqn_list eq;
  do '(reactants, products, rt) <- parse_body b;
  do '(st1, _, last) <- foldM (reactant_iter eq) reactants (set_rate eq rt st, 0, []);
  Ok (fold_left (product_iter eq last) products st1).

(* The whole function; returns max_equations and the dictionaries. *)
Definition extract_mechanism (content : str) : res (Z * pstate) :=
  let data := read_data content in
  do n <- count_equations data;
  let eqn_list := findall_bodies data in
  do st <- foldM (equation_iter eqn_list) (seq 0 (Z.to_nat n)) pstate0;
  Ok (n, st).
