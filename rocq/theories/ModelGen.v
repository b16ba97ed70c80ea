(* The code generators for reactant products, dydt and the Jacobian,
   Parse_eqn_file.py:2129-3200.  They return the assignments they write, in
   order, as token sequences (see ModelLang.v).  File headers and declarations
   are not represented; coefficients are exact rationals. *)
From Coq Require Import List Bool Arith Lia Ascii String ZArith QArith.
From Verif Require Import Base PyStr PyDict ModelParse ModelLang.
Import ListNotations.
Import Coq.Lists.List.
Open Scope nat_scope.
Open Scope list_scope.

Definition table := dict str (dict nat Q).          (* loss_dict, gain_dict *)
Definition rtable := dict nat (dict nat str).       (* rate_dict_reactants *)

(* d[k] on a dictionary without default for k. *)
Definition key {A} (o : option A) : res A := match o with Some a => Ok a | None => Err KeyError end.

(* rate_dict_reactants is a defaultdict: a missing equation reads as {}. *)
Definition row_of (eq : nat) (rt : rtable) : dict nat str := dget_or ([] : dict nat str) eq rt.
Definition srow (s : str) (d : table) : dict nat Q := dget_or ([] : dict nat Q) s d.

Definition isone (q : Q) : bool := Qeq_bool q 1.

(* 'y[i]' or 'y[i]**stoich' (2221, 2224, 2228, 2230 and the Fortran
   2339-2348 with off = 1). *)
Definition power_toks (off i : nat) (stoich : Q) : list tok :=
  if isone stoich then [TRef AY (i + off)] else [TRef AY (i + off); TPow; TNum stoich].

(* One pass of the loop over the reactants of an equation (2216-2230 numba,
   off = 0; 2334-2348 Fortran, off = 1).  The text is empty as long as step
   is 0. *)
Definition react_step (off : nat) (sp2a : dict str nat) (loss : table) (eq : nat)
  (acc : list tok) (p : nat * str) : res (list tok) :=
  let r := snd p in
  if eqb r hv then Ok acc
  else do q <- key (dget2 r eq loss);
       do i <- key (dget r sp2a);
       Ok (acc ++ (match acc with [] => [] | _ => [TStar] end) ++ power_toks off i q).

Definition react_line off sp2a loss (rt : rtable) eq : res (list (item nat)) :=
  do l <- foldM (react_step off sp2a loss eq) (row_of eq rt) [];
  Ok (match l with [] => [] | _ => [Assign (eq + off) l] end).

(* write_reactants_indices, generated function (2214-2232). *)
Definition gen_reactants_numba (n : nat) sp2a rt loss : res (list (item nat)) :=
  do ls <- mapM (react_line 0 sp2a loss rt) (seq 0 n); Ok (concat ls).

(* The OpenMP frame around a loop whose i-th pass writes the i-th chunk
   (2326-2333, 2350-2352; 2580-2587, 2641-2643; 2729-2735, 2935-2937).
   breaks is break_list when openMP is True. *)
Fixpoint omp_chunks {C E} (i : nat) (breaks : list nat) (ls : list (list (gitem C E))) : list (gitem C E) :=
  match ls with
  | [] => []
  | l :: ls' =>
      (if i =? 0 then [OmpParallel; OmpSingle] else []) ++
      (if inb i breaks then [OmpEndSingle; OmpSingle] else []) ++ l ++
      omp_chunks (S i) breaks ls'
  end.
Definition omp_frame {C E} (omp : option (list nat)) (ls : list (list (gitem C E))) : list (gitem C E) :=
  match omp with
  | None => concat ls
  | Some breaks => omp_chunks 0 breaks ls ++ [OmpEndSingle; OmpEndParallel]
  end.

(* [int(x) for x in np.linspace(0,n,cores)][1:-1] (2279, 2571, 2723), with
   exact instead of floating point division. *)
Definition break_list (n cores : nat) : list nat :=
  map (fun i => i * n / (cores - 1)) (seq 1 (cores - 2)).

(* write_reactants_indices_fortran (2324-2352). *)
Definition gen_reactants_fortran (omp : option (list nat)) (n : nat) sp2a rt loss : res (list (item nat)) :=
  do ls <- mapM (react_line 1 sp2a loss rt) (seq 0 n); Ok (omp_frame omp ls).

(* The sparse matrix of reactant coefficients (2166-2171). *)
Definition sparse := dict (nat * nat) Q.
Definition sp_entry (m : sparse) i j : Q := dget_or 0%Q (i, j) m.

Definition sparse_react_step sp2a (loss : table) eq (m : sparse) (p : nat * str) : res sparse :=
  let r := snd p in
  if eqb r hv then Ok m
  else do q <- key (dget2 r eq loss); do i <- key (dget r sp2a); Ok (dset (eq, i) q m).
Definition sparse_reactants (n : nat) sp2a (rt : rtable) loss : res sparse :=
  foldM (fun m eq => foldM (sparse_react_step sp2a loss eq) (row_of eq rt) m) (seq 0 n) [].

(* ['AIR','H2O','O2','hv'] *)
Definition excluded : list str := [s_ "AIR"; s_ "H2O"; s_ "O2"; s_ "hv"].

(* write_loss_gain_matrix, sparse part (2391-2407).  Reading loss_dict[species]
   and gain_dict[species] inserts missing keys. *)
Definition sparse_lg_step (i : nat) (sg : Q) (m : sparse) (p : nat * Q) : sparse :=
  let '(eq, q) := p in dset (i, eq) (if isone q then sg else sg * q)%Q m.
Fixpoint sparse_lg (sp : dict str nat) (loss gain : table) (m : sparse) : table * table * sparse :=
  match sp with
  | [] => (loss, gain, m)
  | (s, i) :: sp' =>
      if inb s excluded then sparse_lg sp' loss gain m
      else
        let loss' := dtouch ([] : dict nat Q) s loss in
        let gain' := dtouch ([] : dict nat Q) s gain in
        let m1 := fold_left (sparse_lg_step i (-1)) (srow s loss') m in
        let m2 := fold_left (sparse_lg_step i 1) (srow s gain') m1 in
        sparse_lg sp' loss' gain' m2
  end.

(* 'r[k]' or 'r[k]*stoich' *)
Definition rate_toks (off k : nat) (q : Q) : list tok :=
  if isone q then [TRef AR (k + off)] else [TRef AR (k + off); TStar; TNum q].

(* Loss and gain terms of one species, numba (2454-2493). *)
Fixpoint losses_numba (first : bool) (row : dict nat Q) : list tok :=
  match row with
  | [] => []
  | (k, q) :: row' =>
      (if first then [TMinus; TNum 1; TStar] else [TMinus]) ++ rate_toks 0 k q ++ losses_numba false row'
  end.
Fixpoint gains_numba (row : dict nat Q) : list tok :=
  match row with
  | [] => []
  | (k, q) :: row' => TPlus :: rate_toks 0 k q ++ gains_numba row'
  end.

(* One line of the generated dydt (2450-2496). *)
Definition lg_line_numba (loss gain : table) (p : str * nat) : list (item nat) :=
  let '(s, i) := p in
  if inb s excluded then []
  else if dmem s loss || dmem s gain then
    [Assign i (losses_numba true (srow s loss) ++ gains_numba (srow s gain))]
  else [].

(* write_loss_gain_matrix (2367-2499): the sparse matrix and the program. *)
Definition gen_loss_gain_numba (sp2a : dict str nat) (loss gain : table)
  : table * table * sparse * list (item nat) :=
  let '(loss', gain', m) := sparse_lg sp2a loss gain [] in
  (loss', gain', m, flat_map (lg_line_numba loss' gain') sp2a).

(* Fortran terms (2595-2635): base 1, the coefficient printed is stoich+1, a
   continuation mark once more than four terms are on the line. *)
Definition rate_toks_f (k : nat) (q : Q) : list tok :=
  if isone q then [TRef AR (k + 1)] else [TRef AR (k + 1); TStar; TNum (q + 1)].
Definition cont (limit flag : nat) : list tok * nat :=
  if limit <? flag then ([TCont], 0) else ([], flag).
Fixpoint losses_fortran (flag : nat) (first : bool) (row : dict nat Q) : list tok * nat :=
  match row with
  | [] => ([], flag)
  | (k, q) :: row' =>
      let '(c, flag1) := cont 4 flag in
      let '(rest, flag2) := losses_fortran (S flag1) false row' in
      (c ++ (if first then [TMinus; TNum 1; TStar] else [TMinus]) ++ rate_toks_f k q ++ rest, flag2)
  end.
Fixpoint gains_fortran (flag : nat) (row : dict nat Q) : list tok :=
  match row with
  | [] => []
  | (k, q) :: row' =>
      let '(c, flag1) := cont 4 flag in
      c ++ TPlus :: rate_toks_f k q ++ gains_fortran (S flag1) row'
  end.

Definition lg_line_fortran (loss gain : table) (p : str * nat) : list (item nat) :=
  let '(s, i) := p in
  if inb s excluded then []
  else if dmem s loss || dmem s gain then
    let '(l, flag) := losses_fortran 0 true (srow s loss) in
    [Assign (i + 1) (l ++ gains_fortran flag (srow s gain))]
  else [].

(* write_loss_gain_fortran (2578-2643); the statement loss_gain_array(:)=0
   (2576) runs first, outside the parallel region. *)
Definition gen_loss_gain_fortran (omp : option (list nat)) (sp2a : dict str nat) (loss gain : table)
  : list (item nat) := omp_frame omp (map (lg_line_fortran loss gain) sp2a).

(* ------------------------------------------------------------------ *)
(* Jacobian (2649-3200).  list(set(l)) enumerates the elements of l in an
   order that the program does not control; it may differ at each of the
   places where it is used. *)
Inductive site :=
| SiteLoss (s : str) | SiteGain (s : str) | SiteFinal (s : str)
| SiteEq (s reactant : str) (eq : nat) (gain : bool).
Definition set_order := site -> list str -> list str.
Definition is_set_order (ord : set_order) : Prop :=
  forall st l, NoDup (ord st l) /\ forall x, In x (ord st l) <-> In x l.

Definition reactants_of (rt : rtable) (eq : nat) : list str := map snd (row_of eq rt).

Section Jac.
Variable off : nat.
Variable sp2a : dict str nat.
Variable rt : rtable.
Variable loss gain : table.
Variable ord : set_order.
Variable conts : bool.        (* Fortran writes continuation marks *)

(* One reactant2 (2799-2847 and 2875-2923; 3063-3111 and 3139-3187).  The
   state is (step = 1, text).  sgn is '-' for losses and '+' for gains.  The
   branch stoich_first==1 is the other one with the reactant itself skipped. *)
Definition jac_factor (sgn : tok) (eq : nat) (reactant : str) (sf : Q)
  (acc : bool * list tok) (r2 : str) : res (bool * list tok) :=
  let '(first, l) := acc in
  if eqb r2 hv then Ok acc
  else if eqb r2 reactant then
    if isone sf then Ok acc
    else
      do i <- key (dget r2 sp2a);
      let lead := if first then [sgn] else [TStar] in
      if Qeq_bool sf 2 then Ok (false, l ++ lead ++ [TNum sf; TStar; TRef AY (i + off)])
      else if Qle_bool sf 2 then Ok acc
      else Ok (false, l ++ lead ++ [TNum sf; TStar; TRef AY (i + off); TPow; TNum (sf - 1)])
  else
    do q <- key (dget2 r2 eq loss);
    do i <- key (dget r2 sp2a);
    let lead := if first then [sgn; TNum 1; TStar] else [TStar] in
    Ok (false, l ++ lead ++ power_toks off i q).

(* The text for one equation of a row (2788-2854, 2861-2930). *)
Definition jac_term (sgn : tok) (s reactant : str) (gainp : bool) (eq : nat) : res (list tok) :=
  do sf <- key (dget2 reactant eq loss);
  do ' (first, l) <- foldM (jac_factor sgn eq reactant sf) (ord (SiteEq s reactant eq gainp) (reactants_of rt eq)) (true, []);
  Ok (l ++ (if first then [sgn; TNum 1; TStar; TRef AR (eq + off)] else [TStar; TRef AR (eq + off)])).

Fixpoint jac_terms (sgn : tok) (s reactant : str) (gainp : bool) (flag : nat) (eqs : list nat)
  : res (list tok * nat) :=
  match eqs with
  | [] => Ok ([], flag)
  | eq :: eqs' =>
      if inb reactant (reactants_of rt eq) then
        let '(c, flag1) := cont 3 flag in
        do t <- jac_term sgn s reactant gainp eq;
        do ' (rest, flag2) <- jac_terms sgn s reactant gainp (S flag1) eqs';
        Ok ((if conts then c else []) ++ t ++ rest, flag2)
      else jac_terms sgn s reactant gainp flag eqs'
  end.

(* The lines of one row (2739-2933, 3000-3197). *)
Definition jac_row (p : str * nat) : res (list (item (nat * nat))) :=
  let '(s, i) := p in
  if inb s excluded then Ok []
  else
    let el := dkeys (srow s loss) in
    let eg := dkeys (srow s gain) in
    let rl := ord (SiteLoss s) (flat_map (reactants_of rt) el) in
    let rg := ord (SiteGain s) (flat_map (reactants_of rt) eg) in
    let fl := ord (SiteFinal s) (rl ++ rg) in
    mapM (fun reactant =>
      do j <- key (dget reactant sp2a);
      do ' (tl, flag) <- jac_terms TMinus s reactant false 0 el;
      do ' (tg, _) <- jac_terms TPlus s reactant true flag eg;
      Ok (Assign (i + off, j + off) (tl ++ tg))) fl.
End Jac.

(* write_gas_jacobian_numba (2996-3199). *)
Definition gen_jacobian_numba (ord : set_order) sp2a rt loss gain : res (list (item (nat * nat))) :=
  do ls <- mapM (jac_row 0 sp2a rt loss gain ord false) sp2a; Ok (concat ls).

(* write_gas_jacobian_fortran (2727-2938). *)
Definition gen_jacobian_fortran (ord : set_order) (omp : option (list nat)) sp2a rt loss gain
  : res (list (item (nat * nat))) :=
  do ls <- mapM (jac_row 1 sp2a rt loss gain ord true) sp2a; Ok (omp_frame omp ls).
