(* C42-C45, C53, C62-C64: the set-up of the aerosol model. *)
From Coq Require Import List Bool Arith Lia String Permutation Sorted ZArith Reals Lra.
From Verif Require Import Base PyStr PyDict ModelParse SpecMech ParseStruct ParseTables SpecKin LangFacts ModelExpr ModelSolver
  ModelPart SpecPart PartFacts PartValue PropsPart PropsSolver ModelAero AeroFacts SpecAero.
Import ListNotations.
Import Coq.Lists.List.
Open Scope nat_scope.
Open Scope list_scope.
Local Arguments eqb : simpl never.

(* What the parser hands over. *)
Lemma parsed_names text n st : extract_mechanism text = Ok (n, st) -> exists names,
  dvals (p_sp st) = names /\ List.length (p_sp st) = List.length names /\
  (forall x k, dget x (p_sp2a st) = Some k <-> nth_error names k = Some x) /\
  (forall x k, dget k (p_sp st) = Some x <-> nth_error names k = Some x).
Proof.
  intros H. apply extract_Ok in H as (_ & m & _ & _ & _ & _ & ->). exists (species m).
  assert (E : dvals (p_sp (interp m)) = species m).
  { destruct (interp_species m) as (-> & _). unfold dvals. generalize 0. induction (species m) as [|x l IH]; intros k; cbn; [reflexivity | f_equal; apply IH]. }
  split; [exact E|]. split; [rewrite <- E; symmetry; apply map_length|]. split; intros x k; [apply interp_sp2a | apply interp_sp].
Qed.

Section Excluded.
Context (smiles : dict str str) (objects : dict str chem) (ignore_vp : bool) (cutoff : R).
Lemma molecule_iff x c : molecule smiles objects x = Some c <-> molecule_of smiles objects x c.
Proof.
  unfold molecule, molecule_of. destruct (dget x smiles) as [s|].
  - split; [intros H; eauto | intros (s' & E & H); congruence].
  - split; [discriminate | intros (s' & E & H); discriminate].
Qed.
Lemma ign_iff x : ign smiles objects ignore_vp cutoff x = true <-> excluded smiles objects ignore_vp cutoff x.
Proof.
  unfold ign, excluded, dmem. destruct (dget x smiles) as [s|] eqn:E; cbn [negb orb].
  - rewrite andb_true_iff. split.
    + intros [-> H]. right. split; [reflexivity|]. destruct (molecule smiles objects x) as [c|] eqn:M; [|discriminate]. apply molecule_iff in M. exists c.
      destruct (Rlt_dec cutoff (c_vp c)); [auto | discriminate].
    + intros [H|[-> (c & M & H)]]; [discriminate|]. split; [reflexivity|]. apply molecule_iff in M. rewrite M. destruct (Rlt_dec cutoff (c_vp c)); [reflexivity | contradiction].
  - split; auto.
Qed.
End Excluded.

(* The include and ignore lists together are every species index exactly once,
   a species is in the ignore list exactly when it has no SMILES or is too
   volatile, and the array passed to the Fortran code is the indicator of the
   ignore list. *)
Theorem C43_partition text n st smiles objects ignore_vp cutoff p :
  extract_mechanism text = Ok (n, st) ->
  Pure_component1 (List.length (p_sp st)) (p_sp st) (p_sp2a st) smiles objects ignore_vp cutoff = Ok p ->
  Permutation (pc_include p ++ pc_ignore p) (seq 0 (List.length (p_sp st))) /\
  List.length (pc_flag p) = List.length (p_sp st) /\
  forall i x, dget i (p_sp st) = Some x ->
    (In i (pc_ignore p) <-> excluded smiles objects ignore_vp cutoff x) /\
    (In i (pc_include p) <-> ~ excluded smiles objects ignore_vp cutoff x) /\
    (excluded smiles objects ignore_vp cutoff x -> nth_error (pc_flag p) i = Some 1%R) /\
    (~ excluded smiles objects ignore_vp cutoff x -> nth_error (pc_flag p) i = Some 0%R).
Proof.
  intros H Hp. destruct (parsed_names text n st H) as (names & E & L & Hsp & Hs). unfold Pure_component1 in Hp. rewrite E, L in Hp. rewrite L.
  apply (fold_all names (p_sp2a st) smiles objects ignore_vp cutoff Hsp) in Hp. destruct Hp as ((_ & _ & _ & _ & _ & LF) & I1 & I2 & I3).
  split; [|split; [exact LF|]].
  - rewrite I1, I2. generalize (seq 0 (List.length names)). intros l. induction l as [|a l IH]; [constructor|]. cbn [filter].
    destruct (ign_at names smiles objects ignore_vp cutoff a); cbn [negb app].
    + rewrite <- Permutation_middle. constructor. exact IH.
    + constructor. exact IH.
  - intros i x Hi. apply Hs in Hi. assert (Hin : i < List.length names) by (apply nth_error_Some; congruence).
    assert (EI : ign_at names smiles objects ignore_vp cutoff i = ign smiles objects ignore_vp cutoff x) by (unfold ign_at; rewrite Hi; reflexivity).
    assert (HF : nth_error (pc_flag p) i = Some (if ign smiles objects ignore_vp cutoff x then 1 else 0)%R).
    { rewrite (nth_error_nth' _ 0%R) by lia. rewrite (proj1 (I3 i x Hi)), (proj2 (Nat.ltb_lt _ _) Hin). reflexivity. }
    rewrite I1, I2, !filter_In, EI, <- ign_iff, in_seq, HF. destruct (ign smiles objects ignore_vp cutoff x); cbn [negb]; intuition (lia || congruence).
Qed.

(* It goes through exactly when every SMILES in use was turned into an object
   with at least one carbon atom. *)
Theorem C43_exactly_when text n st smiles objects ignore_vp cutoff :
  extract_mechanism text = Ok (n, st) ->
  (exists p, Pure_component1 (List.length (p_sp st)) (p_sp st) (p_sp2a st) smiles objects ignore_vp cutoff = Ok p) <->
  (forall i x s, dget i (p_sp st) = Some x -> dget x smiles = Some s -> exists c, dget s objects = Some c /\ c_C c <> 0).
Proof.
  intros H. destruct (parsed_names text n st H) as (names & E & L & Hsp & Hs). unfold Pure_component1. rewrite E, L. split.
  - intros [p Hp] i x s Hi. apply Hs in Hi. apply fold_unusable in Hp. apply (proj1 (Forall_forall _ _) Hp x (nth_error_In _ _ Hi)).
  - intros U. destruct (fold_usable names (p_sp2a st) smiles objects ignore_vp cutoff Hsp names 0 (start names) eq_refl eq_refl) as (p & Hp & _); [| apply inv_start | eauto].
    apply Forall_forall. intros x Hx. apply In_nth_error in Hx as [i Hi]. intros s Hxs. apply (U i x s); [apply Hs; exact Hi | exact Hxs].
Qed.

Lemma sorted_lt l : StronglySorted le l -> NoDup l -> StronglySorted lt l.
Proof.
  induction 1 as [|x l H IH F]; intros Nd; [constructor|]. inversion Nd as [|? ? Hn Nd']; subst. constructor; [apply IH, Nd'|].
  apply Forall_forall. intros y Hy. assert (Q := proj1 (Forall_forall _ _) F y Hy). assert (y <> x) by (intros ->; contradiction). lia.
Qed.

(* With ignore_vp the arrays describe the same list of components: first the
   included species, in increasing order of index, then water with a fresh
   index. *)
Theorem C44_partial text n st smiles objects cutoff p temp :
  extract_mechanism text = Ok (n, st) ->
  Pure_component1 (List.length (p_sp st)) (p_sp st) (p_sp2a st) smiles objects true cutoff = Ok p ->
  exists d, prepare (List.length (p_sp st)) (p_sp2a st) p true temp = Ok d /\
    d_ns d = List.length (p_sp st) + 1 /\ d_nc d = List.length (d_include d) /\
    List.length (d_density d) = d_nc d /\ List.length (d_mw d) = d_nc d /\ List.length (d_vp d) = d_nc d /\
    List.length (d_flag d) = d_ns d /\
    StronglySorted lt (d_include d) /\ Forall (fun g => g < d_ns d) (d_include d) /\
    (forall j i, nth_error (d_include d) j = Some i -> j < d_nc d - 1 -> exists x c, dget i (p_sp st) = Some x /\
       molecule_of smiles objects x c /\ (c_vp c <= cutoff)%R /\
       nth_error (d_density d) j = Some (c_density c * 1000)%R /\ nth_error (d_mw d) j = Some (c_molwt c) /\ nth_error (d_vp d) j = Some (c_vp c)) /\
    (forall i x, dget i (p_sp st) = Some x -> ~ excluded smiles objects true cutoff x -> exists j, j < d_nc d - 1 /\ nth_error (d_include d) j = Some i) /\
    1 <= d_nc d /\
    nth_error (d_include d) (d_nc d - 1) = Some (List.length (p_sp st)) /\ nth_error (d_density d) (d_nc d - 1) = Some 1000%R /\
    nth_error (d_mw d) (d_nc d - 1) = Some 18%R /\ nth_error (d_vp d) (d_nc d - 1) = Some (water_vp temp) /\
    dget (s_ "H2O") (d_sp2a d) = Some (List.length (p_sp st)) /\ (forall x, x <> s_ "H2O" -> dget x (d_sp2a d) = dget x (p_sp2a st)).
Proof.
  intros H Hp. destruct (C43_partition text n st smiles objects true cutoff p H Hp) as (P & LF & HI).
  destruct (parsed_names text n st H) as (names & E & L & Hsp & Hs). unfold Pure_component1 in Hp. rewrite E, L in Hp. rewrite L in *.
  assert (U := fold_unusable _ _ _ _ _ _ _ _ Hp).
  apply (fold_all names (p_sp2a st) smiles objects true cutoff Hsp) in Hp. destruct Hp as ((L1 & L2 & L3 & _ & _ & _) & I1 & _ & I3).
  set (inc := sorted (pc_include p)).
  assert (Pi : Permutation (pc_include p) inc) by apply sorted_perm.
  assert (Hin : forall i, In i inc <-> In i (pc_include p)).
  { intros i. split; [apply Permutation_in, Permutation_sym, Pi | apply Permutation_in, Pi]. }
  assert (Hlt : forall i, In i inc -> i < List.length names).
  { intros i Hi. apply Hin in Hi. assert (Q := Permutation_in i P (in_or_app _ _ _ (or_introl Hi))). apply in_seq in Q. lia. }
  unfold prepare, shave. fold inc. rewrite !mapM_py_nth by (intros i Hi; rewrite ?L1, ?L2, ?L3; apply Hlt, Hi). cbn [bind].
  eexists. split; [reflexivity|]. cbn [d_ns d_nc d_density d_mw d_vp d_include d_flag d_sp2a]. rewrite !app_length, !map_length. cbn [List.length].
  assert (Nd : NoDup inc).
  { apply (Permutation_NoDup Pi). rewrite I1. apply NoDup_filter, seq_NoDup. }
  assert (Slt : StronglySorted lt inc) by (apply sorted_lt; [apply sorted_sorted | exact Nd]).
  do 6 (split; [lia|]).
  split; [|split; [|split; [|split; [|split; [lia|]]]]].
  - rewrite Nat.add_sub. clear - Slt Hlt. induction inc as [|x l IH]; cbn; [repeat constructor|]. inversion Slt as [|? ? S1 F1]; subst.
    constructor; [apply IH; [intros i Hi; apply Hlt; right; exact Hi | exact S1]|]. apply Forall_app. split; [exact F1|]. constructor; [apply Hlt; left; reflexivity | constructor].
  - apply Forall_app. split; [|constructor; [lia | constructor]]. apply Forall_forall. intros i Hi. apply Hlt in Hi. lia.
  - intros j i Hj Hjl. rewrite nth_error_app1 in Hj by lia. assert (Hi := nth_error_In _ _ Hj).
    destruct (nth_error names i) as [x|] eqn:Ex; [|apply nth_error_None in Ex; specialize (Hlt i Hi); lia].
    destruct (HI i x (proj2 (Hs x i) Ex)) as (_ & HI2 & _). assert (NE := proj1 HI2 (proj1 (Hin i) Hi)).
    destruct (molecule smiles objects x) as [c|] eqn:M.
    + exists x, c. split; [apply Hs, Ex|]. split; [apply molecule_iff, M|]. split.
      * apply Rnot_lt_le. intros Hc. apply NE. right. split; [reflexivity|]. exists c. split; [apply molecule_iff, M | exact Hc].
      * rewrite !nth_error_app1 by (rewrite map_length; lia). destruct (I3 i x Ex) as (_ & D1 & D2 & D3). rewrite M in D1, D2, D3.
        rewrite (proj2 (Nat.ltb_lt _ _) (Hlt i Hi)) in D1, D2, D3. split; [|split].
        -- exact (eq_trans (map_nth_error (fun i => nth i (pc_density p) 0%R) j inc Hj) (f_equal Some D1)).
        -- exact (eq_trans (map_nth_error (fun i => nth i (pc_mw p) 0%R) j inc Hj) (f_equal Some D2)).
        -- exact (eq_trans (map_nth_error (fun i => nth i (pc_vp p) 0%R) j inc Hj) (f_equal Some D3)).
    + exfalso. destruct (dget x smiles) as [s|] eqn:Es; [|apply NE; left; exact Es].
      destruct (proj1 (Forall_forall _ _) U x (nth_error_In _ _ Ex) s Es) as (c & Hc & _). unfold molecule in M. rewrite Es in M. congruence.
  - intros i x Hi NE. destruct (HI i x Hi) as (_ & HI2 & _). assert (Hii := proj2 (Hin i) (proj2 HI2 NE)). apply In_nth_error in Hii as [j Hj].
    assert (Hjl : j < List.length inc) by (apply nth_error_Some; congruence). exists j. split; [lia|]. rewrite nth_error_app1 by exact Hjl. exact Hj.
  - rewrite !Nat.add_sub. repeat match goal with |- context [nth_error (?l ++ [?v]) ?k] => rewrite (nth_error_app2 l [v] (n := k)) by (rewrite ?map_length; lia) end.
    rewrite ?map_length, !Nat.sub_diag. do 4 (split; [reflexivity|]). split; [apply dget_dset_same|]. intros x Hx. apply dget_dset_other, Hx.
Qed.

(* Without ignore_vp the arrays are not shaved: they have as many entries as
   the include list, plus water, only if every species has SMILES.  Otherwise
   the mixture lists disagree and the compiled routine rejects its arguments
   (next theorem). *)
Theorem C44_exactly_when text n st smiles objects ignore_vp cutoff p temp d :
  extract_mechanism text = Ok (n, st) ->
  Pure_component1 (List.length (p_sp st)) (p_sp st) (p_sp2a st) smiles objects ignore_vp cutoff = Ok p ->
  prepare (List.length (p_sp st)) (p_sp2a st) p ignore_vp temp = Ok d ->
  (List.length (d_include d) = d_nc d <-> ignore_vp = true \/ forall i x, dget i (p_sp st) = Some x -> dget x smiles <> None).
Proof.
  intros H Hp Hd. destruct (C43_partition text n st smiles objects ignore_vp cutoff p H Hp) as (P & _ & HI). destruct ignore_vp.
  - destruct (C44_partial text n st smiles objects cutoff p temp H Hp) as (d' & Hd' & _ & L & _). assert (d = d') by congruence. subst d'.
    split; intros _; [left; reflexivity | symmetry; exact L].
  - destruct (parsed_names text n st H) as (names & E & L & Hsp & Hs). unfold Pure_component1 in Hp. rewrite E, L in Hp. rewrite L in *.
    apply (fold_all names (p_sp2a st) smiles objects false cutoff Hsp) in Hp. destruct Hp as ((L1 & _ & _ & _ & _ & _) & I1 & I2 & _).
    unfold prepare, shave in Hd. cbn [bind] in Hd. injection Hd as <-. cbn [d_include d_nc]. rewrite !app_length, L1. cbn [List.length].
    rewrite <- (Permutation_length (sorted_perm (pc_include p))). assert (Q := Permutation_length P). rewrite app_length, seq_length in Q.
    assert (EX : forall x, excluded smiles objects false cutoff x <-> dget x smiles = None) by (intros x; split; [intros [?|[? _]]; [assumption | discriminate] | left; assumption]).
    split.
    + intros Hl. right. intros i x Hi Hx. assert (In i (pc_ignore p)) by (apply (HI i x Hi), EX, Hx). destruct (pc_ignore p); [contradiction | cbn in Q; lia].
    + intros [?|A]; [discriminate|]. assert (pc_ignore p = []); [|rewrite H0 in Q; cbn in Q; lia].
      destruct (pc_ignore p) as [|i l] eqn:Ei; [reflexivity|]. exfalso. assert (In i (seq 0 (List.length names))) by (apply (Permutation_in i P), in_or_app; right; left; reflexivity).
      apply in_seq in H0. destruct (nth_error names i) as [x|] eqn:Ex; [|apply nth_error_None in Ex; lia]. apply Hs in Ex. apply (A i x Ex). apply EX, (HI i x Ex). left. reflexivity.
Qed.

Lemma omap_none {A B} (f : A -> option B) l a : In a l -> f a = None -> omap f l = None.
Proof.
  intros Hin Hf. destruct (omap f l) as [r|] eqn:E; [|reflexivity]. destruct (omap_In2 f l r a E Hin) as (b & _ & Hb). congruence.
Qed.

(* Arrays that disagree in length make every evaluation of the right-hand side
   fail. *)
Theorem C44_mismatch_fails gas d q nb y_core nper core_density core_mw diss temp bins y :
  List.length (d_include d) <> d_nc d -> aerosol_rhs gas d q nb y_core nper core_density core_mw diss temp bins y = None.
Proof.
  intros Hl. unfold aerosol_rhs. destruct (gas _) as [g|]; [|reflexivity]. cbn [obind]. destruct (negb _); [reflexivity|].
  unfold partition_inputs. destruct (omap _ (d_include d)) as [cg|] eqn:Ec; [|reflexivity]. cbn [obind]. apply omap_length in Ec.
  unfold dydt_partition, dims_ok. cbn [i_cg i_y i_density forallb]. apply Nat.eqb_neq in Hl. rewrite Ec, Hl.
  rewrite !andb_false_r. reflexivity.
Qed.

(* ---- size distribution ---- *)
Lemma linspace_length a b n : List.length (linspace a b n) = n.
Proof. destruct n as [|[|k]]; [reflexivity | reflexivity|]. cbn [linspace]. rewrite app_length, map_length, seq_length. cbn. lia. Qed.
Lemma linspace_nth a b n i : 2 <= n -> i < n -> nth i (linspace a b n) 0%R = (a + INR i * ((b - a) / INR (n - 1)))%R.
Proof.
  intros Hn Hi. destruct n as [|[|k]]; [lia | lia|]. cbn [linspace].
  set (stp := ((b - a) / INR (S (S k) - 1))%R).
  destruct (Nat.eq_dec i (S k)) as [->|Hne].
  - rewrite app_nth2 by (rewrite map_length, seq_length; lia). rewrite map_length, seq_length, Nat.sub_diag. cbn [nth]. unfold stp.
    replace (S (S k) - 1) with (S k) by lia. assert (INR (S k) <> 0%R) by (apply not_0_INR; lia). field. assumption.
  - rewrite app_nth1 by (rewrite map_length, seq_length; lia). rewrite (nth_indep _ 0%R (INR 0 * stp + a)%R) by (rewrite map_length, seq_length; lia).
    rewrite (map_nth (fun i => INR i * stp + a)%R), seq_nth by lia. cbn [Nat.add]. lra.
Qed.

Lemma pdf_pos x s c : (0 < x)%R -> (0 < s)%R -> (0 < c)%R -> exists v, lognorm_pdf x s c = Some v /\ (0 < v)%R.
Proof.
  intros Hx Hs Hc. unfold lognorm_pdf. destruct (Rlt_dec 0 s); [|contradiction]. destruct (Rlt_dec 0 c); [|contradiction]. destruct (Rlt_dec 0 x); [|contradiction].
  eexists. split; [reflexivity|]. assert (0 < x / c)%R by (apply Rdiv_lt_0_compat; assumption).
  assert (0 < sqrt (2 * PI))%R by (apply sqrt_lt_R0; assert (Q := PI_RGT_0); lra).
  apply Rdiv_lt_0_compat; [|exact Hc]. apply Rmult_lt_0_compat; [|apply exp_pos]. apply Rdiv_lt_0_compat; [lra|].
  apply Rmult_lt_0_compat; [apply Rmult_lt_0_compat; assumption | assumption].
Qed.

Lemma rsum_pos l : l <> [] -> (forall x, In x l -> (0 < x)%R) -> (0 < rsum l)%R.
Proof.
  destruct l as [|x l]; [congruence|]. intros _ H. change (rsum (x :: l)) with (x + rsum l)%R.
  assert (0 <= rsum l)%R by (apply rsum_nonneg; intros y Hy; left; apply H; right; exact Hy). specialize (H x (or_introl eq_refl)). lra.
Qed.

(* [n] positive concentrations that add up to the total; [n] sizes, strictly
   increasing from the lower to the upper one, at a constant ratio. *)
Theorem C45_partial n total meansize std lower upper :
  2 <= n -> (0 < total)%R -> (0 < meansize)%R -> (1 < std)%R -> (0 < lower < upper)%R ->
  exists N x, lognormal n total meansize std lower upper = Some (N, x) /\
    List.length N = n /\ List.length x = n /\ Forall (Rlt 0) N /\ rsum N = total /\
    nth 0 x 0%R = lower /\ nth (n - 1) x 0%R = upper /\
    (forall i j, i < j < n -> (nth i x 0 < nth j x 0)%R) /\
    (forall i, S i < n -> (nth (S i) x 0 / nth i x 0 = exp (ln (upper / lower) / INR (n - 1)))%R).
Proof.
  intros Hn Ht Hm Hs [Hl Hu].
  set (lo := ln lower). set (up := ln upper). set (xs := map exp (linspace lo up n)).
  assert (Lx : List.length xs = n) by (unfold xs; rewrite map_length; apply linspace_length).
  assert (Nx : forall i, i < n -> nth i xs 0%R = exp (lo + INR i * ((up - lo) / INR (n - 1)))).
  { intros i Hi. unfold xs. rewrite (nth_indep _ 0%R (exp 0)) by (rewrite map_length, linspace_length; exact Hi). rewrite map_nth.
    rewrite linspace_nth by assumption. reflexivity. }
  assert (Hn1 : (0 < INR (n - 1))%R) by (apply lt_0_INR; lia).
  assert (Hstep : (0 < (up - lo) / INR (n - 1))%R).
  { apply Rdiv_lt_0_compat; [|exact Hn1]. unfold up, lo. assert (ln lower < ln upper)%R by (apply ln_increasing; assumption). lra. }
  assert (Hsh : (0 < ln std)%R) by (rewrite <- ln_1; apply ln_increasing; lra).
  destruct (omap_all (fun x => lognorm_pdf x (ln std) (exp (ln meansize))) xs) as [pdf Hpdf].
  { intros x Hx. apply in_map_iff in Hx as (v & <- & _). destruct (pdf_pos (exp v) (ln std) (exp (ln meansize)) (exp_pos _) Hsh (exp_pos _)) as (w & -> & _). eauto. }
  assert (Ppdf : forall v, In v pdf -> (0 < v)%R).
  { intros v Hv. destruct (omap_In _ _ _ v Hpdf Hv) as (x & Hx & E). apply in_map_iff in Hx as (u & <- & _).
    destruct (pdf_pos (exp u) (ln std) (exp (ln meansize)) (exp_pos _) Hsh (exp_pos _)) as (w & Ew & Pw). congruence. }
  assert (Lp : List.length pdf = n) by (rewrite (omap_length _ _ _ Hpdf); exact Lx).
  assert (Sp : (0 < rsum pdf)%R) by (apply rsum_pos; [destruct pdf; [cbn in Lp; lia | discriminate] | exact Ppdf]).
  set (N := map (fun p => p / rsum pdf * total)%R pdf).
  exists N, xs. split.
  { unfold lognormal, log_. destruct (Rlt_dec 0 meansize); [|contradiction]. cbn [obind]. destruct (Rlt_dec 0 std); [|lra]. cbn [obind].
    destruct (Rlt_dec 0 lower); [|contradiction]. cbn [obind]. destruct (Rlt_dec 0 upper); [|lra]. cbn [obind]. fold lo up xs. rewrite Hpdf. cbn [obind].
    rewrite (omap_map _ (fun p => p / rsum pdf)%R) by (intros a _; apply rdiv_Some; lra). cbn [obind]. rewrite map_map. reflexivity. }
  split; [unfold N; rewrite map_length; exact Lp|]. split; [exact Lx|]. split; [|split; [|split; [|split; [|split]]]].
  - apply Forall_forall. intros v Hv. apply in_map_iff in Hv as (w & <- & Hw). apply Rmult_lt_0_compat; [apply Rdiv_lt_0_compat; [apply Ppdf, Hw | exact Sp] | exact Ht].
  - unfold N. rewrite (map_ext _ (fun p => total / rsum pdf * p)%R) by (intros p; field; lra). change (rsum (map (Rmult (total / rsum pdf)) pdf) = total). rewrite rsum_scale. field. lra.
  - rewrite Nx by lia. cbn [INR]. rewrite Rmult_0_l, Rplus_0_r. apply exp_ln, Hl.
  - rewrite Nx by lia. replace (lo + INR (n - 1) * ((up - lo) / INR (n - 1)))%R with up by (field; lra). apply exp_ln. lra.
  - intros i j [Hij Hj]. rewrite !Nx by lia. apply exp_increasing. assert (INR i < INR j)%R by (apply lt_INR; exact Hij). nra.
  - intros i Hi. rewrite !Nx by lia. unfold Rdiv at 1. rewrite <- exp_Ropp, <- exp_plus, S_INR. f_equal.
    unfold Rdiv at 4. rewrite ln_mult, ln_Rinv; [|exact Hl | lra | apply Rinv_0_lt_compat, Hl]. fold up lo. field. lra.
Qed.

(* The standard deviation is a geometric one: at 1 and below no distribution
   comes out. *)
Theorem C45_exactly_when n total meansize std lower upper : 1 <= n ->
  (exists r, lognormal n total meansize std lower upper = Some r) <-> (0 < meansize /\ 1 < std /\ 0 < lower /\ 0 < upper)%R.
Proof.
  intros Hn. split.
  - intros [r H]. unfold lognormal, log_ in H. destruct (Rlt_dec 0 meansize); [|discriminate]. cbn [obind] in H. destruct (Rlt_dec 0 std); [|discriminate]. cbn [obind] in H.
    destruct (Rlt_dec 0 lower); [|discriminate]. cbn [obind] in H. destruct (Rlt_dec 0 upper); [|discriminate]. cbn [obind] in H.
    apply obind_Some in H as (pdf & Hp & _). repeat split; try assumption.
    set (xs := map exp (linspace (ln lower) (ln upper) n)) in Hp. assert (Lx : List.length xs = n) by (unfold xs; rewrite map_length; apply linspace_length).
    destruct xs as [|x xs]; [cbn in Lx; lia|]. cbn in Hp. destruct (lognorm_pdf x (ln std) (exp (ln meansize))) eqn:E; [|discriminate].
    unfold lognorm_pdf in E. destruct (Rlt_dec 0 (ln std)) as [Hs|]; [|discriminate].
    apply ln_lt_inv; [lra | assumption|]. rewrite ln_1. exact Hs.
  - intros (Hm & Hs & Hl & Hu). unfold lognormal, log_. destruct (Rlt_dec 0 meansize); [|contradiction]. cbn [obind]. destruct (Rlt_dec 0 std); [|lra]. cbn [obind].
    destruct (Rlt_dec 0 lower); [|contradiction]. cbn [obind]. destruct (Rlt_dec 0 upper); [|lra]. cbn [obind].
    assert (Hsh : (0 < ln std)%R) by (rewrite <- ln_1; apply ln_increasing; lra).
    set (xs := map exp (linspace (ln lower) (ln upper) n)). assert (Lx : List.length xs = n) by (unfold xs; rewrite map_length; apply linspace_length).
    destruct (omap_all (fun x => lognorm_pdf x (ln std) (exp (ln meansize))) xs) as [pdf Hpdf].
    { intros x Hx. apply in_map_iff in Hx as (v & <- & _). destruct (pdf_pos (exp v) (ln std) (exp (ln meansize)) (exp_pos _) Hsh (exp_pos _)) as (w & -> & _). eauto. }
    assert (Ppdf : forall v, In v pdf -> (0 < v)%R).
    { intros v Hv. destruct (omap_In _ _ _ v Hpdf Hv) as (x & Hx & E). apply in_map_iff in Hx as (u & <- & _).
      destruct (pdf_pos (exp u) (ln std) (exp (ln meansize)) (exp_pos _) Hsh (exp_pos _)) as (w & Ew & Pw). congruence. }
    assert (Lp : List.length pdf = n) by (rewrite (omap_length _ _ _ Hpdf); exact Lx).
    assert (Sp : (0 < rsum pdf)%R) by (apply rsum_pos; [destruct pdf; [cbn in Lp; lia | discriminate] | exact Ppdf]).
    rewrite Hpdf. cbn [obind]. rewrite (omap_map _ (fun p => p / rsum pdf)%R) by (intros a _; apply rdiv_Some; lra). cbn [obind]. eauto.
Qed.

Theorem C45_refuted : exists total meansize std lower upper : R, (0 < total /\ 0 < meansize /\ 0 < std /\ 0 < lower < upper)%R /\
  lognormal 2 total meansize std lower upper = None.
Proof.
  exists 100%R, 0.2%R, 1%R, 0.01%R, 1%R. split; [lra|]. destruct (lognormal 2 100 0.2 1 0.01 1) as [r|] eqn:E; [exfalso | reflexivity].
  destruct (proj1 (C45_exactly_when 2 100 0.2 1 0.01 1 ltac:(lia)) (ex_intro _ r E)) as (_ & H & _). lra.
Qed.

(* ---- water vapour ---- *)
Lemma H2O_linear temp : (273.15 - 238.3 < temp)%R ->
  exists k, (0 < k)%R /\ forall RH, H2O_conc RH temp = Some (k * RH)%R.
Proof.
  intros Ht. exists (0.002166 * (610.78 * exp ((temp - 273.15) / (temp - 273.15 + 238.3) * 17.2694) / (temp - 273.15 + 273.16)) * / 1000000 * (1 / (18 / 1000)) * (60221409 * 10 ^ 16))%R.
  split.
  - assert (0 < exp ((temp - 273.15) / (temp - 273.15 + 238.3) * 17.2694))%R by apply exp_pos.
    assert (0 < 610.78 * exp ((temp - 273.15) / (temp - 273.15 + 238.3) * 17.2694) / (temp - 273.15 + 273.16))%R by (apply Rdiv_lt_0_compat; lra).
    set (u := (610.78 * exp ((temp - 273.15) / (temp - 273.15 + 238.3) * 17.2694) / (temp - 273.15 + 273.16))%R) in *. lra.
  - intros RH. unfold H2O_conc. rewrite rdiv_Some by lra. cbn [obind]. rewrite rdiv_Some by lra. cbn [obind]. f_equal. field. lra.
Qed.

(* A finite amount for every RH; nonnegative, zero exactly at RH 0, and in
   proportion to RH. *)
Theorem C53_water temp : (273.15 - 238.3 < temp)%R -> exists conc : R -> R,
  (forall RH, H2O_conc RH temp = Some (conc RH)) /\
  (forall RH, (0 <= RH)%R -> (0 <= conc RH)%R) /\
  (forall RH, conc RH = 0%R <-> RH = 0%R) /\
  (forall a RH, conc (a * RH)%R = (a * conc RH)%R) /\
  (forall r s, conc (r + s)%R = (conc r + conc s)%R).
Proof.
  intros Ht. destruct (H2O_linear temp Ht) as (k & Hk & H). exists (fun RH => k * RH)%R. split; [exact H|]. split; [intros; nra|]. split; [|split; intros; ring].
  intros RH. split; [|intros ->; ring]. intros E. apply Rmult_integral in E. destruct E; [lra | assumption].
Qed.
(* At the excluded temperature there is no value. *)
Theorem C53_boundary RH : H2O_conc RH (273.15 - 238.3)%R = None.
Proof. unfold H2O_conc. replace (273.15 - 238.3 - 273.15 + 238.3)%R with 0%R by lra. unfold rdiv. destruct (Req_EM_T 0 0); [reflexivity | congruence]. Qed.

Print Assumptions C43_partition.
Print Assumptions C43_exactly_when.
Print Assumptions C44_partial.
Print Assumptions C44_exactly_when.
Print Assumptions C44_mismatch_fails.
Print Assumptions C45_partial.
Print Assumptions C45_exactly_when.
Print Assumptions C45_refuted.
Print Assumptions C53_water.
Print Assumptions C53_boundary.
