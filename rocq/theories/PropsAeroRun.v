(* C42, C62-C64: the state vector of the aerosol model and its derivative. *)
From Coq Require Import List Bool Arith Lia String Permutation Sorted ZArith Reals Lra.
From Verif Require Import Base PyStr PyDict ModelParse SpecMech ParseStruct ParseTables SpecKin LangFacts ModelExpr ModelSolver
  ModelPart SpecPart PartFacts PartValue PropsPart PropsSolver ModelAero AeroFacts SpecAero PropsAero
  ParseWritten ParseShow PropsParse.
Import ListNotations.
Import Coq.Lists.List.
Open Scope nat_scope.
Open Scope list_scope.
Local Arguments eqb : simpl never.

(* Every position of the state vector is either a gas species or one component
   of one bin, and not both. *)
Theorem C42_layout ns nc nb k : k < ns + nc * nb ->
  (k < ns /\ forall b j, slot ns nc b j <> k) \/
  (ns <= k /\ exists b j, b < nb /\ j < nc /\ slot ns nc b j = k /\
     forall b' j', j' < nc -> slot ns nc b' j' = k -> b' = b /\ j' = j).
Proof.
  intros Hk. destruct (Nat.lt_ge_cases k ns) as [Hs|Hs]; [left; split; [exact Hs | unfold slot; lia]|]. right. split; [exact Hs|].
  assert (Hc : nc <> 0) by nia. exists ((k - ns) / nc), ((k - ns) mod nc).
  assert (D := Nat.div_mod (k - ns) nc Hc). assert (M := Nat.mod_upper_bound (k - ns) nc Hc).
  split; [apply Nat.div_lt_upper_bound; lia|]. split; [exact M|]. split; [unfold slot; lia|].
  intros b' j' Hj' E. unfold slot in E. assert (Q := Nat.div_mod_unique nc b' ((k - ns) / nc) j' ((k - ns) mod nc) Hj' M ltac:(lia)). tauto.
Qed.

(* ---- the condensed part ---- *)
Definition start_water (y_core : list R) (diss RH : R) (b : nat) : R := (nth b y_core 0 * diss * (RH / (1 - RH)))%R.

Lemma condensed_fold nc nb y_core diss RH : 1 <= nc -> RH <> 1%R -> List.length y_core = nb ->
  forall k, k <= nb -> exists y, foldM (water_step nc y_core diss RH) (seq 0 k) (repeat 0%R (nc * nb)) = Ok y /\ List.length y = nc * nb /\
    forall b j, b < nb -> j < nc -> nth (b * nc + j) y 0%R = if (j =? nc - 1) && (b <? k) then start_water y_core diss RH b else 0%R.
Proof.
  intros Hc HR L. assert (FA : forall (l1 l2 : list nat) y0, foldM (water_step nc y_core diss RH) (l1 ++ l2) y0 = bind (foldM (water_step nc y_core diss RH) l1 y0) (foldM (water_step nc y_core diss RH) l2)).
  { induction l1 as [|x l1 IH]; intros l2 y0; [reflexivity|]. cbn [app foldM]. destruct (water_step nc y_core diss RH y0 x); cbn [bind]; [apply IH | reflexivity]. }
  induction k as [|k IH]; intros Hk.
  - exists (repeat 0%R (nc * nb)). split; [reflexivity|]. split; [apply repeat_length|]. intros b j _ _. rewrite andb_false_r.
    destruct (Nat.lt_ge_cases (b * nc + j) (nc * nb)); [rewrite nth_repeat; reflexivity | apply nth_overflow; rewrite repeat_length; assumption].
  - destruct IH as (y & Hy & Ly & Iy); [lia|]. rewrite seq_S, FA, Hy. cbn [bind foldM Nat.add].
    unfold water_step at 1. unfold py_nth. rewrite (nth_error_nth' y_core 0%R) by lia. cbn [bind]. rewrite rdiv_Some by lra.
    rewrite store_Ok by (rewrite Ly; nia). cbn [bind]. eexists. split; [reflexivity|]. split; [rewrite set_nth_len; exact Ly|].
    intros b j Hb Hj. rewrite nth_set_nth by (rewrite Ly; nia). rewrite Iy by assumption.
    destruct (Nat.eqb_spec j (nc - 1)) as [->|Hj'].
    + cbn [andb]. destruct (Nat.eq_dec b k) as [->|Hbk].
      * rewrite (proj2 (Nat.eqb_eq _ _)) by lia. rewrite (proj2 (Nat.ltb_lt k (S k))) by lia. reflexivity.
      * rewrite (proj2 (Nat.eqb_neq _ _)) by nia. rewrite (AeroFacts.ltb_S b k Hbk). reflexivity.
    + cbn [andb]. rewrite (proj2 (Nat.eqb_neq _ _)); [reflexivity|]. intros E.
      assert (Q := Nat.div_mod_unique nc b k j (nc - 1) Hj ltac:(lia) ltac:(lia)). lia.
Qed.

(* ---- the gas part ---- *)
Definition ppb (x : str) (v : R) : R := if eqb x (s_ "H2O") then v else (v * Cfactor)%R.

Lemma gas_fold sp2a n conc : NoDup (dkeys conc) ->
  (forall x i, dget x sp2a = Some i -> i < n) -> (forall x x' i, dget x sp2a = Some i -> dget x' sp2a = Some i -> x = x') ->
  (forall x, In x (dkeys conc) -> dget x sp2a <> None) ->
  forall y, n <= List.length y -> exists y', foldM (set_gas sp2a) conc y = Ok y' /\ List.length y' = List.length y /\
    (forall x i v, dget x sp2a = Some i -> dget x conc = Some v -> nth_error y' i = Some (ppb x v)) /\
    (forall i, (forall x v, dget x conc = Some v -> dget x sp2a <> Some i) -> nth_error y' i = nth_error y i).
Proof.
  intros Nd Hb Hi. induction conc as [|[x v] conc IH]; intros Hk y Hy.
  - exists y. split; [reflexivity|]. split; [reflexivity|]. split; [discriminate | reflexivity].
  - cbn [dkeys map fst] in Nd. inversion Nd as [|? ? Nx Nd']; subst. destruct (dget x sp2a) as [i|] eqn:Ex; [|exfalso; exact (Hk x (or_introl eq_refl) Ex)].
    cbn [foldM]. unfold set_gas at 1, lookup. cbn [fst snd]. rewrite Ex. cbn [bind]. assert (Hil := Hb x i Ex). rewrite store_Ok by lia. cbn [bind].
    destruct (IH Nd' (fun z Hz => Hk z (or_intror Hz)) (set_nth i (ppb x v) y)) as (y' & H1 & H2 & H3 & H4); [rewrite set_nth_len; exact Hy|].
    fold (ppb x v). exists y'. split; [exact H1|]. split; [rewrite H2; apply set_nth_len|]. split.
    + intros z k w Hz. cbn [dget]. destruct (eqb z x) eqn:E.
      * apply eqb_eq in E. subst z. intros Ew. injection Ew as <-. rewrite Ex in Hz. injection Hz as <-.
        rewrite H4; [apply set_nth_same; lia|]. intros z w' Hw Hz. assert (z = x) by (apply (Hi z x i Hz Ex)). subst z.
        apply Nx. apply dget_Some_In in Hw. apply (in_map fst) in Hw. exact Hw.
      * intros Hw. exact (H3 z k w Hz Hw).
    + intros k Hk2. rewrite H4.
      * apply set_nth_other. intros <-. apply (Hk2 x v); [cbn [dget]; rewrite eqb_refl; reflexivity | exact Ex].
      * intros z w Hw Hz. apply (Hk2 z w); [|exact Hz]. cbn [dget]. destruct (eqb z x) eqn:E; [|exact Hw].
        exfalso. apply eqb_eq in E. subst z. apply Nx. apply dget_Some_In in Hw. apply (in_map fst) in Hw. exact Hw.
Qed.
Lemma gas_missing sp2a conc x : In x (dkeys conc) -> dget x sp2a = None ->
  forall y, (forall z i, dget z sp2a = Some i -> i < List.length y) -> foldM (set_gas sp2a) conc y = Err KeyError.
Proof.
  intros Hx Hn. induction conc as [|[z v] conc IH]; intros y Hy; [contradiction|]. cbn [foldM]. unfold set_gas at 1, lookup. cbn [fst snd].
  destruct (dget z sp2a) as [i|] eqn:Ez; cbn [bind]; [|reflexivity]. rewrite store_Ok by (apply (Hy z i Ez)). cbn [bind]. apply IH.
  - destruct Hx as [Hx|Hx]; [cbn in Hx; congruence | exact Hx].
  - intros w k Hw. rewrite set_nth_len. exact (Hy w k Hw).
Qed.

Lemma slice_ok ns nb nc (y_cond y : list R) : List.length y = ns + nc * nb -> List.length y_cond = nc * nb ->
  slice_assign ns (ns + nb * nc) y_cond y = firstn ns y ++ y_cond.
Proof. intros L1 L2. unfold slice_assign. rewrite skipn_all2 by lia. rewrite app_nil_r. reflexivity. Qed.

(* The initial vector: every named species' mixing ratio, turned into a
   concentration, sits in the gas slot of that species (water is already a
   concentration), other gas slots are empty, water is in the last slot of every
   bin, in proportion to the core of that bin, and all other condensed slots are
   empty. *)
Section Setup.
Context (text : str) (n : Z) (st : pstate) (smiles : dict str str) (objects : dict str chem) (cutoff temp : R) (p : pc1) (d : prepared).
Context (Htext : extract_mechanism text = Ok (n, st)).
Context (Hp : Pure_component1 (List.length (p_sp st)) (p_sp st) (p_sp2a st) smiles objects true cutoff = Ok p).
Context (Hd : prepare (List.length (p_sp st)) (p_sp2a st) p true temp = Ok d).

Lemma table_bound x i : dget x (d_sp2a d) = Some i -> i < d_ns d.
Proof.
  destruct (C44_partial text n st smiles objects cutoff p temp Htext Hp) as (d' & Hd' & Hns & H). assert (d' = d) by congruence. subst d'.
  destruct H as (_ & _ & _ & _ & _ & _ & _ & _ & _ & _ & _ & _ & _ & _ & HW & HO). destruct (parsed_names text n st Htext) as (names & _ & L & Hsp & _).
  intros Hx. destruct (eqb x (s_ "H2O")) eqn:E.
  - apply eqb_eq in E. subst x. rewrite HW in Hx. injection Hx as <-. lia.
  - assert (Hn : x <> s_ "H2O") by (intros ->; rewrite eqb_refl in E; discriminate). rewrite (HO x Hn) in Hx. apply Hsp in Hx.
    assert (i < List.length names) by (apply nth_error_Some; congruence). lia.
Qed.
Lemma table_injective x x' i : dget x (d_sp2a d) = Some i -> dget x' (d_sp2a d) = Some i -> x = x'.
Proof.
  destruct (C44_partial text n st smiles objects cutoff p temp Htext Hp) as (d' & Hd' & Hns & H). assert (d' = d) by congruence. subst d'.
  destruct H as (_ & _ & _ & _ & _ & _ & _ & _ & _ & _ & _ & _ & _ & _ & HW & HO). destruct (parsed_names text n st Htext) as (names & _ & L & Hsp & _).
  assert (Other : forall z k, z <> s_ "H2O" -> dget z (d_sp2a d) = Some k -> nth_error names k = Some z /\ k < List.length names).
  { intros z k Hz Hk. rewrite (HO z Hz) in Hk. apply Hsp in Hk. split; [exact Hk | apply nth_error_Some; congruence]. }
  intros Hx Hx'. destruct (eqb x (s_ "H2O")) eqn:E; destruct (eqb x' (s_ "H2O")) eqn:E'.
  - apply eqb_eq in E, E'. congruence.
  - apply eqb_eq in E. subst x. assert (Hn : x' <> s_ "H2O") by (intros ->; rewrite eqb_refl in E'; discriminate).
    destruct (Other x' i Hn Hx') as [_ Q]. rewrite HW in Hx. injection Hx as <-. lia.
  - apply eqb_eq in E'. subst x'. assert (Hn : x <> s_ "H2O") by (intros ->; rewrite eqb_refl in E; discriminate).
    destruct (Other x i Hn Hx) as [_ Q]. rewrite HW in Hx'. injection Hx' as <-. lia.
  - assert (Hn : x <> s_ "H2O") by (intros ->; rewrite eqb_refl in E; discriminate). assert (Hn' : x' <> s_ "H2O") by (intros ->; rewrite eqb_refl in E'; discriminate).
    destruct (Other x i Hn Hx) as [Q _]. destruct (Other x' i Hn' Hx') as [Q' _]. congruence.
Qed.
Lemma condensed_nonempty : 1 <= d_nc d.
Proof.
  destruct (C44_partial text n st smiles objects cutoff p temp Htext Hp) as (d' & Hd' & _ & _ & _ & _ & _ & _ & _ & _ & _ & _ & H & _). assert (d' = d) by congruence. subst d'. exact H.
Qed.
End Setup.

Theorem C42_initial text n st smiles objects cutoff temp p d nb y_core diss RH conc :
  extract_mechanism text = Ok (n, st) ->
  Pure_component1 (List.length (p_sp st)) (p_sp st) (p_sp2a st) smiles objects true cutoff = Ok p ->
  prepare (List.length (p_sp st)) (p_sp2a st) p true temp = Ok d ->
  RH <> 1%R -> List.length y_core = nb -> NoDup (dkeys conc) ->
  (forall x, In x (dkeys conc) -> x = s_ "H2O" \/ In x (dkeys (p_sp2a st))) ->
  exists y_cond y, initial_condensed (d_nc d) nb y_core diss RH nb = Ok y_cond /\
    aerosol_initial (d_ns d) (d_nc d) nb (d_sp2a d) conc y_cond = Ok y /\
    List.length y = d_ns d + d_nc d * nb /\
    (forall x i v, dget x (d_sp2a d) = Some i -> dget x conc = Some v ->
       nth_error y i = Some (if eqb x (s_ "H2O") then v else v * Cfactor)%R) /\
    (forall i, i < d_ns d -> (forall x v, dget x conc = Some v -> dget x (d_sp2a d) <> Some i) -> nth_error y i = Some 0%R) /\
    (forall b j, b < nb -> j < d_nc d - 1 -> nth_error y (slot (d_ns d) (d_nc d) b j) = Some 0%R) /\
    (forall b, b < nb -> nth_error y (slot (d_ns d) (d_nc d) b (d_nc d - 1)) = Some (nth b y_core 0 * diss * (RH / (1 - RH)))%R).
Proof.
  intros Htext Hp Hd HR L Nd Hk.
  assert (TB := table_bound text n st smiles objects cutoff temp p d Htext Hp Hd).
  assert (TI := table_injective text n st smiles objects cutoff temp p d Htext Hp Hd).
  assert (Hc := condensed_nonempty text n st smiles objects cutoff temp p d Htext Hp Hd).
  assert (Hk' : forall x, In x (dkeys conc) -> dget x (d_sp2a d) <> None).
  { destruct (C44_partial text n st smiles objects cutoff p temp Htext Hp) as (d' & Hd' & Hns & H). assert (d' = d) by congruence. subst d'.
    destruct H as (_ & _ & _ & _ & _ & _ & _ & _ & _ & _ & _ & _ & _ & _ & HW & HO). intros x Hx. destruct (eqb x (s_ "H2O")) eqn:E.
    - apply eqb_eq in E. subst x. rewrite HW. discriminate.
    - assert (Hn : x <> s_ "H2O") by (intros ->; rewrite eqb_refl in E; discriminate). rewrite (HO x Hn). rewrite dget_None. destruct (Hk x Hx); tauto. }
  destruct (condensed_fold (d_nc d) nb y_core diss RH Hc HR L nb (le_n _)) as (yc & Hyc & Lc & Ic).
  destruct (gas_fold (d_sp2a d) (d_ns d) conc Nd TB TI Hk' (repeat 0%R (d_ns d + d_nc d * nb))) as (yg & Hyg & Lg & G1 & G2); [rewrite repeat_length; lia|].
  rewrite repeat_length in Lg. exists yc, (firstn (d_ns d) yg ++ yc). split; [exact Hyc|]. split.
  { unfold aerosol_initial. rewrite Hyg. cbn [bind]. rewrite slice_ok by assumption. reflexivity. }
  assert (Lf : List.length (firstn (d_ns d) yg) = d_ns d) by (rewrite firstn_length; lia).
  assert (FN : forall i, i < d_ns d -> nth_error (firstn (d_ns d) yg ++ yc) i = nth_error yg i).
  { intros i Hi. rewrite nth_error_app1 by lia. rewrite <- (firstn_skipn (d_ns d) yg) at 2. rewrite nth_error_app1 by lia. reflexivity. }
  assert (SN : forall b j, b < nb -> j < d_nc d -> nth_error (firstn (d_ns d) yg ++ yc) (slot (d_ns d) (d_nc d) b j) = Some (nth (b * d_nc d + j) yc 0%R)).
  { intros b j Hb Hj. unfold slot. rewrite nth_error_app2 by lia. rewrite Lf. replace (d_ns d + b * d_nc d + j - d_ns d) with (b * d_nc d + j) by lia.
    apply nth_error_nth'. rewrite Lc. nia. }
  split; [rewrite app_length; lia|]. split; [|split; [|split]].
  - intros x i v Hx Hv. rewrite FN by (apply (TB x i Hx)). apply (G1 x i v Hx Hv).
  - intros i Hi Hn. rewrite FN by exact Hi. rewrite (G2 i Hn). rewrite (nth_error_nth' _ 0%R) by (rewrite repeat_length; lia). rewrite nth_repeat. reflexivity.
  - intros b j Hb Hj. rewrite SN by lia. rewrite Ic by lia. rewrite (proj2 (Nat.eqb_neq _ _)) by lia. reflexivity.
  - intros b Hb. rewrite SN by lia. rewrite Ic by lia. rewrite Nat.eqb_refl, (proj2 (Nat.ltb_lt _ _) Hb). reflexivity.
Qed.

(* A species that is neither water nor in the mechanism stops the run. *)
Theorem C42_unknown_species text n st smiles objects cutoff temp p d nb y_cond conc x :
  extract_mechanism text = Ok (n, st) ->
  Pure_component1 (List.length (p_sp st)) (p_sp st) (p_sp2a st) smiles objects true cutoff = Ok p ->
  prepare (List.length (p_sp st)) (p_sp2a st) p true temp = Ok d ->
  In x (dkeys conc) -> x <> s_ "H2O" -> ~ In x (dkeys (p_sp2a st)) ->
  aerosol_initial (d_ns d) (d_nc d) nb (d_sp2a d) conc y_cond = Err KeyError.
Proof.
  intros Htext Hp Hd Hx Hn Hk. unfold aerosol_initial.
  assert (TB := table_bound text n st smiles objects cutoff temp p d Htext Hp Hd).
  destruct (C44_partial text n st smiles objects cutoff p temp Htext Hp) as (d' & Hd' & Hns & H). assert (d' = d) by congruence. subst d'.
  destruct H as (_ & _ & _ & _ & _ & _ & _ & _ & _ & _ & _ & _ & _ & _ & _ & HO).
  rewrite (gas_missing (d_sp2a d) conc x); [reflexivity | exact Hx | rewrite (HO x Hn); apply dget_None, Hk |].
  intros z i Hz. rewrite repeat_length. specialize (TB z i Hz). lia.
Qed.

(* A mechanism that itself has a species called H2O: its own slot, which the
   gas-phase chemistry reads, starts empty. *)
Theorem C42_water_shadowed text n st smiles objects cutoff temp p d nb y_cond y conc k :
  extract_mechanism text = Ok (n, st) ->
  Pure_component1 (List.length (p_sp st)) (p_sp st) (p_sp2a st) smiles objects true cutoff = Ok p ->
  prepare (List.length (p_sp st)) (p_sp2a st) p true temp = Ok d ->
  NoDup (dkeys conc) -> List.length y_cond = d_nc d * nb -> aerosol_initial (d_ns d) (d_nc d) nb (d_sp2a d) conc y_cond = Ok y ->
  dget (s_ "H2O") (p_sp2a st) = Some k -> nth_error y k = Some 0%R.
Proof.
  intros Htext Hp Hd Nd Lc Hy Hw.
  assert (TB := table_bound text n st smiles objects cutoff temp p d Htext Hp Hd).
  assert (TI := table_injective text n st smiles objects cutoff temp p d Htext Hp Hd).
  destruct (C44_partial text n st smiles objects cutoff p temp Htext Hp) as (d' & Hd' & Hns & H). assert (d' = d) by congruence. subst d'.
  destruct H as (_ & _ & _ & _ & _ & _ & _ & _ & _ & _ & _ & _ & _ & _ & HW & HO). destruct (parsed_names text n st Htext) as (names & _ & L & Hsp & _).
  assert (Kn := proj1 (Hsp _ _) Hw). assert (Kl : k < List.length names) by (apply nth_error_Some; congruence).
  assert (Hk : forall x, In x (dkeys conc) -> dget x (d_sp2a d) <> None).
  { intros x Hx Hn. unfold aerosol_initial in Hy. rewrite (gas_missing (d_sp2a d) conc x Hx Hn) in Hy; [discriminate|].
    intros z i Hz. rewrite repeat_length. specialize (TB z i Hz). lia. }
  destruct (gas_fold (d_sp2a d) (d_ns d) conc Nd TB TI Hk (repeat 0%R (d_ns d + d_nc d * nb))) as (yg & Hyg & Lg & _ & G2); [rewrite repeat_length; lia|].
  rewrite repeat_length in Lg. unfold aerosol_initial in Hy. rewrite Hyg in Hy. cbn [bind] in Hy. rewrite slice_ok in Hy by assumption. injection Hy as <-.
  assert (Lf : List.length (firstn (d_ns d) yg) = d_ns d) by (rewrite firstn_length; lia). rewrite nth_error_app1 by lia.
  assert (E : nth_error (firstn (d_ns d) yg) k = nth_error yg k).
  { rewrite <- (firstn_skipn (d_ns d) yg) at 2. rewrite nth_error_app1 by lia. reflexivity. }
  rewrite E, G2.
  - rewrite (nth_error_nth' _ 0%R) by (rewrite repeat_length; lia). rewrite nth_repeat. reflexivity.
  - intros x v _ Hx. destruct (eqb x (s_ "H2O")) eqn:Ex.
    + apply eqb_eq in Ex. subst x. rewrite HW in Hx. injection Hx as Hx. lia.
    + assert (Hn : x <> s_ "H2O") by (intros ->; rewrite eqb_refl in Ex; discriminate). rewrite (HO x Hn) in Hx. apply Hsp in Hx. congruence.
Qed.

(* ---- the derivative ---- *)
Lemma pc2_total nc mw temp : List.length mw = nc -> Forall (Rlt 0) mw -> (0 < temp)%R ->
  exists q, Pure_component2 nc mw Rgas temp = Some q /\ q_alpha q = repeat 0.1%R nc /\
    List.length (q_dstar q) = nc /\ List.length (q_gamma q) = nc /\ Forall (Rlt 0) (q_dstar q) /\ Forall (Rlt 0) (q_gamma q).
Proof.
  intros L F Ht. assert (PP := PI_RGT_0). unfold Pure_component2.
  rewrite (omap_map _ (fun m => 1.9 * Rpower m (- 2 / 3))%R).
  2:{ intros m Hm. assert (0 < m)%R by (apply (proj1 (Forall_forall _ _) F m Hm)). unfold ModelExpr.rpow. destruct (Rlt_dec 0 m); [reflexivity | contradiction]. }
  cbn [obind]. rewrite (omap_map _ (fun m => Rpower (8 * Rgas * temp / (PI * (m * / 1000))) (/ 2))%R).
  2:{ intros m Hm. assert (0 < m)%R by (apply (proj1 (Forall_forall _ _) F m Hm)). assert (0 < PI * (m * / 1000))%R by (apply Rmult_lt_0_compat; lra).
      rewrite rdiv_Some by lra. cbn [obind]. unfold ModelExpr.rpow. destruct (Rlt_dec 0 (8 * Rgas * temp / (PI * (m * / 1000)))) as [|Hn]; [reflexivity|].
      exfalso. apply Hn. apply Rdiv_lt_0_compat; [unfold Rgas; lra | assumption]. }
  cbn [obind]. rewrite combine_map2.
  rewrite (omap_map _ (fun dv => 3 * fst dv / (snd dv * 100) * / 100)%R).
  2:{ intros [dv v] Hv. apply in_map_iff in Hv as (m & E & _). apply (f_equal snd) in E. cbn [snd fst] in *. assert (0 < v)%R by (rewrite <- E; apply exp_pos).
      rewrite rdiv_Some by lra. reflexivity. }
  cbn [obind]. eexists. split; [reflexivity|]. cbn [q_alpha q_dstar q_gamma]. rewrite !map_length. split; [reflexivity|]. split; [exact L|]. split; [exact L|].
  split; apply Forall_forall; intros v Hv.
  - apply in_map_iff in Hv as (m & <- & _). assert (0 < Rpower m (- 2 / 3))%R by apply exp_pos. lra.
  - rewrite map_map in Hv. apply in_map_iff in Hv as (m & <- & _). cbn [fst snd]. assert (0 < Rpower m (- 2 / 3))%R by apply exp_pos.
    assert (0 < Rpower (8 * Rgas * temp / (PI * (m * / 1000))) (/ 2))%R by apply exp_pos. apply Rmult_lt_0_compat; [apply Rdiv_lt_0_compat|]; lra.
Qed.

Lemma removelast_last (l : list R) v : l <> [] -> List.length (removelast l ++ [v]) = List.length l.
Proof. intros H. rewrite (app_removelast_last 0%R H) at 2. rewrite !app_length. reflexivity. Qed.

Section Inputs.
Context (d : prepared) (temp : R).
Context (Hnc : d_nc d = List.length (d_include d)) (L1 : List.length (d_density d) = d_nc d) (L2 : List.length (d_mw d) = d_nc d)
  (L3 : List.length (d_vp d) = d_nc d) (Fb : Forall (fun g => g < d_ns d) (d_include d)) (Wnc : 1 <= d_nc d)
  (PD : Forall (Rlt 0) (d_density d)) (PM : Forall (Rlt 0) (d_mw d)).
Context (Htemp : (0 < temp)%R).
Context (nb : nat) (y_core nper : list R) (core_density core_mw diss : R) (y : list R).
Context (Lcore : List.length y_core = nb) (Lnper : List.length nper = nb) (Ly : List.length y = d_ns d + d_nc d * nb).
Context (Pcore : Forall (Rlt 0) y_core) (Pnper : Forall (Rlt 0) nper) (Pcd : (0 < core_density)%R) (Pcm : (0 < core_mw)%R) (Pdiss : (0 < diss)%R).
Context (Py : forall b j, b < nb -> j < d_nc d -> (0 <= nth (slot (d_ns d) (d_nc d) b j) y 0)%R).

Lemma avogadro_pos : (0 < avogadro)%R. Proof. unfold avogadro. assert (0 < 10 ^ 16)%R by (apply pow_lt; lra). lra. Qed.

Lemma prepared_physical : exists q inp, Pure_component2 (d_nc d) (d_mw d) Rgas temp = Some q /\
  partition_inputs d q y_core nper core_density core_mw diss temp y = Some inp /\ physical (d_ns d) (d_nc d) nb inp /\
  i_y inp = y /\ i_ycore inp = y_core /\ i_nper inp = nper /\ i_diss inp = diss /\ i_NA inp = avogadro /\
  i_core_mass inp = map (fun c => c / avogadro * core_mw)%R y_core /\ i_core_density inp = repeat core_density nb /\
  i_mw inp = d_mw d /\ i_density inp = d_density d /\
  (forall j i, nth_error (d_include d) j = Some i -> nth j (i_cg inp) 0%R = nth i y 0%R).
Proof.
  destruct (pc2_total (d_nc d) (d_mw d) temp L2 PM Htemp) as (q & Hq & QA & QD & QG & QPD & QPG).
  assert (Cg : exists cg, omap (nth_error (firstn (d_ns d) y)) (d_include d) = Some cg).
  { apply omap_all. intros i Hi. assert (i < d_ns d) by (apply (proj1 (Forall_forall _ _) Fb i Hi)).
    destruct (nth_error (firstn (d_ns d) y) i) as [v|] eqn:Ev; [eauto|]. apply nth_error_None in Ev. rewrite firstn_length in Ev. lia. }
  destruct Cg as [cg Hcg]. exists q. eexists. split; [exact Hq|]. split; [unfold partition_inputs; rewrite Hcg; cbn [obind]; reflexivity|].
  assert (Lvp : List.length (removelast (d_vp d) ++ [water_vp temp]) = d_nc d).
  { rewrite removelast_last; [exact L3|]. intros E. rewrite E in L3. cbn in L3. lia. }
  cbn [i_y i_ycore i_nper i_diss i_NA i_core_mass i_core_density i_mw i_density i_cg].
  split; [|rewrite Lcore; do 9 (split; [reflexivity|]); intros j i Hj].
  - assert (NP := avogadro_pos). constructor; cbn [i_y i_ycore i_nper i_diss i_NA i_core_mass i_core_density i_mw i_density i_cg i_dstar i_alpha i_gamma i_psat i_Rgas i_temp].
    + exact Ly.
    + repeat constructor; rewrite ?map_length, ?repeat_length; assumption.
    + rewrite QA. repeat constructor; rewrite ?map_length, ?repeat_length; try assumption; try reflexivity. rewrite (omap_length _ _ _ Hcg). symmetry. exact Hnc.
    + exact Wnc.
    + unfold amount. cbn [i_y]. exact Py.
    + split; [exact Pcore|]. split; [|split; [|exact Pnper]].
      * apply Forall_forall. intros v Hv. apply in_map_iff in Hv as (c & <- & Hc). apply Rmult_lt_0_compat; [|exact Pcm]. apply Rdiv_lt_0_compat; [|exact NP]. exact (proj1 (Forall_forall _ _) Pcore c Hc).
      * apply Forall_forall. intros v Hv. apply repeat_spec in Hv. subst v. exact Pcd.
    + auto.
    + rewrite QA. apply Forall_forall. intros v Hv. apply repeat_spec in Hv. subst v. lra.
    + split; [exact Pdiss|]. split; [exact NP|]. split; [unfold Rgas; lra | exact Htemp].
  - destruct (omap_nth _ _ _ j i Hcg Hj) as (v & Hv & Ev). rewrite (nth_error_nth _ _ 0%R Ev).
    symmetry. apply nth_error_nth. rewrite <- (firstn_skipn (d_ns d) y). rewrite nth_error_app1; [exact Hv | apply nth_error_Some; congruence].
Qed.
End Inputs.

Section Run.
Context (text : str) (n : Z) (st : pstate) (smiles : dict str str) (objects : dict str chem) (cutoff temp : R) (p : pc1) (d : prepared).
Context (Htext : extract_mechanism text = Ok (n, st)).
Context (Hp : Pure_component1 (List.length (p_sp st)) (p_sp st) (p_sp2a st) smiles objects true cutoff = Ok p).
Context (Hd : prepare (List.length (p_sp st)) (p_sp2a st) p true temp = Ok d).
Context (Hchem : forall i x c, dget i (p_sp st) = Some x -> molecule_of smiles objects x c -> sensible c).
Context (Htemp : (0 < temp)%R).
Context (nb : nat) (y_core nper : list R) (core_density core_mw diss : R) (y : list R).
Context (Lcore : List.length y_core = nb) (Lnper : List.length nper = nb) (Ly : List.length y = d_ns d + d_nc d * nb).
Context (Pcore : Forall (Rlt 0) y_core) (Pnper : Forall (Rlt 0) nper) (Pcd : (0 < core_density)%R) (Pcm : (0 < core_mw)%R) (Pdiss : (0 < diss)%R).
Context (Py : forall b j, b < nb -> j < d_nc d -> (0 <= nth (slot (d_ns d) (d_nc d) b j) y 0)%R).

Lemma inputs_physical : exists q inp, Pure_component2 (d_nc d) (d_mw d) Rgas temp = Some q /\
  partition_inputs d q y_core nper core_density core_mw diss temp y = Some inp /\ physical (d_ns d) (d_nc d) nb inp /\
  i_y inp = y /\ i_ycore inp = y_core /\ i_nper inp = nper /\ i_diss inp = diss /\ i_NA inp = avogadro /\
  i_core_mass inp = map (fun c => c / avogadro * core_mw)%R y_core /\ i_core_density inp = repeat core_density nb /\
  i_mw inp = d_mw d /\ i_density inp = d_density d /\
  (forall j i, nth_error (d_include d) j = Some i -> nth j (i_cg inp) 0%R = nth i y 0%R).
Proof.
  destruct (C44_partial text n st smiles objects cutoff p temp Htext Hp) as (d' & Hd' & Hns & Hnc & L1 & L2 & L3 & LF & Hs & Fb & Hin & _ & Wnc & WI & WD & WM & WV & _).
  assert (d' = d) by congruence. subst d'.
  assert (Pos : Forall (Rlt 0) (d_density d) /\ Forall (Rlt 0) (d_mw d)).
  { split; apply Forall_forall; intros v Hv; apply In_nth_error in Hv as [j Hj].
    - assert (Hjl : j < d_nc d) by (rewrite <- L1; apply nth_error_Some; congruence).
      destruct (Nat.eq_dec j (d_nc d - 1)) as [->|Hne]; [rewrite WD in Hj; injection Hj as <-; lra|].
      destruct (nth_error (d_include d) j) as [i|] eqn:Ei; [|apply nth_error_None in Ei; lia]. destruct (Hin j i Ei ltac:(lia)) as (x & c & Hx & Hc & _ & E & _).
      rewrite E in Hj. injection Hj as <-. destruct (Hchem i x c Hx Hc). lra.
    - assert (Hjl : j < d_nc d) by (rewrite <- L2; apply nth_error_Some; congruence).
      destruct (Nat.eq_dec j (d_nc d - 1)) as [->|Hne]; [rewrite WM in Hj; injection Hj as <-; lra|].
      destruct (nth_error (d_include d) j) as [i|] eqn:Ei; [|apply nth_error_None in Ei; lia]. destruct (Hin j i Ei ltac:(lia)) as (x & c & Hx & Hc & _ & _ & E & _).
      rewrite E in Hj. injection Hj as <-. destruct (Hchem i x c Hx Hc). lra. }
  destruct Pos as [PD PM].
  exact (prepared_physical d temp Hnc L1 L2 L3 Fb Wnc PD PM Htemp nb y_core nper core_density core_mw diss y Lcore Lnper Ly Pcore Pnper Pcd Pcm Pdiss Py).
Qed.
End Run.

(* C62: for a physical state the right-hand side exists.  Every species keeps
   its molecules: what its gas slot and its condensed slots gain together is
   what the gas-phase chemistry gives; species that do not partition follow the
   chemistry alone; water is only exchanged.  The condensed slots grow by the
   condensation equation with the gas concentration of their own species. *)
Theorem C62_conservation text n st smiles objects cutoff temp p d nb y_core nper core_density core_mw diss y bins gas g :
  extract_mechanism text = Ok (n, st) ->
  Pure_component1 (List.length (p_sp st)) (p_sp st) (p_sp2a st) smiles objects true cutoff = Ok p ->
  prepare (List.length (p_sp st)) (p_sp2a st) p true temp = Ok d ->
  (forall i x c, dget i (p_sp st) = Some x -> molecule_of smiles objects x c -> sensible c) -> (0 < temp)%R ->
  List.length y_core = nb -> List.length nper = nb -> List.length y = d_ns d + d_nc d * nb ->
  Forall (Rlt 0) y_core -> Forall (Rlt 0) nper -> (0 < core_density)%R -> (0 < core_mw)%R -> (0 < diss)%R ->
  (forall b j, b < nb -> j < d_nc d -> (0 <= nth (slot (d_ns d) (d_nc d) b j) y 0)%R) ->
  Permutation bins (seq 0 nb) -> nb <> 0 ->
  gas (firstn (List.length (p_sp st)) y) = Some g -> List.length g = List.length (p_sp st) ->
  exists q inp dy, Pure_component2 (d_nc d) (d_mw d) Rgas temp = Some q /\
    partition_inputs d q y_core nper core_density core_mw diss temp y = Some inp /\
    aerosol_rhs gas d q nb y_core nper core_density core_mw diss temp bins y = Some dy /\
    List.length dy = List.length y /\
    (forall j i, nth_error (d_include d) j = Some i -> i < List.length (p_sp st) ->
       (nth i dy 0 + rsum (map (fun b => nth (slot (d_ns d) (d_nc d) b j) dy 0) (seq 0 nb)) = nth i g 0)%R) /\
    (forall i, i < List.length (p_sp st) -> ~ In i (d_include d) -> nth i dy 0%R = nth i g 0%R) /\
    (nth (List.length (p_sp st)) dy 0 + rsum (map (fun b => nth (slot (d_ns d) (d_nc d) b (d_nc d - 1)) dy 0) (seq 0 nb)) = 0)%R /\
    rsum dy = rsum g /\
    (forall b, b < nb -> exists r, is_radius (d_ns d) (d_nc d) inp b r /\
       forall j i, nth_error (d_include d) j = Some i ->
         nth (slot (d_ns d) (d_nc d) b j) dy 0%R = (transfer inp b r j * (nth i y 0 - equilibrium (d_ns d) (d_nc d) inp b r j))%R).
Proof.
  intros Htext Hp Hd Hchem Htemp Lcore Lnper Ly Pcore Pnper Pcd Pcm Pdiss Py PB Hnb Hg Lg.
  destruct (inputs_physical text n st smiles objects cutoff temp p d Htext Hp Hd Hchem Htemp nb y_core nper core_density core_mw diss y Lcore Lnper Ly Pcore Pnper Pcd Pcm Pdiss Py)
    as (q & inp & Hq & Hinp & ph & _ & _ & _ & _ & _ & _ & _ & _ & _ & Hcg).
  destruct (C44_partial text n st smiles objects cutoff p temp Htext Hp) as (d' & Hd' & Hns & Hnc & L1 & L2 & L3 & LF & Hs & Fb & Hin & _ & Wnc & WI & _).
  assert (d' = d) by congruence. subst d'.
  assert (Nd : NoDup (d_include d)).
  { clear - Hs. induction Hs as [|a l H IH F]; constructor; [|exact IH]. intros Ha. assert (Q := proj1 (Forall_forall _ _) F a Ha). lia. }
  destruct (C41_direction (d_ns d) (d_nc d) nb (d_include d) inp bins ph (eq_sym Hnc) Fb PB) as (soa & aw & size & dyp & Hdy & Hgrow).
  assert (Cons := C39_partial (d_ns d) (d_nc d) nb (d_include d) inp bins soa aw size dyp Nd (eq_sym Hnc) PB Hdy).
  assert (Tot := C39_total (d_ns d) (d_nc d) nb (d_include d) inp bins soa aw size dyp Nd (eq_sym Hnc) PB Hnb Hdy).
  destruct (C40_untouched_partial (d_ns d) (d_nc d) nb (d_include d) inp bins soa aw size dyp PB Hdy) as [Ldy Unt].
  set (full := g ++ repeat 0%R (1 + d_nc d * nb)).
  assert (Lfull : List.length full = List.length dyp) by (unfold full; rewrite app_length, repeat_length; lia).
  exists q, inp, (map (fun pr => fst pr + snd pr)%R (combine full dyp)). split; [exact Hq|]. split; [exact Hinp|]. split.
  { unfold aerosol_rhs. replace (d_ns d - 1) with (List.length (p_sp st)) by lia. rewrite Hg. cbn [obind]. rewrite Lg, Nat.eqb_refl. cbn [negb].
    rewrite Hinp. cbn [obind]. rewrite Hdy. cbn [obind snd]. reflexivity. }
  split; [rewrite map_length, combine_length; lia|].
  assert (NS : forall k, k < List.length dyp -> nth k (map (fun pr => fst pr + snd pr)%R (combine full dyp)) 0%R = (nth k full 0 + nth k dyp 0)%R).
  { intros k Hk. rewrite (nth_indep _ 0%R (fst (0, 0) + snd (0, 0))%R) by (rewrite map_length, combine_length; lia).
    rewrite (map_nth (fun pr => fst pr + snd pr)%R), combine_nth by exact Lfull. reflexivity. }
  assert (Flow : forall k, k < List.length (p_sp st) -> nth k full 0%R = nth k g 0%R) by (intros k Hk; unfold full; apply app_nth1; lia).
  assert (Fhigh : forall k, List.length (p_sp st) <= k -> nth k full 0%R = 0%R).
  { intros k Hk. unfold full. rewrite app_nth2 by lia. destruct (Nat.lt_ge_cases (k - List.length g) (1 + d_nc d * nb)); [apply nth_repeat | apply nth_overflow; rewrite repeat_length; assumption]. }
  assert (SL : forall b j, b < nb -> j < d_nc d -> nth (slot (d_ns d) (d_nc d) b j) (map (fun pr => fst pr + snd pr)%R (combine full dyp)) 0%R = nth (slot (d_ns d) (d_nc d) b j) dyp 0%R).
  { intros b j Hb Hj. rewrite NS by (unfold slot; nia). rewrite Fhigh by (unfold slot; lia). ring. }
  assert (SUM : forall j, j < d_nc d -> rsum (map (fun b => nth (slot (d_ns d) (d_nc d) b j) (map (fun pr => fst pr + snd pr)%R (combine full dyp)) 0%R) (seq 0 nb)) =
                          rsum (map (fun b => nth (slot (d_ns d) (d_nc d) b j) dyp 0%R) (seq 0 nb))).
  { intros j Hj. apply rsum_ext. intros b Hb. apply in_seq in Hb. apply SL; [lia | exact Hj]. }
  split; [|split; [|split; [|split]]].
  - intros j i Hj Hi. assert (Hjl : j < d_nc d) by (rewrite Hnc; apply nth_error_Some; congruence).
    rewrite SUM by exact Hjl. rewrite NS by lia. rewrite Flow by exact Hi. specialize (Cons j i Hj ltac:(lia)). lra.
  - intros i Hi Hn. rewrite NS by lia. rewrite Flow by exact Hi. rewrite Unt by (lia || exact Hn). ring.
  - rewrite SUM by lia. rewrite NS by lia. rewrite Fhigh by lia. specialize (Cons _ _ WI ltac:(lia)). lra.
  - assert (RS : forall (a b : list R), List.length a = List.length b -> rsum (map (fun pr => fst pr + snd pr)%R (combine a b)) = (rsum a + rsum b)%R).
    { induction a as [|u a IH]; intros [|v b] E; try discriminate; [unfold rsum; cbn; ring|]. cbn [combine map fst snd].
      change (rsum (u :: a)) with (u + rsum a)%R. change (rsum (v :: b)) with (v + rsum b)%R.
      match goal with |- rsum (?h :: ?t) = _ => change (rsum (h :: t)) with (h + rsum t)%R end. rewrite IH by (injection E; auto). ring. }
    rewrite RS by exact Lfull. rewrite Tot. unfold full. rewrite rsum_app.
    assert (Z : forall k, rsum (repeat 0%R k) = 0%R) by (induction k as [|k IH]; [reflexivity | change (0 + rsum (repeat 0 k) = 0)%R; rewrite IH; ring]).
    rewrite Z. ring.
  - intros b Hb. destruct (Hgrow b Hb) as (r & Hr & _ & _ & Gj). exists r. split; [exact Hr|]. intros j i Hj.
    assert (Hjl : j < d_nc d) by (rewrite Hnc; apply nth_error_Some; congruence). rewrite SL by assumption. rewrite (proj1 (Gj j Hjl)). unfold growth. rewrite (Hcg j i Hj). reflexivity.
Qed.

(* C63, C64: at the start, when no organic matter has condensed, the activity
   of water is the relative humidity in every bin, and the particles have the
   size given for the bin, grown by the volume of their water. *)
Lemma omap_nth_val {A} (f : A -> option R) l r b a : omap f l = Some r -> nth_error l b = Some a -> f a = Some (nth b r 0%R).
Proof. intros H Ha. destruct (omap_nth f l r b a H Ha) as (v & Hv & E). rewrite (nth_error_nth _ _ 0%R E). exact Hv. Qed.

Theorem C63_equilibrium text n st smiles objects cutoff temp p d nb core_density core_mw diss RH conc xs nper y_core :
  extract_mechanism text = Ok (n, st) ->
  Pure_component1 (List.length (p_sp st)) (p_sp st) (p_sp2a st) smiles objects true cutoff = Ok p ->
  prepare (List.length (p_sp st)) (p_sp2a st) p true temp = Ok d ->
  (forall i x c, dget i (p_sp st) = Some x -> molecule_of smiles objects x c -> sensible c) -> (0 < temp)%R ->
  (0 <= RH < 1)%R -> (0 < core_density)%R -> (0 < core_mw)%R -> (0 < diss)%R ->
  List.length xs = nb -> List.length nper = nb -> Forall (Rlt 0) xs -> Forall (Rlt 0) nper ->
  core_molecules (combine xs nper) core_density core_mw = Some y_core ->
  NoDup (dkeys conc) -> (forall x, In x (dkeys conc) -> x = s_ "H2O" \/ In x (dkeys (p_sp2a st))) ->
  forall bins, Permutation bins (seq 0 nb) ->
  exists y_cond y q inp soa aw size dy, initial_condensed (d_nc d) nb y_core diss RH nb = Ok y_cond /\
    aerosol_initial (d_ns d) (d_nc d) nb (d_sp2a d) conc y_cond = Ok y /\
    Pure_component2 (d_nc d) (d_mw d) Rgas temp = Some q /\
    partition_inputs d q y_core nper core_density core_mw diss temp y = Some inp /\
    dydt_partition (d_ns d) (d_nc d) nb (d_include d) inp bins = Some (soa, aw, size, dy) /\
    soa = 0%R /\
    forall b, b < nb -> nth b aw 0%R = RH /\
      (Pi * nth b size 0 ^ 3 = PI * (nth b xs 0 / 1000000) ^ 3 * (1 + diss * (RH / (1 - RH)) * (18 / core_mw) * (core_density / 1000)))%R.
Proof.
  intros Htext Hp Hd Hchem Htemp [HR0 HR1] Pcd Pcm Pdiss Lx Ln Px Pn Hcore Nd Hk bins PB.
  assert (NP := avogadro_pos). assert (PP := PI_RGT_0).
  assert (Lc : List.length y_core = nb) by (rewrite (omap_length _ _ _ Hcore), combine_length; lia).
  assert (Vc : forall b, b < nb -> nth b y_core 0%R = (4 / 3 * PI * (nth b xs 0 / 1000000) ^ 3 * core_density / (core_mw * / 1000) * avogadro * nth b nper 0)%R).
  { intros b Hb. assert (E := omap_nth_val _ _ _ b (nth b xs 0%R, nth b nper 0%R) Hcore). rewrite (nth_error_nth' _ (0, 0)%R) in E by (rewrite combine_length; lia).
    rewrite combine_nth in E by lia. specialize (E eq_refl). cbn [fst snd] in E. rewrite rdiv_Some in E by lra. cbn [obind] in E. injection E as E. rewrite <- E. reflexivity. }
  assert (Pc : Forall (Rlt 0) y_core).
  { apply Forall_forall. intros v Hv. apply In_nth_error in Hv as [b Hb]. assert (Hbl : b < nb) by (rewrite <- Lc; apply nth_error_Some; congruence).
    rewrite <- (nth_error_nth _ _ 0%R Hb), (Vc b Hbl).
    assert (0 < nth b xs 0)%R by (apply (Forall_nth_pos xs b nb); assumption). assert (0 < nth b nper 0)%R by (apply (Forall_nth_pos nper b nb); assumption).
    apply Rmult_lt_0_compat; [|assumption]. apply Rmult_lt_0_compat; [|exact NP]. apply Rdiv_lt_0_compat; [|lra].
    apply Rmult_lt_0_compat; [|exact Pcd]. apply Rmult_lt_0_compat; [lra | apply pow_lt; lra]. }
  assert (HR : RH <> 1%R) by lra.
  destruct (C42_initial text n st smiles objects cutoff temp p d nb y_core diss RH conc Htext Hp Hd HR Lc Nd Hk) as (y_cond & y & Hc & Hy & Ly & _ & _ & Y0 & YW).
  assert (Wnc := condensed_nonempty text n st smiles objects cutoff temp p d Htext Hp Hd).
  assert (QR : (0 <= RH / (1 - RH))%R) by (apply Rmult_le_pos; [exact HR0 | left; apply Rinv_0_lt_compat; lra]).
  assert (Py : forall b j, b < nb -> j < d_nc d -> (0 <= nth (slot (d_ns d) (d_nc d) b j) y 0)%R).
  { intros b j Hb Hj. destruct (Nat.eq_dec j (d_nc d - 1)) as [->|Hne].
    - rewrite (nth_error_nth _ _ 0%R (YW b Hb)). assert (0 < nth b y_core 0)%R by (apply (Forall_nth_pos y_core b nb); assumption). apply Rmult_le_pos; [nra | exact QR].
    - rewrite (nth_error_nth _ _ 0%R (Y0 b j Hb ltac:(lia))). lra. }
  destruct (inputs_physical text n st smiles objects cutoff temp p d Htext Hp Hd Hchem Htemp nb y_core nper core_density core_mw diss y Lc Ln Ly Pc Pn Pcd Pcm Pdiss Py)
    as (q & inp & Hq & Hinp & ph & Iy & Ic & In_ & Id & Ia & Icm & Icd & Im & Ide & _).
  destruct (C44_partial text n st smiles objects cutoff p temp Htext Hp) as (d' & Hd' & Hns & Hnc & L1 & L2 & L3 & LF & Hs & Fb & Hin & _ & _ & WI & WD & WM & _).
  assert (d' = d) by congruence. subst d'.
  destruct (partition_runs (d_ns d) (d_nc d) nb (d_include d) inp bins ph (eq_sym Hnc) Fb PB) as [[[[soa aw] size] dy] Hdy].
  exists y_cond, y, q, inp, soa, aw, size, dy. do 5 (split; [assumption|]).
  destruct (C61_outputs (d_ns d) (d_nc d) nb (d_include d) inp bins soa aw size dy ph PB Hdy) as (Hsoa & _ & _ & _ & Hb).
  assert (Am : forall b j, b < nb -> j < d_nc d - 1 -> amount (d_ns d) (d_nc d) inp b j = 0%R).
  { intros b j Hbn Hj. unfold amount. rewrite Iy. apply nth_error_nth, Y0; assumption. }
  assert (Aw : forall b, b < nb -> amount (d_ns d) (d_nc d) inp b (d_nc d - 1) = (nth b y_core 0 * diss * (RH / (1 - RH)))%R).
  { intros b Hbn. unfold amount. rewrite Iy. apply nth_error_nth, YW. exact Hbn. }
  assert (Sq : seq 0 (d_nc d) = seq 0 (d_nc d - 1) ++ [d_nc d - 1]).
  { replace (d_nc d) with (S (d_nc d - 1)) at 1 by lia. apply seq_S. }
  split.
  { rewrite Hsoa. unfold organic_mass. rewrite (rsum_zero _ (seq 0 nb)); [ring|]. intros b Hbn. apply in_seq in Hbn. apply rsum_zero. intros j Hj. apply in_seq in Hj.
    unfold mass_of. rewrite Am by lia. unfold Rdiv. ring. }
  intros b Hbn. destruct (Hb b Hbn) as (Eaw & _ & Hr). assert (PC : (0 < nth b y_core 0)%R) by (apply (Forall_nth_pos y_core b nb); assumption). split.
  - rewrite Eaw. unfold mole_fraction, total_amount. rewrite Sq, map_app, rsum_app, (rsum_zero _ (seq 0 (d_nc d - 1))).
    2:{ intros j Hj. apply in_seq in Hj. apply Am; lia. }
    cbn [map]. change (rsum [amount (d_ns d) (d_nc d) inp b (d_nc d - 1)]) with (amount (d_ns d) (d_nc d) inp b (d_nc d - 1) + 0)%R. rewrite Aw by exact Hbn. rewrite Ic, Id. set (u := nth b y_core 0%R) in *.
    assert (0 < u * diss)%R by (apply Rmult_lt_0_compat; assumption).
    replace (0 + (u * diss * (RH / (1 - RH)) + 0) + u * diss)%R with (u * diss / (1 - RH))%R by (field; lra). field. repeat split; lra.
  - destruct Hr as [Rpos Hr]. unfold particle_volume in Hr. rewrite Sq, map_app, rsum_app, (rsum_zero _ (seq 0 (d_nc d - 1))) in Hr.
    2:{ intros j Hj. apply in_seq in Hj. unfold mass_of. rewrite Am by lia. unfold Rdiv. ring. }
    cbn [map] in Hr. match type of Hr with context [rsum [?v]] => change (rsum [v]) with (v + 0)%R in Hr end.
    unfold mass_of in Hr. rewrite Aw in Hr by exact Hbn.
    rewrite Im, Ide, Ia, Icm, Icd, In_, (nth_error_nth _ _ 0%R WD), (nth_error_nth _ _ 0%R WM) in Hr.
    assert (Q1 : nth b (map (fun c => c / avogadro * core_mw)%R y_core) 0%R = (nth b y_core 0 / avogadro * core_mw)%R).
    { apply nth_error_nth. apply (map_nth_error (fun c => c / avogadro * core_mw)%R). apply nth_error_nth'. lia. }
    assert (Q2 : nth b (repeat core_density nb) 0%R = core_density).
    { apply nth_error_nth. rewrite (nth_error_nth' _ core_density) by (rewrite repeat_length; exact Hbn). rewrite nth_repeat. reflexivity. }
    rewrite Q1, Q2, (Vc b Hbn) in Hr. assert (PN : (0 < nth b nper 0)%R) by (apply (Forall_nth_pos nper b nb); assumption).
    set (r := nth b size 0%R) in *. set (N := nth b nper 0%R) in *. set (X := (nth b xs 0 / 1000000)%R) in *.
    apply (Rmult_eq_reg_l (4 / 3 * (N * 1000000))%R); [|nra].
    replace (4 / 3 * (N * 1000000) * (Pi * r ^ 3))%R with (4 / 3 * Pi * r ^ 3 * (N * 1000000))%R by ring. rewrite Hr. field. repeat split; lra.
Qed.

(* The hypotheses meet: the example mechanism, molecules for two of its
   species of which one is too volatile, and the driver's constants. *)
Definition ex_smiles : dict str str := [(s_ "APINENE", s_ "CC1=CCC2CC1C2(C)C"); (s_ "NAPINAO2", s_ "[O-][N+](=O)OC1CC2CC(C1(C)O[O])C2(C)C")].
Definition ex_objects : dict str chem :=
  [(s_ "CC1=CCC2CC1C2(C)C", Chem 0.86 136.23 (-2.2) 10 16 0); (s_ "[O-][N+](=O)OC1CC2CC(C1(C)O[O])C2(C)C", Chem 1.2 230.24 (-7.5) 10 16 5)].

Lemma ex_molecules i x c : dget i (p_sp (interp ex_mech)) = Some x -> molecule_of ex_smiles ex_objects x c -> sensible c.
Proof.
  intros _ (s & Hs & Hc). apply dget_Some_In in Hc. cbn [In ex_objects] in Hc. destruct Hc as [Hc|[Hc|[]]]; injection Hc as _ <-; split; cbn; lra.
Qed.

Example aero_example : exists p d xs nper y_core y_cond y dy q,
  extract_mechanism ex_text = Ok (Z.of_nat (List.length ex_mech), interp ex_mech) /\
  Pure_component1 (List.length (p_sp (interp ex_mech))) (p_sp (interp ex_mech)) (p_sp2a (interp ex_mech)) ex_smiles ex_objects true (-6) = Ok p /\
  prepare (List.length (p_sp (interp ex_mech))) (p_sp2a (interp ex_mech)) p true 288.15 = Ok d /\
  In 2 (d_include d) /\ ~ In 0 (d_include d) /\
  lognormal 16 100 0.2 2.2 0.01 1 = Some (nper, xs) /\
  core_molecules (combine xs nper) 1770 132.14 = Some y_core /\
  initial_condensed (d_nc d) 16 y_core 3 0.5 16 = Ok y_cond /\
  aerosol_initial (d_ns d) (d_nc d) 16 (d_sp2a d) [(s_ "O3", 18%R); (s_ "APINENE", 30%R); (s_ "H2O", 200%R)] y_cond = Ok y /\
  aerosol_rhs (fun y => Some (map (fun _ => 0%R) y)) d q 16 y_core nper 1770 132.14 3 288.15 (seq 0 16) y = Some dy.
Proof.
  assert (Htext : extract_mechanism ex_text = Ok (Z.of_nat (List.length ex_mech), interp ex_mech)) by apply written_extract, ex_written.
  destruct (proj2 (C43_exactly_when _ _ _ ex_smiles ex_objects true (-6)%R Htext)) as [p Hp].
  { intros i x s _ Hs. apply dget_Some_In in Hs. destruct Hs as [Hs|[Hs|[]]]; apply (f_equal snd) in Hs; cbn [snd] in Hs; subst s; eexists.
    - split; [vm_compute; reflexivity | discriminate].
    - split; [vm_compute; reflexivity | discriminate]. }
  destruct (C44_partial _ _ _ ex_smiles ex_objects (-6)%R p 288.15%R Htext Hp) as (d & Hd & Hns & Hnc & _ & _ & _ & _ & _ & _ & Hin & Hex & Wnc & _).
  destruct (C45_partial 16 100 0.2 2.2 0.01 1) as (nper & xs & Hln & Ln & Lx & Pn & _ & X0 & _ & Inc & _); try lra; [lia|].
  assert (Px : Forall (Rlt 0) xs).
  { apply Forall_forall. intros v Hv. apply In_nth with (d := 0%R) in Hv as (i & Hi & <-). destruct i as [|i]; [rewrite X0; lra|].
    assert (Q := Inc 0 (S i) ltac:(lia)). rewrite X0 in Q. lra. }
  assert (Hcore : exists y_core, core_molecules (combine xs nper) 1770 132.14 = Some y_core).
  { apply omap_all. intros a _. rewrite rdiv_Some by lra. cbn [obind]. eauto. }
  destruct Hcore as [y_core Hcore].
  destruct (C63_equilibrium _ _ _ ex_smiles ex_objects (-6)%R 288.15%R p d 16 1770%R 132.14%R 3%R 0.5%R
     [(s_ "O3", 18%R); (s_ "APINENE", 30%R); (s_ "H2O", 200%R)] xs nper y_core Htext Hp Hd ex_molecules) with (bins := seq 0 16)
     as (y_cond & y & q & inp & soa & aw & size & dyp & H1 & H2 & H3 & H4 & H5 & _); try lra; try assumption; try apply Permutation_refl.
  { repeat constructor; vm_compute; intuition discriminate. }
  { intros x [<-|[<-|[<-|[]]]]; [right | right | left; reflexivity]; match goal with |- In ?a (dkeys ?b) => refine (proj1 (dmem_In a b) _) end; vm_compute; reflexivity. }
  assert (Ly : List.length y = d_ns d + d_nc d * 16).
  { destruct (C42_initial _ _ _ ex_smiles ex_objects (-6)%R 288.15%R p d 16 y_core 3%R 0.5%R [(s_ "O3", 18%R); (s_ "APINENE", 30%R); (s_ "H2O", 200%R)] Htext Hp Hd) as (yc & y' & A1 & A2 & A3 & _).
    - lra.
    - rewrite (omap_length _ _ _ Hcore), combine_length; lia.
    - repeat constructor; vm_compute; intuition discriminate.
    - intros x [<-|[<-|[<-|[]]]]; [right | right | left; reflexivity]; match goal with |- In ?a (dkeys ?b) => refine (proj1 (dmem_In a b) _) end; vm_compute; reflexivity.
    - rewrite A1 in H1. injection H1 as <-. rewrite A2 in H2. injection H2 as <-. exact A3. }
  assert (NE : forall s c, dget (s_ "NAPINAO2") ex_smiles = Some s -> dget s ex_objects = Some c -> c_vp c = (-7.5)%R).
  { intros s c Hs Hc. assert (Es : s = s_ "[O-][N+](=O)OC1CC2CC(C1(C)O[O])C2(C)C") by (apply (f_equal (fun o => match o with Some v => v | None => [] end)) in Hs; rewrite <- Hs; vm_compute; reflexivity).
    subst s. apply (f_equal (fun o => match o with Some v => c_vp v | None => 0%R end)) in Hc; rewrite <- Hc; reflexivity. }
  exists p, d, xs, nper, y_core, y_cond, y. eexists. exists q. split; [exact Htext|]. split; [exact Hp|]. split; [exact Hd|]. split; [|split; [|split; [exact Hln|split; [exact Hcore|split; [exact H1|split; [exact H2|]]]]]].
  - destruct (Hex 2 (s_ "NAPINAO2")) as (j & _ & Hj); [vm_compute; reflexivity | | exact (nth_error_In _ _ Hj)].
    intros [Hx|[_ (c & (s & Hs & Hc) & Hlt)]]; [discriminate|]. rewrite (NE s c Hs Hc) in Hlt. lra.
  - intros H0. apply In_nth_error in H0 as [j Hj]. assert (Hjl : j < d_nc d) by (rewrite Hnc; apply nth_error_Some; congruence).
    destruct (Nat.eq_dec j (d_nc d - 1)) as [->|Hne].
    + destruct (C44_partial _ _ _ ex_smiles ex_objects (-6)%R p 288.15%R Htext Hp) as (d' & Hd' & _ & _ & _ & _ & _ & _ & _ & _ & _ & _ & _ & WI & _).
      assert (d' = d) by congruence. subst d'. rewrite WI in Hj. apply (f_equal (fun o => match o with Some k => k | None => 0 end)) in Hj. vm_compute in Hj. discriminate.
    + destruct (Hin j 0 Hj ltac:(lia)) as (x & c & Hx & (s & Hs & Hc) & Hle & _). assert (Ex : x = s_ "APINENE") by (apply (f_equal (fun o => match o with Some v => v | None => [] end)) in Hx; rewrite <- Hx; vm_compute; reflexivity).
      subst x. assert (Es : s = s_ "CC1=CCC2CC1C2(C)C") by (apply (f_equal (fun o => match o with Some v => v | None => [] end)) in Hs; rewrite <- Hs; vm_compute; reflexivity).
      subst s. assert (Ec : c_vp c = (-2.2)%R) by (apply (f_equal (fun o => match o with Some v => c_vp v | None => 0%R end)) in Hc; rewrite <- Hc; reflexivity).
      rewrite Ec in Hle. lra.
  - unfold aerosol_rhs. cbn [obind]. rewrite map_length, firstn_length, Nat.min_l by lia. rewrite Nat.eqb_refl. cbn [negb]. rewrite H4. cbn [obind]. rewrite H5. cbn [obind]. reflexivity.
Qed.

(* A mechanism in which water itself reacts: 200 molecules per cm3 are given,
   and the chemistry sees none. *)
Definition water_words : list wrx := [([s_ "O1D"; s_ "H2O"], [s_ "OH"], s_ "2.2D-10")].
Theorem C42_refuted : exists st p d y_cond y k,
  written (map bare water_words) (show water_words) /\ extract_mechanism (show water_words) = Ok (1%Z, st) /\
  Pure_component1 (List.length (p_sp st)) (p_sp st) (p_sp2a st) [] [] true (-6) = Ok p /\
  prepare (List.length (p_sp st)) (p_sp2a st) p true 288.15 = Ok d /\
  initial_condensed (d_nc d) 1 [1%R] 3 0.5 1 = Ok y_cond /\
  aerosol_initial (d_ns d) (d_nc d) 1 (d_sp2a d) [(s_ "H2O", 200%R)] y_cond = Ok y /\
  dget (s_ "H2O") (p_sp2a st) = Some k /\ nth_error y k = Some 0%R.
Proof.
  assert (W : written (map bare water_words) (show water_words)) by (apply bare_written; [discriminate | reflexivity]).
  assert (Htext : extract_mechanism (show water_words) = Ok (1%Z, interp (map bare water_words))) by apply (written_extract _ _ W).
  destruct (proj2 (C43_exactly_when _ _ _ [] [] true (-6)%R Htext)) as [p Hp]; [intros i x s _ Hs; discriminate|].
  destruct (C44_partial _ _ _ [] [] (-6)%R p 288.15%R Htext Hp) as (d & Hd & _).
  destruct (C42_initial _ _ _ [] [] (-6)%R 288.15%R p d 1 [1%R] 3%R 0.5%R [(s_ "H2O", 200%R)] Htext Hp Hd) as (yc & y & A1 & A2 & A3 & _).
  - lra.
  - reflexivity.
  - repeat constructor. intros [].
  - intros x [<-|[]]. left. reflexivity.
  - exists (interp (map bare water_words)), p, d, yc, y, 1. do 6 (split; [assumption|]). split; [reflexivity|].
    apply (C42_water_shadowed _ _ _ [] [] (-6)%R 288.15%R p d 1 yc y [(s_ "H2O", 200%R)] 1 Htext Hp Hd); [repeat constructor; intros [] | | exact A2 | reflexivity].
    assert (Q := condensed_nonempty _ _ _ [] [] (-6)%R 288.15%R p d Htext Hp Hd).
    destruct (condensed_fold (d_nc d) 1 [1%R] 3%R 0.5%R Q ltac:(lra) eq_refl 1 (le_n _)) as (yc' & B1 & B2 & _). unfold initial_condensed in A1. rewrite A1 in B1. injection B1 as <-. exact B2.
Qed.

Print Assumptions C42_layout.
Print Assumptions C42_initial.
Print Assumptions C42_unknown_species.
Print Assumptions C42_refuted.
Print Assumptions C62_conservation.
Print Assumptions C63_equilibrium.
