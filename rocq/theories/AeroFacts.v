(* Facts about the aerosol set-up. *)
From Coq Require Import List Bool Arith Lia String Permutation Sorted Reals Lra.
From Verif Require Import Base PyStr PyDict SpecKin LangFacts ModelExpr ModelSolver ModelPart ModelAero PartFacts PartValue PropsSolver.
Import ListNotations.
Import Coq.Lists.List.
Open Scope nat_scope.
Open Scope list_scope.
Local Arguments eqb : simpl never.

Lemma nth_set_nth i j (v d : R) l : i < List.length l -> nth j (set_nth i v l) d = if j =? i then v else nth j l d.
Proof.
  intros H. destruct (Nat.eqb_spec j i) as [->|Hn].
  - apply nth_error_nth, set_nth_same, H.
  - assert (E := set_nth_other i j v l (fun e => Hn (eq_sym e))). destruct (nth_error l j) as [x|] eqn:Ex.
    + rewrite (nth_error_nth _ _ d E), (nth_error_nth _ _ d Ex). reflexivity.
    + apply nth_error_None in E, Ex. rewrite !nth_overflow by assumption. reflexivity.
Qed.
Lemma store_Ok i v l : i < List.length l -> store i v l = Ok (set_nth i v l).
Proof. intros H. unfold store. rewrite (proj2 (Nat.ltb_lt _ _) H). reflexivity. Qed.

Section Pc1.
Context (names : list str) (sp2a : dict str nat) (smiles : dict str str) (objects : dict str chem) (ignore_vp : bool) (cutoff : R).
Context (Hsp : forall x k, dget x sp2a = Some k <-> nth_error names k = Some x).
Notation N := (List.length names).
Notation step := (compound_step sp2a smiles objects ignore_vp cutoff).

(* The molecule of a species, if it has SMILES. *)
Definition molecule (x : str) : option chem := match dget x smiles with Some s => dget s objects | None => None end.
Definition ign (x : str) : bool :=
  negb (dmem x smiles) || (ignore_vp && match molecule x with Some c => if Rlt_dec cutoff (c_vp c) then true else false | None => false end).
Definition ign_at (i : nat) : bool := match nth_error names i with Some x => ign x | None => true end.
Definition usable (x : str) : Prop := forall s, dget x smiles = Some s -> exists c, dget s objects = Some c /\ c_C c <> 0.

Definition inv (k : nat) (p : pc1) : Prop :=
  (List.length (pc_density p) = N /\ List.length (pc_mw p) = N /\ List.length (pc_vp p) = N /\ List.length (pc_oc p) = N /\ List.length (pc_hc p) = N /\ List.length (pc_flag p) = N) /\
  pc_include p = filter (fun i => negb (ign_at i)) (seq 0 k) /\ pc_ignore p = filter ign_at (seq 0 k) /\
  forall i x, nth_error names i = Some x ->
    nth i (pc_flag p) 0%R = (if (i <? k) && ign x then 1 else 0)%R /\
    nth i (pc_density p) 0%R = (match molecule x with Some c => if i <? k then c_density c * 1000 else 1000 | None => 1000 end)%R /\
    nth i (pc_mw p) 0%R = (match molecule x with Some c => if i <? k then c_molwt c else 200 | None => 200 end)%R /\
    nth i (pc_vp p) 0%R = (match molecule x with Some c => if i <? k then c_vp c else 100 | None => 100 end)%R.

Lemma ltb_S i k : i <> k -> (i <? S k) = (i <? k).
Proof. intros H. destruct (Nat.ltb_spec i (S k)), (Nat.ltb_spec i k); reflexivity || lia. Qed.

Lemma step_usable p x : usable x -> forall k, nth_error names k = Some x -> inv k p -> exists p', step p x = Ok p' /\ inv (S k) p'.
Proof.
  intros U k Hk ((L1 & L2 & L3 & L4 & L5 & L6) & I1 & I2 & I3).
  assert (Hkn : k < N) by (apply nth_error_Some; congruence).
  assert (Hd : dget x sp2a = Some k) by (apply Hsp; exact Hk).
  assert (IA : ign_at k = ign x) by (unfold ign_at; rewrite Hk; reflexivity).
  unfold compound_step, lookup. destruct (dmem x smiles) eqn:Em.
  - unfold dmem in Em. destruct (dget x smiles) as [s|] eqn:Es; [|discriminate]. destruct (U s Es) as (c & Hc & HC).
    cbn [bind]. rewrite Hc. cbn [bind]. rewrite Hd. cbn [bind]. repeat (rewrite store_Ok by lia; cbn [bind]).
    assert (EC : (c_C c =? 0) = false) by (apply Nat.eqb_neq; exact HC). rewrite EC. repeat (rewrite store_Ok by lia; cbn [bind]).
    assert (Mx : molecule x = Some c) by (unfold molecule; rewrite Es; exact Hc).
    assert (Ig : ign x = ignore_vp && (if Rlt_dec cutoff (c_vp c) then true else false)).
    { unfold ign, dmem. rewrite Es, Mx. reflexivity. }
    assert (Arr : forall (l : list R) (v d0 : R) (f : chem -> R), List.length l = N -> v = f c ->
       (forall i y, nth_error names i = Some y -> nth i l 0%R = match molecule y with Some c => if i <? k then f c else d0 | None => d0 end) ->
       forall i y, nth_error names i = Some y -> nth i (set_nth k v l) 0%R = match molecule y with Some c => if i <? S k then f c else d0 | None => d0 end).
    { intros l v d0 f Hl Ev H i y Hi. rewrite nth_set_nth by lia. destruct (Nat.eqb_spec i k) as [->|Hn].
      - rewrite Hk in Hi. injection Hi as <-. rewrite Mx, (proj2 (Nat.ltb_lt _ _) (Nat.lt_succ_diag_r k)). exact Ev.
      - rewrite (H i y Hi), (ltb_S i k Hn). reflexivity. }
    rewrite <- Ig. destruct (ign x) eqn:E; repeat (rewrite store_Ok by lia; cbn [bind]).
    + eexists. split; [reflexivity|]. split; [repeat split; cbn; rewrite ?set_nth_len; assumption|]. cbn [pc_include pc_ignore].
      rewrite seq_S, !filter_app, I1, I2. cbn [filter Nat.add]. rewrite IA, app_nil_r. cbn [negb]. split; [reflexivity|]. split; [reflexivity|].
      intros i y Hi. cbn [pc_flag pc_density pc_mw pc_vp]. split; [|split; [|split]].
      * rewrite nth_set_nth by lia. destruct (Nat.eqb_spec i k) as [->|Hn].
        -- rewrite Hk in Hi. injection Hi as <-. rewrite E, (proj2 (Nat.ltb_lt _ _) (Nat.lt_succ_diag_r k)). reflexivity.
        -- rewrite (ltb_S i k Hn). apply (I3 i y Hi).
      * apply (Arr (pc_density p) (c_density c * 1000)%R 1000%R (fun c => c_density c * 1000)%R L1 eq_refl); [intros i' y' Hi'; apply (I3 i' y' Hi') | exact Hi].
      * apply (Arr (pc_mw p) (c_molwt c) 200%R c_molwt L2 eq_refl); [intros i' y' Hi'; apply (I3 i' y' Hi') | exact Hi].
      * apply (Arr (pc_vp p) (c_vp c) 100%R c_vp L3 eq_refl); [intros i' y' Hi'; apply (I3 i' y' Hi') | exact Hi].
    + eexists. split; [reflexivity|]. split; [repeat split; cbn; rewrite ?set_nth_len; assumption|]. cbn [pc_include pc_ignore].
      rewrite seq_S, !filter_app, I1, I2. cbn [filter Nat.add]. rewrite IA, app_nil_r. cbn [negb]. split; [reflexivity|]. split; [reflexivity|].
      intros i y Hi. cbn [pc_flag pc_density pc_mw pc_vp]. split; [|split; [|split]].
      * destruct (Nat.eq_dec i k) as [->|Hn].
        -- rewrite Hk in Hi. injection Hi as <-. rewrite (proj1 (I3 k x Hk)), E, !andb_false_r. reflexivity.
        -- rewrite (ltb_S i k Hn). apply (I3 i y Hi).
      * apply (Arr (pc_density p) (c_density c * 1000)%R 1000%R (fun c => c_density c * 1000)%R L1 eq_refl); [intros i' y' Hi'; apply (I3 i' y' Hi') | exact Hi].
      * apply (Arr (pc_mw p) (c_molwt c) 200%R c_molwt L2 eq_refl); [intros i' y' Hi'; apply (I3 i' y' Hi') | exact Hi].
      * apply (Arr (pc_vp p) (c_vp c) 100%R c_vp L3 eq_refl); [intros i' y' Hi'; apply (I3 i' y' Hi') | exact Hi].
  - rewrite Hd. cbn [bind]. rewrite store_Ok by lia. cbn [bind].
    assert (E : ign x = true) by (unfold ign; rewrite Em; reflexivity).
    assert (Mx : molecule x = None) by (unfold molecule; unfold dmem in Em; destruct (dget x smiles); [discriminate | reflexivity]).
    eexists. split; [reflexivity|]. split; [repeat split; cbn; rewrite ?set_nth_len; assumption|]. cbn [pc_include pc_ignore].
    rewrite seq_S, !filter_app, I1, I2. cbn [filter Nat.add]. rewrite IA, E. cbn [negb]. rewrite app_nil_r. split; [reflexivity|]. split; [reflexivity|].
    intros i y Hi. cbn [pc_flag pc_density pc_mw pc_vp]. destruct (I3 i y Hi) as (F1 & F2 & F3 & F4). split; [|split; [|split]].
    + rewrite nth_set_nth by lia. destruct (Nat.eqb_spec i k) as [->|Hn].
      * rewrite Hk in Hi. injection Hi as <-. rewrite E, (proj2 (Nat.ltb_lt _ _) (Nat.lt_succ_diag_r k)). reflexivity.
      * rewrite (ltb_S i k Hn). exact F1.
    + rewrite F2. destruct (Nat.eq_dec i k) as [->|Hn]; [rewrite Hk in Hi; injection Hi as <-; rewrite Mx; reflexivity | rewrite (ltb_S i k Hn); reflexivity].
    + rewrite F3. destruct (Nat.eq_dec i k) as [->|Hn]; [rewrite Hk in Hi; injection Hi as <-; rewrite Mx; reflexivity | rewrite (ltb_S i k Hn); reflexivity].
    + rewrite F4. destruct (Nat.eq_dec i k) as [->|Hn]; [rewrite Hk in Hi; injection Hi as <-; rewrite Mx; reflexivity | rewrite (ltb_S i k Hn); reflexivity].
Qed.

Lemma step_unusable p x p' : step p x = Ok p' -> usable x.
Proof.
  unfold compound_step, lookup. intros H s Hs. assert (Em : dmem x smiles = true) by (unfold dmem; rewrite Hs; reflexivity).
  rewrite Em, Hs in H. cbn [bind] in H. destruct (dget s objects) as [c|]; [|discriminate]. cbn [bind] in H. exists c. split; [reflexivity|].
  destruct (dget x sp2a); [|discriminate]. cbn [bind] in H. destruct (store _ _ (pc_density p)); [|discriminate]. cbn [bind] in H.
  destruct (store _ _ (pc_mw p)); [|discriminate]. cbn [bind] in H. destruct (c_C c =? 0) eqn:E; [discriminate|]. apply Nat.eqb_neq in E. exact E.
Qed.

Definition start : pc1 := Pc1 (repeat 1000%R N) (repeat 200%R N) (repeat 100%R N) (repeat 0%R N) (repeat 0%R N) [] [] (repeat 0%R N).
Lemma inv_start : inv 0 start.
Proof.
  split; [repeat split; apply repeat_length|]. split; [reflexivity|]. split; [reflexivity|]. intros i x Hi. cbn [start pc_flag pc_density pc_mw pc_vp].
  assert (L : i < N) by (apply nth_error_Some; congruence).
  assert (R0 : forall v : R, nth i (repeat v N) 0%R = v).
  { intros v. rewrite (nth_indep _ 0%R v) by (rewrite repeat_length; exact L). apply nth_repeat. }
  rewrite !R0. cbn [Nat.ltb Nat.leb andb]. destruct (molecule x); auto.
Qed.

Lemma fold_usable suf : forall k p, names = firstn k names ++ suf -> k + List.length suf = N -> Forall usable suf -> inv k p ->
  exists p', foldM step suf p = Ok p' /\ inv N p'.
Proof.
  induction suf as [|x suf IH]; intros k p E L U I; cbn [foldM].
  - cbn in L. rewrite Nat.add_0_r in L. subst k. exists p. auto.
  - inversion U as [|? ? Ux U']; subst. cbn in L.
    assert (Hk : nth_error names k = Some x).
    { rewrite E. rewrite nth_error_app2; rewrite firstn_length, Nat.min_l by lia; [|lia]. rewrite Nat.sub_diag. reflexivity. }
    destruct (step_usable p x Ux k Hk I) as (p1 & Hp1 & I1). rewrite Hp1. cbn [bind]. apply (IH (S k) p1); [|lia | exact U' | exact I1].
    rewrite E at 1. assert (F : firstn (S k) names = firstn k names ++ [x]).
    { clear - Hk. revert k Hk. induction names as [|y l IHl]; intros [|k] Hk; try discriminate; cbn in *; [injection Hk as <-; reflexivity | rewrite (IHl k Hk); reflexivity]. }
    rewrite F, <- app_assoc. reflexivity.
Qed.
Lemma fold_unusable suf : forall p p', foldM step suf p = Ok p' -> Forall usable suf.
Proof.
  induction suf as [|x suf IH]; intros p p' H; [constructor|]. cbn [foldM] in H. apply bind_Ok in H as (p1 & H1 & H).
  constructor; [exact (step_unusable p x p1 H1) | exact (IH p1 p' H)].
Qed.
Lemma fold_all p' : foldM step names start = Ok p' -> inv N p'.
Proof.
  intros H. destruct (fold_usable names 0 start eq_refl eq_refl (fold_unusable _ _ _ H) inv_start) as (p & Hp & I). congruence.
Qed.
End Pc1.

(* sorted *)
Lemma insert_perm x l : Permutation (x :: l) (insert x l).
Proof.
  induction l as [|y l IH]; cbn; [reflexivity|]. destruct (x <=? y); [reflexivity|].
  rewrite perm_swap. constructor. exact IH.
Qed.
Lemma sorted_perm l : Permutation l (sorted l).
Proof. induction l as [|x l IH]; cbn; [constructor|]. rewrite <- insert_perm. constructor. exact IH. Qed.
Lemma insert_sorted x l : StronglySorted le l -> StronglySorted le (insert x l).
Proof.
  induction l as [|y l IH]; intros H; cbn; [repeat constructor|]. inversion H as [|? ? Hs Hf]; subst.
  destruct (Nat.leb_spec x y).
  - constructor; [exact H|]. constructor; [assumption|]. apply Forall_forall. intros z Hz. assert (Q := proj1 (Forall_forall _ _) Hf z Hz). lia.
  - constructor; [apply IH, Hs|]. apply Forall_forall. intros z Hz. apply (Permutation_in _ (Permutation_sym (insert_perm x l))) in Hz.
    destruct Hz as [->|Hz]; [lia | exact (proj1 (Forall_forall _ _) Hf z Hz)].
Qed.
Lemma sorted_sorted l : StronglySorted le (sorted l).
Proof. induction l as [|x l IH]; cbn; [constructor | apply insert_sorted, IH]. Qed.

Lemma mapM_py_nth (l : list R) idx : (forall i, In i idx -> i < List.length l) -> mapM (py_nth l) idx = Ok (map (fun i => nth i l 0%R) idx).
Proof.
  induction idx as [|i idx IH]; intros H; [reflexivity|]. cbn. unfold py_nth at 1.
  rewrite (nth_error_nth' l 0%R (H i (or_introl eq_refl))). cbn [bind]. rewrite IH by (intros j Hj; apply H; right; exact Hj). reflexivity.
Qed.
