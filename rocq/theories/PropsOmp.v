(* C24, C25: the generated routines with OpenMP directives. *)
From Coq Require Import List Bool Arith ZArith QArith Lia Permutation Reals Sorted.
From Coq Require Import Lra.
From Flocq Require Import Core Relative.
From Verif Require Import Base PyStr PyDict ModelParse SpecMech ParseStruct ParseTables ParseWritten ParseShow PropsParse
  ModelLang ModelGen ModelRhs LangFacts GenReact GenLossGain GenParsed GenJac GenJacParsed PropsKin PropsRhs PropsJac
  ModelOmp OmpFacts.
Import ListNotations.
Open Scope nat_scope.
Open Scope list_scope.

Lemma same_returned n a b : same_result a b -> returned n a = returned n b.
Proof.
  destruct a as [f|], b as [g|]; cbn; try contradiction; [|reflexivity].
  intros H. f_equal. unfold array. apply map_ext. intros i. apply H.
Qed.

Lemma cell_inj off n c c' d : cell off n c = Some d -> cell off n c' = Some d -> c = c'.
Proof.
  unfold cell, cell0, cell1. destruct (off =? 0).
  - destruct (c <? n), (c' <? n); congruence.
  - destruct c as [|c], c' as [|c']; try discriminate. destruct (c <? n), (c' <? n); congruence.
Qed.
Lemma cell2_inj off n c c' d : cell2 off n c = Some d -> cell2 off n c' = Some d -> c = c'.
Proof.
  unfold cell2. destruct c as [a b], c' as [a' b']; cbn [fst snd].
  destruct (cell off n a) eqn:E1, (cell off n b) eqn:E2; try discriminate.
  destruct (cell off n a') eqn:E3, (cell off n b') eqn:E4; try discriminate.
  intros H1 H2. rewrite <- H2 in H1. injection H1 as -> ->.
  rewrite (cell_inj _ _ _ _ _ E1 E3), (cell_inj _ _ _ _ _ E2 E4). reflexivity.
Qed.

Lemma mapM_inv {A B} (f : A -> res B) l r : mapM f l = Ok r -> Forall2 (fun a b => f a = Ok b) l r.
Proof.
  revert r; induction l as [|a l IH]; intros r; cbn [mapM].
  - intros H; injection H as <-; constructor.
  - destruct (f a) as [b|] eqn:E; cbn [bind]; [|discriminate].
    destruct (mapM f l) as [bs|]; cbn [bind]; [|discriminate].
    intros H; injection H as <-. constructor; [exact E | apply IH; reflexivity].
Qed.

Lemma Forall2_length {A B} (P : A -> B -> Prop) l r : Forall2 P l r -> List.length l = List.length r.
Proof. induction 1; cbn; congruence. Qed.

(* A line of the reactant routine is empty or one assignment to its cell. *)
Lemma react_line_shape off sp2a loss rt eq l : react_line off sp2a loss rt eq = Ok l ->
  l = [] \/ exists e, l = [Assign (eq + off) e].
Proof.
  unfold react_line. destruct (foldM _ _ _) as [x|]; cbn [bind]; [|discriminate].
  intros H; injection H as <-. destruct x; [left; reflexivity | right; eauto].
Qed.

Lemma react_lines_cells off sp2a loss rt a k ls :
  Forall2 (fun eq l => react_line off sp2a loss rt eq = Ok l) (seq a k) ls ->
  NoDup (map fst (flat_map assigns ls)) /\ Forall pure ls /\
  forall c, In c (map fst (flat_map assigns ls)) -> a + off <= c.
Proof.
  revert a ls; induction k as [|k IH]; intros a ls H; cbn [seq] in H; inversion H as [|? l ? ls' H1 H2]; subst.
  - cbn. split; [constructor|]. split; [constructor | intros ? []].
  - destruct (IH _ _ H2) as (G1 & G2 & G3). cbn [flat_map]. rewrite map_app.
    destruct (react_line_shape _ _ _ _ _ _ H1) as [->|(e & ->)]; cbn [assigns map app].
    + split; [exact G1|]. split; [constructor; [constructor | exact G2]|]. intros c Hc. apply G3 in Hc. lia.
    + split; [constructor; [intros Hc; apply G3 in Hc; cbn [fst] in Hc; lia | exact G1]|].
      split; [constructor; [repeat constructor | exact G2]|].
      intros c [<-|Hc]; cbn [fst]; [lia | apply G3 in Hc; lia].
Qed.

(* Reactant products: for any tables, any break list, any threads and any
   interleaving, the OpenMP routine returns what the routine without OpenMP
   returns. *)
Theorem C24_reactants : forall n sp2a rt loss breaks p, n <> 0 ->
  gen_reactants_fortran (Some breaks) n sp2a rt loss = Ok p ->
  exists p0 bs, gen_reactants_fortran None n sp2a rt loss = Ok p0 /\ omp_program p = Some bs /\
    forall rnd m0 y tr, execution bs tr ->
      reactants_fortran rnd (as_items tr) n m0 y = reactants_fortran rnd p0 n m0 y.
Proof.
  intros n sp2a rt loss br p Hn. unfold gen_reactants_fortran.
  destruct (mapM (react_line 1 sp2a loss rt) (seq 0 n)) as [ls|] eqn:E; cbn [bind]; [|discriminate].
  intros H; injection H as <-. apply mapM_inv in E.
  destruct (react_lines_cells _ _ _ _ _ _ _ E) as (H1 & H2 & _).
  assert (Hne : ls <> []).
  { intros ->. apply Forall2_length in E. rewrite seq_length in E. cbn in E. lia. }
  destruct (frame_blocks br ls H2 Hne) as (bs & Hb & Hc & _).
  eexists _, bs. split; [reflexivity|]. split; [exact Hb|]. intros rnd m0 y tr He.
  unfold reactants_fortran. apply same_returned, (execution_result _ _ _ bs); [exact He | exact Hc |].
  apply NoDup_consistent; [|apply cell_inj]. rewrite assigns_omp_frame. exact H1.
Qed.

Lemma lg_line_pure loss gain p : pure (lg_line_fortran loss gain p).
Proof.
  destruct p as [s i]. unfold lg_line_fortran. destruct (inb s excluded); [constructor|].
  destruct (dmem s loss || dmem s gain); [|constructor].
  destruct (losses_fortran 0 true (srow s loss)). repeat constructor.
Qed.
Lemma lg_line_cells loss gain s i c : In c (map fst (assigns (lg_line_fortran loss gain (s, i)))) -> c = i + 1.
Proof.
  unfold lg_line_fortran. destruct (inb s excluded); [intros []|].
  destruct (dmem s loss || dmem s gain); [|intros []].
  destruct (losses_fortran 0 true (srow s loss)). cbn [assigns map fst]. intros [H|[]]; auto.
Qed.
Lemma lg_cells_NoDup loss gain (sp2a : dict str nat) : NoDup (dvals sp2a) ->
  NoDup (map fst (flat_map assigns (map (lg_line_fortran loss gain) sp2a))) /\
  forall c, In c (map fst (flat_map assigns (map (lg_line_fortran loss gain) sp2a))) -> exists i, In i (dvals sp2a) /\ c = i + 1.
Proof.
  induction sp2a as [|[s i] l IH]; cbn [map flat_map]; intros Hnd.
  - split; [constructor | intros ? []].
  - cbn [dvals map snd] in Hnd. inversion Hnd as [|? ? Hni Hnd']; subst. destruct (IH Hnd') as [G1 G2]. rewrite map_app. split.
    + apply NoDup_app_disjoint; [| exact G1 |].
      * unfold lg_line_fortran. destruct (inb s excluded); [constructor|].
        destruct (dmem s loss || dmem s gain); [|constructor].
        destruct (losses_fortran 0 true (srow s loss)). repeat constructor. intros [].
      * intros c H1 H2. apply lg_line_cells in H1. apply G2 in H2 as (j & Hj & ->).
        apply Hni. replace i with j by lia. exact Hj.
    + intros c Hc. apply in_app_iff in Hc as [Hc|Hc].
      * apply lg_line_cells in Hc. exists i. split; [left; reflexivity | exact Hc].
      * apply G2 in Hc as (j & Hj & ->). exists j. split; [right; exact Hj | reflexivity].
Qed.

Theorem C24_loss_gain : forall (sp2a : dict str nat) loss gain breaks, sp2a <> [] -> NoDup (dvals sp2a) ->
  exists bs, omp_program (gen_loss_gain_fortran (Some breaks) sp2a loss gain) = Some bs /\
    forall rnd N r tr, execution bs tr ->
      loss_gain_fortran rnd (as_items tr) N r =
      loss_gain_fortran rnd (gen_loss_gain_fortran None sp2a loss gain) N r.
Proof.
  intros sp2a loss gain br Hne Hnd. unfold gen_loss_gain_fortran.
  destruct (frame_blocks br (map (lg_line_fortran loss gain) sp2a)) as (bs & Hb & Hc & _).
  - apply Forall_map, Forall_forall. intros; apply lg_line_pure.
  - destruct sp2a; [congruence | discriminate].
  - exists bs. split; [exact Hb|]. intros rnd N r tr He.
    unfold loss_gain_fortran. apply same_returned, (execution_result _ _ _ bs); [exact He | exact Hc |].
    apply NoDup_consistent; [|apply cell_inj]. rewrite assigns_omp_frame. apply lg_cells_NoDup, Hnd.
Qed.

Lemma jac_row_pure off sp2a rt loss gain ord ct p l : jac_row off sp2a rt loss gain ord ct p = Ok l -> pure l.
Proof.
  destruct p as [s i]. unfold jac_row. destruct (inb s excluded); [intros H; injection H as <-; constructor|].
  intros H. apply mapM_inv in H. induction H as [|x a xs l Hx _ IH]; [constructor|]. constructor; [|exact IH].
  destruct (key (dget x sp2a)); cbn [bind] in Hx; [|discriminate].
  destruct (jac_terms _ _ _ _ _ _ TMinus _ _ _ _ _) as [[tl fl]|]; cbn [bind] in Hx; [|discriminate].
  destruct (jac_terms _ _ _ _ _ _ TPlus _ _ _ _ _) as [[tg fg]|]; cbn [bind] in Hx; [|discriminate].
  injection Hx as <-. exact I.
Qed.

Theorem C24_jacobian : forall m text ord breaks, written m text -> species m <> [] -> is_set_order ord ->
  exists st p0 p bs, extract_mechanism text = Ok (Z.of_nat (List.length m), st) /\
    gen_jacobian_fortran ord None (p_sp2a st) (p_reac st) (p_loss st) (p_gain st) = Ok p0 /\
    gen_jacobian_fortran ord (Some breaks) (p_sp2a st) (p_reac st) (p_loss st) (p_gain st) = Ok p /\
    omp_program p = Some bs /\
    forall rnd N y r tr, execution bs tr ->
      same_result (jacobian_fortran rnd (as_items tr) N y r) (jacobian_fortran rnd p0 N y r).
Proof.
  intros m text ord br W Hs Ho.
  destruct (gen_jacobian_fortran_ok ord None _ _ _ (p_gain (interp m)) Ho (known_all m)) as (p0 & Hp0 & Ha0).
  assert (Hnd := jac_cells_NoDup 1 _ _ _ (p_gain (interp m)) ord true Ho (known_all m) (fun _ => []) 0 eq_refl
                   (or_intror eq_refl) (wf_vals _ _ _ _ _ (interp_lg_wf m))).
  rewrite <- Ha0 in Hnd.
  exists (interp m), p0. unfold gen_jacobian_fortran in *.
  destruct (mapM (jac_row 1 _ _ _ _ ord true) _) as [ls|] eqn:E; cbn [bind] in *; [|discriminate].
  injection Hp0 as <-. apply mapM_inv in E.
  destruct (frame_blocks br ls) as (bs & Hb & Hc & _).
  - clear - E. induction E as [|x a xs l Hx _ IH]; constructor; [eapply jac_row_pure, Hx | exact IH].
  - intros ->. apply Forall2_length in E. cbn [List.length] in E. rewrite sp2a_length in E.
    destruct (species m); [congruence | discriminate].
  - eexists _, bs. split; [apply written_extract, W|]. split; [reflexivity|]. split; [reflexivity|].
    split; [exact Hb|]. intros rnd N y r tr He. unfold jacobian_fortran.
    apply (execution_result _ _ _ bs); [exact He | exact Hc |].
    apply NoDup_consistent; [exact Hnd | apply cell2_inj].
Qed.

(* All three routines of a parsed mechanism, for every core count. *)
Theorem C24_openmp : forall m text ord cores, written m text -> m <> [] -> species m <> [] -> is_set_order ord ->
  exists st p1 p1' b1 b2 p3 p3' b3, extract_mechanism text = Ok (Z.of_nat (List.length m), st) /\
    let n := List.length m in let N := species_count st in
    gen_reactants_fortran None n (p_sp2a st) (p_reac st) (p_loss st) = Ok p1 /\
    gen_reactants_fortran (Some (break_list n cores)) n (p_sp2a st) (p_reac st) (p_loss st) = Ok p1' /\
    omp_program p1' = Some b1 /\
    omp_program (gen_loss_gain_fortran (Some (break_list N cores)) (p_sp2a st) (p_loss st) (p_gain st)) = Some b2 /\
    gen_jacobian_fortran ord None (p_sp2a st) (p_reac st) (p_loss st) (p_gain st) = Ok p3 /\
    gen_jacobian_fortran ord (Some (break_list N cores)) (p_sp2a st) (p_reac st) (p_loss st) (p_gain st) = Ok p3' /\
    omp_program p3' = Some b3 /\
    (forall rnd m0 y tr, execution b1 tr ->
       reactants_fortran rnd (as_items tr) n m0 y = reactants_fortran rnd p1 n m0 y) /\
    (forall rnd r tr, execution b2 tr ->
       loss_gain_fortran rnd (as_items tr) N r =
       loss_gain_fortran rnd (gen_loss_gain_fortran None (p_sp2a st) (p_loss st) (p_gain st)) N r) /\
    (forall rnd y r tr, execution b3 tr ->
       same_result (jacobian_fortran rnd (as_items tr) N y r) (jacobian_fortran rnd p3 N y r)).
Proof.
  intros m text ord cores W Hm Hs Ho. set (N := species_count (interp m)).
  destruct (gen_reactants_fortran_ok (Some (break_list (List.length m) cores)) _ _ _ _ (all_known_interp m)) as (p1' & Hp1' & _).
  destruct (C24_reactants (List.length m) _ _ _ _ _ ltac:(destruct m; [congruence | discriminate]) Hp1') as (p1 & b1 & H1 & H2 & H3).
  destruct (C24_loss_gain (p_sp2a (interp m)) (p_loss (interp m)) (p_gain (interp m)) (break_list N cores))
    as (b2 & G1 & G2).
  { intros E. assert (L := sp2a_length m). rewrite E in L. destruct (species m); [congruence | discriminate]. }
  { apply (wf_vals _ _ _ _ _ (interp_lg_wf m)). }
  destruct (C24_jacobian m text ord (break_list N cores) W Hs Ho) as (st & p3 & p3' & b3 & K1 & K2 & K3 & K4 & K5).
  rewrite (written_extract m text W) in K1. injection K1 as <-.
  exists (interp m), p1, p1', b1, b2, p3, p3', b3. split; [apply written_extract, W|]. cbv zeta. fold N.
  repeat split; try assumption.
  - intros; apply G2; assumption.
  - intros; apply K5; assumption.
Qed.

(* Without any species (every equation is hv = hv) the closing directives are
   written with nothing to close. *)
Theorem C24_empty_refuted : forall loss gain cores,
  omp_program (gen_loss_gain_fortran (Some (break_list 0 cores)) [] loss gain) = None.
Proof. reflexivity. Qed.

(* ------------------------------------------------------------------ *)
(* C25: the places where a new block starts. *)
Lemma sorted_map_seq {A} (le' : A -> A -> Prop) (f : nat -> A) k : (forall i, le' (f i) (f (S i))) ->
  forall a, Sorted le' (map f (seq a k)).
Proof.
  intros H. induction k as [|k IH]; intros a; cbn [seq map]; [constructor|]. constructor; [apply IH|].
  destruct k; cbn [seq map]; constructor. apply H.
Qed.

Lemma break_list_sorted n cores : Sorted le (break_list n cores).
Proof.
  apply sorted_map_seq. intros i. destruct (cores - 1) as [|c]; [cbn; lia|].
  apply Nat.div_le_mono; [discriminate|]. apply Nat.mul_le_mono_r. lia.
Qed.

Lemma break_list_bound n cores b : In b (break_list n cores) -> 0 <= b <= n /\ (0 < n -> b < n).
Proof.
  unfold break_list. rewrite in_map_iff. intros (i & <- & Hi). apply in_seq in Hi.
  assert (Hc : 0 < cores - 1) by lia.
  assert (H : i * n / (cores - 1) <= n).
  { apply Nat.div_le_upper_bound; [lia|]. apply Nat.mul_le_mono_r. lia. }
  split; [lia|]. intros Hn. apply Nat.div_lt_upper_bound; [lia|]. apply Nat.mul_lt_mono_pos_r; lia.
Qed.

Lemma cut_length {A} br (ls : list A) : forall i cur,
  List.length (cut i br cur ls) = S (List.length (filter (fun k => inb k br) (seq i (List.length ls)))).
Proof.
  induction ls as [|l ls IH]; intros i cur; cbn [cut List.length seq filter]; [reflexivity|].
  destruct (inb i br); cbn [List.length]; rewrite IH; reflexivity.
Qed.

(* The breaks with floating point arithmetic, as numpy.linspace computes them:
   step = n/(cores-1) and i*step, each rounded to binary64, then int(). *)
Definition binary64 (x : R) : R := round radix2 (FLT_exp (-1074) 53) ZnearestE x.
Definition break_at (n cores i : nat) : Z :=
  Ztrunc (binary64 (INR i * binary64 (INR n / INR (cores - 1)))).
Definition break_list64 (n cores : nat) : list Z := map (break_at n cores) (seq 1 (cores - 2)).

#[local] Instance exp64_valid : Valid_exp (FLT_exp (-1074) 53).
Proof. apply FLT_exp_valid. reflexivity. Qed.

Lemma binary64_le x y : (x <= y)%R -> (binary64 x <= binary64 y)%R.
Proof. apply round_le; typeclasses eauto. Qed.
Lemma binary64_nonneg x : (0 <= x)%R -> (0 <= binary64 x)%R.
Proof. intros H. rewrite <- (round_0 radix2 (FLT_exp (-1074) 53) ZnearestE). apply binary64_le, H. Qed.

Lemma binary64_int n : (Z.of_nat n < 2 ^ 53)%Z -> binary64 (INR n) = INR n.
Proof.
  intros H. apply round_generic; [typeclasses eauto|]. rewrite INR_IZR_INZ.
  replace (IZR (Z.of_nat n)) with (F2R (Float radix2 (Z.of_nat n) 0)) by (unfold F2R; cbn; ring).
  apply generic_format_FLT. exists (Float radix2 (Z.of_nat n) 0); [reflexivity | cbn -[Z.pow]; lia | cbn; lia].
Qed.

Lemma binary64_upper x : (bpow radix2 (-1022) <= x)%R -> (binary64 x <= x * (1 + bpow radix2 (-53)))%R.
Proof.
  intros Hx. assert (H0 : (0 < x)%R) by (eapply Rlt_le_trans; [apply bpow_gt_0 | exact Hx]).
  assert (G := relative_error_N_FLT radix2 (-1074) 53 eq_refl (fun z => negb (Z.even z)) x).
  replace (-1074 + 53 - 1)%Z with (-1022)%Z in G by reflexivity.
  rewrite (Rabs_pos_eq x) in G by lra. specialize (G Hx).
  assert (E : (/ 2 * bpow radix2 (-53 + 1) = bpow radix2 (-53))%R).
  { replace (/ 2)%R with (bpow radix2 (-1)) by (cbn; lra). rewrite <- bpow_plus. reflexivity. }
  change (-(53) + 1)%Z with (-53 + 1)%Z in G. rewrite E in G.
  apply Rabs_le_inv in G. unfold binary64. lra.
Qed.

Lemma break_list64_sorted n cores : Sorted Z.le (break_list64 n cores).
Proof.
  apply sorted_map_seq. intros i. unfold break_at. apply Ztrunc_le, binary64_le, Rmult_le_compat_r.
  - apply binary64_nonneg. destruct (cores - 1) as [|c]; [cbn [INR]; unfold Rdiv; rewrite Rinv_0; lra|].
    apply Rmult_le_pos; [apply pos_INR | left; apply Rinv_0_lt_compat, lt_0_INR; lia].
  - apply le_INR. lia.
Qed.

Lemma break_list64_bound n cores b : (Z.of_nat n < 2 ^ 53)%Z -> (Z.of_nat cores < 2 ^ 53)%Z ->
  In b (break_list64 n cores) -> (0 <= b <= Z.of_nat n)%Z.
Proof.
  intros Hn Hc. unfold break_list64. rewrite in_map_iff. intros (i & <- & Hi). apply in_seq in Hi. unfold break_at.
  assert (Hd : (0 < INR (cores - 1))%R) by (apply lt_0_INR; lia).
  assert (Hq : (0 <= INR n / INR (cores - 1))%R).
  { apply Rmult_le_pos; [apply pos_INR | left; apply Rinv_0_lt_compat, Hd]. }
  assert (Hnn : (0 <= INR i * binary64 (INR n / INR (cores - 1)))%R).
  { apply Rmult_le_pos; [apply pos_INR | apply binary64_nonneg, Hq]. }
  split.
  - rewrite <- (Ztrunc_IZR 0). apply Ztrunc_le, binary64_nonneg, Hnn.
  - rewrite <- (Ztrunc_IZR (Z.of_nat n)). rewrite <- INR_IZR_INZ. apply Ztrunc_le.
    rewrite <- (binary64_int n Hn) at 2. apply binary64_le.
    destruct (Nat.eq_dec n 0) as [->|Hn0].
    { cbn [INR]. unfold Rdiv. rewrite Rmult_0_l. unfold binary64. rewrite round_0 by typeclasses eauto. lra. }
    assert (Hn1 : (1 <= INR n)%R) by (apply (le_INR 1); lia).
    assert (Hcu : (INR (cores - 1) * bpow radix2 (-53) <= 1)%R).
    { apply Rmult_le_reg_r with (bpow radix2 53); [apply bpow_gt_0|]. rewrite Rmult_assoc, <- bpow_plus.
      cbn [Z.add]. replace (bpow radix2 (-53 + 53)) with 1%R by reflexivity. rewrite Rmult_1_r, Rmult_1_l.
      rewrite INR_IZR_INZ. replace (bpow radix2 53) with (IZR (2 ^ 53)) by reflexivity. apply IZR_le. lia. }
    assert (Hu : (binary64 (INR n / INR (cores - 1)) <= INR n / INR (cores - 1) * (1 + bpow radix2 (-53)))%R).
    { apply binary64_upper. apply Rle_trans with (bpow radix2 (-53)).
      - apply bpow_le. lia.
      - apply Rmult_le_reg_r with (INR (cores - 1)); [exact Hd|]. unfold Rdiv. rewrite Rmult_assoc, Rinv_l by lra. lra. }
    apply Rle_trans with (INR i * (INR n / INR (cores - 1) * (1 + bpow radix2 (-53))))%R.
    { apply Rmult_le_compat_l; [apply pos_INR | exact Hu]. }
    apply Rmult_le_reg_r with (INR (cores - 1)); [exact Hd|].
    replace (INR i * (INR n / INR (cores - 1) * (1 + bpow radix2 (-53))) * INR (cores - 1))%R
      with (INR n * (INR i * (1 + bpow radix2 (-53))))%R by (field; lra).
    apply Rmult_le_compat_l; [lra|].
    assert (Hi1 : (INR i <= INR (cores - 1) - 1)%R).
    { replace (INR (cores - 1) - 1)%R with (INR (cores - 1 - 1)); [apply le_INR; lia|].
      rewrite minus_INR by lia. reflexivity. }
    assert (Hu0 := bpow_gt_0 radix2 (-53)).
    apply Rle_trans with ((INR (cores - 1) - 1) * (1 + bpow radix2 (-53)))%R; [apply Rmult_le_compat_r; lra|]. lra.
Qed.

(* For every number of iterations and every core count the breaks are sorted
   and lie in [0,n], with exact and with floating point arithmetic; with exact
   arithmetic every break is below n when n > 0. *)
Theorem C25_breaks : forall n cores,
  Sorted le (break_list n cores) /\
  (forall b, In b (break_list n cores) -> b <= n /\ (0 < n -> b < n)) /\
  Sorted Z.le (break_list64 n cores) /\
  ((Z.of_nat n < 2 ^ 53)%Z -> (Z.of_nat cores < 2 ^ 53)%Z ->
   forall b, In b (break_list64 n cores) -> (0 <= b <= Z.of_nat n)%Z) /\
  List.length (break_list n cores) = cores - 2 /\ List.length (break_list64 n cores) = cores - 2.
Proof.
  intros n cores. split; [apply break_list_sorted|]. split.
  { intros b Hb. apply break_list_bound in Hb. split; apply Hb. }
  split; [apply break_list64_sorted|]. split; [intros Hn Hc b Hb; apply (break_list64_bound n cores b Hn Hc Hb)|].
  unfold break_list, break_list64. rewrite !map_length, !seq_length. auto.
Qed.

(* For every break list the region is well formed and its blocks are
   consecutive runs of iterations, so that every iteration is in exactly one
   block and in the original order; a block starts at 0 and at the iterations
   in the break list, so there is at most one more block than breaks. *)
Theorem C25_blocks : forall C E (ls : list (list (gitem C E))) breaks, Forall pure ls -> ls <> [] ->
  exists segs : list (list (list (gitem C E))),
    omp_program (omp_frame (Some breaks) ls) = Some (map (flat_map assigns) segs) /\
    concat segs = ls /\
    List.length segs = S (List.length (filter (fun k => inb k breaks) (seq 0 (List.length ls)))) /\
    List.length segs <= S (List.length breaks).
Proof.
  intros C E ls br Hp Hne.
  exists (cut 0 br [] ls). split; [apply omp_program_frame; assumption|].
  split; [apply concat_cut|]. rewrite cut_length. split; [reflexivity|]. apply le_n_S.
  apply NoDup_incl_length; [apply NoDup_filter, seq_NoDup|]. intros k Hk. apply filter_In in Hk as [_ Hk].
  apply inb_In, Hk.
Qed.

(* A mechanism cut into three blocks, run by two threads in an interleaved
   order. *)
Lemma interleaves_seq2 {A} (l1 l2 : list A) : interleaves [l1; l2] (l1 ++ l2).
Proof.
  induction l1 as [|a l1 IH]; cbn [app]; [|exact (il_step [] a l1 [l2] _ IH)].
  induction l2 as [|a l2 IH]; [constructor; repeat constructor|]. exact (il_step [[]] a l2 [] _ IH).
Qed.
Lemma interleaves_two {A} (l1 : list A) a l2 : interleaves [l1; a :: l2] (a :: l1 ++ l2).
Proof. exact (il_step [l1] a l2 [] _ (interleaves_seq2 l1 l2)). Qed.

Example C24_hypotheses : species kin_mech <> [] /\ kin_mech <> [] /\
  exists b1 a b2 b3 tr,
    omp_program (gen_loss_gain_fortran (Some (break_list 6 4)) (p_sp2a (interp kin_mech)) (p_loss (interp kin_mech))
      (p_gain (interp kin_mech))) = Some [b1; a :: b2; b3] /\
    execution [b1; a :: b2; b3] tr /\ tr <> concat [b1; a :: b2; b3].
Proof.
  split; [discriminate|]. split; [discriminate|].
  eexists _, _, _, _, _. split; [vm_compute; reflexivity|]. split.
  - match goal with |- execution [?x; ?y; ?z] _ => exists [[x]; [y; z]] end. split; [apply Permutation_refl|]. cbn [map concat app]. apply interleaves_two.
  - cbn. intros H. discriminate.
Qed.
Example C25_hypotheses : break_list 6 4 = [2; 4] /\
  Forall pure (map (lg_line_fortran (p_loss (interp kin_mech)) (p_gain (interp kin_mech))) (p_sp2a (interp kin_mech))).
Proof. split; [reflexivity|]. apply Forall_map, Forall_forall. intros; apply lg_line_pure. Qed.

Print Assumptions C24_reactants.
Print Assumptions C24_loss_gain.
Print Assumptions C24_jacobian.
Print Assumptions C24_openmp.
Print Assumptions C24_empty_refuted.
Print Assumptions C25_breaks.
Print Assumptions C25_blocks.
