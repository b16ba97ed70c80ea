(* The exchange between gas and particles, weighted sums of the derivative, and
   the estimate that keeps the aerosol equations from producing negative
   amounts. *)
From Coq Require Import List Bool Arith Lia ZArith Permutation Reals Lra.
From Verif Require Import Base SpecKin LangFacts ModelExpr ModelSolver ModelPart SpecPart PartFacts PartValue PropsPart PartBounds
  ModelAero PropsAeroRun OdeFacts SpecTraj OdeSign OdeNear.
Import ListNotations.
Open Scope nat_scope.
Open Scope list_scope.

Lemma permutation_rsum l1 l2 : Permutation l1 l2 -> rsum l1 = rsum l2.
Proof. induction 1; cbn in *; lra. Qed.

Lemma rsum_plus {A} (f g : A -> R) l : (rsum (map f l) + rsum (map g l) = rsum (map (fun x => f x + g x)%R l))%R.
Proof.
  induction l as [|x l IH]; cbn; [ring|].
  change (f x + rsum (map f l) + (g x + rsum (map g l)) = f x + g x + rsum (map (fun x => f x + g x) l))%R. rewrite <- IH. ring.
Qed.

Lemma split_include (include : list nat) ns : NoDup include -> Forall (fun g => g < ns) include ->
  Permutation (seq 0 ns) (include ++ filter (fun g => negb (existsb (Nat.eqb g) include)) (seq 0 ns)).
Proof.
  intros Nd IB. apply NoDup_Permutation; [apply seq_NoDup | |].
  - assert (Nf : NoDup (filter (fun g => negb (existsb (Nat.eqb g) include)) (seq 0 ns))) by apply NoDup_filter, seq_NoDup.
    clear - Nd Nf. assert (Dj : forall x, In x include -> ~ In x (filter (fun g => negb (existsb (Nat.eqb g) include)) (seq 0 ns))).
    { intros x Hx Hf. apply filter_In in Hf as [_ Hf]. apply negb_true_iff in Hf.
      assert (existsb (Nat.eqb x) include = true) by (apply existsb_exists; exists x; split; [exact Hx | apply Nat.eqb_refl]). congruence. }
    revert Nd Dj Nf. generalize (filter (fun g => negb (existsb (Nat.eqb g) include)) (seq 0 ns)). intros l2.
    induction include as [|x l1 IH]; intros Nd Dj Nf; cbn; [exact Nf|]. inversion Nd as [|? ? Hx Nd']; subst.
    constructor; [intros C; apply in_app_iff in C as [C|C]; [contradiction | exact (Dj x (or_introl eq_refl) C)]|].
    apply IH; [exact Nd' | intros y Hy; apply Dj; right; exact Hy | exact Nf].
  - intros g. rewrite in_app_iff, filter_In. split.
    + intros Hg. destruct (existsb (Nat.eqb g) include) eqn:E; [left | right; auto].
      apply existsb_exists in E as (x & Hx & Ex). apply Nat.eqb_eq in Ex. subst. exact Hx.
    + intros [Hg|[Hg _]]; [|exact Hg]. apply in_seq. split; [lia|]. apply (proj1 (Forall_forall _ _) IB g Hg).
Qed.

(* A sum over the condensed part of a state. *)
Lemma condensed_sum (f : nat -> R) ns nc n :
  rsum (map f (seq ns (nc * n))) = rsum (map (fun b => rsum (map (fun j => f (slot ns nc b j)) (seq 0 nc))) (seq 0 n)).
Proof.
  induction n as [|n IH]; [rewrite Nat.mul_0_r; reflexivity|]. rewrite Nat.mul_succ_r, seq_app, map_app, rsum_app, IH.
  rewrite seq_S, map_app, rsum_app. f_equal. cbn. rewrite Rplus_0_r.
  assert (E : seq (ns + nc * n) nc = map (slot ns nc n) (seq 0 nc)).
  { unfold slot. replace (ns + nc * n) with (ns + n * nc) by lia. generalize (ns + n * nc). intros a. clear.
    assert (G : forall k c, seq (a + k) c = map (fun j => a + j) (seq k c)).
    { intros k c; revert k; induction c as [|c IHc]; intros k; cbn; [reflexivity|]. f_equal. rewrite <- IHc. f_equal. lia. }
    rewrite <- (G 0 nc). f_equal. lia. }
  rewrite E, map_map. reflexivity.
Qed.

(* Weighted sums over the derivative: every molecule that enters slot j of a bin
   leaves gas species include[j]. *)
Lemma weighted_total (a : nat -> R) ns nc nb include inp bins soa aw size dy :
  NoDup include -> List.length include = nc -> Permutation bins (seq 0 nb) -> Forall (fun g => g < ns) include ->
  dydt_partition ns nc nb include inp bins = Some (soa, aw, size, dy) ->
  rsum (map (fun i => a i * nth i dy 0)%R (seq 0 (ns + nc * nb))) =
  rsum (map (fun j => rsum (map (fun b => (a (slot ns nc b j) - a (nth j include 0%nat)) * nth (slot ns nc b j) dy 0)%R (seq 0 nb))) (seq 0 nc)).
Proof.
  intros Nd L P IB H.
  destruct (C40_untouched_partial ns nc nb include inp bins soa aw size dy P H) as [Ldy Unt].
  assert (Cons := C39_partial ns nc nb include inp bins soa aw size dy Nd L P H).
  rewrite seq_app, map_app, rsum_app, Nat.add_0_l, (condensed_sum (fun i => a i * nth i dy 0)%R).
  rewrite (permutation_rsum _ _ (Permutation_map _ (split_include include ns Nd IB))), map_app, rsum_app.
  rewrite (rsum_zero (fun i => a i * nth i dy 0)%R (filter _ (seq 0 ns))).
  2:{ intros g Hg. apply filter_In in Hg as [Hg Hn]. apply in_seq in Hg. rewrite Unt; [ring | lia|].
      intros Hi. apply negb_true_iff in Hn. assert (existsb (Nat.eqb g) include = true) by (apply existsb_exists; exists g; split; [exact Hi | apply Nat.eqb_refl]). congruence. }
  assert (G : rsum (map (fun i => a i * nth i dy 0)%R include) =
              rsum (map (fun j => rsum (map (fun b => - a (nth j include 0%nat) * nth (slot ns nc b j) dy 0)%R (seq 0 nb))) (seq 0 nc))).
  { transitivity (rsum (map (fun i => a i * nth i dy 0)%R (map (fun j => nth j include 0) (seq 0 (List.length include))))).
    - do 2 f_equal. apply nth_ext with (d := 0) (d' := 0); [rewrite map_length, seq_length; reflexivity|]. intros k Hk. symmetry. apply nth_error_nth. rewrite nth_error_map.
      rewrite (nth_error_nth' _ 0) by (rewrite seq_length; exact Hk). rewrite seq_nth by exact Hk. reflexivity.
    - rewrite map_map, L. apply rsum_ext. intros j Hj. apply in_seq in Hj.
      assert (Ej : nth_error include j = Some (nth j include 0)) by (apply nth_error_nth'; lia).
      specialize (Cons j _ Ej (proj1 (Forall_forall _ _) IB _ (nth_error_In _ _ Ej))).
      rewrite (rsum_mult (fun b => nth (slot ns nc b j) dy 0%R)). set (s := rsum _) in *. replace (nth (nth j include 0) dy 0%R) with (- s)%R by lra. ring. }
  rewrite rsum_swap, G, Rplus_0_r, rsum_plus. apply rsum_ext. intros j _. rewrite rsum_plus. apply rsum_ext. intros b _. ring.
Qed.

Lemma deficit_firstn k n y : k <= n -> (deficit k (firstn k y) <= deficit n y)%R.
Proof.
  intros Hk. unfold deficit. replace n with (k + (n - k)) by lia. rewrite seq_app, map_app, rsum_app.
  rewrite (rsum_ext _ (fun i => below (nth i y 0) * below (nth i y 0))%R).
  2:{ intros i Hi. apply in_seq in Hi. assert (X : nth i (firstn k y) 0%R = nth i y 0%R); [|rewrite X; reflexivity].
      clear -Hi. destruct Hi as [_ Hi]. cbn in Hi. revert i y Hi. induction k as [|k IH]; intros [|i] [|x y] Hi; cbn; try reflexivity; try lia. apply IH. lia. }
  assert (P : (0 <= rsum (map (fun i => below (nth i y 0) * below (nth i y 0))%R (seq (0 + k) (n - k))))%R).
  { apply rsum_nonneg. intros x Hx. apply in_map_iff in Hx as (i & <- & _). apply Rle_0_sqr. }
  lra.
Qed.

Lemma below_le x : (below x <= 0 /\ below x <= x /\ (below x * x = below x * below x))%R.
Proof. unfold below, Rmin. destruct (Rle_dec x 0); repeat split; try lra. Qed.

Section Pull.
Context (d : prepared) (temp : R) (q : pc2).
Context (Hnc : d_nc d = List.length (d_include d)) (L1 : List.length (d_density d) = d_nc d) (L2 : List.length (d_mw d) = d_nc d)
  (L3 : List.length (d_vp d) = d_nc d) (Fb : Forall (fun g => g < d_ns d) (d_include d)) (Nd : NoDup (d_include d)) (Wnc : 1 <= d_nc d)
  (PD : Forall (Rlt 0) (d_density d)) (PM : Forall (Rlt 0) (d_mw d)) (Htemp : (0 < temp)%R)
  (Hq : Pure_component2 (d_nc d) (d_mw d) Rgas temp = Some q).
Context (nb : nat) (y_core nper : list R) (core_density core_mw diss : R).
Context (Lcore : List.length y_core = nb) (Lnper : List.length nper = nb).
Context (Pcore : Forall (Rlt 0) y_core) (Pnper : Forall (Rlt 0) nper) (Pcd : (0 < core_density)%R) (Pcm : (0 < core_mw)%R) (Pdiss : (0 < diss)%R).
Notation n := (d_ns d + d_nc d * nb).

(* The partitioning part of the right-hand side. *)
Definition exchange (bins : list nat) (y : list R) : option (list R) :=
  obind (partition_inputs d q y_core nper core_density core_mw diss temp y) (fun inp =>
  option_map snd (dydt_partition (d_ns d) (d_nc d) nb (d_include d) inp bins)).

Lemma exchange_pull : exists eps, (0 < eps)%R /\ forall M, (0 <= M)%R -> exists K, (0 <= K)%R /\
  forall bins y dy, Permutation bins (seq 0 nb) -> List.length y = n -> (forall i, i < n -> (- eps <= nth i y 0 <= M)%R) ->
    exchange bins y = Some dy -> (pull n y dy <= K * deficit n y)%R.
Proof.
  set (z := repeat 0%R n).
  destruct (prepared_physical d temp Hnc L1 L2 L3 Fb Wnc PD PM Htemp nb y_core nper core_density core_mw diss z Lcore Lnper) as
    (q' & inp & Hq' & Hinp & ph & _); try assumption.
  { apply repeat_length. }
  { intros b j _ _. unfold z. destruct (Nat.lt_ge_cases (slot (d_ns d) (d_nc d) b j) n) as [G|G]; [rewrite nth_repeat; lra | rewrite nth_overflow by (rewrite repeat_length; exact G); lra]. }
  rewrite Hq in Hq'. injection Hq' as <-.
  assert (PS : Forall (Rle 0) (i_psat inp)).
  { unfold partition_inputs in Hinp. destruct (omap _ (d_include d)); [|discriminate]. cbn [obind] in Hinp. injection Hinp as <-. cbn [i_psat].
    apply Forall_forall. intros x Hx. apply in_map_iff in Hx as (v & <- & _). left. apply exp_pos. }
  destruct (exchange_bounds (d_ns d) (d_nc d) nb inp ph PS) as (eps & He & HB). exists eps. split; [exact He|]. intros M HM.
  destruct (HB M HM) as (B & PB & HB'). exists (INR (d_nc d) * (INR nb * (B * (1 + B))))%R.
  assert (PK : (0 <= B * (1 + B))%R) by (apply Rmult_le_pos; lra).
  split; [apply Rmult_le_pos; [apply pos_INR | apply Rmult_le_pos; [apply pos_INR | exact PK]]|].
  intros bins y dy Pb Ly Hn He'. unfold exchange in He'.
  destruct (partition_inputs d q y_core nper core_density core_mw diss temp y) as [I|] eqn:EI; [|discriminate]. cbn [obind] in He'.
  destruct (dydt_partition (d_ns d) (d_nc d) nb (d_include d) I bins) as [[[[soa aw] size] dy']|] eqn:EP; [|discriminate]. cbn in He'. injection He' as ->.
  assert (EI' : exists cg, I = at_state inp y cg /\ List.length cg = d_nc d /\ forall j, j < d_nc d -> nth j cg 0%R = nth (nth j (d_include d) 0) y 0%R).
  { unfold partition_inputs in EI, Hinp. destruct (omap (nth_error (firstn (d_ns d) z)) (d_include d)) as [cg0|]; [|discriminate]. cbn [obind] in Hinp. injection Hinp as <-.
    destruct (omap (nth_error (firstn (d_ns d) y)) (d_include d)) as [cg|] eqn:Ecg; [|discriminate]. cbn [obind] in EI. injection EI as <-.
    exists cg. split; [reflexivity|]. split; [rewrite (omap_length _ _ _ Ecg); symmetry; exact Hnc|]. intros j Hj.
    destruct (omap_nth _ _ _ j (nth j (d_include d) 0) Ecg) as (v & Hv & Ev); [apply nth_error_nth'; lia|]. rewrite (nth_error_nth _ _ 0%R Ev).
    symmetry. apply nth_error_nth. rewrite <- (firstn_skipn (d_ns d) y). rewrite nth_error_app1; [exact Hv | apply nth_error_Some; congruence]. }
  destruct EI' as (cg & -> & Lcg & Hcg).
  assert (SB : forall b j, b < nb -> j < d_nc d -> slot (d_ns d) (d_nc d) b j < n) by (intros b j Hb Hj; unfold slot; nia).
  destruct (HB' y cg Ly Lcg) as [wk Bnd]. { intros b j Hb Hj. apply Hn, SB; assumption. }
  destruct (partition_value (d_ns d) (d_nc d) nb (d_include d) _ bins wk (eq_sym Hnc) Fb Pb) as (soa' & aw' & size' & dy'' & EP' & V).
  rewrite EP in EP'. injection EP' as <- <- <- <-.
  unfold pull. rewrite (weighted_total (fun i => below (nth i y 0%R)) _ _ _ _ _ _ _ _ _ _ Nd (eq_sym Hnc) Pb Fb EP).
  assert (Dn := deficit_nonneg n y). set (D := deficit n y) in *.
  assert (T : forall b j, b < nb -> j < d_nc d ->
    ((below (nth (slot (d_ns d) (d_nc d) b j) y 0) - below (nth (nth j (d_include d) 0%nat) y 0)) * nth (slot (d_ns d) (d_nc d) b j) dy 0 <= B * (1 + B) * D)%R).
  { intros b j Hb Hj. rewrite (proj2 (V b Hb) j Hj). unfold growth. cbn [i_cg at_state]. rewrite (Hcg j Hj).
    destruct (Bnd b j Hb Hj) as [[T0 T1] (A & [A0 A1] & EA)]. rewrite EA.
    assert (Hg : nth j (d_include d) 0 < n).
    { assert (nth j (d_include d) 0 < d_ns d); [|lia]. apply (proj1 (Forall_forall _ _) Fb). apply nth_In. lia. }
    assert (D1 := deficit_one n y _ (SB b j Hb Hj)). assert (D2 := deficit_one n y _ Hg). fold D in D1, D2.
    destruct (below_le (nth (slot (d_ns d) (d_nc d) b j) y 0%R)) as (B1 & B2 & B3). destruct (below_le (nth (nth j (d_include d) 0) y 0%R)) as (G1 & G2 & G3).
    set (t := transfer _ b _ j) in *. set (xb := nth (slot (d_ns d) (d_nc d) b j) y 0%R) in *. set (xg := nth (nth j (d_include d) 0) y 0%R) in *.
    set (ab := below xb) in *. set (ag := below xg) in *. clearbody t xb xg ab ag D. clear - T0 T1 A0 A1 D1 D2 B1 B2 B3 G1 G2 G3 PB Dn PK.
    assert (Q : ((ab - ag) * (xg - A * xb) <= (1 + A) * D)%R).
    { assert (E1 : (ab * xg <= ab * ag)%R) by nra. assert (E2 : (ag * xb <= ag * ab)%R) by nra.
      assert (E3 : (ab * ag <= D)%R) by nra. assert (0 <= ab * ab)%R by nra. assert (0 <= ag * ag)%R by nra.
      assert (E4 : (A * (ag * xb) <= A * D)%R) by (apply Rmult_le_compat_l; lra). assert (E5 : (0 <= A * (ab * ab))%R) by (apply Rmult_le_pos; lra).
      replace ((ab - ag) * (xg - A * xb))%R with (ab * xg - A * (ab * xb) - ag * xg + A * (ag * xb))%R by ring. rewrite B3, G3. lra. }
    replace ((ab - ag) * (t * (xg - A * xb)))%R with (t * ((ab - ag) * (xg - A * xb)))%R by ring.
    apply Rle_trans with (t * ((1 + A) * D))%R; [apply Rmult_le_compat_l; assumption|].
    rewrite Rmult_assoc. apply Rmult_le_compat; [exact T0 | apply Rmult_le_pos; lra | exact T1 | apply Rmult_le_compat_r; lra]. }
  assert (SC : forall k c (f : nat -> R), (forall i, i < k -> (f i <= c)%R) -> (rsum (map f (seq 0 k)) <= INR k * c)%R).
  { clear. induction k as [|k IH]; intros c f Hf; [cbn; lra|]. rewrite seq_S, map_app, rsum_app, S_INR.
    specialize (IH c f (fun i Hi => Hf i (Nat.lt_lt_succ_r _ _ Hi))). assert (X := Hf k (Nat.lt_succ_diag_r k)). cbn. lra. }
  apply Rle_trans with (INR (d_nc d) * (INR nb * (B * (1 + B) * D)))%R; [|apply Req_le; ring].
  apply SC. intros j Hj. apply SC. intros b Hb. apply T; assumption.
Qed.

Lemma nth_firstn k (y : list R) i : i < k -> nth i (firstn k y) 0%R = nth i y 0%R.
Proof. revert i y. induction k as [|k IH]; intros [|i] [|x y] Hi; cbn; try reflexivity; try lia. apply IH. lia. Qed.

(* The whole right-hand side: chemistry and exchange. *)
Lemma rhs_split gas bins y dy : 1 <= d_ns d -> List.length y = n -> Permutation bins (seq 0 nb) -> aerosol_rhs gas d q nb y_core nper core_density core_mw diss temp bins y = Some dy ->
  exists g e, gas (firstn (d_ns d - 1) y) = Some g /\ List.length g = d_ns d - 1 /\ exchange bins y = Some e /\ List.length e = n /\ List.length dy = n /\
    forall i, i < n -> nth i dy 0%R = ((if i <? d_ns d - 1 then nth i g 0 else 0) + nth i e 0)%R.
Proof.
  intros Hns Ly Pb H. unfold aerosol_rhs in H. destruct (gas (firstn (d_ns d - 1) y)) as [g|] eqn:Eg; [|discriminate]. cbn [obind] in H.
  destruct (Nat.eqb_spec (List.length g) (d_ns d - 1)) as [Lg|]; [|discriminate]. cbn [negb] in H.
  destruct (partition_inputs d q y_core nper core_density core_mw diss temp y) as [inp|] eqn:Ei; [|discriminate]. cbn [obind] in H.
  destruct (dydt_partition (d_ns d) (d_nc d) nb (d_include d) inp bins) as [[[[soa aw] size] e]|] eqn:Ep; [|discriminate].
  assert (E : dy = map (fun p => fst p + snd p)%R (combine (g ++ repeat 0%R (1 + d_nc d * nb)) e)) by (cbn [obind snd] in H; congruence). subst dy. clear H.
  destruct (C40_untouched_partial _ _ _ _ _ _ _ _ _ _ Pb Ep) as [Le _].
  exists g, e. split; [reflexivity|]. split; [exact Lg|]. split; [unfold exchange; rewrite Ei; cbn [obind]; rewrite Ep; reflexivity|]. split; [exact Le|].
  set (full := g ++ repeat 0%R (1 + d_nc d * nb)).
  assert (Lf : List.length full = List.length e) by (unfold full; rewrite app_length, repeat_length; lia).
  split; [rewrite map_length, combine_length; lia|]. intros i Hi.
  rewrite (nth_indep _ 0%R (fst (0, 0) + snd (0, 0))%R) by (rewrite map_length, combine_length; lia).
  rewrite (map_nth (fun pr => fst pr + snd pr)%R), combine_nth by exact Lf. cbn [fst snd]. f_equal. unfold full.
  destruct (Nat.ltb_spec i (d_ns d - 1)) as [A|A]; [apply app_nth1; lia|]. rewrite app_nth2 by lia. apply nth_repeat.
Qed.

Lemma rhs_pull (y dy g e : list R) : (forall i, i < n -> nth i dy 0%R = ((if i <? d_ns d - 1 then nth i g 0 else 0) + nth i e 0)%R) -> 1 <= d_ns d ->
  pull n y dy = (pull (d_ns d - 1) (firstn (d_ns d - 1) y) g + pull n y e)%R.
Proof.
  intros H Hns. unfold pull. set (k := d_ns d - 1) in *.
  transitivity (rsum (map (fun i => below (nth i y 0) * (if i <? k then nth i g 0 else 0) + below (nth i y 0) * nth i e 0)%R (seq 0 n))).
  { apply rsum_ext. intros i Hi. apply in_seq in Hi. rewrite H by lia. ring. }
  rewrite <- rsum_plus. f_equal. replace n with (k + (n - k)) by lia. rewrite seq_app, map_app, rsum_app.
  rewrite (rsum_zero _ (seq (0 + k) (n - k))).
  2:{ intros i Hi. apply in_seq in Hi. rewrite (proj2 (Nat.ltb_ge _ _)) by lia. ring. }
  rewrite Rplus_0_r. apply rsum_ext. intros i Hi. apply in_seq in Hi. rewrite (proj2 (Nat.ltb_lt _ _)) by lia. rewrite nth_firstn by lia. reflexivity.
Qed.
End Pull.
