(* C39-C41, C60, C61: gas-to-particle partitioning. *)
From Coq Require Import List Bool Arith Lia Permutation Reals Lra.
From Verif Require Import Base SpecKin LangFacts ModelExpr ModelRhs ModelOmp OmpFacts ModelPart SpecPart PartFacts PartValue.
Import ListNotations.
Open Scope nat_scope.
Open Scope list_scope.

Lemma nth_array n f i : i < n -> nth i (array n f) 0%R = f i.
Proof.
  intros H. unfold array. rewrite (nth_indep _ 0%R (f 0)) by (rewrite map_length, seq_length; exact H).
  rewrite map_nth, seq_nth by exact H. reflexivity.
Qed.
Lemma array_length n f : List.length (array n f) = n.
Proof. unfold array. rewrite map_length. apply seq_length. Qed.
Lemma array_ext n f g : (forall i, i < n -> f i = g i) -> array n f = array n g.
Proof. intros H. apply map_ext_in. intros i Hi. apply in_seq in Hi. apply H. lia. Qed.

(* The routine on one thread: what the outputs are in terms of the iterations. *)
Section Serial.
Context (ns nc nb : nat) (include : list nat) (inp : inputs).

Lemma partition_inv bins soa aw size dy : dydt_partition ns nc nb include inp bins = Some (soa, aw, size, dy) ->
  exists ls m, omap (bin_steps ns nc include inp) bins = Some ls /\ run_steps ns nc nb (concat ls) cleared = Some m /\
    outputs ns nc nb m = (soa, aw, size, dy).
Proof.
  unfold dydt_partition. destruct (dims_ok ns nc nb inp); [|discriminate]. intros H. apply obind_Some in H as (l & Hl & H).
  apply obind_Some in H as (m & Hm & H). apply serial_inv in Hl as (ls & Hls & ->). exists ls, m. split; [exact Hls|]. split; [exact Hm|].
  apply (f_equal (fun o => match o with Some x => x | None => outputs ns nc nb m end)) in H. exact H.
Qed.

Lemma gas_dy bins soa aw size dy g : Permutation bins (seq 0 nb) ->
  dydt_partition ns nc nb include inp bins = Some (soa, aw, size, dy) -> g < ns ->
  exists m, nth g dy 0%R = (- rsum (array nb (m_gas m g)))%R /\
    (forall b, b < nb -> exists o, bin_compute ns nc inp b = Some o /\
       (forall j, j < nc -> nth (slot ns nc b j) dy 0%R = nth j (o_dm o) 0%R) /\
       (NoDup include -> forall j v, nth_error include j = Some g -> nth_error (o_dm o) j = Some v -> m_gas m g b = v)) /\
    (~ In g include -> forall b, m_gas m g b = 0%R).
Proof.
  intros P H Hg. apply partition_inv in H as (ls & m & Hls & Hm & E). injection E as _ _ _ <-. exists m.
  assert (D0 : m_dy m g = 0%R).
  { rewrite (proj2 (serial_dy ns nc nb include inp bins ls cleared m Hls Hm g)); [reflexivity|]. intros b Hb C. lia. }
  split; [|split].
  - rewrite nth_array by lia. rewrite (proj2 (Nat.ltb_lt _ _) Hg), D0. lra.
  - intros b Hb. assert (Hin : In b bins) by (apply (Permutation_in _ (Permutation_sym P)), in_seq; lia).
    destruct (other_cells ns nc nb include inp bins ls (concat ls) m Hls (Permutation_refl _) Hm b Hin) as (o & Ho & _ & _ & _ & HG).
    exists o. split; [exact Ho|]. split.
    + intros j Hj. unfold slot. assert (ns + b * nc + j < ns + nc * nb) by nia. rewrite nth_array by assumption.
      rewrite (proj2 (Nat.ltb_ge _ _)) by lia.
      destruct (proj1 (serial_dy ns nc nb include inp bins ls cleared m Hls Hm (ns + b * nc + j)) b Hin) as (o' & Ho' & E); [lia|].
      rewrite E. replace (ns + b * nc + j - (ns + b * nc)) with j by lia. congruence.
    + intros Nd j v. apply HG, Nd.
  - intros Hn b. exact (gas_untouched ns nc nb include inp bins ls (concat ls) m g b Hls (Permutation_refl _) Hm Hn).
Qed.

Lemma include_bound bins soa aw size dy : nb <> 0 -> Permutation bins (seq 0 nb) ->
  dydt_partition ns nc nb include inp bins = Some (soa, aw, size, dy) -> List.length include = nc -> Forall (fun g => g < ns) include.
Proof.
  intros Hnb P H L. apply partition_inv in H as (ls & m & Hls & Hm & _).
  destruct bins as [|b bins]; [apply Permutation_nil in P; destruct nb; [congruence | discriminate]|].
  cbn in Hls. destruct (bin_steps ns nc include inp b) as [l|] eqn:El; [|discriminate]. cbn in Hls.
  destruct (omap (bin_steps ns nc include inp) bins) as [ls'|]; [|discriminate]. injection Hls as <-. cbn [concat] in Hm.
  destruct (bin_steps_inv ns nc include inp b l El) as (o & gas & Ho & -> & Hg). rewrite <- app_assoc in Hm.
  rewrite run_steps_app in Hm. cbn [ModelPart.run_steps ModelPart.run_step obind] in Hm. rewrite <- app_assoc, run_steps_app in Hm.
  apply obind_Some in Hm as (m2 & Hm & _). assert (Ld := bin_dm_length ns nc inp b o Ho).
  apply Forall_forall. intros g Hgi. apply In_nth_error in Hgi as [j Hj].
  assert (Hjl : j < nc) by (rewrite <- L; apply nth_error_Some; congruence).
  destruct (nth_error (o_dm o) j) as [v|] eqn:Ev; [|apply nth_error_None in Ev; lia].
  assert (Hs : In (WGas (g + 1) b v) gas) by (apply Hg; exists j, g, v; auto).
  match type of Hm with run_steps ns nc nb gas ?m0 = _ => revert Hm Hs; generalize m0 end.
  clear. induction gas as [|s gas IH]; intros m Hm Hs; [contradiction|]. cbn [ModelPart.run_steps] in Hm. apply obind_Some in Hm as (m1 & H1 & Hm).
  destruct Hs as [->|Hs]; [|exact (IH m1 Hm Hs)]. rewrite Nat.add_1_r in H1. cbn [ModelPart.run_step] in H1.
  destruct (g <? ns) eqn:C; [apply Nat.ltb_lt, C | discriminate].
Qed.
End Serial.

(* C39, on one thread: with an include list without repetition, whatever order
   the bins are done in, the change of each included species in the gas and its
   changes in the bins add up to 0. *)
Theorem C39_partial ns nc nb include inp bins soa aw size dy :
  NoDup include -> List.length include = nc -> Permutation bins (seq 0 nb) ->
  dydt_partition ns nc nb include inp bins = Some (soa, aw, size, dy) ->
  forall j g, nth_error include j = Some g -> g < ns ->
    (nth g dy 0 + rsum (map (fun b => nth (slot ns nc b j) dy 0) (seq 0 nb)) = 0)%R.
Proof.
  intros Nd L P H j g Hj Hg. destruct (gas_dy ns nc nb include inp bins soa aw size dy g P H Hg) as (m & E & HB & _).
  rewrite E. unfold array. rewrite (rsum_ext (m_gas m g) (fun b => nth (slot ns nc b j) dy 0%R)); [lra|].
  intros b Hb. apply in_seq in Hb. assert (Hjl : j < nc) by (rewrite <- L; apply nth_error_Some; congruence).
  destruct (HB b) as (o & Ho & HD & HG); [lia|]. rewrite (HD j Hjl).
  assert (Ld := bin_dm_length ns nc inp b o Ho).
  destruct (nth_error (o_dm o) j) as [v|] eqn:Ev; [|apply nth_error_None in Ev; lia].
  rewrite (nth_error_nth _ _ 0%R Ev). exact (HG Nd j v Hj Ev).
Qed.

(* The whole system: all molecules, gas and particles together. *)
Theorem C39_total ns nc nb include inp bins soa aw size dy :
  NoDup include -> List.length include = nc -> Permutation bins (seq 0 nb) -> nb <> 0 ->
  dydt_partition ns nc nb include inp bins = Some (soa, aw, size, dy) -> rsum dy = 0%R.
Proof.
  intros Nd L P Hnb H. assert (IB := include_bound ns nc nb include inp bins soa aw size dy Hnb P H L).
  assert (Ldy : dy = array (ns + nc * nb) (fun i => nth i dy 0%R)).
  { destruct (partition_inv ns nc nb include inp bins soa aw size dy H) as (ls & m & _ & _ & E). injection E as _ _ _ <-.
    apply array_ext. intros i Hi. rewrite nth_array by exact Hi. reflexivity. }
  assert (S1 : rsum (map (fun g => nth g dy 0%R) (seq 0 ns)) = rsum (map (fun g => nth g dy 0%R) include)).
  { assert (Z : forall g, g < ns -> ~ In g include -> nth g dy 0%R = 0%R).
    { intros g Hg Hn. destruct (gas_dy ns nc nb include inp bins soa aw size dy g P H Hg) as (m & E & _ & Hz).
      rewrite E. unfold array. rewrite rsum_zero; [lra | intros b _; apply Hz, Hn]. }
    set (f := fun g => nth g dy 0%R).
    assert (Ps : Permutation (seq 0 ns) (include ++ filter (fun g => negb (existsb (Nat.eqb g) include)) (seq 0 ns))).
    { apply NoDup_Permutation; [apply seq_NoDup | |].
      - assert (Nf : NoDup (filter (fun g => negb (existsb (Nat.eqb g) include)) (seq 0 ns))) by apply NoDup_filter, seq_NoDup.
        clear - Nd Nf. assert (Dj : forall x, In x include -> ~ In x (filter (fun g => negb (existsb (Nat.eqb g) include)) (seq 0 ns))).
        { intros x Hx Hf. apply filter_In in Hf as [_ Hf]. apply negb_true_iff in Hf.
          assert (existsb (Nat.eqb x) include = true) by (apply existsb_exists; exists x; split; [exact Hx | apply Nat.eqb_refl]). congruence. }
        revert Nd Dj Nf. generalize (filter (fun g => negb (existsb (Nat.eqb g) include)) (seq 0 ns)). intros l2.
        induction include as [|x l1 IH]; intros Nd Dj Nf; cbn; [exact Nf|]. inversion Nd as [|? ? Hx Nd']; subst.
        constructor; [intros C; apply in_app_iff in C as [C|C]; [contradiction | exact (Dj x (or_introl eq_refl) C)]|].
        apply IH; [exact Nd' | intros y Hy; apply Dj; right; exact Hy | exact Nf].
      - intros g. rewrite in_app_iff, filter_In. split.
        + intros Hg. destruct (existsb (Nat.eqb g) include) eqn:E; [left | right; auto].
          apply existsb_exists in E as (x & Hx & Ex). apply Nat.eqb_eq in Ex. subst. exact Hx.
        + intros [Hg|[Hg _]]; [|exact Hg]. apply in_seq. split; [lia|]. apply (proj1 (Forall_forall _ _) IB g Hg). }
    assert (Rp : forall l1 l2, Permutation l1 l2 -> rsum l1 = rsum l2) by (induction 1; cbn in *; lra).
    rewrite (Rp _ _ (Permutation_map f Ps)), map_app, rsum_app.
    rewrite (rsum_zero f (filter _ (seq 0 ns))); [lra|]. intros g Hg. apply filter_In in Hg as [Hg Hn]. apply in_seq in Hg. apply Z; [lia|].
    intros Hi. apply negb_true_iff in Hn. assert (existsb (Nat.eqb g) include = true) by (apply existsb_exists; exists g; split; [exact Hi | apply Nat.eqb_refl]). congruence. }
  assert (S2 : forall n, rsum (map (fun i => nth i dy 0%R) (seq ns (nc * n))) =
               rsum (map (fun b => rsum (map (fun j => nth (slot ns nc b j) dy 0%R) (seq 0 nc))) (seq 0 n))).
  { induction n as [|n IH]; [rewrite Nat.mul_0_r; reflexivity|]. rewrite Nat.mul_succ_r, seq_app, map_app, rsum_app, IH.
    rewrite seq_S, map_app, rsum_app. f_equal. cbn. rewrite Rplus_0_r.
    assert (E : seq (ns + nc * n) nc = map (slot ns nc n) (seq 0 nc)).
    { unfold slot. replace (ns + nc * n) with (ns + n * nc) by lia. generalize (ns + n * nc). intros a. clear.
      assert (G : forall k c, seq (a + k) c = map (fun j => a + j) (seq k c)).
      { intros k c; revert k; induction c as [|c IHc]; intros k; cbn; [reflexivity|]. f_equal. rewrite <- IHc. f_equal. lia. }
      rewrite <- (G 0 nc). f_equal. lia. }
    rewrite E, map_map. reflexivity. }
  rewrite Ldy. unfold array. rewrite seq_app, map_app, rsum_app, S1, Nat.add_0_l, S2.
  rewrite rsum_swap.
  assert (E3 : rsum (map (fun j => rsum (map (fun b => nth (slot ns nc b j) dy 0%R) (seq 0 nb))) (seq 0 nc)) =
          (- rsum (map (fun g => nth g dy 0%R) include))%R).
  { rewrite <- L. assert (G : forall l k, (forall j g, nth_error l j = Some g -> nth_error include (k + j) = Some g) ->
      rsum (map (fun j => rsum (map (fun b => nth (slot ns (List.length include) b j) dy 0%R) (seq 0 nb))) (seq k (List.length l))) = (- rsum (map (fun g => nth g dy 0%R) l))%R).
    { induction l as [|g l IH]; intros k Hk; cbn; [lra|]. fold (rsum (map (fun g => nth g dy 0%R) l)). rewrite (IH (S k)).
      - assert (E : nth_error include k = Some g) by (rewrite <- (Nat.add_0_r k); apply Hk; reflexivity).
        assert (Gb := proj1 (Forall_forall _ _) IB g (nth_error_In _ _ E)).
        assert (C := C39_partial ns nc nb include inp bins soa aw size dy Nd L P H k g E Gb). rewrite <- L in C. lra.
      - intros j g' Hj. replace (S k + j) with (k + S j) by lia. apply Hk. exact Hj. }
    apply G. intros j g Hj. exact Hj. }
  rewrite E3. lra.
Qed.

(* C40, on one thread: a gas species that is not included is not touched, and
   included position j couples gas species include[j] with slot j of every bin. *)
Theorem C40_untouched_partial ns nc nb include inp bins soa aw size dy :
  Permutation bins (seq 0 nb) -> dydt_partition ns nc nb include inp bins = Some (soa, aw, size, dy) ->
  List.length dy = ns + nc * nb /\ forall g, g < ns -> ~ In g include -> nth g dy 0%R = 0%R.
Proof.
  intros P H. split.
  - destruct (partition_inv ns nc nb include inp bins soa aw size dy H) as (ls & m & _ & _ & E). injection E as _ _ _ <-. apply array_length.
  - intros g Hg Hn. destruct (gas_dy ns nc nb include inp bins soa aw size dy g P H Hg) as (m & E & _ & Hz).
    rewrite E. unfold array. rewrite rsum_zero; [lra | intros b _; apply Hz, Hn].
Qed.

(* The same inputs with another gas concentration at one position. *)
Definition with_cg (inp : inputs) (cg : list R) : inputs :=
  Inputs (i_y inp) (i_ycore inp) (i_diss inp) (i_core_mass inp) (i_density inp) (i_core_density inp) (i_mw inp) (i_psat inp)
    (i_dstar inp) (i_alpha inp) cg (i_nper inp) (i_gamma inp) (i_sigma inp) (i_NA inp) (i_Rgas inp) (i_temp inp).

Lemma dm_other nc inp cg b size density fr j : j < nc -> nth j cg 0%R = nth j (i_cg inp) 0%R ->
  dm_dt1 (with_cg inp cg) b size density fr j = dm_dt1 inp b size density fr j.
Proof. intros Hj E. unfold dm_dt1, at_. cbn [i_cg with_cg]. rewrite E. reflexivity. Qed.

Lemma obind_ext {A B} (o : option A) (f g : A -> option B) : (forall a, o = Some a -> f a = g a) -> obind o f = obind o g.
Proof. destruct o; cbn; auto. Qed.

Lemma bin_other ns nc inp cg b o o' : bin_compute ns nc inp b = Some o -> bin_compute ns nc (with_cg inp cg) b = Some o' ->
  o_size o = o_size o' /\ o_aw o = o_aw o' /\ o_soa o = o_soa o' /\
  forall j, j < nc -> nth j cg 0%R = nth j (i_cg inp) 0%R -> nth j (o_dm o) 0%R = nth j (o_dm o') 0%R.
Proof.
  unfold bin_compute.
  change (y_mole_fractions ns nc (with_cg inp cg) b) with (y_mole_fractions ns nc inp b).
  change (mass_array ns nc (with_cg inp cg) b) with (mass_array ns nc inp b).
  change (temp_array ns nc (with_cg inp cg) b) with (temp_array ns nc inp b).
  change (total_moles ns nc (with_cg inp cg) b) with (total_moles ns nc inp b).
  destruct (y_mole_fractions ns nc inp b) as [fr|]; [|discriminate]. cbn [obind].
  destruct (mass_array ns nc inp b) as [mass|]; [|discriminate]. cbn [obind].
  destruct (rdiv (at_ (temp_array ns nc inp b) (nc - 1)) (total_moles ns nc inp b)) as [aw|]; [|discriminate]. cbn [obind].
  change (bin_density (with_cg inp cg) b mass) with (bin_density inp b mass).
  destruct (bin_density inp b mass) as [density|]; [|discriminate]. cbn [obind].
  change (bin_size (with_cg inp cg) b mass density) with (bin_size inp b mass density).
  destruct (bin_size inp b mass density) as [size|]; [|discriminate]. cbn [obind].
  destruct (omap (dm_dt1 inp b size density fr) (seq 0 nc)) as [dm|] eqn:E1; [|discriminate].
  destruct (omap (dm_dt1 (with_cg inp cg) b size density fr) (seq 0 nc)) as [dm'|] eqn:E2; [|discriminate]. cbn [obind].
  intros H H'. injection H as <-. injection H' as <-. cbn [o_size o_aw o_soa o_dm]. repeat split.
  intros j Hj E. assert (Hs : nth_error (seq 0 nc) j = Some j).
  { rewrite (nth_error_nth' _ 0) by (rewrite seq_length; exact Hj). rewrite seq_nth by exact Hj. reflexivity. }
  destruct (omap_nth _ _ _ _ _ E1 Hs) as (v & Ev & Nv). destruct (omap_nth _ _ _ _ _ E2 Hs) as (v' & Ev' & Nv').
  rewrite (dm_other nc inp cg b size density fr j Hj E) in Ev'. rewrite (nth_error_nth _ _ 0%R Nv), (nth_error_nth _ _ 0%R Nv'). congruence.
Qed.

Theorem C40_coupling_partial ns nc nb include inp cg bins soa aw size dy soa' aw' size' dy' :
  NoDup include -> List.length include = nc -> Permutation bins (seq 0 nb) ->
  dydt_partition ns nc nb include inp bins = Some (soa, aw, size, dy) ->
  dydt_partition ns nc nb include (with_cg inp cg) bins = Some (soa', aw', size', dy') ->
  forall j g, nth_error include j = Some g -> g < ns -> nth j cg 0%R = nth j (i_cg inp) 0%R ->
    nth g dy 0%R = nth g dy' 0%R /\ forall b, b < nb -> nth (slot ns nc b j) dy 0%R = nth (slot ns nc b j) dy' 0%R.
Proof.
  intros Nd L P H H' j g Hj Hg E.
  assert (Hjl : j < nc) by (rewrite <- L; apply nth_error_Some; congruence).
  assert (S : forall b, b < nb -> nth (slot ns nc b j) dy 0%R = nth (slot ns nc b j) dy' 0%R).
  { intros b Hb. destruct (gas_dy _ _ _ _ _ _ _ _ _ _ g P H Hg) as (m & _ & HB & _). destruct (gas_dy _ _ _ _ _ _ _ _ _ _ g P H' Hg) as (m' & _ & HB' & _).
    destruct (HB b Hb) as (o & Ho & HD & _). destruct (HB' b Hb) as (o' & Ho' & HD' & _).
    rewrite (HD j Hjl), (HD' j Hjl). apply (bin_other ns nc inp cg b o o' Ho Ho'); assumption. }
  split; [|exact S].
  assert (C := C39_partial _ _ _ _ _ _ _ _ _ _ Nd L P H j g Hj Hg). assert (C' := C39_partial _ _ _ _ _ _ _ _ _ _ Nd L P H' j g Hj Hg).
  rewrite (rsum_ext _ (fun b => nth (slot ns nc b j) dy' 0%R)) in C by (intros b Hb; apply in_seq in Hb; apply S; lia). lra.
Qed.

(* On physical inputs the routine runs, in every order of the bins. *)
Section Progress.
Context (ns nc nb : nat) (include : list nat) (inp : inputs).

Lemma gas_runs gas o b : Forall (fun g => g < ns) include -> (forall s, In s gas -> gas_steps include o b s) ->
  forall m, exists m', run_steps ns nc nb gas m = Some m' /\ m_index1 m' = m_index1 m /\ m_index2 m' = m_index2 m.
Proof.
  intros F. induction gas as [|s gas IH]; intros Hg m; [exists m; auto|].
  destruct (Hg s (or_introl eq_refl)) as (j & g & v & Hj & _ & ->). cbn [ModelPart.run_steps]. rewrite Nat.add_1_r. cbn [ModelPart.run_step].
  rewrite (proj2 (Nat.ltb_lt _ _) (proj1 (Forall_forall _ _) F g (nth_error_In _ _ Hj))). cbn [obind].
  destruct (IH (fun s Hs => Hg s (or_intror Hs)) (Mem (m_soa m) (m_aw m) (m_size m) (fun x => if x =? g then upd (m_gas m g) b v else m_gas m x) (m_dy m) (m_index1 m) (m_index2 m))) as (m' & Hm' & I1 & I2).
  exists m'. auto.
Qed.

Lemma bin_runs b l m : b < nb -> Forall (fun g => g < ns) include -> bin_steps ns nc include inp b = Some l ->
  exists m', run_steps ns nc nb l m = Some m'.
Proof.
  intros Hb F El. destruct (bin_steps_inv ns nc include inp b l El) as (o & gas & Ho & -> & Hg).
  rewrite run_steps_app. cbn [ModelPart.run_steps ModelPart.run_step obind]. rewrite run_steps_app.
  match goal with |- context [run_steps ns nc nb gas ?m0] => destruct (gas_runs gas o b F (fun s Hs => proj1 (Hg s) Hs) m0) as (m2 & Hm2 & _ & _) end.
  rewrite Hm2. cbn [obind ModelPart.run_steps ModelPart.run_step m_index1 m_index2].
  rewrite (bin_dm_length ns nc inp b o Ho). assert (ns + (b + 1) * nc <= ns + nc * nb) by nia.
  rewrite (proj2 (Nat.leb_le 1 (ns + 1 + b * nc))) by lia. rewrite (proj2 (Nat.leb_le (ns + (b + 1) * nc) (ns + nc * nb))) by lia.
  rewrite (proj2 (Nat.eqb_eq (ns + (b + 1) * nc + 1 - (ns + 1 + b * nc)) nc)) by lia. cbn [andb obind]. eauto.
Qed.

Lemma serial_runs bins ls : (forall b, In b bins -> b < nb) -> Forall (fun g => g < ns) include ->
  omap (bin_steps ns nc include inp) bins = Some ls -> forall m, exists m', run_steps ns nc nb (concat ls) m = Some m'.
Proof.
  revert ls. induction bins as [|b bins IH]; intros ls Hb F H m; cbn in H.
  - injection H as <-. exists m. reflexivity.
  - destruct (bin_steps ns nc include inp b) as [l|] eqn:El; [|discriminate]. cbn in H.
    destruct (omap (bin_steps ns nc include inp) bins) as [ls'|]; [|discriminate]. injection H as <-. cbn [concat]. rewrite run_steps_app.
    destruct (bin_runs b l m (Hb b (or_introl eq_refl)) F El) as (m1 & ->). cbn [obind]. apply IH; [intros x Hx; apply Hb; right; exact Hx | exact F | reflexivity].
Qed.

Lemma bin_steps_all b o : bin_compute ns nc inp b = Some o -> List.length include = nc -> exists l, bin_steps ns nc include inp b = Some l.
Proof.
  intros Ho L. unfold bin_steps. rewrite Ho. cbn [obind].
  destruct (omap_all (fun p : nat * nat => obind (nth_error (o_dm o) (snd p)) (fun v => Some (WGas (fst p + 1) b v))) (combine include (seq 0 (List.length include)))) as [gas Hgas].
  - intros [g j] Hp. apply in_combine_r in Hp. apply in_seq in Hp. cbn [snd fst].
    destruct (nth_error (o_dm o) j) as [v|] eqn:Ev; [cbn; eauto|]. apply nth_error_None in Ev. rewrite (bin_dm_length ns nc inp b o Ho) in Ev. lia.
  - rewrite Hgas. cbn. eauto.
Qed.

Lemma partition_runs bins : workable ns nc nb inp -> List.length include = nc -> Forall (fun g => g < ns) include -> Permutation bins (seq 0 nb) ->
  exists r, dydt_partition ns nc nb include inp bins = Some r.
Proof.
  intros ph L F P. assert (Hb : forall b, In b bins -> b < nb) by (intros b Hb; apply (Permutation_in _ P), in_seq in Hb; lia).
  destruct (omap_all (bin_steps ns nc include inp) bins) as [ls Hls].
  { intros b Hin. destruct (bin_value ns nc nb inp ph b (Hb b Hin)) as (o & Ho & _). exact (bin_steps_all b o Ho L). }
  destruct (serial_runs bins ls Hb F Hls cleared) as [m Hm].
  unfold dydt_partition, serial. rewrite (dims ns nc nb inp ph), Hls. cbn [option_map obind]. rewrite Hm. cbn [obind]. eauto.
Qed.
End Progress.

(* The values for inputs that need not be physical. *)
Lemma partition_value ns nc nb include inp bins :
  workable ns nc nb inp -> List.length include = nc -> Forall (fun g => g < ns) include -> Permutation bins (seq 0 nb) ->
  exists soa aw size dy, dydt_partition ns nc nb include inp bins = Some (soa, aw, size, dy) /\
    forall b, b < nb -> nth b size 0%R = radius ns nc inp b /\
      forall j, j < nc -> nth (slot ns nc b j) dy 0%R = growth ns nc inp b (radius ns nc inp b) j.
Proof.
  intros ph L F P. destruct (partition_runs ns nc nb include inp bins ph L F P) as [[[[soa aw] size] dy] H].
  exists soa, aw, size, dy. split; [exact H|]. intros b Hb.
  destruct (bin_value ns nc nb inp ph b Hb) as (o & Ho & Hsize & _ & _ & Hdm).
  destruct (partition_inv ns nc nb include inp bins soa aw size dy H) as (ls & m & Hls & Hm & E).
  assert (Hin : In b bins) by (apply (Permutation_in _ (Permutation_sym P)), in_seq; lia).
  destruct (other_cells ns nc nb include inp bins ls (concat ls) m Hls (Permutation_refl _) Hm b Hin) as (o' & Ho' & _ & _ & Es & _).
  rewrite Ho in Ho'. injection Ho' as <-. injection E as _ _ <- <-. split.
  { rewrite nth_array by exact Hb. congruence. }
  intros j Hj. assert (Lt : slot ns nc b j < ns + nc * nb) by (unfold slot; nia). rewrite nth_array by exact Lt.
  rewrite (proj2 (Nat.ltb_ge _ _)) by (unfold slot; lia).
  destruct (proj1 (serial_dy ns nc nb include inp bins ls cleared m Hls Hm (slot ns nc b j)) b Hin) as (o' & Ho' & E); [unfold slot; lia|].
  rewrite Ho in Ho'. injection Ho' as <-. rewrite E, Hdm. unfold slot. replace (ns + b * nc + j - (ns + b * nc)) with j by lia.
  rewrite (nth_indep _ 0%R (growth ns nc inp b (radius ns nc inp b) 0)) by (rewrite map_length, seq_length; exact Hj).
  rewrite map_nth, seq_nth by exact Hj. reflexivity.
Qed.

Lemma transfer_pos ns nc nb inp b r j : workable ns nc nb inp -> b < nb -> j < nc -> (0 < r)%R -> (0 < transfer inp b r j)%R.
Proof.
  intros ph Hb Hj Rp. assert (PP := Pi_pos).
  assert (HN : (0 < nth b (i_nper inp) 0)%R) by (apply (Forall_nth_pos _ b nb); [apply ph | apply (lens_nb ns nc nb inp ph); cbn; tauto | exact Hb]).
  assert (HD : (0 < nth j (i_dstar inp) 0)%R) by (apply (Forall_nth_pos _ j nc); [apply ph | apply (lens_nc ns nc nb inp ph); cbn; tauto | exact Hj]).
  assert (HG : (0 < nth j (i_gamma inp) 0)%R) by (apply (Forall_nth_pos _ j nc); [apply ph | apply (lens_nc ns nc nb inp ph); cbn; tauto | exact Hj]).
  assert (FS := fuchs_pos (nth j (i_gamma inp) 0 / r)%R (nth j (i_alpha inp) 0)%R (Rdiv_lt_0_compat _ _ HG Rp) (alpha_range ns nc nb inp ph j Hj)).
  unfold transfer. apply Rmult_lt_0_compat; [apply Rmult_lt_0_compat; [|exact HN]; apply Rmult_lt_0_compat; lra | apply Rmult_lt_0_compat; [exact HD | exact FS]].
Qed.

(* C41: for physical inputs the routine returns a derivative; every bin has
   exactly one radius and the routine reports it; and a species condenses on a
   bin (its slot grows) exactly when its gas concentration exceeds the
   equilibrium concentration there, and evaporates exactly when it is below. *)
Theorem C41_direction ns nc nb include inp bins :
  physical ns nc nb inp -> List.length include = nc -> Forall (fun g => g < ns) include -> Permutation bins (seq 0 nb) ->
  exists soa aw size dy, dydt_partition ns nc nb include inp bins = Some (soa, aw, size, dy) /\
    forall b, b < nb -> exists r, is_radius ns nc inp b r /\ (forall r', is_radius ns nc inp b r' -> r' = r) /\ nth b size 0%R = r /\
      forall j, j < nc ->
        nth (slot ns nc b j) dy 0%R = growth ns nc inp b r j /\
        ((0 < nth (slot ns nc b j) dy 0)%R <-> (nth j (i_cg inp) 0 > equilibrium ns nc inp b r j)%R) /\
        ((nth (slot ns nc b j) dy 0 < 0)%R <-> (nth j (i_cg inp) 0 < equilibrium ns nc inp b r j)%R).
Proof.
  intros ph L F P. destruct (partition_value ns nc nb include inp bins ph L F P) as (soa & aw & size & dy & H & Hv).
  exists soa, aw, size, dy. split; [exact H|]. intros b Hb. destruct (Hv b Hb) as [Hs V].
  exists (radius ns nc inp b). split; [exact (radius_is ns nc nb inp ph b Hb)|]. split; [exact (radius_unique ns nc nb inp ph b Hb)|].
  split; [exact Hs|]. intros j Hj. specialize (V j Hj).
  split; [exact V|]. rewrite V. unfold growth.
  assert (T := transfer_pos ns nc nb inp b (radius ns nc inp b) j ph Hb Hj (exp_pos _)).
  set (t := transfer inp b (radius ns nc inp b) j) in *. set (e := equilibrium ns nc inp b (radius ns nc inp b) j). set (c := nth j (i_cg inp) 0%R).
  split; split; intros C; try nra.
Qed.

(* C61: the other outputs.  total_SOA_mass is the mass without water and core,
   the water activities are the mole fractions of water, between 0 and 1. *)
Theorem C61_outputs ns nc nb include inp bins soa aw size dy :
  physical ns nc nb inp -> Permutation bins (seq 0 nb) ->
  dydt_partition ns nc nb include inp bins = Some (soa, aw, size, dy) ->
  soa = organic_mass ns nc nb inp /\ (0 <= soa)%R /\ List.length aw = nb /\ List.length size = nb /\
  forall b, b < nb -> nth b aw 0%R = mole_fraction ns nc inp b (nc - 1) /\ (0 <= nth b aw 0 < 1)%R /\ is_radius ns nc inp b (nth b size 0%R).
Proof.
  intros ph P H. destruct (partition_inv ns nc nb include inp bins soa aw size dy H) as (ls & m & Hls & Hm & E).
  assert (W := ph_water _ _ _ _ ph).
  assert (Cells : forall b, b < nb -> m_soa m b = rsum (map (mass_of ns nc inp b) (seq 0 (nc - 1))) /\ m_aw m b = mole_fraction ns nc inp b (nc - 1) /\ m_size m b = radius ns nc inp b).
  { intros b Hb. assert (Hin : In b bins) by (apply (Permutation_in _ (Permutation_sym P)), in_seq; lia).
    destruct (other_cells ns nc nb include inp bins ls (concat ls) m Hls (Permutation_refl _) Hm b Hin) as (o & Ho & E1 & E2 & E3 & _).
    destruct (bin_value ns nc nb inp ph b Hb) as (o' & Ho' & F1 & F2 & F3 & _). rewrite Ho in Ho'. injection Ho' as <-. split; [congruence|]. split; congruence. }
  apply (f_equal (fun x => x)) in E. unfold outputs in E.
  assert (Es := f_equal (fun x => fst (fst (fst x))) E). assert (Ea := f_equal (fun x => snd (fst (fst x))) E). assert (Ez := f_equal (fun x => snd (fst x)) E).
  cbn [fst snd] in Es, Ea, Ez. clear E. subst soa aw size.
  assert (SS : rsum (array nb (m_soa m)) = rsum (map (fun b => rsum (map (mass_of ns nc inp b) (seq 0 (nc - 1)))) (seq 0 nb))).
  { apply rsum_ext. intros b Hb. apply in_seq in Hb. apply Cells. lia. }
  assert (S0 : (0 <= rsum (array nb (m_soa m)))%R).
  { rewrite SS. apply rsum_nonneg. intros x Hx. apply in_map_iff in Hx as (b & <- & Hb). apply in_seq in Hb. apply rsum_nonneg.
    intros y Hy. apply in_map_iff in Hy as (j & <- & Hj). apply in_seq in Hj. apply (mass_nonneg ns nc nb inp ph b); lia. }
  split; [rewrite SS; unfold organic_mass; lra|]. split; [lra|]. split; [apply array_length|]. split; [apply array_length|].
  intros b Hb. rewrite !nth_array by exact Hb. destruct (Cells b Hb) as (_ & -> & ->). split; [reflexivity|]. split; [|exact (radius_is ns nc nb inp ph b Hb)].
  unfold mole_fraction. assert (T := total_pos ns nc nb inp ph b Hb).
  assert (A : forall j, j < nc -> (0 <= amount ns nc inp b j)%R) by (intros j Hj; apply (amount_nonneg ns nc nb inp ph b Hb j Hj)).
  assert (Lt : (amount ns nc inp b (nc - 1) < total_amount ns nc inp b)%R).
  { unfold total_amount. assert (Q : (0 < nth b (i_ycore inp) 0 * i_diss inp)%R).
    { apply Rmult_lt_0_compat; [|apply (ph_const _ _ _ _ ph)]. apply (Forall_nth_pos _ b nb); [apply ph | apply (lens_nb ns nc nb inp ph); cbn; tauto | exact Hb]. }
    assert (Sq : seq 0 nc = seq 0 (nc - 1) ++ [nc - 1]) by (replace nc with (S (nc - 1)) at 1 by lia; apply seq_S).
    rewrite Sq, map_app, rsum_app. cbn [map rsum fold_right].
    assert (R0 : (0 <= rsum (map (amount ns nc inp b) (seq 0 (nc - 1))))%R).
    { apply rsum_nonneg. intros y Hy. apply in_map_iff in Hy as (j & <- & Hj). apply in_seq in Hj. apply A. lia. }
    lra. }
  split; [apply Rmult_le_pos; [apply A; lia | left; apply Rinv_0_lt_compat, T]|].
  apply (Rmult_lt_reg_r (total_amount ns nc inp b)); [exact T|]. unfold Rdiv. rewrite Rmult_assoc, Rinv_l by lra. lra.
Qed.

(* C60.  On one thread the order of the bins makes no difference. *)
Theorem C60_one_thread ns nc nb include inp bins bins' r :
  NoDup include -> List.length include = nc -> Permutation bins (seq 0 nb) -> Permutation bins' (seq 0 nb) ->
  dydt_partition ns nc nb include inp bins = Some r -> dydt_partition ns nc nb include inp bins' = Some r.
Proof.
  intros Nd L P P' H. destruct r as [[[soa aw] size] dy].
  assert (PB : Permutation bins bins') by (rewrite P; symmetry; exact P').
  destruct (Nat.eq_dec nb 0) as [->|Hnb].
  { cbn in P, P'. apply Permutation_sym, Permutation_nil in P. apply Permutation_sym, Permutation_nil in P'. subst. exact H. }
  assert (F := include_bound ns nc nb include inp bins soa aw size dy Hnb P H L).
  destruct (partition_inv ns nc nb include inp bins soa aw size dy H) as (ls & m & Hls & Hm & E).
  assert (Dm : dims_ok ns nc nb inp = true) by (unfold dydt_partition in H; destruct (dims_ok ns nc nb inp); [reflexivity | discriminate]).
  assert (Hb' : forall b, In b bins' -> b < nb) by (intros b Hb; apply (Permutation_in _ P'), in_seq in Hb; lia).
  destruct (omap_all (bin_steps ns nc include inp) bins') as [ls' Hls'].
  { intros b Hb. apply (Permutation_in _ (Permutation_sym PB)) in Hb. destruct (omap_In2 _ _ _ _ Hls Hb) as (l & _ & El). eauto. }
  destruct (serial_runs ns nc nb include inp bins' ls' Hb' F Hls' cleared) as [m' Hm'].
  unfold dydt_partition, serial. rewrite Dm, Hls'. cbn [option_map obind]. rewrite Hm'. cbn [obind]. f_equal. rewrite <- E.
  assert (C : forall b, b < nb -> m_soa m' b = m_soa m b /\ m_aw m' b = m_aw m b /\ m_size m' b = m_size m b /\
     forall j g, nth_error include j = Some g -> m_gas m' g b = m_gas m g b).
  { intros b Hb. assert (Hi : In b bins) by (apply (Permutation_in _ (Permutation_sym P)), in_seq; lia).
    assert (Hi' : In b bins') by (apply (Permutation_in _ (Permutation_sym P')), in_seq; lia).
    destruct (other_cells ns nc nb include inp bins ls (concat ls) m Hls (Permutation_refl _) Hm b Hi) as (o & Ho & E1 & E2 & E3 & E4).
    destruct (other_cells ns nc nb include inp bins' ls' (concat ls') m' Hls' (Permutation_refl _) Hm' b Hi') as (o' & Ho' & F1 & F2 & F3 & F4).
    rewrite Ho in Ho'. injection Ho' as <-. split; [congruence|]. split; [congruence|]. split; [congruence|]. intros j g Hj.
    assert (Hjl : j < nc) by (rewrite <- L; apply nth_error_Some; congruence). assert (Ld := bin_dm_length ns nc inp b o Ho).
    destruct (nth_error (o_dm o) j) as [v|] eqn:Ev; [|apply nth_error_None in Ev; lia].
    rewrite (E4 Nd j g v Hj Ev), (F4 Nd j g v Hj Ev). reflexivity. }
  unfold outputs. rewrite (array_ext nb (m_soa m') (m_soa m)), (array_ext nb (m_aw m') (m_aw m)), (array_ext nb (m_size m') (m_size m)) by (intros b Hb; apply (C b Hb)).
  f_equal. apply array_ext. intros x Hx. destruct (Nat.ltb_spec x ns) as [Hs|Hs].
  - assert (Z : forall bs l mm, omap (bin_steps ns nc include inp) bs = Some l -> run_steps ns nc nb (concat l) cleared = Some mm -> m_dy mm x = 0%R).
    { intros bs l mm Hl Hmm. rewrite (proj2 (serial_dy ns nc nb include inp bs l cleared mm Hl Hmm x)); [reflexivity|]. intros b _ Cx. lia. }
    rewrite (Z _ _ _ Hls Hm), (Z _ _ _ Hls' Hm'). f_equal. f_equal. apply array_ext. intros b Hb.
    destruct (in_dec Nat.eq_dec x include) as [Hi|Hn].
    + apply In_nth_error in Hi as [j Hj]. apply (proj2 (proj2 (proj2 (C b Hb))) j x Hj).
    + rewrite (gas_untouched ns nc nb include inp bins ls (concat ls) m x b Hls (Permutation_refl _) Hm Hn).
      apply (gas_untouched ns nc nb include inp bins' ls' (concat ls') m' x b Hls' (Permutation_refl _) Hm' Hn).
  - assert (Hc : nc <> 0) by nia.
    set (b := (x - ns) / nc). assert (Dx := Nat.div_mod (x - ns) nc Hc). assert (Mx := Nat.mod_upper_bound (x - ns) nc Hc). fold b in Dx.
    assert (Hb : b < nb) by (apply Nat.div_lt_upper_bound; lia).
    assert (Hi : In b bins) by (apply (Permutation_in _ (Permutation_sym P)), in_seq; lia).
    assert (Hi' : In b bins') by (apply (Permutation_in _ (Permutation_sym P')), in_seq; lia).
    assert (Rg : ns + b * nc <= x < ns + (b + 1) * nc) by nia.
    destruct (proj1 (serial_dy ns nc nb include inp bins ls cleared m Hls Hm x) b Hi Rg) as (o & Ho & ->).
    destruct (proj1 (serial_dy ns nc nb include inp bins' ls' cleared m' Hls' Hm' x) b Hi' Rg) as (o' & Ho' & ->).
    rewrite Ho in Ho'. injection Ho' as <-. reflexivity.
Qed.

(* In a parallel run, however the threads interleave, the sizes, water
   activities, total mass and the gas-phase derivatives are the sequential ones. *)
Lemma trace_serial ns nc nb include inp tr : parallel_trace ns nc nb include inp tr ->
  exists bins ls, Permutation bins (seq 0 nb) /\ omap (bin_steps ns nc include inp) bins = Some ls /\ Permutation (concat ls) tr.
Proof.
  intros (threads & progs & P & Hp & I). apply interleaves_perm in I. exists (concat threads).
  assert (G : exists ls, omap (bin_steps ns nc include inp) (concat threads) = Some ls /\ concat progs = concat ls).
  { clear P I. revert progs Hp. induction threads as [|t threads IH]; intros progs Hp; cbn in Hp.
    - injection Hp as <-. exists []. auto.
    - destruct (omap (bin_steps ns nc include inp) t) as [lt|] eqn:Et; [|discriminate]. cbn in Hp.
      destruct (omap _ threads) as [ps|] eqn:Eps in Hp; [|discriminate]. injection Hp as <-. destruct (IH ps Eps) as (ls & Hls & E).
      exists (lt ++ ls). split.
      + cbn [concat]. clear - Et Hls. revert lt Et. induction t as [|b t IHt]; intros lt Et; cbn in *; [injection Et as <-; exact Hls|].
        destruct (bin_steps ns nc include inp b) as [l|]; [|discriminate]. cbn in *. destruct (omap _ t) as [lt'|] eqn:E2 in Et; [|discriminate]. injection Et as <-.
        rewrite (IHt lt' E2). reflexivity.
      + cbn [concat]. rewrite concat_app, E. reflexivity. }
  destruct G as (ls & Hls & E). exists ls. split; [exact P|]. split; [exact Hls|]. rewrite <- E. exact I.
Qed.

Lemma index1_high ns nc nb tr : (forall n, In (WIndex1 n) tr -> ns < n) -> forall m m', (m_index1 m = 0 \/ ns < m_index1 m) ->
  run_steps ns nc nb tr m = Some m' -> forall x, x < ns -> m_dy m' x = m_dy m x.
Proof.
  induction tr as [|s tr IH]; intros Hn m m' Hi H x Hx; cbn [ModelPart.run_steps] in H; [injection H as <-; reflexivity|].
  apply obind_Some in H as (m1 & H1 & H).
  assert (G : (m_index1 m1 = 0 \/ ns < m_index1 m1) /\ m_dy m1 x = m_dy m x).
  { destruct s; cbn [ModelPart.run_step] in H1; try (injection H1 as <-; split; [exact Hi | reflexivity]).
    - destruct g; [discriminate|]. destruct (g <? ns); [|discriminate]. injection H1 as <-. split; [exact Hi | reflexivity].
    - injection H1 as <-. split; [right; apply Hn; left; reflexivity | reflexivity].
    - match type of H1 with (if ?c then _ else _) = _ => destruct c eqn:C; [|discriminate] end. injection H1 as <-. split; [exact Hi|]. cbn [m_dy].
      apply andb_true_iff in C as [C _]. apply andb_true_iff in C as [C _]. apply Nat.leb_le in C.
      rewrite (proj2 (Nat.leb_gt (m_index1 m - 1) x)) by lia. reflexivity. }
  destruct G as [G1 G2]. rewrite (IH (fun n Hin => Hn n (or_intror Hin)) m1 m' G1 H x Hx). exact G2.
Qed.

Theorem C60_partial ns nc nb include inp tr m soa aw size dy :
  NoDup include -> List.length include = nc -> parallel_trace ns nc nb include inp tr -> run_steps ns nc nb tr cleared = Some m ->
  dydt_partition ns nc nb include inp (seq 0 nb) = Some (soa, aw, size, dy) ->
  exists dy', outputs ns nc nb m = (soa, aw, size, dy') /\ forall g, g < ns -> nth g dy' 0%R = nth g dy 0%R.
Proof.
  intros Nd L T Hm H. destruct (trace_serial ns nc nb include inp tr T) as (bins & ls & P & Hls & Pt).
  destruct (partition_inv ns nc nb include inp (seq 0 nb) soa aw size dy H) as (ls0 & m0 & Hls0 & Hm0 & E).
  assert (C : forall b, b < nb -> m_soa m b = m_soa m0 b /\ m_aw m b = m_aw m0 b /\ m_size m b = m_size m0 b /\
     forall j g, nth_error include j = Some g -> m_gas m g b = m_gas m0 g b).
  { intros b Hb. assert (Hi : In b bins) by (apply (Permutation_in _ (Permutation_sym P)), in_seq; lia).
    assert (Hi0 : In b (seq 0 nb)) by (apply in_seq; lia).
    destruct (other_cells ns nc nb include inp bins ls tr m Hls Pt Hm b Hi) as (o & Ho & E1 & E2 & E3 & E4).
    destruct (other_cells ns nc nb include inp (seq 0 nb) ls0 (concat ls0) m0 Hls0 (Permutation_refl _) Hm0 b Hi0) as (o' & Ho' & F1 & F2 & F3 & F4).
    rewrite Ho in Ho'. injection Ho' as <-. split; [congruence|]. split; [congruence|]. split; [congruence|]. intros j g Hj.
    assert (Hjl : j < nc) by (rewrite <- L; apply nth_error_Some; congruence). assert (Ld := bin_dm_length ns nc inp b o Ho).
    destruct (nth_error (o_dm o) j) as [v|] eqn:Ev; [|apply nth_error_None in Ev; lia].
    rewrite (E4 Nd j g v Hj Ev), (F4 Nd j g v Hj Ev). reflexivity. }
  unfold outputs in *. eexists. split.
  - rewrite (array_ext nb (m_soa m) (m_soa m0)), (array_ext nb (m_aw m) (m_aw m0)), (array_ext nb (m_size m) (m_size m0)) by (intros b Hb; apply (C b Hb)).
    assert (Es := f_equal (fun x => fst (fst (fst x))) E). assert (Ea := f_equal (fun x => snd (fst (fst x))) E). assert (Ez := f_equal (fun x => snd (fst x)) E).
    cbn [fst snd] in Es, Ea, Ez. rewrite Es, Ea, Ez. reflexivity.
  - intros g Hg. assert (Ed := f_equal snd E). cbn [snd] in Ed. rewrite <- Ed, !nth_array by lia. rewrite (proj2 (Nat.ltb_lt _ _) Hg).
    assert (I1 : forall n, In (WIndex1 n) tr -> ns < n).
    { intros n Hn. apply (Permutation_in _ (Permutation_sym Pt)) in Hn. destruct (serial_steps ns nc include inp bins ls _ Hls Hn) as (b & l & _ & Hl & Hs).
      destruct (bin_steps_inv ns nc include inp b l Hl) as (o & gas & _ & -> & Hg'). apply in_app_iff in Hs as [Hs|Hs]; [|apply in_app_iff in Hs as [Hs|Hs]].
      - cbn in Hs. destruct Hs as [X|[X|[X|[]]]]; discriminate.
      - apply Hg' in Hs as (? & ? & ? & _ & _ & X). discriminate.
      - cbn in Hs. destruct Hs as [X|[X|[X|[]]]]; try discriminate. injection X as <-. lia. }
    rewrite (index1_high ns nc nb tr I1 cleared m (or_introl eq_refl) Hm g Hg).
    assert (Z : m_dy m0 g = 0%R).
    { rewrite (proj2 (serial_dy ns nc nb include inp (seq 0 nb) ls0 cleared m0 Hls0 Hm0 g)); [reflexivity|]. intros b _ Cx. lia. }
    rewrite Z. cbn [cleared m_dy]. unfold zeros. f_equal. f_equal. apply array_ext. intros b Hb.
    destruct (in_dec Nat.eq_dec g include) as [Hi|Hn].
    + apply In_nth_error in Hi as [j Hj]. apply (proj2 (proj2 (proj2 (C b Hb))) j g Hj).
    + rewrite (gas_untouched ns nc nb include inp (seq 0 nb) ls0 (concat ls0) m0 g b Hls0 (Permutation_refl _) Hm0 Hn).
      apply (gas_untouched ns nc nb include inp bins ls tr m g b Hls Pt Hm Hn).
Qed.

(* The condensed part is another matter: index1 and index2 are shared.  Two bins
   on two threads, one involatile gas species: the two slices go to the same
   place and molecules are lost. *)
Open Scope R_scope.
Definition two_bins : inputs :=
  Inputs [1; 0; 0] [1; 1] 1 [1; 2] [1] [1; 1] [1] [0] [1] [1] [1] [1; 2] [1] 1 1 1 1.
Lemma two_bins_physical : physical 1 1 2 two_bins.
Proof.
  assert (Z : forall b j, (b < 2)%nat -> (j < 1)%nat -> 0 <= amount 1 1 two_bins b j).
  { intros b j Hb Hj. unfold amount, slot, two_bins. cbn [i_y]. destruct b as [|[|b]], j as [|j]; try lia; cbn; lra. }
  constructor; try exact Z; cbn; try lia; repeat split; repeat constructor; lra.
Qed.
Close Scope R_scope.

Theorem C60_refuted : exists ns nc nb include inp tr m dy,
  physical ns nc nb inp /\ NoDup include /\ List.length include = nc /\
  parallel_trace ns nc nb include inp tr /\ run_steps ns nc nb tr cleared = Some m /\ snd (outputs ns nc nb m) = dy /\
  (exists r, dydt_partition ns nc nb include inp (seq 0 nb) = Some r /\ snd r <> dy) /\
  (nth 0 dy 0 + rsum (map (fun b => nth (slot ns nc b 0) dy 0) (seq 0 nb)) <> 0)%R.
Proof.
  exists 1, 1, 2, [0], two_bins. assert (ph := two_bins_physical).
  destruct (bin_value 1 1 2 two_bins ph 0 ltac:(lia)) as (o0 & Ho0 & _ & _ & _ & D0).
  destruct (bin_value 1 1 2 two_bins ph 1 ltac:(lia)) as (o1 & Ho1 & _ & _ & _ & D1). cbn [seq map] in D0, D1.
  set (v0 := growth 1 1 two_bins 0 (radius 1 1 two_bins 0) 0) in *. set (v1 := growth 1 1 two_bins 1 (radius 1 1 two_bins 1) 0) in *.
  assert (S0 : bin_steps 1 1 [0] two_bins 0 = Some [WSoa 0 (o_soa o0); WAw 0 (o_aw o0); WSize 0 (o_size o0); WGas 1 0 v0; WIndex1 2; WIndex2 2; WSlice [v0]]).
  { unfold bin_steps. rewrite Ho0. cbn [obind]. rewrite D0. reflexivity. }
  assert (S1 : bin_steps 1 1 [0] two_bins 1 = Some [WSoa 1 (o_soa o1); WAw 1 (o_aw o1); WSize 1 (o_size o1); WGas 1 1 v1; WIndex1 3; WIndex2 3; WSlice [v1]]).
  { unfold bin_steps. rewrite Ho1. cbn [obind]. rewrite D1. reflexivity. }
  assert (V : (0 < v0)%R).
  { destruct (C41_direction 1 1 2 [0] two_bins [0; 1] ph eq_refl ltac:(repeat constructor) (Permutation_refl _)) as (soa & aw & size & dy & _ & HB).
    destruct (HB 0 ltac:(lia)) as (r & Hr & Hu & _ & HJ). destruct (HJ 0 ltac:(lia)) as (E & G & _).
    rewrite <- (Hu _ (radius_is 1 1 2 two_bins ph 0 ltac:(lia))) in E, G. fold v0 in E. rewrite E in G. apply G.
    unfold equilibrium. cbn [two_bins i_cg i_psat nth]. rewrite Rmult_0_l, Rmult_0_r, !Rmult_0_l. lra. }
  clearbody v0 v1.
  eexists [WSoa 0 (o_soa o0); WAw 0 (o_aw o0); WSize 0 (o_size o0); WGas 1 0 v0; WIndex1 2; WIndex2 2;
           WSoa 1 (o_soa o1); WAw 1 (o_aw o1); WSize 1 (o_size o1); WGas 1 1 v1; WIndex1 3; WIndex2 3; WSlice [v0]; WSlice [v1]].
  eexists. eexists. split; [exact ph|]. split; [repeat constructor; intros []|]. split; [reflexivity|]. split.
  { exists [[0]; [1]]. eexists. split; [apply Permutation_refl|]. split; [cbn [omap]; rewrite S0, S1; reflexivity|]. cbn [concat app].
    do 6 (eapply (il_step [])). do 6 (eapply (il_step [_])). eapply (il_step []). eapply (il_step [_]). apply il_done. repeat constructor. }
  split; [lazy; reflexivity|].
  split; [reflexivity|]. split.
  - destruct (partition_runs 1 1 2 [0] two_bins (seq 0 2) ph eq_refl ltac:(repeat constructor) (Permutation_refl _)) as [[[[soa aw] size] dy] H].
    exists (soa, aw, size, dy). split; [exact H|]. cbn [snd]. intros E. apply (f_equal (fun l => nth 1 l 0%R)) in E. cbn in E.
    destruct (gas_dy 1 1 2 [0] two_bins (seq 0 2) soa aw size dy 0 (Permutation_refl _) H ltac:(lia)) as (m & _ & HB & _).
    destruct (HB 0 ltac:(lia)) as (o & Ho & HD & _). assert (W := HD 0 ltac:(lia)). unfold slot in W. cbn [Nat.add Nat.mul] in W.
    rewrite Ho0 in Ho. injection Ho as <-. rewrite D0 in W. cbn [nth] in W. rewrite W in E. unfold zeros in E. lra.
  - cbn. unfold zeros. lra.
Qed.

(* The hypotheses of C39-C41 and C61 meet: the same inputs on one thread. *)
Example part_example : exists soa aw size dy,
  dydt_partition 1 1 2 [0] two_bins [1; 0] = Some (soa, aw, size, dy) /\ (0 < nth 1 dy 0)%R /\ (nth 0 dy 0 < 0)%R.
Proof.
  assert (ph := two_bins_physical). assert (P : Permutation [1; 0] (seq 0 2)) by apply perm_swap.
  destruct (C41_direction 1 1 2 [0] two_bins [1; 0] ph eq_refl ltac:(repeat constructor) P) as (soa & aw & size & dy & H & HB).
  exists soa, aw, size, dy. split; [exact H|].
  assert (Z : forall b, b < 2 -> (0 < nth (slot 1 1 b 0) dy 0)%R).
  { intros b Hb. destruct (HB b Hb) as (r & Hr & _ & _ & HJ). destruct (HJ 0 ltac:(lia)) as (_ & G & _). apply G.
    unfold equilibrium. cbn [two_bins i_cg i_psat nth]. rewrite Rmult_0_l, Rmult_0_r, !Rmult_0_l. lra. }
  split; [exact (Z 0 ltac:(lia))|].
  assert (C := C39_partial 1 1 2 [0] two_bins [1; 0] soa aw size dy ltac:(repeat constructor; intros []) eq_refl P H 0 0 eq_refl ltac:(lia)).
  cbn [seq map rsum fold_right] in C. assert (Z0 := Z 0 ltac:(lia)). assert (Z1 := Z 1 ltac:(lia)). lra.
Qed.

Print Assumptions C39_partial.
Print Assumptions C39_total.
Print Assumptions C40_untouched_partial.
Print Assumptions C40_coupling_partial.
Print Assumptions C41_direction.
Print Assumptions C60_one_thread.
Print Assumptions C60_partial.
Print Assumptions C60_refuted.
Print Assumptions C61_outputs.
