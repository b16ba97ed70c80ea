(* C73, C74 for the fixed-yield model; and cases that meet the hypotheses of
   C73-C75. *)
From Coq Require Import String List Bool Arith Lia ZArith QArith Reals Qreals Lra Permutation Sorted.
From Flocq Require Import Core BinarySingleNaN.
From Verif Require Import Base PyStr PyDict ModelParse SpecMech ParseStruct ParseTables ParseWritten ParseShow PropsParse
  ModelLang ModelGen ModelRhs SpecKin LangFacts GenReact GenLossGain GenParsed GenSparse PropsKin PropsRhs
  ModelOmp ModelExpr ModelRate ModelRateFile SpecRate RateExpr PropsRate ModelRateBody ModelRateRun RateSym
  SpecRateValue SpecMcmEnv PropsRateValue ModelRo2 SpecRo2 PropsRo2 ModelGas SpecGas PropsGas PropsGasJac
  ModelSolver SpecSolver SolverFacts OdeFacts PropsSolver ModelSplit PropsSplit SpecMethod PropsMethod SpecTraj OdeSign PropsTraj
  OdeNear ModelPart SpecPart PartFacts PartValue PropsPart PartBounds ModelAero SpecAero PropsAero PropsAeroRun PropsAeroChem AeroPull GasFortran
  AeroFacts ModelSpecies SpecSpecies PropsSpecies ModelYield PropsYield ModelAeroRun SpecAeroRun PropsAeroTraj.
Import ListNotations.
Import Coq.Lists.List.
Open Scope nat_scope.
Open Scope list_scope.
Local Arguments eqb : simpl never.

Lemma exchange_of_yield d q nb y_core nper cd cm diss temp bins y r :
  yield_rhs d q nb y_core nper cd cm diss temp bins y = Some r -> exchange d temp q nb y_core nper cd cm diss bins y = Some (fst r).
Proof.
  unfold yield_rhs, exchange. destruct (partition_inputs d q y_core nper cd cm diss temp y) as [inp|]; [|discriminate]. cbn [obind].
  destruct (dydt_partition _ _ _ _ inp bins) as [[[[soa aw] size] dy]|]; [|discriminate]. cbn [obind option_map snd]. rewrite map_add0. intros H.
  assert (E : r = (dy, (soa, size))) by congruence. subst r. reflexivity.
Qed.

(* The starting state of the set-up. *)
Lemma yield_start rd fl rows text cv ov cutoff temp RH diss core_density core_mw nb y_core nper ys d y0 :
  yield_file rows text -> (forall s n, first_number rows s = Some n -> fl n = Ok (cv s) /\ rd s = Ok (ov s)) ->
  (forall s, In s (first_seen (map fst rows)) -> c_C (ov s) <> 0 /\ sensible (ov s) /\ (0 <= cv s)%R) ->
  (0 <= RH < 1)%R -> (0 < temp)%R -> seeds nb y_core nper core_density core_mw diss ->
  yield_setup rd fl text cutoff temp RH nb y_core diss = Ok (ys, d, y0) -> nonneg y0.
Proof.
  intros Hf Hv HC HR Htemp SD Hsetup.
  assert (HC' : forall s, In s (first_seen (map fst rows)) -> c_C (ov s) <> 0 /\ sensible (ov s)) by (intros s Hs; destruct (HC s Hs) as (? & ? & _); auto).
  assert (HR' : RH <> 1%R) by lra.
  destruct (sd_core _ _ _ _ _ _ SD) as [S1 S2], (sd_pos _ _ _ _ _ _ SD) as (_ & _ & S7).
  destruct (C66_partial rd fl rows text cv ov cutoff temp RH nb y_core diss Hf Hv (fun s Hs => proj1 (HC' s Hs)) HR' S1)
    as (ys1 & d' & y0' & E & F1 & F2 & F3 & _ & _ & _ & L0 & Pr & _ & _ & _ & Wg & Y0 & YW). rewrite Hsetup in E. injection E as _ <- <-. set (n := List.length (first_seen (map fst rows))) in *.
  apply Forall_forall. intros v Hin. apply In_nth_error in Hin as [i Hi]. assert (Li : i < List.length y0) by (apply nth_error_Some; congruence).
  destruct (Nat.lt_trichotomy i n) as [A|[A|A]].
  - destruct (nth_error (first_seen (map fst rows)) i) as [s|] eqn:Es; [|apply nth_error_None in Es; fold n in Es; lia].
    rewrite (proj2 (proj2 (proj2 (Pr i s Es)))) in Hi. injection Hi as <-. destruct (HC s (nth_error_In _ _ Es)) as (_ & _ & Pv).
    assert (0 < 30 * temp / (12.187 * 136.24))%R by (apply Rdiv_lt_0_compat; lra). apply Rmult_le_pos; [apply Rmult_le_pos; lra | lra].
  - subst i. rewrite Wg in Hi. injection Hi as <-. unfold H2O_yield. assert (0 < avogadro)%R by apply avogadro_pos. assert (0 < sat_vap_water temp)%R by apply exp_pos.
    apply Rmult_le_pos; [|left; apply Rinv_0_lt_compat; nra]. apply Rmult_le_pos; [apply Rmult_le_pos; [apply Rmult_le_pos; lra | lra] | lra].
  - assert (Hn : i - (n + 1) < nb * (n + 1)) by (rewrite L0 in Li; lia). set (bb := (i - (n + 1)) / (n + 1)). set (jj := (i - (n + 1)) mod (n + 1)).
    assert (Ei : i - (n + 1) = bb * (n + 1) + jj) by (unfold bb, jj; assert (Q := Nat.div_mod (i - (n + 1)) (n + 1) ltac:(lia)); lia).
    assert (Hjj : jj < n + 1) by (apply Nat.mod_upper_bound; lia). assert (Hbb : bb < nb) by nia.
    assert (Es : i = slot (n + 1) (n + 1) bb jj) by (unfold slot; lia). rewrite Es in Hi. destruct (Nat.eq_dec jj n) as [->|Hne].
    + rewrite (YW bb Hbb) in Hi. injection Hi as <-. assert (0 < nth bb y_core 0)%R by (apply (Forall_nth_pos y_core bb nb); assumption).
      apply Rmult_le_pos; [apply Rmult_le_pos; lra|]. apply Rmult_le_pos; [lra | left; apply Rinv_0_lt_compat; lra].
    + rewrite (Y0 bb jj Hbb ltac:(lia)) in Hi. injection Hi as <-. lra.
Qed.

(* The fixed-yield model: exact solutions stay non-negative, keep the molecules
   of every component, and are bounded by them. *)
Theorem C73_yield_partial rd fl rows text cv ov cutoff temp RH diss core_density core_mw nb y_core nper ys d y0 q bins T u :
  yield_file rows text -> (forall s n, first_number rows s = Some n -> fl n = Ok (cv s) /\ rd s = Ok (ov s)) ->
  (forall s, In s (first_seen (map fst rows)) -> c_C (ov s) <> 0 /\ sensible (ov s)) ->
  RH <> 1%R -> (0 < temp)%R -> seeds nb y_core nper core_density core_mw diss ->
  yield_setup rd fl text cutoff temp RH nb y_core diss = Ok (ys, d, y0) -> Pure_component2 (d_nc d) (d_mw d) Rgas temp = Some q ->
  (forall t y, Permutation (bins t y) (seq 0 nb)) -> (0 <= T)%R -> List.length (u 0%R) = List.length y0 ->
  solves (fun t y => option_map fst (yield_rhs d q nb y_core nper core_density core_mw diss temp (bins t y) y)) T u ->
  nonneg (u 0%R) ->
  let n := List.length (first_seen (map fst rows)) in
  forall t, (0 <= t <= T)%R -> nonneg (u t) /\
    forall j, j <= n -> amount_of (everywhere (n + 1) (n + 1) nb j) (u t) = amount_of (everywhere (n + 1) (n + 1) nb j) (u 0%R) /\
      (nth j (u t) 0 <= amount_of (everywhere (n + 1) (n + 1) nb j) (u 0%R))%R /\
      forall b, b < nb -> (nth (slot (n + 1) (n + 1) b j) (u t) 0 <= amount_of (everywhere (n + 1) (n + 1) nb j) (u 0%R))%R.
Proof.
  intros Hf Hv HC HR Htemp SD Hsetup Hq PB PT Lu Hs N0 n.
  destruct (sd_core _ _ _ _ _ _ SD) as [S1 S2], (sd_nper _ _ _ _ _ _ SD) as [S3 S4], (sd_pos _ _ _ _ _ _ SD) as (S5 & S6 & S7).
  destruct (setup_facts rd fl rows text cv ov cutoff temp RH diss nb y_core nper Hf Hv HC HR S1 S3 ys d y0 Hsetup) as (F1 & F2 & F3 & L1 & L2 & L3 & PD & PM & _). fold n in F1, F2, F3.
  assert (L0 : List.length y0 = d_ns d + d_nc d * nb).
  { destruct (C66_partial rd fl rows text cv ov cutoff temp RH nb y_core diss Hf Hv (fun s Hs => proj1 (HC s Hs)) HR S1) as (ys' & d' & y0' & E & _ & _ & _ & _ & _ & _ & L & _).
    rewrite Hsetup in E. injection E as _ _ <-. fold n in L. rewrite L, F1, F2. reflexivity. }
  assert (Hnc : d_nc d = List.length (d_include d)) by (rewrite F3, seq_length; exact F2).
  assert (Fb : Forall (fun g => g < d_ns d) (d_include d)) by (rewrite F3, F1; apply (seq_bound nb y_core nper S1 S3)).
  assert (Wnc : 1 <= d_nc d) by lia. assert (Nd : NoDup (d_include d)) by (rewrite F3; apply seq_NoDup).
  destruct (exchange_pull d temp q Hnc L1 L2 L3 Fb Nd Wnc PD PM Htemp Hq nb y_core nper core_density core_mw diss S1 S3 S2 S4 S5 S6 S7) as (eps & Pe & HX).
  assert (NN : forall t, (0 <= t <= T)%R -> nonneg (u t)).
  { apply (solution_nonneg_near _ T u eps PT Hs Pe); [|exact N0]. intros M HM. rewrite Lu, L0. destruct (HX M HM) as (K & _ & X). exists K.
    intros t y dy Ht Ly By Hy. destruct (yield_rhs d q nb y_core nper core_density core_mw diss temp (bins t y) y) as [r|] eqn:Er; [|discriminate].
    assert (E : fst r = dy) by (cbn [option_map] in Hy; congruence). subst dy. apply (X (bins t y)); [apply PB | exact Ly | exact By | apply exchange_of_yield, Er]. }
  intros t Ht. split; [apply NN, Ht|]. intros j Hj.
  assert (Cj : amount_of (everywhere (n + 1) (n + 1) nb j) (u t) = amount_of (everywhere (n + 1) (n + 1) nb j) (u 0%R)).
  { apply (solution_conserves _ T u _ PT Hs); [| |exact Ht].
    - rewrite Lu, L0, F1, F2. unfold everywhere. constructor; [cbn [snd]; lia|]. apply Forall_forall. intros a Ha. apply in_map_iff in Ha as (bb & <- & Hb). apply in_seq in Hb. cbn [snd]. unfold slot. nia.
    - intros t' dd Ht' Hdd. destruct (yield_rhs d q nb y_core nper core_density core_mw diss temp (bins t' (u t')) (u t')) as [[dy [soa size]]|] eqn:Er; [|discriminate].
      assert (E : dy = dd) by (cbn [option_map fst] in Hdd; congruence). subst dy. rewrite everywhere_amount. unfold yield_rhs in Er.
      destruct (partition_inputs d q y_core nper core_density core_mw diss temp (u t')) as [inp|]; [|discriminate]. cbn [obind] in Er.
      destruct (dydt_partition (d_ns d) (d_nc d) nb (d_include d) inp (bins t' (u t'))) as [[[[soa' aw] size'] dy']|] eqn:Ep; [|discriminate]. cbn [obind] in Er. rewrite map_add0 in Er.
      assert (E : dy' = dd) by congruence. subst dy'. rewrite F1, F2, F3 in Ep.
      apply (C39_partial (n + 1) (n + 1) nb (seq 0 (n + 1)) inp _ soa' aw size' dd (seq_NoDup _ _) (seq_length _ _) (PB t' (u t')) Ep j j); [apply seq_at; lia | lia]. }
  split; [exact Cj|]. rewrite <- Cj.
  assert (Pa : forall a, In a (everywhere (n + 1) (n + 1) nb j) -> (0 <= fst a)%R).
  { intros a [<-|Ha]; [cbn; lra|]. apply in_map_iff in Ha as (bb & <- & _). cbn. lra. }
  assert (G : forall i, In (1%R, i) (everywhere (n + 1) (n + 1) nb j) -> (nth i (u t) 0 <= amount_of (everywhere (n + 1) (n + 1) nb j) (u t))%R).
  { intros i Hi. assert (X := amount_part _ (u t) 1%R i Pa (NN t Ht) Hi). lra. }
  split; [apply G; left; reflexivity|]. intros b Hb. apply G. right. apply in_map_iff. exists b. split; [reflexivity | apply in_seq; lia].
Qed.

Theorem C73_yield_rows_partial rd fl rows text cv ov cutoff temp RH diss core_density core_mw nb y_core nper ys d y0 q bins rbins simulate jac sim b zr zo ts ys' os :
  yield_file rows text -> (forall s n, first_number rows s = Some n -> fl n = Ok (cv s) /\ rd s = Ok (ov s)) ->
  (forall s, In s (first_seen (map fst rows)) -> c_C (ov s) <> 0 /\ sensible (ov s) /\ (0 <= cv s)%R) ->
  (0 <= RH < 1)%R -> (0 < temp)%R -> seeds nb y_core nper core_density core_mw diss ->
  yield_setup rd fl text cutoff temp RH nb y_core diss = Ok (ys, d, y0) -> Pure_component2 (d_nc d) (d_mw d) Rgas temp = Some q ->
  (forall t y, Permutation (rbins t y) (seq 0 nb)) -> (0 <= B2R b)%R ->
  error_free_recording (fun t y => option_map fst (yield_rhs d q nb y_core nper core_density core_mw diss temp (rbins t y) y))
    (yield_dydt d q nb y_core nper core_density core_mw diss temp bins) simulate ->
  record_run simulate (yield_dydt d q nb y_core nper core_density core_mw diss temp bins) jac
    (yield_observe d q nb y_core nper core_density core_mw diss temp bins) sim b zr zo y0 = Ok (ts, ys', os) ->
  forall j row, j < List.length ts -> nth_error ys' j = Some row -> nonneg row.
Proof.
  intros Hf Hv HC HR Htemp SD Hsetup Hq PB Pb HE H j row Hj Hrow. unfold record_run in H.
  apply bind_Ok in H as (x & _ & H). apply bind_Ok in H as (z & _ & H). destruct (z <? 0)%Z; [discriminate|].
  assert (HC' : forall s, In s (first_seen (map fst rows)) -> c_C (ov s) <> 0 /\ sensible (ov s)) by (intros s Hs; destruct (HC s Hs) as (? & ? & _); auto).
  assert (HR' : RH <> 1%R) by lra.
  assert (N0 := yield_start rd fl rows text cv ov cutoff temp RH diss core_density core_mw nb y_core nper ys d y0 Hf Hv HC HR Htemp SD Hsetup).
  refine (proj2 (proj1 (record_rows simulate _ jac _ sim b _ _ (fun y => List.length y = List.length y0 /\ nonneg y) (fun _ _ => True) _
      _ _ y0 None _ _ _ (conj eq_refl N0) _ H j row Hj Hrow))); [|discriminate].
  intros y y1 t zz [Ly Ny] Hs. split; [|auto]. destruct (HE _ _ _ _ _ Hs) as (u & U0 & U1 & U).
  assert (Lu : List.length (u 0%R) = List.length y0) by (rewrite U0; exact Ly).
  split; [rewrite <- U1, (proj1 (proj1 U (B2R b) ltac:(lra))); exact Lu|]. rewrite <- U1.
  apply (C73_yield_partial rd fl rows text cv ov cutoff temp RH diss core_density core_mw nb y_core nper ys d y0 q rbins (B2R b) u Hf Hv HC' HR' Htemp SD Hsetup Hq PB Pb Lu U); [rewrite U0; exact Ny | lra].
Qed.

(* ------------------------------------------------------------------ *)
(* One size bin: for any condensed amounts there is one set of gas
   concentrations at which nothing is exchanged. *)
Section Still.
Context (d : prepared) (temp : R) (q : pc2) (WP : well_prepared d) (Htemp : (0 < temp)%R) (Hq : Pure_component2 (d_nc d) (d_mw d) Rgas temp = Some q).
Context (y_core nper : list R) (core_density core_mw diss : R) (SD : seeds 1 y_core nper core_density core_mw diss).

Lemma still c : List.length c = d_nc d -> nonneg c ->
  exists w, nonneg w /\ List.length w = d_nc d /\ forall bins y, Permutation bins (seq 0 1) -> List.length y = d_ns d + d_nc d * 1 ->
    (forall j, j < d_nc d -> nth (slot (d_ns d) (d_nc d) 0 j) y 0%R = nth j c 0%R) ->
    (forall j i, nth_error (d_include d) j = Some i -> nth i y 0%R = nth j w 0%R) ->
    exists inp o, partition_inputs d q y_core nper core_density core_mw diss temp y = Some inp /\ dydt_partition (d_ns d) (d_nc d) 1 (d_include d) inp bins = Some o /\
    List.length (snd o) = d_ns d + d_nc d * 1 /\ forall i, nth i (snd o) 0%R = 0%R.
Proof.
  intros Lc Nc. destruct WP as [Hnc L1 L2 L3 Fb Nd Wnc [PD PM] Hns]. destruct (sd_core _ _ _ _ _ _ SD) as [S1 S2], (sd_nper _ _ _ _ _ _ SD) as [S3 S4], (sd_pos _ _ _ _ _ _ SD) as (S5 & S6 & S7).
  assert (Pn : forall l : list R, nonneg l -> forall i, (0 <= nth i l 0)%R).
  { intros l Nl i. destruct (Nat.lt_ge_cases i (List.length l)) as [G|G]; [unfold nonneg in Nl; rewrite Forall_forall in Nl; apply Nl, nth_In, G | rewrite nth_overflow by exact G; lra]. }
  assert (PP : forall y, List.length y = d_ns d + d_nc d * 1 -> (forall j, j < d_nc d -> nth (slot (d_ns d) (d_nc d) 0 j) y 0%R = nth j c 0%R) ->
     exists inp, partition_inputs d q y_core nper core_density core_mw diss temp y = Some inp /\ physical (d_ns d) (d_nc d) 1 inp /\ i_y inp = y /\
       (forall j i, nth_error (d_include d) j = Some i -> nth j (i_cg inp) 0%R = nth i y 0%R)).
  { intros y Ly Hy. destruct (prepared_physical d temp Hnc L1 L2 L3 Fb Wnc PD PM Htemp 1 y_core nper core_density core_mw diss y S1 S3 Ly S2 S4 S5 S6 S7) as (q' & inp & Hq' & Hinp & ph & Iy & _ & _ & _ & _ & _ & _ & _ & _ & Hcg).
    - intros b j Hb Hj. assert (b = 0) by lia. subst b. rewrite Hy by exact Hj. apply Pn, Nc.
    - rewrite Hq in Hq'. injection Hq' as <-. exists inp. auto. }
  assert (Lz : List.length (repeat 0%R (d_ns d) ++ c) = d_ns d + d_nc d * 1) by (rewrite app_length, repeat_length; lia).
  assert (Hz : forall j, j < d_nc d -> nth (slot (d_ns d) (d_nc d) 0 j) (repeat 0%R (d_ns d) ++ c) 0%R = nth j c 0%R).
  { intros j Hj. unfold slot. rewrite app_nth2; rewrite repeat_length; [|lia]. f_equal. lia. }
  destruct (PP _ Lz Hz) as (inp0 & Hi0 & ph0 & Iy0 & _).
  set (r0 := radius (d_ns d) (d_nc d) inp0 0). assert (R0 := radius_is _ _ 1 inp0 ph0 0 ltac:(lia)). fold r0 in R0.
  exists (map (equilibrium (d_ns d) (d_nc d) inp0 0 r0) (seq 0 (d_nc d))).
  assert (Psat : Forall (Rlt 0) (i_psat inp0)).
  { unfold partition_inputs in Hi0. destruct (omap _ (d_include d)); [|discriminate]. cbn [obind] in Hi0. injection Hi0 as <-. cbn [i_psat].
    apply Forall_forall. intros x Hx. apply in_map_iff in Hx as (v & <- & _). apply exp_pos. }
  split.
  { apply Forall_forall. intros x Hx. apply in_map_iff in Hx as (j & <- & Hj). apply in_seq in Hj. unfold equilibrium. destruct (ph_const _ _ _ _ ph0) as (_ & PN & PR & PT).
    assert (A : (0 <= amount (d_ns d) (d_nc d) inp0 0 j)%R) by (apply (ph_amounts _ _ _ _ ph0); lia).
    assert (TP : (0 < total_amount (d_ns d) (d_nc d) inp0 0)%R) by (apply (total_pos_ph _ _ 1 inp0 ph0); lia).
    assert (Pj : (0 < nth j (i_psat inp0) 0)%R) by (apply (Forall_nth_pos _ j (d_nc d)); [exact Psat | apply (lens_nc _ _ 1 inp0 ph0); cbn; tauto | lia]).
    apply Rmult_le_pos; [|left; apply Rdiv_lt_0_compat; lra]. apply Rmult_le_pos; [|left; apply exp_pos]. apply Rmult_le_pos; [|lra].
    unfold mole_fraction. apply Rmult_le_pos; [exact A | left; apply Rinv_0_lt_compat; exact TP]. }
  split; [rewrite map_length, seq_length; reflexivity|].
  intros bins y PB Ly Hc Hg. destruct (PP y Ly Hc) as (inp & Hi & ph & Iy & Hcg).
  destruct (C41_direction (d_ns d) (d_nc d) 1 (d_include d) inp bins ph (eq_sym Hnc) Fb PB) as (soa & aw & size & dy & Hdy & Hgrow).
  exists inp, (soa, aw, size, dy). split; [exact Hi|]. split; [exact Hdy|]. cbn [snd]. destruct (C40_untouched_partial _ _ _ _ _ _ _ _ _ _ PB Hdy) as [Ld Un]. split; [exact Ld|].
  assert (Same : forall j, j < d_nc d -> amount (d_ns d) (d_nc d) inp 0 j = amount (d_ns d) (d_nc d) inp0 0 j) by (intros j Hj; unfold amount; rewrite Iy, Iy0, Hc, Hz by exact Hj; reflexivity).
  assert (Rest : i_ycore inp = i_ycore inp0 /\ i_diss inp = i_diss inp0 /\ i_NA inp = i_NA inp0 /\ i_mw inp = i_mw inp0 /\ i_core_mass inp = i_core_mass inp0 /\ i_density inp = i_density inp0 /\
    i_core_density inp = i_core_density inp0 /\ i_nper inp = i_nper inp0 /\ i_psat inp = i_psat inp0 /\ i_sigma inp = i_sigma inp0 /\ i_Rgas inp = i_Rgas inp0 /\ i_temp inp = i_temp inp0).
  { unfold partition_inputs in Hi, Hi0. destruct (omap (nth_error (firstn (d_ns d) y)) (d_include d)) as [cg|]; [|discriminate]. cbn [obind] in Hi.
    assert (Q : forall A (f : inputs -> A), f inp = f (Inputs y y_core diss (map (fun c => c / avogadro * core_mw)%R y_core) (d_density d) (repeat core_density (List.length y_core)) (d_mw d)
         (map (Rpower 10) (removelast (d_vp d) ++ [water_vp temp])) (q_dstar q) (q_alpha q) cg nper (q_gamma q) sigma avogadro Rgas temp)) by (intros A f; congruence).
    destruct (omap (nth_error (firstn (d_ns d) (repeat 0%R (d_ns d) ++ c))) (d_include d)) as [cg0|]; [|discriminate]. cbn [obind] in Hi0.
    assert (Q0 : forall A (f : inputs -> A), f inp0 = f (Inputs (repeat 0%R (d_ns d) ++ c) y_core diss (map (fun c => c / avogadro * core_mw)%R y_core) (d_density d) (repeat core_density (List.length y_core)) (d_mw d)
         (map (Rpower 10) (removelast (d_vp d) ++ [water_vp temp])) (q_dstar q) (q_alpha q) cg0 nper (q_gamma q) sigma avogadro Rgas temp)) by (intros A f; congruence).
    repeat split; match goal with |- ?f inp = ?f inp0 => rewrite (Q _ f), (Q0 _ f); reflexivity end. }
  destruct Rest as (T1 & T2 & T3 & T4 & T5 & T6 & T7 & T8 & T9 & T10 & T11 & T12).
  assert (Mas : forall j, j < d_nc d -> mass_of (d_ns d) (d_nc d) inp 0 j = mass_of (d_ns d) (d_nc d) inp0 0 j) by (intros j Hj; unfold mass_of; rewrite Same, T3, T4 by exact Hj; reflexivity).
  assert (Vol : particle_volume (d_ns d) (d_nc d) inp 0 = particle_volume (d_ns d) (d_nc d) inp0 0).
  { unfold particle_volume. rewrite T5, T7. f_equal. apply rsum_ext. intros j Hj. apply in_seq in Hj. rewrite Mas, T6 by lia. reflexivity. }
  assert (Mss : particle_mass (d_ns d) (d_nc d) inp 0 = particle_mass (d_ns d) (d_nc d) inp0 0).
  { unfold particle_mass. rewrite T5. f_equal. apply rsum_ext. intros j Hj. apply in_seq in Hj. apply Mas. lia. }
  assert (Tot : total_amount (d_ns d) (d_nc d) inp 0 = total_amount (d_ns d) (d_nc d) inp0 0).
  { unfold total_amount. rewrite T1, T2. f_equal. apply rsum_ext. intros j Hj. apply in_seq in Hj. apply Same. lia. }
  destruct (Hgrow 0 ltac:(lia)) as (r & Hr & Hu & _ & Gj).
  assert (Er : r0 = r) by (apply Hu; destruct R0 as [R1 R2]; split; [exact R1 | rewrite T8, Vol; exact R2]). subst r.
  assert (Zero : forall j, j < d_nc d -> nth (slot (d_ns d) (d_nc d) 0 j) dy 0%R = 0%R).
  { intros j Hj. rewrite (proj1 (Gj j Hj)). unfold growth. destruct (nth_error (d_include d) j) as [i|] eqn:Ei; [|apply nth_error_None in Ei; lia].
    rewrite (Hcg j i Ei), (Hg j i Ei). rewrite (nth_indep _ 0%R (equilibrium (d_ns d) (d_nc d) inp0 0 r0 0)) by (rewrite map_length, seq_length; exact Hj). rewrite map_nth, seq_nth by exact Hj. rewrite Nat.add_0_l.
    unfold equilibrium, mole_fraction, mean_density. rewrite Same, Tot, Mss, Vol, T3, T4, T9, T10, T11, T12 by exact Hj. ring. }
  intros i. destruct (Nat.lt_ge_cases i (d_ns d)) as [Hi'|Hi'].
  - destruct (in_dec Nat.eq_dec i (d_include d)) as [Hin|Hin]; [|apply Un; assumption]. apply In_nth_error in Hin as [j Hj].
    assert (j < d_nc d) by (rewrite Hnc; apply nth_error_Some; congruence).
    assert (C := C39_partial _ _ 1 _ inp bins soa aw size dy Nd (eq_sym Hnc) PB Hdy j i Hj Hi'). cbn [seq map rsum fold_right] in C. rewrite Zero in C by assumption. lra.
  - destruct (Nat.lt_ge_cases i (d_ns d + d_nc d)) as [H2|H2]; [|apply nth_overflow; lia]. replace i with (slot (d_ns d) (d_nc d) 0 (i - d_ns d)) by (unfold slot; lia). apply Zero. lia.
Qed.
End Still.

(* A case for C73_yield_partial: the file of C66_hypotheses, one bin with 1e10
   molecules of every component, at equilibrium. *)
Example C73_yield_hypotheses : exists ys d y0 q y,
  yield_file c46_rows c46_text /\ seeds 1 [1e9]%R [50]%R 1770 132.14 3 /\
  yield_setup (fun s => Ok (ex_chem s)) ex_float c46_text (-6) 298.15 0.5 1 [1e9]%R 3 = Ok (ys, d, y0) /\
  Pure_component2 (d_nc d) (d_mw d) Rgas 298.15 = Some q /\ List.length y = List.length y0 /\ nonneg y /\ (forall j, j < 4 -> nth (4 + j) y 0%R = 1e10%R) /\
  forall T, solves (fun t y => option_map fst (yield_rhs d q 1 [1e9]%R [50]%R 1770 132.14 3 298.15 [0] y)) T (fun _ => y).
Proof.
  destruct C46_hypotheses as (Hf & Hs & _).
  assert (SD : seeds 1 [1e9]%R [50]%R 1770 132.14 3) by (constructor; [split; [reflexivity | apply Forall_cons; [lra | constructor]] | split; [reflexivity | apply Forall_cons; [lra | constructor]] | lra]).
  destruct (C66_partial (fun s => Ok (ex_chem s)) ex_float c46_rows c46_text ex_yield ex_chem (-6) 298.15 0.5 1 [1e9]%R 3 Hf ex_rows_values
    (fun s _ => proj1 (ex_chem_good s)) ltac:(lra) eq_refl) as (ys & d & y0 & H & F1 & F2 & F3 & L1 & L2 & L3 & L0 & _).
  destruct (setup_facts (fun s => Ok (ex_chem s)) ex_float c46_rows c46_text ex_yield ex_chem (-6) 298.15 0.5 3 1 [1e9]%R [50]%R Hf ex_rows_values
    (fun s _ => conj (proj1 (ex_chem_good s)) (proj1 (proj2 (ex_chem_good s)))) ltac:(lra) eq_refl eq_refl ys d y0 H) as (_ & _ & _ & M1 & M2 & M3 & PD & PM & _).
  rewrite Hs in F1, F2, F3, L0. cbn [List.length Nat.add] in F1, F2, F3, L0.
  destruct (pc2_total (d_nc d) (d_mw d) 298.15 M2 PM ltac:(lra)) as (q & Hq & _).
  assert (WP : well_prepared d).
  { constructor; try assumption; rewrite ?F1, ?F2, ?F3; try reflexivity; try lia; [repeat constructor; lia | apply seq_NoDup | auto]. }
  destruct (still d 298.15 q WP ltac:(lra) Hq [1e9]%R [50]%R 1770 132.14 3 SD (repeat 1e10%R 4)) as (w & Nw & Lw & St).
  { rewrite F2. reflexivity. }
  { apply Forall_forall. intros x Hx. apply repeat_spec in Hx. subst x. lra. }
  rewrite F1, F2 in *. exists ys, d, y0, q, (w ++ repeat 1e10%R 4).
  assert (Ly : List.length (w ++ repeat 1e10%R 4) = 8) by (rewrite app_length, Lw; reflexivity).
  assert (Hc : forall j, j < 4 -> nth (4 + j) (w ++ repeat 1e10%R 4) 0%R = 1e10%R).
  { intros j Hj. rewrite app_nth2 by lia. rewrite Lw. replace (4 + j - 4) with j by lia. rewrite (nth_indep _ 0%R 1e10%R) by (rewrite repeat_length; exact Hj). apply nth_repeat. }
  split; [exact Hf|]. split; [exact SD|]. split; [exact H|]. split; [rewrite F2; exact Hq|]. split; [rewrite Ly, L0; reflexivity|].
  split; [apply Forall_app; split; [exact Nw | apply Forall_forall; intros x Hx; apply repeat_spec in Hx; subst x; lra]|]. split; [exact Hc|].
  destruct (St [0] (w ++ repeat 1e10%R 4) (Permutation_refl _) Ly) as (inp & [[[soa aw] size] dy] & Hi & Hp & Ld & Z).
  { intros j Hj. unfold slot. replace (4 + 0 * 4 + j) with (4 + j) by lia. rewrite Hc by exact Hj. rewrite (nth_indep _ 0%R 1e10%R) by (rewrite repeat_length; exact Hj). rewrite nth_repeat. reflexivity. }
  { intros j i Hji. rewrite F3 in Hji. assert (Hj : j < 4) by (rewrite <- (seq_length 4 0); apply nth_error_Some; congruence). rewrite (seq_at 4 j Hj) in Hji. injection Hji as <-. rewrite app_nth1 by lia. reflexivity. }
  intros T. apply solves_everywhere. intros t Ht. split; [reflexivity|]. exists dy. split.
  - unfold yield_rhs. rewrite Hi. cbn [obind]. rewrite F1, F2, Hp. cbn [obind option_map fst snd]. rewrite map_add0. reflexivity.
  - intros i Hii eps He. exists 1%R. split; [lra|]. intros s _ _. cbn [snd] in Z. rewrite Z, Rmult_0_l. unfold Rminus. rewrite Rplus_opp_r, Ropp_0, Rplus_0_r, Rabs_R0. apply Rmult_le_pos; [lra | apply Rabs_pos].
Qed.

(* Cases for C73-C75: the reaction CH3O2 -> CH3O with a rate in proportion to
   RO2; no condensable species, so that only water is exchanged. *)
Definition self_call (p1 : list (item nat)) (st : pstate) : call :=
  Call (gen_rates_fortran None (convert_dict convert_fortran (p_rate st))) p1 (gen_loss_gain_fortran None (p_sp2a st) (p_loss st) (p_gain st)) zeros zeros [0].
Definition with_water (w c : R) (y : list R) : list R := y ++ [w; c].

Lemma self_ready : fortran_ready self_mech.
Proof.
  constructor; (apply Forall_cons; [|constructor]).
  - vm_compute. repeat constructor.
  - split; [vm_compute; repeat constructor; cbn; intuition discriminate | vm_compute; intuition discriminate].
  - split; [vm_compute; discriminate | vm_compute; repeat constructor; cbn; intuition discriminate].
Qed.
Lemma self_clean : peroxy_clean (first_seen (reading_order self_mech)).
Proof. rewrite self_species. split; [exists (s_ "CH3O2"); split; [left; reflexivity | vm_compute; reflexivity]|]. cbn. intuition discriminate. Qed.

Lemma self_aerosol c0 : (0 <= c0)%R -> exists st d q p1 w, extract_mechanism (ParseShow.show self_words) = Ok (1%Z, st) /\
  aerosol_setup st 2 [] [] (-6) 298.15 1 [1e9]%R [50]%R 1770 132.14 3 d q /\ d_ns d = 3 /\ d_nc d = 1 /\ d_include d = [2] /\
  dget (s_ "CH3O2") (d_sp2a d) = Some 0 /\ dget (s_ "H2O") (d_sp2a d) = Some 2 /\
  is_call st 1 1 None None None (self_call p1 st) /\ (0 <= w)%R /\
  forall H2O clock a b, (0 <= H2O)%R -> (0 <= a)%R -> (0 <= b)%R ->
    aerosol_dydt st 1 (fun x => x) H2O 298.15 d q 1 [1e9]%R [50]%R 1770 132.14 3 (self_call p1 st) clock (with_water w c0 [a; b]) =
      Some [- (1.82e-13 * a * a); 1.82e-13 * a * a; 0; 0]%R /\
    exists o, aerosol_attributes st 1 (fun x => x) H2O 298.15 d q 1 [1e9]%R [50]%R 1770 132.14 3 (self_call p1 st) clock (with_water w c0 [a; b]) = Some o.
Proof.
  intros Pc. set (st := interp self_mech). assert (Hst := written_extract _ _ self_written : extract_mechanism (ParseShow.show self_words) = Ok (1%Z, st)).
  assert (Nsp : List.length (p_sp st) = 2) by (vm_compute; reflexivity).
  assert (NM : forall x c, ~ molecule_of [] [] x c) by (intros x c (s & Hs & _); discriminate Hs).
  destruct (proj2 (C43_exactly_when _ _ _ [] [] true (-6)%R Hst)) as [p Hp]; [intros i x s _ Hs; discriminate Hs|].
  destruct (C44_partial _ _ _ [] [] (-6)%R p 298.15%R Hst Hp) as (d & Hd & Hns & Hnc & L1 & L2 & L3 & LF & Hsr & Fb & Hin & _ & Wnc & WI & WD & WM & WV & SW & SO).
  rewrite Nsp in *. cbn [Nat.add] in Hns.
  assert (WP : well_prepared d).
  { assert (Hp' := Hp). assert (Hd' := Hd). rewrite <- Nsp in Hp', Hd'. exact (aerosol_prepared _ _ st [] [] _ _ p d Hst Hp' Hd' (fun i x c _ M => False_ind _ (NM x c M))). }
  assert (Nc : d_nc d = 1).
  { destruct (Nat.eq_dec (d_nc d) 1) as [E|E]; [exact E|]. exfalso. destruct (nth_error (d_include d) 0) as [i|] eqn:Ei; [|apply nth_error_None in Ei; lia].
    destruct (Hin 0 i Ei ltac:(lia)) as (x & c & _ & M & _). exact (NM x c M). }
  assert (Inc : d_include d = [2]).
  { destruct (d_include d) as [|i [|]]; cbn [List.length] in Hnc; [lia | | lia]. rewrite Nc in WI. cbn in WI. congruence. }
  destruct (pc2_total (d_nc d) (d_mw d) 298.15 L2 (proj2 (wp_pos d WP)) ltac:(lra)) as (q & Hq & _).
  assert (SD : seeds 1 [1e9]%R [50]%R 1770 132.14 3) by (constructor; [split; [reflexivity | apply Forall_cons; [lra | constructor]] | split; [reflexivity | apply Forall_cons; [lra | constructor]] | lra]).
  destruct (still d 298.15 q WP ltac:(lra) Hq [1e9]%R [50]%R 1770 132.14 3 SD [c0]) as (w & Nw & Lw & St); [rewrite Nc; reflexivity | apply Forall_cons; [exact Pc | constructor]|].
  rewrite Nc in Lw. destruct w as [|w0 [|]]; try discriminate Lw. assert (Pw : (0 <= w0)%R) by (inversion Nw; assumption).
  assert (G : exists p1, gen_reactants_fortran None 1 (p_sp2a st) (p_reac st) (p_loss st) = Ok p1) by (eexists; vm_compute; reflexivity). destruct G as [p1 Hp1].
  exists st, d, q, p1, w0. split; [exact Hst|]. split.
  { constructor; [exists p; auto | exact Hq | intros i x c _ M; destruct (NM x c M) | lra | exact SD]. }
  split; [exact Hns|]. split; [exact Nc|]. split; [exact Inc|]. split; [rewrite SO by (vm_compute; discriminate); vm_compute; reflexivity|]. split; [exact SW|].
  split. { split; [exists p1; split; [exact Hp1 | reflexivity]|]. split; [reflexivity|]. split; [reflexivity | apply Permutation_refl]. }
  split; [exact Pw|]. intros H2O clock a b HH Pa Pb.
  destruct (St [0] (with_water w0 c0 [a; b]) (Permutation_refl _)) as (inp & [[[soa aw] size] dy] & Hi & Ho & Ld & Z).
  { rewrite Hns, Nc. reflexivity. }
  { intros j Hj. rewrite Nc in Hj. assert (j = 0) by lia. subst j. rewrite Hns, Nc. reflexivity. }
  { intros j i Hj. rewrite Inc in Hj. destruct j as [|[|]]; try discriminate Hj. injection Hj as <-. reflexivity. }
  cbn [snd] in Ld, Z.
  assert (Gas : aerosol_gas st 1 (fun x => x) H2O 298.15 (self_call p1 st) clock (with_water w0 c0 [a; b]) [a; b] = Some [- (1.82e-13 * a * a); 1.82e-13 * a * a]%R).
  { assert (R1 := self_rhs st Hst clock 0%R H2O 298.15%R a b ltac:(lra) HH Pa Pb).
    assert (P29 : (0 < 298.15)%R) by lra.
    assert (N2 : List.length (species self_mech) = 2) by (vm_compute; reflexivity).
    assert (Q := generated_fortran self_mech _ st self_written self_ready Hst ltac:(vm_compute; discriminate) self_expr None None None p1 p1 _ _ (fun x => x) zeros zeros clock 0%R H2O 298.15%R (with_water w0 c0 [a; b])
      (fun r => self_rate r (clock + 0) (peroxy_total (species self_mech) (conc_of (p_sp2a st) [a; b])))
      self_clean Hp1 eq_refl eq_refl eq_refl ltac:(intros x Hx; reflexivity) ltac:(lra) HH ltac:(rewrite N2; cbn; lia)).
    cbv zeta in Q. rewrite N2 in Q. change (firstn 2 (with_water w0 c0 [a; b])) with [a; b] in Q. specialize (Q (self_coefficients _ _ _ _ P29)).
    assert (V := generated_value self_mech _ st self_expr clock 0%R H2O 298.15%R [a; b] (fun r => self_rate r (clock + 0) (peroxy_total (species self_mech) (conc_of (p_sp2a st) [a; b]))) _ self_written (ready_whole _ self_ready) self_clean Hst ltac:(lra) HH (eq_sym N2) (self_coefficients _ _ _ _ P29) R1).
    unfold aerosol_gas, self_call. cbn [c_rates c_reactants c_loss_gain c_a0 c_m0]. change (List.length self_mech) with 1 in Q, V. rewrite Q, V. reflexivity. }
  assert (D : aerosol_dydt st 1 (fun x => x) H2O 298.15 d q 1 [1e9]%R [50]%R 1770 132.14 3 (self_call p1 st) clock (with_water w0 c0 [a; b]) =
      Some [- (1.82e-13 * a * a); 1.82e-13 * a * a; 0; 0]%R).
  { unfold aerosol_dydt, aerosol_rhs. rewrite Hns. change (firstn (3 - 1) (with_water w0 c0 [a; b])) with [a; b]. rewrite Gas. cbn [obind List.length Nat.sub Nat.eqb negb]. rewrite Hi. cbn [obind].
    change (c_bins (self_call p1 st)) with [0]. rewrite <- Hns, Ho. cbn [obind snd]. rewrite Nc. rewrite Hns, Nc in Ld.
    destruct dy as [|d0 [|d1 [|d2 [|d3 [|]]]]]; try discriminate Ld. assert (Z0 := Z 0). assert (Z1 := Z 1). assert (Z2 := Z 2). assert (Z3 := Z 3). cbn [nth] in Z0, Z1, Z2, Z3. subst.
    cbn [app repeat combine map fst snd Nat.add Nat.mul]. rewrite !Rplus_0_r. reflexivity. }
  split; [exact D|]. unfold aerosol_attributes. rewrite D. cbn [obind]. rewrite Hi. cbn [obind]. change (c_bins (self_call p1 st)) with [0]. rewrite Ho. cbn [obind]. eauto.
Qed.

(* Its solutions: CH3O2 and CH3O as in C71_hypotheses, water at rest. *)
Lemma self_aerosol_solves st d q p1 w c0 start H2O a b T : extract_mechanism (ParseShow.show self_words) = Ok (1%Z, st) ->
  (forall clock a b, (0 <= a)%R -> (0 <= b)%R ->
    aerosol_dydt st 1 (fun x => x) H2O 298.15 d q 1 [1e9]%R [50]%R 1770 132.14 3 (self_call p1 st) clock (with_water w c0 [a; b]) =
      Some [- (1.82e-13 * a * a); 1.82e-13 * a * a; 0; 0]%R) ->
  (0 <= H2O)%R -> (0 <= a)%R -> (0 <= b)%R ->
  solves (fun t y => aerosol_dydt st 1 (fun x => x) H2O 298.15 d q 1 [1e9]%R [50]%R 1770 132.14 3 (self_call p1 st) (start + t)%R y) T (fun t => with_water w c0 (self_solution a b t)).
Proof.
  intros Hst HD HH Pa Pb. apply solves_everywhere. intros t Ht. split; [reflexivity|].
  destruct (self_everywhere st start H2O 298.15 a b T Hst ltac:(lra) HH Pa Pb t Ht) as (_ & dd & Hdd & Der).
  assert (P1 : (0 < 1 + 1.82e-13 * a * t)%R) by (assert (0 <= 1.82e-13 * a * t)%R by (apply Rmult_le_pos; [apply Rmult_le_pos; lra | lra]); lra).
  assert (Pu : (0 <= a / (1 + 1.82e-13 * a * t))%R) by (apply Rmult_le_pos; [exact Pa | left; apply Rinv_0_lt_compat; exact P1]).
  assert (Bx : (a / (1 + 1.82e-13 * a * t) <= a)%R).
  { apply Rmult_le_reg_r with (1 + 1.82e-13 * a * t)%R; [exact P1|]. unfold Rdiv. rewrite Rmult_assoc, Rinv_l by lra.
    assert (0 <= a * (1.82e-13 * a * t))%R by (apply Rmult_le_pos; [exact Pa|]; apply Rmult_le_pos; [apply Rmult_le_pos; lra | lra]). lra. }
  assert (R1 := self_rhs st Hst start t H2O 298.15 (a / (1 + 1.82e-13 * a * t)) (b + (a - a / (1 + 1.82e-13 * a * t))) ltac:(lra) HH Pu ltac:(lra)).
  assert (E := HD (start + t)%R (a / (1 + 1.82e-13 * a * t))%R (b + (a - a / (1 + 1.82e-13 * a * t)))%R Pu ltac:(lra)).
  eexists. split; [exact E|]. change (self_solution a b t) with [a / (1 + 1.82e-13 * a * t); b + (a - a / (1 + 1.82e-13 * a * t))]%R in Hdd.
  rewrite R1 in Hdd. injection Hdd as <-.
  intros i Hi eps He. change (i < 4) in Hi. destruct (Nat.lt_ge_cases i 2) as [Hi2|Hi2].
  - destruct (Der i Hi2 eps He) as (delta & Pd & Hdel). exists delta. split; [exact Pd|]. intros s Hs Hst'. specialize (Hdel s Hs Hst'). destruct i as [|[|i]]; [exact Hdel | exact Hdel | lia].
  - exists 1%R. split; [lra|]. intros s _ _. destruct i as [|[|[|[|i]]]]; try lia; cbn [with_water self_solution app nth];
      replace (_ - _ - 0 * (s - t))%R with 0%R by ring; rewrite Rabs_R0; apply Rmult_le_pos; try lra; apply Rabs_pos.
Qed.

(* The integrator that knows these solutions; it evaluates the right-hand side
   once more at the state it returns. *)
Definition self_integrator (w c0 : R) : recording_solver (list R) := fun pb tf =>
  match pb_y0 pb with
  | [a; b; w'; c'] => if Rle_dec 0 a then if Rle_dec 0 b then if Req_EM_T w' w then if Req_EM_T c' c0 then
      let y1 := with_water w c0 (self_solution a b (B2R tf)) in Ok (y1, (tf, y1)) else Err ValueError else Err ValueError else Err ValueError else Err ValueError
  | _ => Err ValueError
  end.

Example C73_hypotheses : exists st d q p1 w y_cond ts row soa size,
  written self_mech (ParseShow.show self_words) /\ fortran_ready self_mech /\ peroxy_clean (first_seen (reading_order self_mech)) /\
  extract_mechanism (ParseShow.show self_words) = Ok (1%Z, st) /\
  aerosol_setup st 2 [] [] (-6) 298.15 1 [1e9]%R [50]%R 1770 132.14 3 d q /\ is_call st 1 1 None None None (self_call p1 st) /\
  Forall (fun r => weight methyls (lhs r) = weight methyls (rhs r)) self_mech /\
  (forall from until, regular_rates (List.length self_mech) self_rate from until) /\
  (forall t x H2O, coefficients self_mech self_expr t x H2O 298.15 (fun r => self_rate r t x)) /\
  (forall start H2O a b T, (0 <= H2O)%R -> (0 <= a)%R -> (0 <= b)%R ->
     solves (fun t y => aerosol_dydt st 1 (fun x => x) H2O 298.15 d q 1 [1e9]%R [50]%R 1770 132.14 3 (self_call p1 st) (start + t)%R y) T (fun t => with_water w (1e9 * 3 * (0.5 / (1 - 0.5))) (self_solution a b t))) /\
  error_free_recording (fun t y => aerosol_dydt st 1 (fun x => x) 1e17 298.15 d q 1 [1e9]%R [50]%R 1770 132.14 3 (self_call p1 st) (B2R f43200 + t)%R y)
    (aerosol_dydt_func st 1 (fun x => x) 1e17 298.15 d q 1 [1e9]%R [50]%R 1770 132.14 3 (fun _ _ => self_call p1 st) f43200) (self_integrator w (1e9 * 3 * (0.5 / (1 - 0.5)))) /\
  last_at_output (self_integrator w (1e9 * 3 * (0.5 / (1 - 0.5)))) /\
  initial_condensed (d_nc d) 1 [1e9]%R 3 0.5 1 = Ok y_cond /\
  aerosol_simulation st 1 (fun x => x) 1e17 298.15 d q 1 [1e9]%R [50]%R 1770 132.14 3 (self_integrator w (1e9 * 3 * (0.5 / (1 - 0.5)))) (fun _ _ => Err ValueError)
    (fun _ _ => self_call p1 st) f43200 (d_sp2a d) [(s_ "CH3O2", 20%R); (s_ "H2O", w)] y_cond f3600 f3600 = Ok (ts, [row], [(soa, size)]) /\ (nth 0 row 0 < 20 * Cfactor)%R.
Proof.
  set (c0 := (1e9 * 3 * (0.5 / (1 - 0.5)))%R). assert (Pc : (0 <= c0)%R) by (unfold c0; lra).
  destruct (self_aerosol c0 Pc) as (st & d & q & p1 & w & Hst & AS & Hns & Hnc & Hinc & S0 & S2 & Hcall & Pw & HD).
  set (y1 := with_water w c0 (self_solution (20 * Cfactor) 0 (B2R f3600))).
  assert (B36 : B2R f3600 = 3600%R) by (destruct f3600_num as [_ Q]; rewrite Q; cbn [bpow]; ring).
  assert (P1 : (1 < 1 + 1.82e-13 * (20 * Cfactor) * B2R f3600)%R) by (rewrite B36; unfold Cfactor; lra).
  assert (PC : (0 < 20 * Cfactor)%R) by (unfold Cfactor; lra).
  assert (Bx : (20 * Cfactor / (1 + 1.82e-13 * (20 * Cfactor) * B2R f3600) < 20 * Cfactor)%R).
  { apply Rmult_lt_reg_r with (1 + 1.82e-13 * (20 * Cfactor) * B2R f3600)%R; [lra|]. unfold Rdiv at 1. rewrite Rmult_assoc, Rinv_l by lra. rewrite Rmult_1_r, <- (Rmult_1_r (20 * Cfactor)) at 1. apply Rmult_lt_compat_l; assumption. }
  assert (Px : (0 <= 20 * Cfactor / (1 + 1.82e-13 * (20 * Cfactor) * B2R f3600))%R) by (apply Rmult_le_pos; [lra | left; apply Rinv_0_lt_compat; lra]).
  destruct (HD 1e17%R (B2R (fadd f43200 f3600)) (20 * Cfactor / (1 + 1.82e-13 * (20 * Cfactor) * B2R f3600))%R (0 + (20 * Cfactor - 20 * Cfactor / (1 + 1.82e-13 * (20 * Cfactor) * B2R f3600)))%R ltac:(lra) Px ltac:(lra)) as (_ & [soa size] & Ho).
  assert (YC : initial_condensed (d_nc d) 1 [1e9]%R 3 0.5 1 = Ok [c0]).
  { rewrite Hnc. unfold initial_condensed. cbn [seq foldM repeat Nat.mul Nat.add]. unfold water_step at 1. cbn [py_nth nth_error bind]. unfold rdiv. destruct (Req_EM_T (1 - 0.5) 0) as [X|_]; [lra|]. cbn [bind]. reflexivity. }
  assert (Sol : forall start H2O a b T, (0 <= H2O)%R -> (0 <= a)%R -> (0 <= b)%R ->
     solves (fun t y => aerosol_dydt st 1 (fun x => x) H2O 298.15 d q 1 [1e9]%R [50]%R 1770 132.14 3 (self_call p1 st) (start + t)%R y) T (fun t => with_water w c0 (self_solution a b t))).
  { intros start H2O a b T HH Pa Pb. apply self_aerosol_solves; try assumption. intros clock a' b' Pa' Pb'. apply (HD H2O clock a' b' HH Pa' Pb'). }
  exists st, d, q, p1, w, [c0]. eexists _, y1, soa, size.
  split; [apply self_written|]. split; [apply self_ready|]. split; [apply self_clean|]. split; [exact Hst|]. split; [exact AS|]. split; [exact Hcall|].
  split. { apply Forall_cons; [|constructor]. vm_compute. reflexivity. }
  split; [intros from until; apply self_regular|]. split; [intros t x H2O; apply self_coefficients; lra|]. split; [exact Sol|]. split.
  { intros jac y0 tf y2 last H. unfold self_integrator in H. cbn [pb_y0] in H. destruct y0 as [|a [|b [|w' [|c' [|]]]]]; try discriminate.
    destruct (Rle_dec 0 a) as [Pa|]; [|discriminate]. destruct (Rle_dec 0 b) as [Pb|]; [|discriminate]. destruct (Req_EM_T w' w) as [->|]; [|discriminate]. destruct (Req_EM_T c' c0) as [->|]; [|discriminate].
    assert (E : y2 = with_water w c0 (self_solution a b (B2R tf))) by (cbv zeta in H; congruence). exists (fun t => with_water w c0 (self_solution a b t)).
    split; [unfold with_water, self_solution; cbn [app]; f_equal; [field | f_equal; field]|]. split; [symmetry; exact E|]. apply Sol; try assumption. lra. }
  split. { intros pb tf y2 t z H. unfold self_integrator in H. destruct (pb_y0 pb) as [|a [|b [|w' [|c' [|]]]]]; try discriminate.
    destruct (Rle_dec 0 a); [|discriminate]. destruct (Rle_dec 0 b); [|discriminate]. destruct (Req_EM_T w' w); [|discriminate]. destruct (Req_EM_T c' c0); [|discriminate]. cbv zeta in H. congruence. }
  split; [exact YC|]. split; [|unfold y1, with_water, self_solution; cbn [app nth]; exact Bx].
  unfold aerosol_simulation. rewrite Hns, Hnc. unfold aerosol_initial. cbn [foldM]. unfold set_gas at 1. cbn [fst snd]. unfold lookup. rewrite S0. cbn [bind].
  change (eqb (s_ "CH3O2") (s_ "H2O")) with false. cbv iota. unfold store at 1. cbn [repeat Nat.add Nat.mul List.length Nat.ltb Nat.leb bind set_nth].
  unfold set_gas. cbn [fst snd]. unfold lookup. rewrite S2. cbn [bind]. change (eqb (s_ "H2O") (s_ "H2O")) with true. cbv iota. unfold store. cbn [List.length Nat.ltb Nat.leb bind set_nth].
  unfold slice_assign. cbn [firstn skipn app Nat.add Nat.mul bind List.length].
  assert (B := f3600_num). destruct (quotient_exact f3600 f3600 3600 1 0 B B ltac:(lia) ltac:(lia)) as [E1 E2].
  unfold record_run. rewrite E1. cbn [bind]. rewrite E2. cbn [bind]. change (Z.of_nat 1 <? 0)%Z with false. cbv iota. change (Z.to_nat (Z.of_nat 1)) with 1. cbn [record_loop].
  rewrite (bltb_num fzero f3600 0 3600 0 (fzero_num 0) B). change (0 <? 3600)%Z with true. cbv iota.
  rewrite (beqb_num fzero 0 0 (fzero_num 0)). change (0 =? 0)%Z with true. cbv iota. cbn [bind].
  unfold self_integrator at 1. cbn [pb_y0]. destruct (Rle_dec 0 (20 * Cfactor)) as [_|F]; [|exfalso; lra]. destruct (Rle_dec 0 0) as [_|F]; [|exfalso; lra].
  destruct (Req_EM_T w w) as [_|F]; [|congruence]. destruct (Req_EM_T c0 c0) as [_|F]; [|congruence]. cbv zeta. cbn [bind]. fold y1.
  assert (Obs : aerosol_observe st 1 (fun x => x) 1e17 298.15 d q 1 [1e9]%R [50]%R 1770 132.14 3 (fun _ _ => self_call p1 st) f43200 f3600 y1 = Ok (soa, size)).
  { unfold aerosol_observe. change y1 with (with_water w c0 [20 * Cfactor / (1 + 1.82e-13 * (20 * Cfactor) * B2R f3600); 0 + (20 * Cfactor - 20 * Cfactor / (1 + 1.82e-13 * (20 * Cfactor) * B2R f3600))]%R). rewrite Ho. reflexivity. }
  rewrite Obs. cbn [bind].
  assert (FA := fadd_exact fzero f3600 0 3600 0 (fzero_num 0) B ltac:(cbn; lia) ltac:(lia) ltac:(cbn [bpow]; rewrite Rmult_1_r; apply small_int_bound; cbn; lia)).
  assert (E3 : Bltb (fadd fzero f3600) f3600 = false) by (rewrite (bltb_num _ _ _ _ _ FA B); reflexivity).
  rewrite E3. cbn [bind fst snd repeat]. reflexivity.
Qed.

(* A case for C74_rows_partial and C75_partial: one step of Euler's method,
   with a last evaluation at the new state. *)
Definition euler_last : recording_solver (list R) := fun pb tf =>
  do r <- euler pb tf; do d <- pb_rhs pb tf (fst r); Ok (fst r, (tf, fst r)).
Lemma euler_last_linear : recording_linear euler_last.
Proof.
  intros pb tf y1 t z H. unfold euler_last in H. apply bind_Ok in H as ([y [t' z']] & H1 & H). cbn [fst] in H. apply bind_Ok in H as (dd & _ & H).
  assert (E : y = y1) by congruence. subst y. exact (euler_linear pb tf y1 t' z' H1).
Qed.
Lemma euler_last_at : last_at_output euler_last.
Proof. intros pb tf y1 t z H. unfold euler_last in H. apply bind_Ok in H as ([y [t' z']] & H1 & H). cbn [fst] in H. apply bind_Ok in H as (dd & _ & H). congruence. Qed.

Example C74_hypotheses : exists st d q p1 w y_cond ts row soa size,
  extract_mechanism (ParseShow.show self_words) = Ok (1%Z, st) /\
  aerosol_setup st 2 [] [] (-6) 298.15 1 [1e9]%R [50]%R 1770 132.14 3 d q /\ is_call st 1 1 None None None (self_call p1 st) /\
  Forall (fun r => weight methyls (lhs r) = weight methyls (rhs r)) self_mech /\ methyls light = 0%R /\ (forall x, In x bath -> methyls x = 0%R) /\
  recording_linear euler_last /\ last_at_output euler_last /\ List.length y_cond = d_nc d * 1 /\
  aerosol_simulation st 1 (fun x => x) 1e17 298.15 d q 1 [1e9]%R [50]%R 1770 132.14 3 euler_last (fun _ _ => Err ValueError)
    (fun _ _ => self_call p1 st) f43200 (d_sp2a d) [(s_ "CH3O2", 0.02%R); (s_ "H2O", w)] y_cond f3600 f3600 = Ok (ts, [row], [(soa, size)]) /\
  (0 < nth 0 row 0 < 0.02 * Cfactor)%R /\ (0 < nth 3 row 0)%R.
Proof.
  set (c0 := 3e9%R). assert (Pc : (0 <= c0)%R) by (unfold c0; lra).
  destruct (self_aerosol c0 Pc) as (st & d & q & p1 & w & Hst & AS & Hns & Hnc & Hinc & S0 & S2 & Hcall & Pw & HD).
  assert (B36 : B2R f3600 = 3600%R) by (destruct f3600_num as [_ Q]; rewrite Q; cbn [bpow]; ring).
  set (a := (0.02 * Cfactor)%R). assert (Pa : (0 <= a)%R) by (unfold a, Cfactor; lra).
  set (a1 := (a + B2R f3600 * - (1.82e-13 * a * a))%R). set (b1 := (0 + B2R f3600 * (1.82e-13 * a * a))%R).
  assert (Pa1 : (0 < a1 < a)%R) by (unfold a1; rewrite B36; unfold a, Cfactor; lra). assert (Pb1 : (0 <= b1)%R) by (unfold b1; rewrite B36; unfold a, Cfactor; lra).
  destruct (HD 1e17%R (B2R (fadd f43200 fzero)) a 0%R ltac:(lra) Pa ltac:(lra)) as (D0 & _).
  destruct (HD 1e17%R (B2R (fadd f43200 f3600)) a1 b1 ltac:(lra) ltac:(lra) Pb1) as (D1 & [soa size] & Ho).
  exists st, d, q, p1, w, [c0]. eexists _, [a1; b1; w; c0], soa, size.
  split; [exact Hst|]. split; [exact AS|]. split; [exact Hcall|].
  split. { apply Forall_cons; [|constructor]. vm_compute. reflexivity. }
  split; [reflexivity|]. split; [intros x Hx; cbn in Hx; repeat (destruct Hx as [<-|Hx]; [vm_compute; reflexivity|]); contradiction|].
  split; [apply euler_last_linear|]. split; [apply euler_last_at|]. split; [rewrite Hnc; reflexivity|].
  split; [|split; [exact Pa1 | cbn; unfold c0; lra]].
  unfold aerosol_simulation. rewrite Hns, Hnc. unfold aerosol_initial. cbn [foldM]. unfold set_gas at 1. cbn [fst snd]. unfold lookup. rewrite S0. cbn [bind].
  change (eqb (s_ "CH3O2") (s_ "H2O")) with false. cbv iota. unfold store at 1. cbn [repeat Nat.add Nat.mul List.length Nat.ltb Nat.leb bind set_nth].
  unfold set_gas. cbn [fst snd]. unfold lookup. rewrite S2. cbn [bind]. change (eqb (s_ "H2O") (s_ "H2O")) with true. cbv iota. unfold store. cbn [List.length Nat.ltb Nat.leb bind set_nth].
  unfold slice_assign. cbn [firstn skipn app Nat.add Nat.mul bind List.length]. fold a.
  assert (B := f3600_num). destruct (quotient_exact f3600 f3600 3600 1 0 B B ltac:(lia) ltac:(lia)) as [E1 E2].
  unfold record_run. rewrite E1. cbn [bind]. rewrite E2. cbn [bind]. change (Z.of_nat 1 <? 0)%Z with false. cbv iota. change (Z.to_nat (Z.of_nat 1)) with 1. cbn [record_loop].
  rewrite (bltb_num fzero f3600 0 3600 0 (fzero_num 0) B). change (0 <? 3600)%Z with true. cbv iota.
  rewrite (beqb_num fzero 0 0 (fzero_num 0)). change (0 =? 0)%Z with true. cbv iota. cbn [bind].
  assert (Sv : euler_last (Problem (aerosol_dydt_func st 1 (fun x => x) 1e17 298.15 d q 1 [1e9]%R [50]%R 1770 132.14 3 (fun _ _ => self_call p1 st) f43200) (fun _ _ => Err ValueError) [a; 0; w; c0]%R fzero) f3600 =
    Ok ([a1; b1; w; c0], (f3600, [a1; b1; w; c0]))).
  { unfold euler_last, euler. cbn [pb_rhs pb_y0 pb_t0]. unfold aerosol_dydt_func at 1. change [a; 0%R; w; c0] with (with_water w c0 [a; 0%R]) at 1. rewrite D0. cbn [bind List.length seq map nth fst].
    assert (Ew : (w + B2R f3600 * 0 = w)%R) by ring. assert (Ec : (c0 + B2R f3600 * 0 = c0)%R) by ring. rewrite Ew, Ec. fold a1 b1.
    unfold aerosol_dydt_func. change [a1; b1; w; c0] with (with_water w c0 [a1; b1]) at 1. rewrite D1. reflexivity. }
  rewrite Sv. cbn [bind].
  assert (Obs : aerosol_observe st 1 (fun x => x) 1e17 298.15 d q 1 [1e9]%R [50]%R 1770 132.14 3 (fun _ _ => self_call p1 st) f43200 f3600 [a1; b1; w; c0] = Ok (soa, size)).
  { unfold aerosol_observe. change [a1; b1; w; c0] with (with_water w c0 [a1; b1]). rewrite Ho. reflexivity. }
  rewrite Obs. cbn [bind].
  assert (FA := fadd_exact fzero f3600 0 3600 0 (fzero_num 0) B ltac:(cbn; lia) ltac:(lia) ltac:(cbn [bpow]; rewrite Rmult_1_r; apply small_int_bound; cbn; lia)).
  assert (E3 : Bltb (fadd fzero f3600) f3600 = false) by (rewrite (bltb_num _ _ _ _ _ FA B); reflexivity).
  rewrite E3. cbn [bind fst snd repeat]. reflexivity.
Qed.

Print Assumptions C73_partial. Print Assumptions C73_rows_partial. Print Assumptions C73_yield_partial. Print Assumptions C73_yield_rows_partial.
Print Assumptions C74_rows_partial. Print Assumptions C74_conserved_partial. Print Assumptions C74_bounded_partial. Print Assumptions C75_partial.
