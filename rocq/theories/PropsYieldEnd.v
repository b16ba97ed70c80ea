(* C97: from the text of the yield file to the rows of the fixed-yield model. *)
From Coq Require Import String List Bool Arith Lia ZArith QArith Reals Qreals Lra Permutation Sorted.
From Flocq Require Import Core BinarySingleNaN.
From Verif Require Import Base PyStr PyDict SpecSource SourceRead PropsWidth ModelPartText ModelFort PartRead PartProg PartRun PartCall PropsPartText PropsAeroBatch ModelAeroFiles PropsAeroFiles.
From Verif Require Import ModelParse SpecMech ParseStruct ParseTables ParseWritten ParseShow PropsParse
  ModelLang ModelGen ModelRhs SpecKin LangFacts GenReact GenLossGain GenParsed GenSparse PropsKin PropsRhs
  ModelOmp ModelExpr ModelRate ModelRateFile SpecRate RateExpr PropsRate ModelRateBody ModelRateRun RateSym
  SpecRateValue SpecMcmEnv PropsRateValue ModelRo2 SpecRo2 PropsRo2 ModelGas SpecGas PropsGas PropsGasJac
  ModelSolver SpecSolver SolverFacts OdeFacts PropsSolver ModelSplit PropsSplit SpecMethod PropsMethod SpecTraj OdeSign PropsTraj
  OdeNear ModelPart SpecPart PartFacts PartValue PropsPart PartBounds ModelAero SpecAero PropsAero PropsAeroRun PropsAeroChem AeroPull GasFortran
  AeroFacts ModelSpecies SpecSpecies PropsSpecies ModelYield PropsYield ModelAeroRun SpecAeroRun PropsAeroTraj PropsYieldTraj
  OdeClose GasFlow SpecSun SpecTroe SpecTame TameFacts PropsTame PropsUnique OdePicard OdeExist SunPieces TameFlow PropsExist OdeBox PartLip AeroExist PropsAeroExist
  SpecError PropsError SpecChem PropsChem PropsAeroEnd SpecYieldChem ModelYieldFiles.
Import ListNotations.
Import Coq.Lists.List.
Open Scope nat_scope.
Open Scope list_scope.
Local Arguments eqb : simpl never.

Section Yield.
Context (d : prepared) (temp : R) (q : pc2) (WP : well_prepared d) (Htemp : (0 < temp)%R) (Hq : Pure_component2 (d_nc d) (d_mw d) Rgas temp = Some q).
Context (k : nat) (Hns : d_ns d = k) (Hnc : d_nc d = k) (Hinc : d_include d = seq 0 k) (Lf : List.length (d_flag d) = k).
Context (nb : nat) (y_core nper : list R) (cd cm diss : R) (SD : seeds nb y_core nper cd cm diss).
Notation n := (k + k * nb).

Lemma nonneg_content y : nonneg y -> forall i, (0 <= nth i y 0)%R.
Proof.
  intros Ny i. unfold nonneg in Ny. rewrite Forall_forall in Ny. destruct (Nat.lt_ge_cases i (List.length y)) as [K|K]; [apply Ny, nth_In, K | rewrite nth_overflow by exact K; lra].
Qed.
Lemma yield_physical y : List.length y = n -> nonneg y -> exists inp, partition_inputs d q y_core nper cd cm diss temp y = Some inp /\ physical k k nb inp /\
  forall j, j < k -> nth j (i_cg inp) 0%R = nth j y 0%R.
Proof.
  intros Ly Ny. destruct (sd_core _ _ _ _ _ _ SD) as [S1 S2], (sd_nper _ _ _ _ _ _ SD) as [S3 S4], (sd_pos _ _ _ _ _ _ SD) as (S5 & S6 & S7).
  destruct (prepared_physical d temp (wp_nc _ WP) (wp_density _ WP) (wp_mw _ WP) (wp_vp _ WP) (wp_range _ WP) (wp_water _ WP) (proj1 (wp_pos _ WP)) (proj2 (wp_pos _ WP)) Htemp
    nb y_core nper cd cm diss y S1 S3) as (q' & inp & Q1 & Q2 & ph & _ & _ & _ & _ & _ & _ & _ & _ & _ & Hcg); try assumption.
  - rewrite Hns, Hnc. exact Ly.
  - intros b j _ _. apply nonneg_content, Ny.
  - rewrite Hq in Q1. injection Q1 as <-. rewrite Hns, Hnc in ph. exists inp. split; [exact Q2|]. split; [exact ph|]. intros j Hj. apply Hcg. rewrite Hinc. apply seq_at; assumption.
Qed.

(* The derivative of the model. *)
Lemma yield_model bins y : Permutation bins (seq 0 nb) -> List.length y = n -> nonneg y ->
  exists dy, option_map fst (yield_rhs d q nb y_core nper cd cm diss temp bins y) = Some dy /\ List.length dy = n /\
    yield_slopes k d q nb y_core nper cd cm diss temp y (fun i => nth i dy 0%R).
Proof.
  intros PB Ly Ny. destruct (yield_physical y Ly Ny) as (inp & Hi & ph & Hcg).
  assert (Li : List.length (seq 0 k) = k) by apply seq_length. assert (Fb : Forall (fun g => g < k) (seq 0 k)) by (apply Forall_forall; intros g Hg; apply in_seq in Hg; lia).
  destruct (C41_direction k k nb (seq 0 k) inp bins ph Li Fb PB) as (soa & aw & size & dy & Hdy & Hgrow).
  assert (Cons := C39_partial k k nb (seq 0 k) inp bins soa aw size dy (seq_NoDup _ _) Li PB Hdy).
  destruct (C40_untouched_partial k k nb (seq 0 k) inp bins soa aw size dy PB Hdy) as [Ldy _].
  exists dy. split; [unfold yield_rhs; rewrite Hi; cbn [obind]; rewrite Hns, Hnc, Hinc, Hdy; cbn [obind option_map fst]; rewrite map_add0; reflexivity|]. split; [exact Ldy|].
  exists inp, (fun b => nth b size 0%R). split; [exact Hi|].
  destruct (C61_outputs k k nb (seq 0 k) inp bins soa aw size dy ph PB Hdy) as (_ & _ & _ & _ & HB).
  split; [intros b Hb; apply HB, Hb|]. split.
  - intros b j Hb Hj. destruct (Hgrow b Hb) as (r & _ & _ & -> & HJ). rewrite (proj1 (HJ j Hj)). unfold growth. rewrite (Hcg j Hj). reflexivity.
  - intros j Hj. assert (X := Cons j j). cbv beta in X. enough (nth j dy 0 + rsum (map (fun b => nth (slot k k b j) dy 0) (seq 0 nb)) = 0)%R by lra. apply X; [|exact Hj].
    rewrite (nth_error_nth' _ 0) by (rewrite seq_length; exact Hj). rewrite seq_nth by exact Hj. reflexivity.
Qed.
Lemma yield_determined y dy1 dy2 : List.length y = n -> nonneg y -> yield_slopes k d q nb y_core nper cd cm diss temp y dy1 -> yield_slopes k d q nb y_core nper cd cm diss temp y dy2 ->
  forall i, i < n -> dy1 i = dy2 i.
Proof.
  intros Ly Ny (inp & r1 & P1 & R1 & F1 & A1) (inp' & r2 & P2 & R2 & F2 & A2). rewrite P1 in P2. injection P2 as <-.
  destruct (yield_physical y Ly Ny) as (inp' & Hi & ph & _). rewrite P1 in Hi. injection Hi as <-.
  assert (Er : forall b, b < nb -> r1 b = r2 b).
  { intros b Hb. rewrite (radius_unique _ _ _ _ ph b Hb _ (R1 b Hb)). symmetry. apply (radius_unique _ _ _ _ ph b Hb), R2, Hb. }
  assert (Es : forall b j, b < nb -> j < k -> dy1 (slot k k b j) = dy2 (slot k k b j)) by (intros b j Hb Hj; rewrite (F1 b j Hb Hj), (F2 b j Hb Hj), (Er b Hb); reflexivity).
  intros i Hin. destruct (Nat.lt_ge_cases i k) as [L|L].
  - rewrite (A1 i L), (A2 i L). apply f_equal, f_equal, map_ext_in. intros b Hb. apply in_seq in Hb. apply Es; lia.
  - assert (K : 0 < k) by (destruct k; [lia | lia]). set (b := (i - k) / k). set (j := (i - k) mod k).
    assert (Hj : j < k) by (apply Nat.mod_upper_bound; lia). assert (Ei : i = slot k k b j).
    { unfold slot, b, j. assert (X := Nat.div_mod (i - k) k ltac:(lia)). nia. }
    assert (Hb : b < nb) by (apply Nat.div_lt_upper_bound; lia). rewrite Ei. apply Es; assumption.
Qed.

(* The derivative of the file. *)
Lemma yield_file_same g g' bins bins' y : Permutation bins (seq 0 nb) -> Permutation bins' (seq 0 nb) -> List.length y = n -> nonneg y ->
  option_map fst (yield_call_file (partition_sub (d_ns d + d_nc d * nb) nb (d_ns d) (d_nc d) (d_include d)) g g' d q nb y_core nper cd cm diss temp bins y) =
  option_map fst (yield_rhs d q nb y_core nper cd cm diss temp bins' y).
Proof.
  intros PB PB' Ly Ny. destruct (yield_model bins y PB Ly Ny) as (dy1 & D1 & L1 & S1). destruct (yield_model bins' y PB' Ly Ny) as (dy2 & D2 & L2 & S2).
  assert (E : dy1 = dy2).
  { apply nth_ext with (d := 0%R) (d' := 0%R); [congruence|]. intros i Hi. apply (yield_determined y (fun i => nth i dy1 0%R) (fun i => nth i dy2 0%R) Ly Ny S1 S2). lia. }
  rewrite D2, <- E, <- D1. clear dy2 D2 L2 S2 E bins' PB' S1.
  destruct (yield_physical y Ly Ny) as (inp & Hi & ph & _).
  assert (Ui : List.length (u_ignore (not_used d)) = d_ns d) by (unfold not_used; cbn [u_ignore]; rewrite map_length; congruence).
  assert (Ul : List.length (u_latent (not_used d)) = d_nc d).
  { unfold not_used. cbn [u_latent]. rewrite app_length, repeat_length, <- (wp_nc _ WP). cbn [List.length]. assert (X := wp_water _ WP). lia. }
  assert (Hb : Forall (fun b => b < nb) bins) by (apply Forall_forall; intros b I; apply (Permutation_in _ PB), in_seq in I; lia).
  assert (ph' : physical (d_ns d) (d_nc d) nb inp) by (rewrite Hns, Hnc; exact ph).
  destruct (call_partition nb (d_ns d) (d_nc d) (d_include d) inp (not_used d) ph' Ui Ul (wp_range _ WP) ltac:(rewrite (wp_nc _ WP); apply le_n) bins g g' Hb) as (soa & aw & size & dy & P1 & P2).
  unfold yield_call_file, yield_rhs in *. rewrite Hi in *. cbn [obind] in *. rewrite P1 in *. rewrite P2. cbn [obind option_map fst] in *.
  assert (Ld : List.length dy = n) by (injection D1 as <-; rewrite map_length in L1; exact L1). rewrite Hns, Hnc, Ld, Nat.eqb_refl. cbn [negb].
  rewrite (psat_last _ _ _ _ _ _ _ _ _ _ Hi). assert (Sp := saturation_pos temp).
  unfold rdiv. destruct (Req_EM_T _ 0) as [Z|Z]; [exfalso; nra|]. reflexivity.
Qed.

Section Batches.
Context (b : R) (Pb : (0 < b)%R).
Notation eqs := (fun (_ : R) y => option_map fst (yield_rhs d q nb y_core nper cd cm diss temp (seq 0 nb) y)).
Notation step := (yield_batch k d q nb y_core nper cd cm diss temp b).
Context (HX : forall y, List.length y = n -> nonneg y -> exists u, u 0%R = y /\ (forall t, (0 <= t <= b)%R -> nonneg (u t)) /\ solves eqs b u /\
  forall v, v 0%R = y -> solves eqs b v -> same_on b u v).

Lemma yobeys_equations u : yield_obeys k d q nb y_core nper cd cm diss temp b u -> solves eqs b u.
Proof.
  intros [A (jumps & B)]. assert (L0 := proj1 (A 0%R ltac:(lra))). split.
  - intros t Htt. destruct (A t Htt) as (L & _ & C). split; [congruence|]. intros i Hi. apply C. lia.
  - exists jumps. intros t Htt Hj. destruct (B t Htt Hj) as (dy & S & V). destruct (A t Htt) as (L & Nn & _).
    destruct (yield_model (seq 0 nb) (u t) (Permutation_refl _) L Nn) as (dy' & D & _ & S').
    exists dy'. split; [exact D|]. intros i Hi. rewrite L0 in Hi. rewrite <- (yield_determined (u t) _ _ L Nn S S' i Hi). apply V, Hi.
Qed.
Lemma equations_yobeys u : List.length (u 0%R) = n -> (forall t, (0 <= t <= b)%R -> nonneg (u t)) -> solves eqs b u -> yield_obeys k d q nb y_core nper cd cm diss temp b u.
Proof.
  intros L0 NN [A (jumps & B)]. split.
  - intros t Htt. destruct (A t Htt) as [L C]. split; [congruence|]. split; [apply NN, Htt|]. intros i Hi. apply C. lia.
  - exists jumps. intros t Htt Hj. destruct (B t Htt Hj) as (dd & D & S). assert (L := proj1 (A t Htt)). rewrite L0 in L.
    destruct (yield_model (seq 0 nb) (u t) (Permutation_refl _) L (NN t Htt)) as (dy & D' & _ & S'). cbv beta in D.
    rewrite D in D'. injection D' as <-. exists (fun i => nth i dd 0%R). split; [exact S' | intros i Hi; apply S; lia].
Qed.
Lemma ybatch_unique y y1 y2 : step y y1 -> step y y2 -> y1 = y2.
Proof.
  intros (u & U & U0 & <-) (v & V & V0 & <-). destruct (proj1 U 0%R ltac:(lra)) as (L & Nn & _). rewrite U0 in L, Nn. destruct (HX y L Nn) as (w & _ & _ & _ & Q).
  rewrite <- (Q u U0 (yobeys_equations u U) b ltac:(lra)), <- (Q v V0 (yobeys_equations v V) b ltac:(lra)). reflexivity.
Qed.
Lemma exact_ybatch y rows : exact_rows eqs 0 b y rows -> List.length y = n -> nonneg y -> chained step y rows.
Proof.
  intros X. induction X as [y|u y1 rows E U X IH]; intros L Nn; [apply chained_end|].
  assert (U' : solves eqs b u) by exact U.
  destruct (HX (u 0%R) L Nn) as (w & W0 & NN & _ & Q). assert (Q' := Q u eq_refl U').
  assert (Nu : forall t, (0 <= t <= b)%R -> nonneg (u t)) by (intros t Htt; rewrite <- (Q' t Htt); apply NN, Htt).
  apply chained_more.
  - exists u. split; [apply equations_yobeys; assumption|]. split; [reflexivity | exact E].
  - apply IH; rewrite <- E; [|apply Nu; lra]. rewrite (proj1 (proj1 U b ltac:(lra))). exact L.
Qed.
End Batches.
End Yield.

Lemma flag_length rd fl rows text cv ov cutoff temp RH diss nb y_core ys d y0 :
  yield_file rows text -> (forall s n, first_number rows s = Some n -> fl n = Ok (cv s) /\ rd s = Ok (ov s)) ->
  (forall s, In s (first_seen (map fst rows)) -> c_C (ov s) <> 0) ->
  yield_setup rd fl text cutoff temp RH nb y_core diss = Ok (ys, d, y0) -> List.length (d_flag d) = List.length (first_seen (map fst rows)) + 1.
Proof.
  intros Hf Hv HC H. unfold yield_setup in H. rewrite (extract_tables _ _ rd fl rows text cv ov Hf Hv) in H. cbn [bind] in H.
  destruct (components rows cv ov cutoff HC) as (p & Hp & I1 & I2 & L6 & _). rewrite Hp in H. cbn [bind] in H.
  apply bind_Ok in H as (yg & _ & H). apply bind_Ok in H as (d' & Hd & H). apply bind_Ok in H as (yc & _ & H). injection H as _ <- _.
  unfold prepare, shave in Hd. cbn [bind] in Hd. injection Hd as <-. cbn [d_flag]. rewrite app_length, L6. reflexivity.
Qed.

Lemma file_read date d nb : well_prepared d -> one_line date -> (d_ns d + d_nc d * nb) + nb + d_ns d + d_nc d + 1 < 10 ^ 20 ->
  read_fsub (partition_file date d nb) = Some (partition_sub (d_ns d + d_nc d * nb) nb (d_ns d) (d_nc d) (d_include d)).
Proof.
  intros WP Hd Hbig. assert (Linc : List.length (d_include d) <= d_nc d) by (rewrite (wp_nc _ WP); apply le_n).
  exact (reads_partition date _ nb _ _ _ Hd Hbig Linc (wp_range _ WP)).
Qed.

(* ------------------------------------------------------------------ *)
(* The rows of a run of the fixed-yield driver.  The products come from the text
   of the yield file; the module is the generated Partitioning.f90, read back; the
   integrator is off by at most delta per batch.  The rows are then within
   C*delta of the states that condensation leads to from the starting state of
   the set-up, batch after batch, whatever order the threads take and whatever
   the memory held. *)
Theorem C97_partial : forall rd fl rows text cv ov cutoff temp RH diss core_density core_mw nb y_core nper ys d y0 q date,
  yield_file rows text -> (forall s n, first_number rows s = Some n -> fl n = Ok (cv s) /\ rd s = Ok (ov s)) ->
  (forall s, In s (first_seen (map fst rows)) -> c_C (ov s) <> 0 /\ sensible (ov s) /\ (0 <= cv s)%R) ->
  (0 <= RH < 1)%R -> (0 < temp)%R -> seeds nb y_core nper core_density core_mw diss ->
  yield_setup rd fl text cutoff temp RH nb y_core diss = Ok (ys, d, y0) -> Pure_component2 (d_nc d) (d_mw d) Rgas temp = Some q ->
  (* products and water *)
  let k := List.length (first_seen (map fst rows)) + 1 in
  one_line date -> (k + k * nb) + nb + k + k + 1 < 10 ^ 20 ->
  (* the file is read *)
  exists p, read_fsub (partition_file date d nb) = Some p /\
  forall b N D, (0 < B2R b)%R -> (0 <= D)%R ->
    let step := yield_batch k d q nb y_core nper core_density core_mw diss temp (B2R b) in
    exists C, (0 <= C)%R /\ forall (rcalls : R -> list R -> ycall),
      (* what the threads and the memory do may differ from call to call *)
      (forall t y, Permutation (yc_bins (rcalls t y)) (seq 0 nb)) ->
      let equations := fun t y => option_map fst (yfile_call p d q nb y_core nper core_density core_mw diss temp (rcalls t y) y) in
      (* the function handed to the integrator computes the condensation *)
      (forall calls t y, Permutation (yc_bins (calls t y)) (seq 0 nb) -> List.length y = k + k * nb -> nonneg y ->
         exists dy, yfile_func p d q nb y_core nper core_density core_mw diss temp calls t y = Ok dy /\ List.length dy = List.length y /\
           yield_slopes k d q nb y_core nper core_density core_mw diss temp y (fun i => nth i dy 0%R)) /\
      forall delta calls simulate jac sim ts ys' os, (0 <= delta <= D)%R ->
      off_by_physical delta equations (yfile_func p d q nb y_core nper core_density core_mw diss temp calls) simulate ->
      yield_simulation_file p d q nb y_core nper core_density core_mw diss temp simulate jac calls y0 sim b = Ok (ts, ys', os) ->
      List.length ts <= N ->
      exists rws, List.length rws = List.length ts /\ chained step y0 rws /\
        (forall rws', List.length rws' = List.length ts -> chained step y0 rws' -> rws' = rws) /\
        forall j, j < List.length ts -> close (C * delta) (nth j rws []) (nth j ys' []).
Proof.
  intros rd fl rows text cv ov cutoff temp RH diss cd cm nb y_core nper ys d y0 q date Hf Hv HC HR Htemp SD Hsetup Hq k Hd Hbig.
  assert (HC' : forall s, In s (first_seen (map fst rows)) -> c_C (ov s) <> 0 /\ sensible (ov s)) by (intros s Hs; destruct (HC s Hs) as (? & ? & _); auto).
  assert (HR' : RH <> 1%R) by lra.
  destruct (yield_prepared rd fl rows text cv ov cutoff temp RH diss nb y_core nper Hf Hv HC' HR' _ _ ys d y0 SD Hsetup) as [WP L0].
  destruct (sd_core _ _ _ _ _ _ SD) as [S1 _], (sd_nper _ _ _ _ _ _ SD) as [S3 _].
  destruct (PropsYield.setup_facts rd fl rows text cv ov cutoff temp RH diss nb y_core nper Hf Hv HC' HR' S1 S3 ys d y0 Hsetup) as (Hns & Hnc & Hinc & _). fold k in Hns, Hnc, Hinc.
  assert (Lfl := flag_length rd fl rows text cv ov cutoff temp RH diss nb y_core ys d y0 Hf Hv (fun s Hs => proj1 (HC' s Hs)) Hsetup). fold k in Lfl.
  rewrite Hns, Hnc in L0. assert (N0 := yield_start rd fl rows text cv ov cutoff temp RH diss cd cm nb y_core nper ys d y0 Hf Hv HC HR Htemp SD Hsetup).
  exists (partition_sub (d_ns d + d_nc d * nb) nb (d_ns d) (d_nc d) (d_include d)). split.
  { apply (file_read date d nb WP Hd). rewrite Hns, Hnc. exact Hbig. }
  clear Hbig. set (p := partition_sub _ _ _ _ _). intros b N D Pb PD step.
  set (A := rsum (map (fun i => nth i y0 0%R) (seq 0 (List.length y0)))).
  assert (PA : (0 <= A)%R) by (apply rsum_nonneg; intros x Hx; apply in_map_iff in Hx as (i & <- & _); apply nonneg_content, N0).
  assert (S0 : start_in (List.length y0) A y0).
  { split; [reflexivity|]. apply Forall_forall. intros c Hin. apply In_nth with (d := 0%R) in Hin as (i & Hi & <-). split; [apply nonneg_content, N0|].
    apply (part_of_sum (fun i => nth i y0 0%R)); [intros j _; apply nonneg_content, N0 | apply in_seq; lia]. }
  destruct (yield_rows rd fl rows text cv ov cutoff temp RH diss cd cm nb y_core nper ys d y0 q (B2R b) (fun _ _ => seq 0 nb) N A D Hf Hv HC' HR' Htemp SD Hsetup Hq Pb (fun _ _ => Permutation_refl _) PA PD) as (C & PCC & HRows).
  cbv zeta beta in HRows. set (eqs := fun (_ : R) y => option_map fst (yield_rhs d q nb y_core nper cd cm diss temp (seq 0 nb) y)) in HRows.
  assert (HX : forall y, List.length y = k + k * nb -> nonneg y -> exists u, u 0%R = y /\ (forall t, (0 <= t <= B2R b)%R -> nonneg (u t)) /\ solves eqs (B2R b) u /\
    forall v, v 0%R = y -> solves eqs (B2R b) v -> same_on (B2R b) u v).
  { intros y Ly Ny. destruct (C91_yield rd fl rows text cv ov cutoff temp RH diss cd cm nb y_core nper ys d y0 q (B2R b) y Hf Hv HC' HR' Htemp SD Hsetup Hq ltac:(lra) ltac:(congruence) Ny) as (u & U0 & Nu & Q).
    destruct (Q (fun _ _ => seq 0 nb) (fun _ _ => Permutation_refl _)) as [U Un]. exists u. split; [exact U0|]. split; [exact Nu|]. split; [exact U | exact Un]. }
  exists C. split; [exact PCC|]. intros rcalls Hcalls equations. split.
  { intros calls t y PB Ly Ny. destruct (yield_model d temp q WP Htemp Hq k Hns Hnc Hinc Lfl nb y_core nper cd cm diss SD (seq 0 nb) y (Permutation_refl _) Ly Ny) as (dy & Dy & Ldy & Sdy).
    assert (X := yield_file_same d temp q WP Htemp Hq k Hns Hnc Hinc Lfl nb y_core nper cd cm diss SD (yc_before (calls t y)) (yc_private (calls t y)) (yc_bins (calls t y)) (seq 0 nb) y PB (Permutation_refl _) Ly Ny).
    fold p in X. rewrite Dy in X. exists dy. split; [|split; [congruence | exact Sdy]]. unfold yfile_func, yfile_call.
    destruct (yield_call_file p _ _ d q nb y_core nper cd cm diss temp _ y) as [r|]; [|discriminate X]. cbn [option_map] in X. injection X as <-. reflexivity. }
  intros delta calls simulate jac sim ts ys' os Hdl HE Hrun LN.
  assert (Same : forall t y, List.length y = k + k * nb -> nonneg y -> equations t y = eqs t y).
  { intros t y Ly Ny. unfold equations, eqs, yfile_call, p. apply (yield_file_same d temp q WP Htemp Hq k Hns Hnc Hinc Lfl nb y_core nper cd cm diss SD); [apply Hcalls | apply Permutation_refl | exact Ly | exact Ny]. }
  set (mixed := fun t y => if List.length y =? k + k * nb then eqs t y else equations t y).
  assert (HE' : off_by_recording delta mixed (yfile_func p d q nb y_core nper cd cm diss temp calls) simulate).
  { intros jac' y tf y1 last Ny Ptf Hs. destruct (HE jac' y tf y1 last Ny Ptf Hs) as (N1 & u & U0 & U & Nu & Cl). split; [exact N1|]. exists u. split; [exact U0|]. split; [|exact Cl].
    eapply solves_ext; [|exact U]. intros t Htt. cbv beta. unfold mixed. destruct (Nat.eqb_spec (List.length (u t)) (k + k * nb)) as [L|L]; [|reflexivity]. apply Same; [exact L | apply Nu, Htt]. }
  unfold yield_simulation_file in Hrun. destruct (run_near delta mixed _ _ _ _ _ _ _ _ _ _ _ _ Pb HE' N0 Hrun) as [X L].
  apply (near_rows_ext delta (k + k * nb) mixed eqs (B2R b)) in X; [|intros t y Ly; unfold mixed; rewrite Ly, Nat.eqb_refl; reflexivity | lra | exact L0].
  assert (Lf : List.length (firstn (List.length ts) ys') = List.length ts) by (rewrite firstn_length; lia).
  destruct (HRows delta y0 _ Hdl S0 X ltac:(lia)) as (rws & Lr & X' & Cl). rewrite Lf in Lr, Cl.
  assert (Ch : chained step y0 rws).
  { apply (exact_ybatch d temp q WP Htemp Hq k Hns Hnc Hinc Lfl nb y_core nper cd cm diss SD (B2R b) Pb HX); assumption. }
  exists rws. split; [exact Lr|]. split; [exact Ch|]. split.
  - intros rws' L' Ch'. apply (chained_unique step) with (y := y0); [|exact Ch | exact Ch' | lia].
    intros y a b' Ha Hb'. exact (ybatch_unique d temp q WP Htemp Hq k Hns Hnc Hinc Lfl nb y_core nper cd cm diss SD (B2R b) Pb HX y a b' Ha Hb').
  - intros j Hj. rewrite <- (firstn_row (List.length ts) ys' j Hj). apply Cl, Hj.
Qed.

Lemma small_example : (4 + 4 * 1) + 1 + 4 + 4 + 1 < 10 ^ 20.
Proof. apply (Nat.lt_le_trans _ (10 ^ 2)); [cbn; lia | apply Nat.pow_le_mono_r; lia]. Qed.

(* The three products of C46_hypotheses and water with one size bin of ammonium
   sulphate, from the starting state of the set-up: one batch of an hour, and an
   integrator that is off by five molecules in every slot. *)
Example C97_hypotheses : forall before private, exists ys d y0 q p simulate ts row o,
  let c := YCall before private [0] in
  yield_file c46_rows c46_text /\ List.length (first_seen (map fst c46_rows)) = 3 /\
  (forall s n, first_number c46_rows s = Some n -> ex_float n = Ok (ex_yield s) /\ (fun s => Ok (ex_chem s)) s = Ok (ex_chem s)) /\
  (forall s, In s (first_seen (map fst c46_rows)) -> c_C (ex_chem s) <> 0 /\ sensible (ex_chem s) /\ (0 <= ex_yield s)%R) /\
  seeds 1 [1e9]%R [50]%R 1770 132.14 3 /\
  yield_setup (fun s => Ok (ex_chem s)) ex_float c46_text (-6) 298.15 0.5 1 [1e9]%R 3 = Ok (ys, d, y0) /\
  Pure_component2 (d_nc d) (d_mw d) Rgas 298.15 = Some q /\ one_line date0 /\ (4 + 4 * 1) + 1 + 4 + 4 + 1 < 10 ^ 20 /\
  read_fsub (partition_file date0 d 1) = Some p /\ (0 < B2R f3600)%R /\
  off_by_physical 5 (fun t y => option_map fst (yfile_call p d q 1 [1e9]%R [50]%R 1770 132.14 3 298.15 c y))
    (yfile_func p d q 1 [1e9]%R [50]%R 1770 132.14 3 298.15 (fun _ _ => c)) simulate /\
  yield_simulation_file p d q 1 [1e9]%R [50]%R 1770 132.14 3 298.15 simulate (fun _ _ => Err ValueError) (fun _ _ => c) y0 f3600 f3600 = Ok (ts, [row], [o]) /\
  List.length ts = 1 /\ yfile_observe p d q 1 [1e9]%R [50]%R 1770 132.14 3 298.15 (fun _ _ => c) f3600 y0 = Ok o /\
  List.length row = List.length y0 /\ forall pb tf y1 t z, simulate pb tf = Ok (y1, (t, z)) -> pb_y0 pb = y0 /\ y1 = row /\ z = y0.
Proof.
  intros before private. destruct C73_yield_hypotheses as (ys & d & y0 & q & y & Hf & SD & Hsetup & Hq & _).
  destruct C46_hypotheses as (_ & Hs & _).
  assert (L3 : List.length (first_seen (map fst c46_rows)) = 3) by (rewrite Hs; reflexivity).
  assert (B36 : B2R f3600 = 3600%R) by (destruct f3600_num as [_ Q]; rewrite Q; cbn [bpow]; ring).
  assert (HC' : forall s, In s (first_seen (map fst c46_rows)) -> c_C (ex_chem s) <> 0 /\ sensible (ex_chem s)) by (intros s _; exact (conj (proj1 (ex_chem_good s)) (proj1 (proj2 (ex_chem_good s))))).
  assert (HC : forall s, In s (first_seen (map fst c46_rows)) -> c_C (ex_chem s) <> 0 /\ sensible (ex_chem s) /\ (0 <= ex_yield s)%R).
  { intros s I. destruct (HC' s I) as [A B]. split; [exact A|]. split; [exact B|]. apply Rlt_le, (ex_chem_good s). }
  destruct (yield_prepared (fun s => Ok (ex_chem s)) ex_float c46_rows c46_text ex_yield ex_chem (-6) 298.15 0.5 3 1 [1e9]%R [50]%R Hf ex_rows_values HC' ltac:(lra) _ _ ys d y0 SD Hsetup) as [WP L0].
  destruct (PropsYield.setup_facts (fun s => Ok (ex_chem s)) ex_float c46_rows c46_text ex_yield ex_chem (-6) 298.15 0.5 3 1 [1e9]%R [50]%R Hf ex_rows_values HC' ltac:(lra) eq_refl eq_refl ys d y0 Hsetup) as (Hns & Hnc & Hinc & _).
  assert (Lfl := flag_length _ _ _ _ _ _ _ _ _ _ _ _ _ _ _ Hf ex_rows_values (fun s I => proj1 (HC' s I)) Hsetup). rewrite L3 in Hns, Hnc, Hinc, Lfl. cbn [Nat.add] in Hns, Hnc, Hinc, Lfl.
  assert (N0 := yield_start (fun s => Ok (ex_chem s)) ex_float c46_rows c46_text ex_yield ex_chem (-6) 298.15 0.5 3 1770 132.14 1 [1e9]%R [50]%R ys d y0 Hf ex_rows_values HC ltac:(lra) ltac:(lra) SD Hsetup).
  rewrite Hns, Hnc in L0.
  assert (O : one_line date0) by (apply one_line_dec; reflexivity).
  destruct (C91_yield (fun s => Ok (ex_chem s)) ex_float c46_rows c46_text ex_yield ex_chem (-6) 298.15 0.5 3 1770 132.14 1 [1e9]%R [50]%R ys d y0 q 3600 y0 Hf ex_rows_values HC' ltac:(lra) ltac:(lra) SD Hsetup Hq ltac:(lra) eq_refl N0)
    as (u & U0 & Nu & Q). destruct (Q (fun _ _ => seq 0 1) (fun _ _ => Permutation_refl _)) as [U _]. clear Q.
  set (p := partition_sub (d_ns d + d_nc d * 1) 1 (d_ns d) (d_nc d) (d_include d)).
  assert (Same : forall z, List.length z = 4 + 4 * 1 -> nonneg z -> option_map fst (yfile_call p d q 1 [1e9]%R [50]%R 1770 132.14 3 298.15 (YCall before private [0]) z) =
      option_map fst (yield_rhs d q 1 [1e9]%R [50]%R 1770 132.14 3 298.15 [0] z)).
  { intros z Lz Nz. unfold yfile_call, p. cbn [yc_before yc_private yc_bins]. apply (yield_file_same d 298.15 q WP ltac:(lra) Hq 4 Hns Hnc Hinc Lfl 1 _ _ _ _ _ SD); [apply Permutation_refl | apply Permutation_refl | exact Lz | exact Nz]. }
  assert (Ho : exists r, yfile_call p d q 1 [1e9]%R [50]%R 1770 132.14 3 298.15 (YCall before private [0]) y0 = Some r).
  { destruct (yield_model d 298.15 q WP ltac:(lra) Hq 4 Hns Hnc Hinc Lfl 1 _ _ _ _ _ SD [0] y0 (Permutation_refl _) L0 N0) as (dy & D & _). rewrite <- (Same y0 L0 N0) in D.
    destruct (yfile_call p d q 1 [1e9]%R [50]%R 1770 132.14 3 298.15 (YCall before private [0]) y0) as [r|]; [exists r; reflexivity | discriminate]. }
  destruct Ho as (r & Ho).
  set (simulate := fun (pb : problem (list R)) (tf : b64) => if list_eq_dec Req_EM_T (pb_y0 pb) y0 then if Req_EM_T (B2R tf) 3600 then Ok (map (fun c => c + 5)%R (u 3600%R), (f3600, y0)) else Err ValueError else Err ValueError).
  exists ys, d, y0, q, p, simulate. eexists _, (map (fun c => c + 5)%R (u 3600%R)), (a_soa (snd r), a_size (snd r)). cbv zeta.
  split; [exact Hf|]. split; [exact L3|]. split; [exact ex_rows_values|]. split; [exact HC|]. split; [exact SD|]. split; [exact Hsetup|]. split; [exact Hq|]. split; [exact O|]. split; [exact small_example|]. split.
  { apply (file_read date0 d 1 WP O). rewrite Hns, Hnc. exact small_example. }
  split; [lra|]. split; [|split; [|split; [|split; [|split]]]].
  - intros jac z tf y1 last Nz Pt H. unfold simulate in H. cbn [pb_y0] in H. destruct (list_eq_dec Req_EM_T z y0) as [->|]; [|discriminate]. destruct (Req_EM_T (B2R tf) 3600) as [Et|]; [|discriminate].
    assert (E : y1 = map (fun c => c + 5)%R (u 3600%R)) by congruence. subst y1. rewrite Et. clear H. split.
    { unfold nonneg in *. rewrite Forall_map. eapply Forall_impl; [|apply Nu; lra]. intros x Hx. cbv beta in *. lra. }
    exists u. split; [exact U0|]. split; [|split; [exact Nu|]].
    + eapply solves_ext; [|exact U]. intros t Htt. cbv beta. symmetry. apply Same; [|apply Nu, Htt]. rewrite (proj1 (proj1 U t Htt)), U0. exact L0.
    + split; [symmetry; apply map_length|]. intros i Hi. rewrite (nth_indep (map _ _) 0%R (0 + 5)%R) by (rewrite map_length; exact Hi).
      rewrite (map_nth (fun c => c + 5)%R). replace (nth i (u 3600) 0 - (nth i (u 3600) 0 + 5))%R with (- (5))%R by ring. rewrite Rabs_Ropp, Rabs_pos_eq; lra.
  - assert (B := f3600_num). destruct (quotient_exact f3600 f3600 3600 1 0 B B ltac:(lia) ltac:(lia)) as [E1 E2].
    unfold yield_simulation_file, record_run. rewrite E1. cbn [bind]. rewrite E2. cbn [bind]. change (Z.of_nat 1 <? 0)%Z with false. cbv iota. change (Z.to_nat (Z.of_nat 1)) with 1. cbn [record_loop].
    rewrite (bltb_num fzero f3600 0 3600 0 (fzero_num 0) B). change (0 <? 3600)%Z with true. cbv iota.
    rewrite (beqb_num fzero 0 0 (fzero_num 0)). change (0 =? 0)%Z with true. cbv iota. cbn [bind].
    unfold simulate at 1. cbn [pb_y0]. destruct (list_eq_dec Req_EM_T y0 y0) as [_|F]; [|congruence]. destruct (Req_EM_T (B2R f3600) 3600) as [_|F]; [|congruence]. cbn [bind].
    unfold yfile_observe at 1. rewrite Ho. cbn [bind snd].
    assert (FA := fadd_exact fzero f3600 0 3600 0 (fzero_num 0) B ltac:(cbn; lia) ltac:(lia) ltac:(cbn [bpow]; rewrite Rmult_1_r; apply small_int_bound; cbn; lia)).
    assert (E3 : Bltb (fadd fzero f3600) f3600 = false) by (rewrite (bltb_num _ _ _ _ _ FA B); reflexivity).
    rewrite E3. cbn [bind fst snd repeat]. reflexivity.
  - reflexivity.
  - unfold yfile_observe. rewrite Ho. reflexivity.
  - rewrite map_length, (proj1 (proj1 U 3600%R ltac:(lra))), U0. reflexivity.
  - intros pb tf y1 t z H. unfold simulate in H. destruct (list_eq_dec Req_EM_T (pb_y0 pb) y0) as [E|]; [|discriminate]. destruct (Req_EM_T (B2R tf) 3600); [|discriminate].
    injection H as <- _ <-. split; [exact E|]. split; reflexivity.
Qed.

Print Assumptions C97_partial.
