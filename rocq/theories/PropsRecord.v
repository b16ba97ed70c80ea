(* C98: the stored SOA mass and sizes, from the text of the files to the rows. *)
From Coq Require Import String List Bool Arith Lia ZArith QArith Reals Qreals Lra Permutation Sorted.
From Flocq Require Import Core BinarySingleNaN.
From Verif Require Import Base PyStr PyDict SpecRateText RateNames RateParse ModelSource ModelWrite SpecSource SourceRead SourceRun PropsSource PropsSourceRun SourceWidth PropsWidth
  ModelRateText ModelRateWrite ModelRateRead RateFileN RateFileF RateFileUse ModelGasFiles PropsRateText
  ModelPartText ModelFort PartRead PartProg PartRun PartCall PropsPartText PropsAeroBatch ModelAeroFiles PropsAeroFiles.
From Verif Require Import SpecRate ModelParse SpecMech ParseStruct ParseTables ParseWritten ParseShow PropsParse
  ModelLang ModelGen ModelRhs SpecKin LangFacts GenReact GenLossGain GenParsed GenSparse PropsKin PropsRhs
  ModelOmp ModelExpr ModelRate ModelRateFile RateExpr PropsRate ModelRateBody ModelRateRun RateSym
  SpecRateValue SpecMcmEnv PropsRateValue ModelRo2 SpecRo2 PropsRo2 ModelGas SpecGas PropsGas PropsGasJac
  ModelSolver SpecSolver SolverFacts OdeFacts PropsSolver ModelSplit PropsSplit SpecMethod PropsMethod SpecTraj OdeSign PropsTraj
  OdeNear ModelPart SpecPart PartFacts PartValue PropsPart PartBounds ModelAero SpecAero PropsAero PropsAeroRun PropsAeroChem AeroPull GasFortran
  AeroFacts ModelSpecies SpecSpecies PropsSpecies ModelYield PropsYield ModelAeroRun SpecAeroRun PropsAeroTraj PropsYieldTraj
  OdeClose GasFlow SpecSun SpecTroe SpecTame TameFacts PropsTame PropsUnique OdePicard OdeExist SunPieces TameFlow PropsExist OdeBox PartLip AeroExist PropsAeroExist
  SpecError PropsError SpecChem PropsChem SpecAeroChem PropsAeroEnd SpecYieldChem ModelYieldFiles PropsYieldEnd SpecRecord.
Import ListNotations.
Import Coq.Lists.List.
Open Scope nat_scope.
Open Scope list_scope.
Local Arguments eqb : simpl never.

Lemma rsum_near {A} (f g h : A -> R) l : (forall x, In x l -> (Rabs (f x - g x) <= h x)%R) -> (Rabs (rsum (map f l) - rsum (map g l)) <= rsum (map h l))%R.
Proof.
  induction l as [|x l IH]; intros H; cbn [map rsum].
  - rewrite Rminus_0_r, Rabs_R0. lra.
  - assert (X := H x (or_introl eq_refl)). assert (Y := IH (fun x' Hx => H x' (or_intror Hx))). apply Rabs_le_inv in X, Y. apply Rabs_le. lra.
Qed.
Lemma close_nth eps y z : (0 <= eps)%R -> close eps y z -> forall i, (Rabs (nth i y 0 - nth i z 0) <= eps)%R.
Proof.
  intros P [L C] i. destruct (Nat.lt_ge_cases i (List.length y)) as [K|K]; [apply C, K|]. rewrite !nth_overflow by lia. rewrite Rminus_0_r, Rabs_R0. exact P.
Qed.

(* The mass and the volumes are linear in the contents of the particles. *)
Section Linear.
Context (ns nc nb : nat) (i1 i2 : inputs) (eps : R) (P : (0 <= eps)%R) (Cl : close eps (i_y i1) (i_y i2)).
Context (En : i_NA i2 = i_NA i1) (Em : i_mw i2 = i_mw i1) (Ed : i_density i2 = i_density i1) (Ec : i_core_mass i2 = i_core_mass i1) (Ek : i_core_density i2 = i_core_density i1).
Definition mass_factor (i : inputs) : R := rsum (map (fun _ => rsum (map (fun j => Rabs (/ i_NA i * nth j (i_mw i) 0))%R (seq 0 (nc - 1)))) (seq 0 nb)).
Definition volume_factor (i : inputs) : R := rsum (map (fun j => Rabs (/ i_NA i * nth j (i_mw i) 0 * / nth j (i_density i) 0))%R (seq 0 nc)).
Lemma rsum_scaled {A} (f : A -> R) c l : rsum (map (fun x => c * f x)%R l) = (c * rsum (map f l))%R.
Proof. induction l as [|x l IH]; cbn [map rsum]; [ring|]. rewrite IH. ring. Qed.
Lemma mass_near : (Rabs (organic_mass ns nc nb i1 - organic_mass ns nc nb i2) <= mass_factor i1 * 1e12 * eps)%R.
Proof.
  unfold organic_mass. rewrite <- Rmult_minus_distr_r, Rabs_mult, (Rabs_pos_eq 1e12) by lra.
  replace (mass_factor i1 * 1e12 * eps)%R with (eps * mass_factor i1 * 1e12)%R by ring. apply Rmult_le_compat_r; [lra|].
  unfold mass_factor. rewrite <- rsum_scaled. apply rsum_near. intros b _. rewrite <- rsum_scaled. apply rsum_near. intros j _.
  unfold mass_of, amount. rewrite En, Em. set (c := (/ i_NA i1 * nth j (i_mw i1) 0)%R).
  replace (nth (slot ns nc b j) (i_y i1) 0 / i_NA i1 * nth j (i_mw i1) 0 - nth (slot ns nc b j) (i_y i2) 0 / i_NA i1 * nth j (i_mw i1) 0)%R
    with ((nth (slot ns nc b j) (i_y i1) 0 - nth (slot ns nc b j) (i_y i2) 0) * c)%R by (unfold c, Rdiv; ring).
  rewrite Rabs_mult. apply Rmult_le_compat_r; [apply Rabs_pos | apply close_nth; assumption].
Qed.
Lemma volume_near b : (Rabs (particle_volume ns nc i1 b - particle_volume ns nc i2 b) <= volume_factor i1 * eps)%R.
Proof.
  unfold particle_volume. rewrite Ec, Ek.
  match goal with |- (Rabs (?a + ?c - (?b' + ?c)) <= _)%R => replace (a + c - (b' + c))%R with (a - b')%R by ring end.
  rewrite (Rmult_comm _ eps). unfold volume_factor. rewrite <- rsum_scaled. apply rsum_near. intros j _.
  unfold mass_of, amount. rewrite En, Em, Ed. set (c := (/ i_NA i1 * nth j (i_mw i1) 0 * / nth j (i_density i1) 0)%R).
  replace (nth (slot ns nc b j) (i_y i1) 0 / i_NA i1 * nth j (i_mw i1) 0 / nth j (i_density i1) 0 - nth (slot ns nc b j) (i_y i2) 0 / i_NA i1 * nth j (i_mw i1) 0 / nth j (i_density i1) 0)%R
    with ((nth (slot ns nc b j) (i_y i1) 0 - nth (slot ns nc b j) (i_y i2) 0) * c)%R by (unfold c, Rdiv; ring).
  rewrite Rabs_mult. apply Rmult_le_compat_r; [apply Rabs_pos | apply close_nth; assumption].
Qed.
End Linear.

Section Inputs.
Context (d : prepared) (q : pc2) (nb : nat) (y_core nper : list R) (cd cm diss temp : R).
Lemma inputs_fields y inp : partition_inputs d q y_core nper cd cm diss temp y = Some inp ->
  i_y inp = y /\ i_NA inp = avogadro /\ i_mw inp = d_mw d /\ i_density inp = d_density d /\ i_nper inp = nper /\
  i_core_mass inp = map (fun c => c / avogadro * cm)%R y_core /\ i_core_density inp = repeat cd (List.length y_core).
Proof.
  unfold partition_inputs. destruct (omap _ _) as [cg|]; [|discriminate]. cbn [obind]. intros H. injection H as <-. repeat split.
Qed.
(* The arguments exist for every state that is long enough. *)
Lemma inputs_exist y z inp : partition_inputs d q y_core nper cd cm diss temp z = Some inp -> List.length y = List.length z ->
  exists inp', partition_inputs d q y_core nper cd cm diss temp y = Some inp'.
Proof.
  unfold partition_inputs. destruct (omap (nth_error (firstn (d_ns d) z)) (d_include d)) as [cg|] eqn:E; [|discriminate]. intros _ L.
  assert (X : exists cg', omap (nth_error (firstn (d_ns d) y)) (d_include d) = Some cg').
  { revert cg E. induction (d_include d) as [|i l IH]; intros cg E; cbn [omap] in *; [eauto|].
    destruct (nth_error (firstn (d_ns d) z) i) as [v|] eqn:Ev; [|discriminate]. destruct (omap (nth_error (firstn (d_ns d) z)) l) as [cs|]; [|discriminate].
    destruct (IH cs eq_refl) as [cs' ->].
    destruct (nth_error (firstn (d_ns d) y) i) as [v'|] eqn:Ev'; [cbn [obind]; eauto|].
    apply nth_error_None in Ev'. assert (i < List.length (firstn (d_ns d) z)) by (apply nth_error_Some; congruence). rewrite firstn_length in *. lia. }
  destruct X as [cg' ->]. cbn [obind]. eauto.
Qed.
Definition record_factor : R :=
  (rsum (map (fun _ : nat => rsum (map (fun j => Rabs (/ avogadro * nth j (d_mw d) 0))%R (seq 0 (d_nc d - 1)))) (seq 0 nb)) * 1e12 +
   1000 * rsum (map (fun j => Rabs (/ avogadro * nth j (d_mw d) 0 * / nth j (d_density d) 0))%R (seq 0 (d_nc d))))%R.
Lemma rsum_abs {A} (f : A -> R) l : (0 <= rsum (map (fun x => Rabs (f x)) l))%R.
Proof. apply rsum_nonneg. intros x Hx. apply in_map_iff in Hx as (a & <- & _). apply Rabs_pos. Qed.
Lemma record_factor_nonneg : (0 <= record_factor)%R.
Proof.
  unfold record_factor. assert (X := rsum_abs (fun j => / avogadro * nth j (d_mw d) 0 * / nth j (d_density d) 0)%R (seq 0 (d_nc d))).
  assert (Y : (0 <= rsum (map (fun _ : nat => rsum (map (fun j => Rabs (/ avogadro * nth j (d_mw d) 0))%R (seq 0 (d_nc d - 1)))) (seq 0 nb)))%R).
  { apply rsum_nonneg. intros x Hx. apply in_map_iff in Hx as (a & <- & _). apply rsum_abs. } lra.
Qed.
(* What holds exactly at the state z holds nearly at a state y close to it. *)
Lemma describes_near eps y z inp o : (0 <= eps)%R -> close eps z y -> partition_inputs d q y_core nper cd cm diss temp z = Some inp ->
  describes (d_ns d) (d_nc d) nb inp 0 o -> exists inp', partition_inputs d q y_core nper cd cm diss temp y = Some inp' /\ describes (d_ns d) (d_nc d) nb inp' (record_factor * eps) o.
Proof.
  intros P Cl Hz (Dm & Dl & Dr). destruct (inputs_exist y z inp Hz (eq_sym (proj1 Cl))) as [inp' Hy]. exists inp'. split; [exact Hy|].
  destruct (inputs_fields _ _ Hz) as (Z1 & Z2 & Z3 & Z4 & Z5 & Z6 & Z7). destruct (inputs_fields _ _ Hy) as (Y1 & Y2 & Y3 & Y4 & Y5 & Y6 & Y7).
  rewrite <- Z1, <- Y1 in Cl.
  assert (M := mass_near (d_ns d) (d_nc d) nb inp inp' eps P Cl ltac:(congruence) ltac:(congruence)).
  assert (V := volume_near (d_ns d) (d_nc d) inp inp' eps P Cl ltac:(congruence) ltac:(congruence) ltac:(congruence) ltac:(congruence) ltac:(congruence)).
  unfold mass_factor in M. unfold volume_factor in V. rewrite Z2, Z3 in M. rewrite Z2, Z3, Z4 in V.
  assert (X := rsum_abs (fun j => / avogadro * nth j (d_mw d) 0 * / nth j (d_density d) 0)%R (seq 0 (d_nc d))).
  assert (Y : (0 <= rsum (map (fun _ : nat => rsum (map (fun j => Rabs (/ avogadro * nth j (d_mw d) 0))%R (seq 0 (d_nc d - 1)))) (seq 0 nb)))%R).
  { apply rsum_nonneg. intros x Hx. apply in_map_iff in Hx as (a & <- & _). apply rsum_abs. }
  unfold record_factor. match type of Y with (0 <= ?t)%R => set (A := t) in * end. match type of X with (0 <= ?t)%R => set (B := t) in * end.
  assert (XE := Rmult_le_pos _ _ X P). assert (YE := Rmult_le_pos _ _ Y P).
  split; [|split; [exact Dl|]].
  - apply Rabs_le_inv in Dm, M. apply Rabs_le. lra.
  - intros b Hb r. destruct (Dr b Hb) as [R1 R2]. split; [exact R1|]. fold r in R2. assert (Vb := V b). rewrite Y5. rewrite Z5 in R2. apply Rabs_le_inv in R2, Vb. apply Rabs_le. lra.
Qed.
End Inputs.

(* ------------------------------------------------------------------ *)
(* The loop over the batches. *)
Lemma rows_described (d : prepared) (q : pc2) nb y_core nper cd cm diss temp eps n simulate rhs_at jac observe sim b zr zo y0 ts ys os : (0 <= eps)%R -> (0 <= B2R b)%R -> List.length y0 = n ->
  last_within eps rhs_at simulate ->
  (forall t z o, List.length z = n -> nonneg z -> observe t z = Ok o -> exists inp, partition_inputs d q y_core nper cd cm diss temp z = Some inp /\ describes (d_ns d) (d_nc d) nb inp 0 o) ->
  record_run simulate rhs_at jac observe sim b zr zo y0 = Ok (ts, ys, os) ->
  forall j row, j < List.length ts -> nth_error ys j = Some row ->
    exists inp o, partition_inputs d q y_core nper cd cm diss temp row = Some inp /\ nth_error os j = Some o /\ describes (d_ns d) (d_nc d) nb inp (record_factor d nb * eps) o.
Proof.
  intros P Pb L0 Hl Ho H j row Hj Hrow. unfold record_run in H. apply bind_Ok in H as (x & _ & H). apply bind_Ok in H as (nz & _ & H). destruct (nz <? 0)%Z; [discriminate|].
  set (Rel := fun (y : list R) (o : R * list R) => exists t z, List.length z = n /\ nonneg z /\ close eps z y /\ observe t z = Ok o).
  assert (St : forall y y1 t z, List.length y = n -> simulate (Problem rhs_at jac y fzero) b = Ok (y1, (t, z)) -> List.length y1 = n /\ forall o, observe t z = Ok o -> Rel y1 o).
  { intros y y1 t z Ly Hs. destruct (Hl _ _ _ _ _ _ Pb Hs) as (L1 & Nz & Cl). split; [congruence|]. intros o Ez. exists t, z. split; [destruct Cl; congruence|]. split; [exact Nz|]. split; [exact Cl | exact Ez]. }
  destruct (record_rows simulate rhs_at jac observe sim b zr zo (fun y => List.length y = n) Rel St _ _ y0 None _ _ _ L0 ltac:(intros ? X; discriminate X) H j row Hj Hrow)
    as [_ (o & Eo & t & z & Lz & Nz & Cl & Ez)].
  destruct (Ho t z o Lz Nz Ez) as (inp & Hi & Ds). destruct (describes_near d q nb y_core nper cd cm diss temp eps row z inp o P Cl Hi Ds) as (inp' & Hi' & Ds').
  exists inp', o. split; [exact Hi'|]. split; [exact Eo | exact Ds'].
Qed.
Lemma described_exactly ns nc nb inp soa size : soa = organic_mass ns nc nb inp -> List.length size = nb -> (forall b, b < nb -> is_radius ns nc inp b (nth b size 0%R)) -> describes ns nc nb inp 0 (soa, size).
Proof.
  intros -> L Hr. split; [cbn [fst]; rewrite Rminus_eq_0, Rabs_R0; lra|]. split; [exact L|]. intros b Hb. cbn [snd]. destruct (Hr b Hb) as [R1 R2]. split; [exact R1|].
  rewrite R2, Rminus_eq_0, Rabs_R0. lra.
Qed.

(* What a call of the fixed-yield right-hand side leaves behind. *)
Lemma call_attributes p g g' (d : prepared) q nb y_core nper cd cm diss temp bins y r inp soa aw size dy :
  partition_inputs d q y_core nper cd cm diss temp y = Some inp -> call_fsub p bins g g' (actuals inp (not_used d)) = Some [VS soa; VV aw; VV size; VV dy] ->
  yield_call_file p g g' d q nb y_core nper cd cm diss temp bins y = Some r -> a_soa (snd r) = soa /\ a_size (snd r) = size.
Proof.
  intros Hi P2 Hr. unfold yield_call_file in Hr. rewrite Hi in Hr. cbn [obind] in Hr. rewrite P2 in Hr. cbn [obind] in Hr.
  destruct (List.length dy =? d_ns d + d_nc d * nb); cbn [negb] in Hr; [|discriminate Hr].
  match type of Hr with obind ?a _ = _ => destruct a as [RH|]; cbn [obind] in Hr; [|discriminate Hr] end. injection Hr as <-. split; reflexivity.
Qed.
Section Yield.
Context (d : prepared) (temp : R) (q : pc2) (WP : well_prepared d) (Htemp : (0 < temp)%R) (Hq : Pure_component2 (d_nc d) (d_mw d) Rgas temp = Some q).
Context (k : nat) (Hns : d_ns d = k) (Hnc : d_nc d = k) (Hinc : d_include d = seq 0 k) (Lf : List.length (d_flag d) = k).
Context (nb : nat) (y_core nper : list R) (cd cm diss : R) (SD : seeds nb y_core nper cd cm diss).
Lemma yield_attributes g g' bins y r : Permutation bins (seq 0 nb) -> List.length y = k + k * nb -> nonneg y ->
  yield_call_file (partition_sub (d_ns d + d_nc d * nb) nb (d_ns d) (d_nc d) (d_include d)) g g' d q nb y_core nper cd cm diss temp bins y = Some r ->
  exists inp, partition_inputs d q y_core nper cd cm diss temp y = Some inp /\ describes (d_ns d) (d_nc d) nb inp 0 (a_soa (snd r), a_size (snd r)).
Proof.
  intros PB Ly Ny Hr. destruct (yield_physical d temp q WP Htemp Hq k Hns Hnc Hinc nb y_core nper cd cm diss SD y Ly Ny) as (inp & Hi & ph & _). exists inp. split; [exact Hi|].
  assert (Ui : List.length (u_ignore (not_used d)) = d_ns d) by (unfold not_used; cbn [u_ignore]; rewrite map_length; congruence).
  assert (Ul : List.length (u_latent (not_used d)) = d_nc d).
  { unfold not_used. cbn [u_latent]. rewrite app_length, repeat_length, <- (wp_nc _ WP). cbn [List.length]. assert (X := wp_water _ WP). lia. }
  assert (Hb : Forall (fun b => b < nb) bins) by (apply Forall_forall; intros b I; apply (Permutation_in _ PB), in_seq in I; lia).
  assert (ph' : physical (d_ns d) (d_nc d) nb inp) by (rewrite Hns, Hnc; exact ph).
  destruct (call_partition nb (d_ns d) (d_nc d) (d_include d) inp (not_used d) ph' Ui Ul (wp_range _ WP) ltac:(rewrite (wp_nc _ WP); apply le_n) bins g g' Hb) as (soa & aw & size & dy & P1 & P2).
  destruct (call_attributes _ g g' d q nb y_core nper cd cm diss temp bins y r inp soa aw size dy Hi P2 Hr) as [-> ->].
  destruct (C61_outputs (d_ns d) (d_nc d) nb (d_include d) inp bins soa aw size dy ph' PB P1) as (E & _ & _ & L & HB).
  apply described_exactly; [exact E | exact L | intros b Hb'; apply HB, Hb'].
Qed.
End Yield.

(* ------------------------------------------------------------------ *)
(* The fixed-yield driver: every row of SOA_matrix and size_matrix describes the
   same row of y_matrix, up to K times the distance between the state the
   integrator evaluates last in a batch and the state it returns. *)
Theorem C98_yield_partial : forall rd fl rows text cv ov cutoff temp RH diss core_density core_mw nb y_core nper ys d y0 q date,
  yield_file rows text -> (forall s n, first_number rows s = Some n -> fl n = Ok (cv s) /\ rd s = Ok (ov s)) ->
  (forall s, In s (first_seen (map fst rows)) -> c_C (ov s) <> 0 /\ sensible (ov s)) ->
  RH <> 1%R -> (0 < temp)%R -> seeds nb y_core nper core_density core_mw diss ->
  yield_setup rd fl text cutoff temp RH nb y_core diss = Ok (ys, d, y0) -> Pure_component2 (d_nc d) (d_mw d) Rgas temp = Some q ->
  let k := List.length (first_seen (map fst rows)) + 1 in
  one_line date -> (k + k * nb) + nb + k + k + 1 < 10 ^ 20 ->
  exists p K, read_fsub (partition_file date d nb) = Some p /\ (0 <= K)%R /\
  forall calls eps simulate jac sim b ts ys' os, (0 <= eps)%R -> (0 <= B2R b)%R -> (forall t y, Permutation (yc_bins (calls t y)) (seq 0 nb)) ->
    last_within eps (yfile_func p d q nb y_core nper core_density core_mw diss temp calls) simulate ->
    yield_simulation_file p d q nb y_core nper core_density core_mw diss temp simulate jac calls y0 sim b = Ok (ts, ys', os) ->
    forall j row, j < List.length ts -> nth_error ys' j = Some row ->
      exists inp o, partition_inputs d q y_core nper core_density core_mw diss temp row = Some inp /\ nth_error os j = Some o /\ describes k k nb inp (K * eps) o.
Proof.
  intros rd fl rows text cv ov cutoff temp RH diss cd cm nb y_core nper ys d y0 q date Hf Hv HC HR Htemp SD Hsetup Hq k Hd Hbig.
  destruct (yield_prepared rd fl rows text cv ov cutoff temp RH diss nb y_core nper Hf Hv HC HR _ _ ys d y0 SD Hsetup) as [WP L0].
  destruct (sd_core _ _ _ _ _ _ SD) as [S1 _], (sd_nper _ _ _ _ _ _ SD) as [S3 _].
  destruct (PropsYield.setup_facts rd fl rows text cv ov cutoff temp RH diss nb y_core nper Hf Hv HC HR S1 S3 ys d y0 Hsetup) as (Hns & Hnc & Hinc & _). fold k in Hns, Hnc, Hinc.
  assert (Lfl := flag_length rd fl rows text cv ov cutoff temp RH diss nb y_core ys d y0 Hf Hv (fun s Hs => proj1 (HC s Hs)) Hsetup). fold k in Lfl.
  rewrite Hns, Hnc in L0.
  exists (partition_sub (d_ns d + d_nc d * nb) nb (d_ns d) (d_nc d) (d_include d)), (record_factor d nb). split.
  { apply (file_read date d nb WP Hd). rewrite Hns, Hnc. exact Hbig. }
  clear Hbig. split; [apply record_factor_nonneg|].
  assert (Hp := yield_attributes d temp q WP Htemp Hq k Hns Hnc Hinc Lfl nb y_core nper cd cm diss SD). set (p := partition_sub _ _ _ _ _) in *. clearbody p.
  intros calls eps simulate jac sim b ts ys' os P Pb PB Hl Hrun j row Hj Hrow. unfold yield_simulation_file in Hrun.
  assert (Ob : forall t z o, List.length z = k + k * nb -> nonneg z -> yfile_observe p d q nb y_core nper cd cm diss temp calls t z = Ok o ->
    exists inp, partition_inputs d q y_core nper cd cm diss temp z = Some inp /\ describes (d_ns d) (d_nc d) nb inp 0 o).
  { intros t z o Lz Nz Ho. unfold yfile_observe, yfile_call in Ho.
    destruct (yield_call_file p (yc_before (calls t z)) (yc_private (calls t z)) d q nb y_core nper cd cm diss temp (yc_bins (calls t z)) z) as [r|] eqn:Er; [|discriminate Ho].
    injection Ho as <-. exact (Hp _ _ _ z r (PB t z) Lz Nz Er). }
  destruct (rows_described d q nb y_core nper cd cm diss temp eps (k + k * nb) simulate _ jac _ sim b _ _ y0 ts ys' os P Pb L0 Hl Ob Hrun j row Hj Hrow) as (inp & o & Q1 & Q2 & Q3).
  exists inp, o. rewrite Hns, Hnc in Q3. split; [exact Q1|]. split; [exact Q2 | exact Q3].
Qed.

(* ------------------------------------------------------------------ *)
(* The same for the aerosol driver with the four generated files. *)
Theorem C98_aerosol_partial : forall m text e num date, written m text -> one_line date ->
  Forall unit_coefficients m -> Forall (fun r => NoDup (names (rhs r)) /\ ~ In (last_reactant r) (names (rhs r))) m ->
  Forall distinct_reactants m -> peroxy_clean (first_seen (reading_order m)) -> Forall (fun r => mcm_text (rtext r)) m ->
  exists st, extract_mechanism text = Ok (Z.of_nat (List.length m), st) /\
  forall o1 o2 o3, exists p1 t1,
    gen_reactants_fortran o1 (List.length m) (p_sp2a st) (p_reac st) (p_loss st) = Ok p1 /\
    write_reactants_fortran num date o1 (List.length m) (p_sp2a st) (p_reac st) (p_loss st) = Ok t1 /\
    let t2 := write_loss_gain_fortran num date o2 (List.length m) (species_count st) (p_sp2a st) (p_loss st) (p_gain st) in
  forall smiles objects cutoff temp nb y_core nper core_density core_mw diss d q,
    aerosol_setup st (List.length (first_seen (reading_order m))) smiles objects cutoff temp nb y_core nper core_density core_mw diss d q ->
    nb <> 0 -> (d_ns d + d_nc d * nb) + nb + d_ns d + d_nc d + 1 < 10 ^ 20 ->
    prints num p1 -> prints num (gen_loss_gain_fortran o2 (p_sp2a st) (p_loss st) (p_gain st)) ->
    fine t1 -> fine t2 -> fine (rate_file_fortran o3 st) ->
  exists rs s1 s2 p K, read_rates_fortran (rate_file_fortran o3 st) = Some rs /\
    read_fortran one_subscript t1 = Some s1 /\ read_fortran one_subscript t2 = Some s2 /\
    read_fsub (partition_file date d nb) = Some p /\ (0 <= K)%R /\
  forall rnd H2O start calls, is_rounding rnd -> (0 <= H2O)%R -> tame_rates m e H2O temp ->
    (forall t y, let c := calls t y in runs_as o3 (fr_rates rs) (fc_rates c) /\ runs_as o1 (f_prog s1) (fc_reactants c) /\
       runs_as o2 (f_prog s2) (fc_loss_gain c) /\ Permutation (fc_bins c) (seq 0 nb)) ->
    let idx := write_RO2_indices (p_sp2a st) in
  forall eps simulate jac conc y_cond sim b ts ys os, (0 <= eps)%R -> (0 <= B2R b)%R -> List.length y_cond = d_nc d * nb ->
    last_within eps (files_func rnd rs (List.length m) idx p H2O temp d q nb y_core nper core_density core_mw diss calls start) simulate ->
    aerosol_simulation_files rnd rs (List.length m) idx p H2O temp d q nb y_core nper core_density core_mw diss simulate jac calls start (d_sp2a d) conc y_cond sim b = Ok (ts, ys, os) ->
    forall j row, j < List.length ts -> nth_error ys j = Some row ->
      exists inp o, partition_inputs d q y_core nper core_density core_mw diss temp row = Some inp /\ nth_error os j = Some o /\
        describes (d_ns d) (d_nc d) nb inp (K * eps) o.
Proof.
  intros m text e num date W Hdate Hu Hpr Hdr PC HM.
  destruct (C90_partial m text num date W Hdate Hu Hpr Hdr PC HM) as (st & Hst & H90). cbv zeta in H90. exists st. split; [exact Hst|]. intros o1 o2 o3.
  destruct (H90 o1 o2 o3) as (p1 & t1 & G1 & T1 & H). clear H90. exists p1, t1. split; [exact G1|]. split; [exact T1|]. intros t2.
  intros smiles objects cutoff temp nb y_core nper cd cm diss d q AS Hnb Small Pr1 Pr2 F1 F2 F3.
  destruct (H smiles objects cutoff temp nb y_core nper cd cm diss d q AS Hnb Small Pr1 Pr2 F1 F2 F3) as (rs & s1 & s2 & p & R1 & R2 & R3 & R4 & _ & HC). clear H Small.
  exists rs, s1, s2, p, (record_factor d nb). split; [exact R1|]. split; [exact R2|]. split; [exact R3|]. split; [exact R4|]. split; [apply record_factor_nonneg|].
  intros rnd H2O start calls Hrnd HH Ht Hcl idx eps simulate jac conc y_cond sim b ts ys os P Pb Lc Hl Hrun j row Hj Hrow.
  unfold aerosol_simulation_files in Hrun. apply bind_Ok in Hrun as (y0 & I0 & Hrun). destruct (aerosol_start _ _ _ _ _ _ _ I0 Lc) as [L0 _].
  destruct (C82_regular m e H2O temp Ht) as (k & _ & Hk).
  assert (Ob : forall t z o, List.length z = d_ns d + d_nc d * nb -> nonneg z -> files_observe rnd rs (List.length m) idx p H2O temp d q nb y_core nper cd cm diss calls start t z = Ok o ->
    exists inp, partition_inputs d q y_core nper cd cm diss temp z = Some inp /\ describes (d_ns d) (d_nc d) nb inp 0 o).
  { intros t z o Lz Nz Ho. unfold files_observe, files_call in Ho. destruct (Hcl t z) as (K3 & K1 & K2 & KB).
    destruct (HC _ _ _ _ K3 K1 K2 KB rnd (fc_a0 (calls t z)) (fc_m0 (calls t z)) (fc_before (calls t z)) (fc_private (calls t z)) e (B2R (fadd start t)) 0%R H2O z _ Hrnd HH Lz Nz (Hk _ _))
      as (dy & out & inp & Q1 & _ & Q3 & _ & _ & _ & Q4 & _ & Q5 & Q6 & _).
    fold idx in Q1. rewrite Q1 in Ho. cbn [snd] in Ho. injection Ho as <-. exists inp. split; [exact Q3|].
    apply described_exactly; [exact Q6 | exact Q4 | intros b' Hb'; apply Q5, Hb']. }
  exact (rows_described d q nb y_core nper cd cm diss temp eps (d_ns d + d_nc d * nb) simulate _ jac _ sim b _ _ y0 ts ys os P Pb L0 Hl Ob Hrun j row Hj Hrow).
Qed.

(* The run of C97_hypotheses with an integrator that evaluates the function only at
   the start of a batch and adds five molecules to every slot. *)
Example C98_yield_hypotheses : forall before private, exists ys d y0 q p simulate ts row o,
  let c := YCall before private [0] in
  yield_file c46_rows c46_text /\
  (forall s, In s (first_seen (map fst c46_rows)) -> c_C (ex_chem s) <> 0 /\ sensible (ex_chem s)) /\ seeds 1 [1e9]%R [50]%R 1770 132.14 3 /\
  yield_setup (fun s => Ok (ex_chem s)) ex_float c46_text (-6) 298.15 0.5 1 [1e9]%R 3 = Ok (ys, d, y0) /\
  Pure_component2 (d_nc d) (d_mw d) Rgas 298.15 = Some q /\ read_fsub (partition_file date0 d 1) = Some p /\
  last_within 5 (yfile_func p d q 1 [1e9]%R [50]%R 1770 132.14 3 298.15 (fun _ _ => c)) simulate /\
  yield_simulation_file p d q 1 [1e9]%R [50]%R 1770 132.14 3 298.15 simulate (fun _ _ => Err ValueError) (fun _ _ => c) y0 f3600 f3600 = Ok (ts, [row], [o]) /\
  List.length ts = 1 /\ row <> y0.
Proof.
  intros before private. destruct (C97_hypotheses before private) as (ys & d & y0 & q & p & _ & _ & _ & o & Hf & L3 & HV & HC & SD & Hsetup & Hq & _ & _ & Rd & _ & _ & _ & _ & Ho & _). cbv zeta in Ho.
  assert (HC' : forall s, In s (first_seen (map fst c46_rows)) -> c_C (ex_chem s) <> 0 /\ sensible (ex_chem s)) by (intros s I; destruct (HC s I) as (A & B & _); split; assumption).
  assert (N0 := yield_start (fun s => Ok (ex_chem s)) ex_float c46_rows c46_text ex_yield ex_chem (-6) 298.15 0.5 3 1770 132.14 1 [1e9]%R [50]%R ys d y0 Hf HV HC ltac:(lra) ltac:(lra) SD Hsetup).
  destruct (yield_prepared (fun s => Ok (ex_chem s)) ex_float c46_rows c46_text ex_yield ex_chem (-6) 298.15 0.5 3 1 [1e9]%R [50]%R Hf HV HC' ltac:(lra) _ _ ys d y0 SD Hsetup) as [WP L0].
  set (simulate := fun (pb : problem (list R)) (tf : b64) => if list_eq_dec Req_EM_T (pb_y0 pb) y0 then Ok (map (fun c => c + 5)%R y0, (f3600, y0)) else Err ValueError).
  exists ys, d, y0, q, p, simulate. eexists _, (map (fun c => c + 5)%R y0), o. cbv zeta.
  split; [exact Hf|]. split; [exact HC'|]. split; [exact SD|]. split; [exact Hsetup|]. split; [exact Hq|]. split; [exact Rd|]. split; [|split; [|split]].
  - intros jac z tf y1 t z' _ H. unfold simulate in H. cbn [pb_y0] in H. destruct (list_eq_dec Req_EM_T z y0) as [->|]; [|discriminate]. injection H as <- <- <-.
    split; [apply map_length|]. split; [exact N0|]. split; [symmetry; apply map_length|]. intros i Hi. rewrite (nth_indep (map _ _) 0%R (0 + 5)%R) by (rewrite map_length; exact Hi).
    rewrite (map_nth (fun c => c + 5)%R). replace (nth i y0 0 - (nth i y0 0 + 5))%R with (- (5))%R by ring. rewrite Rabs_Ropp, Rabs_pos_eq; lra.
  - assert (B := f3600_num). destruct (quotient_exact f3600 f3600 3600 1 0 B B ltac:(lia) ltac:(lia)) as [E1 E2].
    unfold yield_simulation_file, record_run. rewrite E1. cbn [bind]. rewrite E2. cbn [bind]. change (Z.of_nat 1 <? 0)%Z with false. cbv iota. change (Z.to_nat (Z.of_nat 1)) with 1. cbn [record_loop].
    rewrite (bltb_num fzero f3600 0 3600 0 (fzero_num 0) B). change (0 <? 3600)%Z with true. cbv iota.
    rewrite (beqb_num fzero 0 0 (fzero_num 0)). change (0 =? 0)%Z with true. cbv iota. cbn [bind].
    unfold simulate at 1. cbn [pb_y0]. destruct (list_eq_dec Req_EM_T y0 y0) as [_|F]; [|congruence]. cbn [bind]. rewrite Ho. cbn [bind].
    assert (FA := fadd_exact fzero f3600 0 3600 0 (fzero_num 0) B ltac:(cbn; lia) ltac:(lia) ltac:(cbn [bpow]; rewrite Rmult_1_r; apply small_int_bound; cbn; lia)).
    assert (E3 : Bltb (fadd fzero f3600) f3600 = false) by (rewrite (bltb_num _ _ _ _ _ FA B); reflexivity).
    rewrite E3. cbn [bind fst snd repeat]. reflexivity.
  - reflexivity.
  - intros E. assert (W0 := wp_water _ WP). destruct y0 as [|a l]; [cbn [List.length] in L0; lia|]. cbn [map] in E. injection E as E _. lra.
Qed.

(* The run of C94_hypotheses: the integrator evaluates the function at the state it
   returns. *)
Example C98_aerosol_hypotheses : forall before private, exists st d q rs s1 s2 p w c0 y_cond ts row o,
  let fc := FCall (fr_rates rs) (f_prog s1) (f_prog s2) zeros zeros before private [0] in
  let idx := write_RO2_indices (p_sp2a st) in
  extract_mechanism (ParseShow.show self_words) = Ok (1%Z, st) /\ aerosol_setup st 2 [] [] (-6) 298.15 1 [1e9]%R [50]%R 1770 132.14 3 d q /\
  last_within 0 (files_func (fun x => x) rs 1 idx p 1e17 298.15 d q 1 [1e9]%R [50]%R 1770 132.14 3 (fun _ _ => fc) f43200) (self_integrator w c0) /\
  List.length y_cond = d_nc d * 1 /\
  aerosol_simulation_files (fun x => x) rs 1 idx p 1e17 298.15 d q 1 [1e9]%R [50]%R 1770 132.14 3 (self_integrator w c0) (fun _ _ => Err ValueError)
    (fun _ _ => fc) f43200 (d_sp2a d) [(s_ "CH3O2", 20%R); (s_ "H2O", w)] y_cond f3600 f3600 = Ok (ts, [row], [o]).
Proof.
  intros before private. destruct (C94_hypotheses before private) as (st & p1 & t1 & d & q & rs & s1 & s2 & p & w & c0 & y_cond & y0 & ts & row & o & H). cbv zeta in H.
  destruct H as (_ & _ & Hst & AS & _ & _ & _ & _ & _ & _ & _ & _ & _ & _ & _ & _ & _ & _ & I0 & Lc & F0 & Hrun & _).
  exists st, d, q, rs, s1, s2, p, w, c0, y_cond, ts, row, o. cbv zeta. split; [exact Hst|]. split; [exact AS|]. split; [|split; [exact Lc | exact Hrun]].
  assert (Pw : (0 <= w)%R /\ (0 <= c0)%R).
  { unfold aerosol_simulation_files in Hrun. rewrite I0 in Hrun. cbn [bind] in Hrun. unfold record_run in Hrun. apply bind_Ok in Hrun as (x & _ & Hrun). apply bind_Ok in Hrun as (nz & _ & Hrun).
    destruct (nz <? 0)%Z; [discriminate|]. destruct (Z.to_nat nz) as [|rows]; cbn [record_loop] in Hrun; rewrite (bltb_num fzero f3600 0 3600 0 (fzero_num 0) f3600_num) in Hrun; change (0 <? 3600)%Z with true in Hrun; cbv iota in Hrun;
      rewrite (beqb_num fzero 0 0 (fzero_num 0)) in Hrun; change (0 =? 0)%Z with true in Hrun; cbv iota in Hrun; cbn [bind] in Hrun;
      apply bind_Ok in Hrun as ([y1 l] & Hs & _); apply self_integrator_cases in Hs as (a & b & _ & _ & -> & _);
      unfold with_water in F0; cbn [app] in F0; apply Forall_inv_tail, Forall_inv_tail in F0; assert (X := Forall_inv F0); assert (Y := Forall_inv (Forall_inv_tail F0)); cbv beta in X, Y; lra. }
  intros jac y tf y1 t z Pt H. unfold self_integrator in H. cbn [pb_y0] in H. destruct y as [|a [|b [|w' [|c' [|]]]]]; try discriminate.
  destruct (Rle_dec 0 a) as [Pa|]; [|discriminate]. destruct (Rle_dec 0 b) as [Pb|]; [|discriminate]. destruct (Req_EM_T w' w) as [->|]; [|discriminate]. destruct (Req_EM_T c' c0) as [->|]; [|discriminate].
  cbv zeta in H. assert (E1 : y1 = with_water w c0 (self_solution a b (B2R tf))) by congruence. assert (E2 : z = y1) by congruence. subst z. rewrite E1. split; [reflexivity|]. split.
  - apply Forall_app. split; [apply self_nonneg; assumption|]. repeat (apply Forall_cons; [apply Pw|]). apply Forall_nil.
  - split; [reflexivity|]. intros i _. rewrite Rminus_eq_0, Rabs_R0. lra.
Qed.

Print Assumptions C98_yield_partial. Print Assumptions C98_aerosol_partial.
