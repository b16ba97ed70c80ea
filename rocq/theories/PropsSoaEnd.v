(* C99: the stored SOA mass and sizes next to the exact solution. *)
From Coq Require Import String List Bool Arith Lia ZArith QArith Reals Qreals Lra Permutation Sorted.
From Flocq Require Import Core BinarySingleNaN.
From Verif Require Import Base PyStr PyDict SpecRateText RateNames RateParse ModelSource ModelWrite SpecSource SourceRead SourceRun PropsSource PropsSourceRun SourceWidth PropsWidth
  ModelRateText ModelRateWrite ModelRateRead RateFileN RateFileF RateFileUse ModelGasFiles PropsRateText
  ModelPartText ModelFort PartRead PartProg PartRun PartCall PropsPartText PropsAeroBatch ModelAeroFiles PropsAeroFiles.
From Verif Require Import SpecRate ModelParse SpecMech ParseStruct ParseTables ParseWritten ParseShow PropsParse
  ModelLang ModelGen ModelRhs SpecKin LangFacts GenReact GenLossGain GenParsed GenSparse PropsKin PropsRhs
  ModelOmp ModelExpr ModelRate ModelRateFile RateExpr PropsRate ModelRateBody ModelRateRun RateSym
  SpecRateValue SpecMcmEnv PropsRateValue ModelRo2 SpecRo2 PropsRo2 ModelGas SpecGas PropsGas PropsGasJac
  ModelSolver SpecSolver SolverFacts OdeFacts PropsSolver ModelSplit PropsSplit SpecMethod PropsMethod SpecTraj OdeSign PropsTraj
  OdeNear ModelPart SpecPart PartFacts PartValue PropsPart PartBounds ModelAero SpecAero PropsAero PropsAeroRun PropsAeroChem AeroPull GasFortran
  AeroFacts ModelSpecies SpecSpecies PropsSpecies ModelYield PropsYield ModelAeroRun SpecAeroRun PropsAeroTraj PropsYieldTraj
  OdeClose GasFlow SpecSun SpecTroe SpecTame TameFacts PropsTame PropsUnique OdePicard OdeExist SunPieces TameFlow PropsExist OdeBox PartLip AeroExist PropsAeroExist
  SpecError PropsError SpecChem PropsChem SpecAeroChem PropsAeroEnd SpecYieldChem ModelYieldFiles PropsYieldEnd SpecRecord PropsRecord.
Import ListNotations.
Import Coq.Lists.List.
Open Scope nat_scope.
Open Scope list_scope.
Local Arguments eqb : simpl never.

Section Inputs.
Context (d : prepared) (q : pc2) (nb : nat) (y_core nper : list R) (cd cm diss temp : R).
(* A description of the state z is one of a state y close to it, with a larger error. *)
Lemma describes_shift err eps y z inp o : (0 <= eps)%R -> close eps z y -> partition_inputs d q y_core nper cd cm diss temp z = Some inp ->
  describes (d_ns d) (d_nc d) nb inp err o -> exists inp', partition_inputs d q y_core nper cd cm diss temp y = Some inp' /\ describes (d_ns d) (d_nc d) nb inp' (err + record_factor d nb * eps) o.
Proof.
  intros P Cl Hz (Dm & Dl & Dr). destruct (inputs_exist d q y_core nper cd cm diss temp y z inp Hz (eq_sym (proj1 Cl))) as [inp' Hy]. exists inp'. split; [exact Hy|].
  destruct (inputs_fields d q y_core nper cd cm diss temp _ _ Hz) as (Z1 & Z2 & Z3 & Z4 & Z5 & Z6 & Z7). destruct (inputs_fields d q y_core nper cd cm diss temp _ _ Hy) as (Y1 & Y2 & Y3 & Y4 & Y5 & Y6 & Y7).
  rewrite <- Z1, <- Y1 in Cl.
  assert (M := mass_near (d_ns d) (d_nc d) nb inp inp' eps P Cl ltac:(congruence) ltac:(congruence)).
  assert (V := volume_near (d_ns d) (d_nc d) inp inp' eps P Cl ltac:(congruence) ltac:(congruence) ltac:(congruence) ltac:(congruence) ltac:(congruence)).
  unfold mass_factor in M. unfold volume_factor in V. rewrite Z2, Z3 in M. rewrite Z2, Z3, Z4 in V.
  assert (X := rsum_abs (fun j => / avogadro * nth j (d_mw d) 0 * / nth j (d_density d) 0)%R (seq 0 (d_nc d))).
  assert (Y : (0 <= rsum (map (fun _ : nat => rsum (map (fun j => Rabs (/ avogadro * nth j (d_mw d) 0))%R (seq 0 (d_nc d - 1)))) (seq 0 nb)))%R).
  { apply rsum_nonneg. intros x Hx. apply in_map_iff in Hx as (a & <- & _). apply rsum_abs. }
  unfold record_factor. match type of Y with (0 <= ?t)%R => set (A := t) in * end. match type of X with (0 <= ?t)%R => set (B := t) in * end.
  assert (XE := Rmult_le_pos _ _ X P). assert (YE := Rmult_le_pos _ _ Y P).
  split; [|split; [exact Dl|]].
  - apply Rabs_le_inv in Dm, M. apply Rabs_le. lra.
  - intros b Hb r. destruct (Dr b Hb) as [R1 R2]. split; [exact R1|]. fold r in R2. assert (Vb := V b). rewrite Y5. rewrite Z5 in R2. apply Rabs_le_inv in R2, Vb. apply Rabs_le. lra.
Qed.
End Inputs.

Lemma loop_lengths {S O} (simulate : recording_solver S) rhs jac (observe : b64 -> S -> res O) sim b zr zo : forall rows total y out ts ys os,
  record_loop simulate rhs jac observe sim b zr zo rows total y out = Ok (ts, ys, os) -> List.length ts <= List.length ys.
Proof.
  induction rows as [|rows IH]; intros total y out ts ys os H; cbn [record_loop] in H; destruct (Bltb total sim).
  - apply bind_Ok in H as (y0 & _ & H). apply bind_Ok in H as ([y1 [t z]] & _ & H). apply bind_Ok in H as (o1 & _ & H). discriminate.
  - injection H as <- _ _. cbn [List.length]. lia.
  - apply bind_Ok in H as (y0 & _ & H). apply bind_Ok in H as ([y1 [t z]] & _ & H). apply bind_Ok in H as (o1 & _ & H). apply bind_Ok in H as ([[ts' ys'] os'] & H3 & H).
    injection H as <- <- _. cbn [fst snd List.length]. assert (X := IH _ _ _ _ _ _ H3). lia.
  - injection H as <- _ _. cbn [List.length]. lia.
Qed.
Lemma run_lengths {S O} (simulate : recording_solver S) rhs jac (observe : b64 -> S -> res O) sim b zr zo y0 ts ys os :
  record_run simulate rhs jac observe sim b zr zo y0 = Ok (ts, ys, os) -> List.length ts <= List.length ys.
Proof.
  intros H. unfold record_run in H. apply bind_Ok in H as (x & _ & H). apply bind_Ok in H as (nz & _ & H). destruct (nz <? 0)%Z; [discriminate|]. exact (loop_lengths _ _ _ _ _ _ _ _ _ _ _ _ _ _ _ H).
Qed.
Lemma close_sym delta y z : close delta y z -> close delta z y.
Proof. intros [L C]. split; [congruence|]. intros i Hi. rewrite Rabs_minus_sym. apply C. lia. Qed.

(* ------------------------------------------------------------------ *)
(* The SOA mass and the sizes that a run of the fixed-yield driver stores are
   close to those of the exact states: K times the distance eps between the last
   evaluation of a batch and its answer, plus C times the error delta of the
   integrator. *)
Theorem C99_yield_partial : forall rd fl rows text cv ov cutoff temp RH diss core_density core_mw nb y_core nper ys d y0 q date,
  yield_file rows text -> (forall s n, first_number rows s = Some n -> fl n = Ok (cv s) /\ rd s = Ok (ov s)) ->
  (forall s, In s (first_seen (map fst rows)) -> c_C (ov s) <> 0 /\ sensible (ov s) /\ (0 <= cv s)%R) ->
  (0 <= RH < 1)%R -> (0 < temp)%R -> seeds nb y_core nper core_density core_mw diss ->
  yield_setup rd fl text cutoff temp RH nb y_core diss = Ok (ys, d, y0) -> Pure_component2 (d_nc d) (d_mw d) Rgas temp = Some q ->
  (* products and water *)
  let k := List.length (first_seen (map fst rows)) + 1 in
  one_line date -> (k + k * nb) + nb + k + k + 1 < 10 ^ 20 ->
  (* the file is read *)
  exists p K, read_fsub (partition_file date d nb) = Some p /\ (0 <= K)%R /\
  forall b N D, (0 < B2R b)%R -> (0 <= D)%R ->
    let step := yield_batch k d q nb y_core nper core_density core_mw diss temp (B2R b) in
    exists C, (0 <= C)%R /\ forall (rcalls : R -> list R -> ycall),
      (* what the threads and the memory do may differ from call to call *)
      (forall t y, Permutation (yc_bins (rcalls t y)) (seq 0 nb)) ->
      let equations := fun t y => option_map fst (yfile_call p d q nb y_core nper core_density core_mw diss temp (rcalls t y) y) in
      forall delta eps calls simulate jac sim ts ys' os, (0 <= delta <= D)%R -> (0 <= eps)%R -> (forall t y, Permutation (yc_bins (calls t y)) (seq 0 nb)) ->
      off_by_physical delta equations (yfile_func p d q nb y_core nper core_density core_mw diss temp calls) simulate ->
      last_within eps (yfile_func p d q nb y_core nper core_density core_mw diss temp calls) simulate ->
      yield_simulation_file p d q nb y_core nper core_density core_mw diss temp simulate jac calls y0 sim b = Ok (ts, ys', os) ->
      List.length ts <= N ->
      exists rws, List.length rws = List.length ts /\ chained step y0 rws /\
        (forall rws', List.length rws' = List.length ts -> chained step y0 rws' -> rws' = rws) /\
        forall j, j < List.length ts -> exists inp o, partition_inputs d q y_core nper core_density core_mw diss temp (nth j rws []) = Some inp /\
          nth_error os j = Some o /\ describes k k nb inp (K * eps + C * delta) o.
Proof.
  intros rd fl rows text cv ov cutoff temp RH diss cd cm nb y_core nper ys d y0 q date Hf Hv HC HR Htemp SD Hsetup Hq k Hd Hbig.
  assert (HC' : forall s, In s (first_seen (map fst rows)) -> c_C (ov s) <> 0 /\ sensible (ov s)) by (intros s Hs; destruct (HC s Hs) as (? & ? & _); auto).
  destruct (C98_yield_partial rd fl rows text cv ov cutoff temp RH diss cd cm nb y_core nper ys d y0 q date Hf Hv HC' ltac:(clear - HR; lra) Htemp SD Hsetup Hq Hd Hbig) as (p & K & Rp & PK & H98).
  destruct (C97_partial rd fl rows text cv ov cutoff temp RH diss cd cm nb y_core nper ys d y0 q date Hf Hv HC HR Htemp SD Hsetup Hq Hd Hbig) as (p' & Rp' & H97). clear Hbig.
  rewrite Rp in Rp'. injection Rp' as <-. exists p, K. split; [exact Rp|]. split; [exact PK|]. intros b N D Pb PD step.
  destruct (sd_core _ _ _ _ _ _ SD) as [S1 _], (sd_nper _ _ _ _ _ _ SD) as [S3 _].
  destruct (PropsYield.setup_facts rd fl rows text cv ov cutoff temp RH diss nb y_core nper Hf Hv HC' ltac:(lra) S1 S3 ys d y0 Hsetup) as (Hns & Hnc & _ & _). fold k in Hns, Hnc.
  destruct (H97 b N D Pb PD) as (C & PC & HX). clear H97. assert (PF := record_factor_nonneg d nb). exists (record_factor d nb * C)%R. split; [apply Rmult_le_pos; assumption|].
  intros rcalls Hcalls equations delta eps calls simulate jac sim ts ys' os Hdl Pe PB HE Hl Hrun LN.
  destruct (proj2 (HX rcalls Hcalls) delta calls simulate jac sim ts ys' os Hdl HE Hrun LN) as (rws & Lr & Ch & Un & Cl). exists rws. split; [exact Lr|]. split; [exact Ch|]. split; [exact Un|].
  intros j Hj. assert (Ly : j < List.length ys') by (apply (Nat.lt_le_trans _ _ _ Hj); exact (run_lengths _ _ _ _ _ _ _ _ _ _ _ _ Hrun)).
  destruct (H98 calls eps simulate jac sim b ts ys' os Pe (Rlt_le _ _ Pb) PB Hl Hrun j _ Hj (nth_error_nth' _ [] Ly)) as (inp & o & I1 & I2 & I3).
  assert (I4 : describes (d_ns d) (d_nc d) nb inp (K * eps) o) by (rewrite Hns, Hnc; exact I3).
  destruct (describes_shift d q nb y_core nper cd cm diss temp (K * eps)%R (C * delta)%R (nth j rws []) (nth j ys' []) inp o (Rmult_le_pos _ _ PC (proj1 Hdl)) (close_sym _ _ _ (Cl j Hj)) I1 I4) as (inp' & J1 & J2).
  exists inp', o. split; [exact J1|]. split; [exact I2|]. rewrite Hns, Hnc in J2. rewrite Rmult_assoc. exact J2.
Qed.

(* The same for the aerosol driver. *)
Theorem C99_aerosol_partial : forall m text e w num date, written m text -> one_line date ->
  Forall unit_coefficients m -> Forall (fun r => NoDup (names (rhs r)) /\ ~ In (last_reactant r) (names (rhs r))) m ->
  Forall distinct_reactants m -> peroxy_clean (first_seen (reading_order m)) -> Forall (fun r => mcm_text (rtext r)) m ->
  Forall (fun r => weight w (rhs r) <= weight w (lhs r))%R m -> w light = 0%R -> (forall b, In b bath -> w b = 0%R) ->
  (forall s, In s (first_seen (reading_order m)) -> ~ In s bath -> (0 < w s)%R) ->
  exists st, extract_mechanism text = Ok (Z.of_nat (List.length m), st) /\
  forall o1 o2 o3, exists p1 t1,
    gen_reactants_fortran o1 (List.length m) (p_sp2a st) (p_reac st) (p_loss st) = Ok p1 /\
    write_reactants_fortran num date o1 (List.length m) (p_sp2a st) (p_reac st) (p_loss st) = Ok t1 /\
    let t2 := write_loss_gain_fortran num date o2 (List.length m) (species_count st) (p_sp2a st) (p_loss st) (p_gain st) in
  forall smiles objects cutoff temp nb y_core nper core_density core_mw diss d q,
    aerosol_setup st (List.length (first_seen (reading_order m))) smiles objects cutoff temp nb y_core nper core_density core_mw diss d q ->
    nb <> 0 -> (d_ns d + d_nc d * nb) + nb + d_ns d + d_nc d + 1 < 10 ^ 20 ->
    prints num p1 -> prints num (gen_loss_gain_fortran o2 (p_sp2a st) (p_loss st) (p_gain st)) ->
    fine t1 -> fine t2 -> fine (rate_file_fortran o3 st) ->
  (* the four files are read *)
  exists rs s1 s2 p K, read_rates_fortran (rate_file_fortran o3 st) = Some rs /\
    read_fortran one_subscript t1 = Some s1 /\ read_fortran one_subscript t2 = Some s2 /\
    read_fsub (partition_file date d nb) = Some p /\ (0 <= K)%R /\
  forall rnd H2O start b N A D, is_rounding rnd -> (0 <= H2O)%R -> (0 < B2R b)%R -> (0 <= A)%R -> (0 <= D)%R -> tame_rates m e H2O temp ->
    let idx := write_RO2_indices (p_sp2a st) in
    let step := aerosol_batch m e d q nb y_core nper core_density core_mw diss H2O temp (B2R start) (B2R b) in
    exists C, (0 <= C)%R /\ forall (rcalls : R -> list R -> fcall),
      (* a call runs the statements of the files; what the threads and the memory do may differ from call to call *)
      (forall t y, let c := rcalls t y in runs_as o3 (fr_rates rs) (fc_rates c) /\ runs_as o1 (f_prog s1) (fc_reactants c) /\
         runs_as o2 (f_prog s2) (fc_loss_gain c) /\ Permutation (fc_bins c) (seq 0 nb)) ->
      let equations := fun t y => option_map fst (files_call rnd rs (List.length m) idx p H2O temp d q nb y_core nper core_density core_mw diss (rcalls t y) (B2R start + t) y) in
      forall delta eps calls simulate jac conc y_cond sim ts ys os y0, (0 <= delta <= D)%R -> (0 <= eps)%R ->
      (forall t y, let c := calls t y in runs_as o3 (fr_rates rs) (fc_rates c) /\ runs_as o1 (f_prog s1) (fc_reactants c) /\
         runs_as o2 (f_prog s2) (fc_loss_gain c) /\ Permutation (fc_bins c) (seq 0 nb)) ->
      off_by_physical delta equations (files_func rnd rs (List.length m) idx p H2O temp d q nb y_core nper core_density core_mw diss calls start) simulate ->
      last_within eps (files_func rnd rs (List.length m) idx p H2O temp d q nb y_core nper core_density core_mw diss calls start) simulate ->
      aerosol_initial (d_ns d) (d_nc d) nb (d_sp2a d) conc y_cond = Ok y0 -> List.length y_cond = d_nc d * nb -> Forall (fun c => 0 <= c <= A)%R y0 ->
      aerosol_simulation_files rnd rs (List.length m) idx p H2O temp d q nb y_core nper core_density core_mw diss simulate jac calls start (d_sp2a d) conc y_cond sim b = Ok (ts, ys, os) ->
      List.length ts <= N ->
      exists rows, List.length rows = List.length ts /\ chained step y0 rows /\
        (forall rows', List.length rows' = List.length ts -> chained step y0 rows' -> rows' = rows) /\
        forall j, j < List.length ts -> exists inp o, partition_inputs d q y_core nper core_density core_mw diss temp (nth j rows []) = Some inp /\
          nth_error os j = Some o /\ describes (d_ns d) (d_nc d) nb inp (K * eps + C * delta) o.
Proof.
  intros m text e w num date W Hdate Hu Hpr Hdr PC HM Hwt Hl Hb Pp.
  destruct (C98_aerosol_partial m text e num date W Hdate Hu Hpr Hdr PC HM) as (st & Hst & H98). cbv zeta in H98.
  destruct (C94_partial m text e w num date W Hdate Hu Hpr Hdr PC HM Hwt Hl Hb Pp) as (st' & Hst' & H94). rewrite Hst in Hst'. injection Hst' as <-. cbv zeta in H94.
  exists st. split; [exact Hst|]. intros o1 o2 o3. destruct (H98 o1 o2 o3) as (p1 & t1 & G1 & T1 & H8). destruct (H94 o1 o2 o3) as (p1' & t1' & G1' & T1' & H4). clear H98 H94.
  rewrite G1 in G1'. injection G1' as <-. rewrite T1 in T1'. injection T1' as <-. exists p1, t1. split; [exact G1|]. split; [exact T1|]. intros t2.
  intros smiles objects cutoff temp nb y_core nper cd cm diss d q AS Hnb Small Pr1 Pr2 F1 F2 F3.
  destruct (H8 smiles objects cutoff temp nb y_core nper cd cm diss d q AS Hnb Small Pr1 Pr2 F1 F2 F3) as (rs & s1 & s2 & p & K & R1 & R2 & R3 & R4 & PK & HK). clear H8.
  destruct (H4 smiles objects cutoff temp nb y_core nper cd cm diss d q AS Hnb Small Pr1 Pr2 F1 F2 F3) as (rs' & s1' & s2' & p' & R1' & R2' & R3' & R4' & HC). clear H4 Small.
  rewrite R1 in R1'. injection R1' as <-. fold t2 in R3, R3'. rewrite R2 in R2'. injection R2' as <-. rewrite R3 in R3'. injection R3' as <-. rewrite R4 in R4'. injection R4' as <-.
  exists rs, s1, s2, p, K. split; [exact R1|]. split; [exact R2|]. split; [exact R3|]. split; [exact R4|]. split; [exact PK|].
  intros rnd H2O start b N A D Hrnd HH Pb PA PD Ht idx step. destruct (HC rnd H2O start b N A D Hrnd HH Pb PA PD Ht) as (C & PCC & HX). clear HC.
  assert (PF := record_factor_nonneg d nb). exists (record_factor d nb * C)%R. split; [apply Rmult_le_pos; assumption|].
  intros rcalls Hcalls equations delta eps calls simulate jac conc y_cond sim ts ys os y0 Hdl Pe Hcl HE Hlast I0 Lc F0 Hrun LN.
  destruct (proj2 (HX rcalls Hcalls) delta calls simulate jac conc y_cond sim ts ys os y0 Hdl HE I0 Lc F0 Hrun LN) as (rws & Lr & Ch & Un & Cl).
  exists rws. split; [exact Lr|]. split; [exact Ch|]. split; [exact Un|]. intros j Hj.
  assert (Ly : j < List.length ys).
  { apply (Nat.lt_le_trans _ _ _ Hj). unfold aerosol_simulation_files in Hrun. rewrite I0 in Hrun. cbn [bind] in Hrun. exact (run_lengths _ _ _ _ _ _ _ _ _ _ _ _ Hrun). }
  destruct (HK rnd H2O start calls Hrnd HH Ht Hcl eps simulate jac conc y_cond sim b ts ys os Pe (Rlt_le _ _ Pb) Lc Hlast Hrun j _ Hj (nth_error_nth' _ [] Ly)) as (inp & o & I1 & I2 & I3).
  destruct (describes_shift d q nb y_core nper cd cm diss temp (K * eps)%R (C * delta)%R (nth j rws []) (nth j ys []) inp o (Rmult_le_pos _ _ PCC (proj1 Hdl)) (close_sym _ _ _ (Cl j Hj)) I1 I3) as (inp' & J1 & J2).
  exists inp', o. split; [exact J1|]. split; [exact I2|]. rewrite Rmult_assoc. exact J2.
Qed.

(* The run of C97_hypotheses: its integrator is off by five molecules and evaluates
   the function only at the start of the batch. *)
Example C99_yield_hypotheses : forall before private, exists ys d y0 q p eps simulate ts row o,
  let c := YCall before private [0] in
  yield_file c46_rows c46_text /\ seeds 1 [1e9]%R [50]%R 1770 132.14 3 /\
  yield_setup (fun s => Ok (ex_chem s)) ex_float c46_text (-6) 298.15 0.5 1 [1e9]%R 3 = Ok (ys, d, y0) /\
  Pure_component2 (d_nc d) (d_mw d) Rgas 298.15 = Some q /\ read_fsub (partition_file date0 d 1) = Some p /\ (0 <= eps)%R /\
  off_by_physical 5 (fun t y => option_map fst (yfile_call p d q 1 [1e9]%R [50]%R 1770 132.14 3 298.15 c y))
    (yfile_func p d q 1 [1e9]%R [50]%R 1770 132.14 3 298.15 (fun _ _ => c)) simulate /\
  last_within eps (yfile_func p d q 1 [1e9]%R [50]%R 1770 132.14 3 298.15 (fun _ _ => c)) simulate /\
  yield_simulation_file p d q 1 [1e9]%R [50]%R 1770 132.14 3 298.15 simulate (fun _ _ => Err ValueError) (fun _ _ => c) y0 f3600 f3600 = Ok (ts, [row], [o]).
Proof.
  intros before private. destruct (C97_hypotheses before private) as (ys & d & y0 & q & p & simulate & ts & row & o & Hf & L3 & HV & HC & SD & Hsetup & Hq & _ & _ & Rd & _ & HE & Hrun & _ & _ & Lr & Hs).
  cbv zeta in HE, Hrun.
  assert (N0 := yield_start (fun s => Ok (ex_chem s)) ex_float c46_rows c46_text ex_yield ex_chem (-6) 298.15 0.5 3 1770 132.14 1 [1e9]%R [50]%R ys d y0 Hf HV HC ltac:(lra) ltac:(lra) SD Hsetup).
  set (dist := fun i => Rabs (nth i y0 0 - nth i row 0)%R).
  exists ys, d, y0, q, p, (rsum (map dist (seq 0 (List.length y0)))), simulate, ts, row, o. cbv zeta.
  split; [exact Hf|]. split; [exact SD|]. split; [exact Hsetup|]. split; [exact Hq|]. split; [exact Rd|].
  split; [apply rsum_nonneg; intros x Hx; apply in_map_iff in Hx as (i & <- & _); apply Rabs_pos|]. split; [exact HE|]. split; [|exact Hrun].
  intros jac y tf y1 t z _ H. apply Hs in H as (E & -> & ->). cbn [pb_y0] in E. subst y. split; [exact Lr|]. split; [exact N0|]. split; [congruence|].
  intros i Hi. apply (part_of_sum dist); [intros j _; apply Rabs_pos | apply in_seq; lia].
Qed.

(* The run of C94_hypotheses again: that integrator evaluates the function at the
   state it returns. *)
Example C99_aerosol_hypotheses : forall before private, exists st d q rs s1 s2 p w c0 y_cond ts row o,
  let fc := FCall (fr_rates rs) (f_prog s1) (f_prog s2) zeros zeros before private [0] in
  let idx := write_RO2_indices (p_sp2a st) in
  extract_mechanism (ParseShow.show self_words) = Ok (1%Z, st) /\ aerosol_setup st 2 [] [] (-6) 298.15 1 [1e9]%R [50]%R 1770 132.14 3 d q /\
  off_by_physical 5 (fun t y => option_map fst (files_call (fun x => x) rs 1 idx p 1e17 298.15 d q 1 [1e9]%R [50]%R 1770 132.14 3 fc (B2R f43200 + t) y))
    (files_func (fun x => x) rs 1 idx p 1e17 298.15 d q 1 [1e9]%R [50]%R 1770 132.14 3 (fun _ _ => fc) f43200) (self_integrator w c0) /\
  last_within 0 (files_func (fun x => x) rs 1 idx p 1e17 298.15 d q 1 [1e9]%R [50]%R 1770 132.14 3 (fun _ _ => fc) f43200) (self_integrator w c0) /\
  List.length y_cond = d_nc d * 1 /\
  aerosol_simulation_files (fun x => x) rs 1 idx p 1e17 298.15 d q 1 [1e9]%R [50]%R 1770 132.14 3 (self_integrator w c0) (fun _ _ => Err ValueError)
    (fun _ _ => fc) f43200 (d_sp2a d) [(s_ "CH3O2", 20%R); (s_ "H2O", w)] y_cond f3600 f3600 = Ok (ts, [row], [o]).
Proof.
  intros before private. destruct (C94_hypotheses before private) as (st & p1 & t1 & d & q & rs & s1 & s2 & p & w & c0 & y_cond & y0 & ts & row & o & H). cbv zeta in H.
  destruct H as (_ & _ & Hst & AS & _ & _ & _ & _ & _ & _ & _ & _ & _ & _ & _ & _ & _ & HE & I0 & Lc & F0 & Hrun & _).
  exists st, d, q, rs, s1, s2, p, w, c0, y_cond, ts, row, o. cbv zeta. split; [exact Hst|]. split; [exact AS|]. split; [exact HE|]. split; [|split; [exact Lc | exact Hrun]].
  assert (Pw : (0 <= w)%R /\ (0 <= c0)%R).
  { unfold aerosol_simulation_files in Hrun. rewrite I0 in Hrun. cbn [bind] in Hrun. unfold record_run in Hrun. apply bind_Ok in Hrun as (x & _ & Hrun). apply bind_Ok in Hrun as (nz & _ & Hrun).
    destruct (nz <? 0)%Z; [discriminate|]. destruct (Z.to_nat nz) as [|rows]; cbn [record_loop] in Hrun; rewrite (bltb_num fzero f3600 0 3600 0 (fzero_num 0) f3600_num) in Hrun; change (0 <? 3600)%Z with true in Hrun; cbv iota in Hrun;
      rewrite (beqb_num fzero 0 0 (fzero_num 0)) in Hrun; change (0 =? 0)%Z with true in Hrun; cbv iota in Hrun; cbn [bind] in Hrun;
      apply bind_Ok in Hrun as ([y1 l] & Hs & _); apply self_integrator_cases in Hs as (a & b & _ & _ & -> & _);
      unfold with_water in F0; cbn [app] in F0; apply Forall_inv_tail, Forall_inv_tail in F0; assert (X := Forall_inv F0); assert (Y := Forall_inv (Forall_inv_tail F0)); cbv beta in X, Y; lra. }
  intros jac y tf y1 t z Pt H. unfold self_integrator in H. cbn [pb_y0] in H. destruct y as [|a [|b [|w' [|c' [|]]]]]; try discriminate.
  destruct (Rle_dec 0 a) as [Pa|]; [|discriminate]. destruct (Rle_dec 0 b) as [Pb|]; [|discriminate]. destruct (Req_EM_T w' w) as [->|]; [|discriminate]. destruct (Req_EM_T c' c0) as [->|]; [|discriminate].
  cbv zeta in H. assert (E1 : y1 = with_water w c0 (self_solution a b (B2R tf))) by congruence. assert (E2 : z = y1) by congruence. subst z. rewrite E1. split; [reflexivity|]. split.
  - apply Forall_app. split; [apply self_nonneg; assumption|]. repeat (apply Forall_cons; [apply Pw|]). apply Forall_nil.
  - split; [reflexivity|]. intros i _. rewrite Rminus_eq_0, Rabs_R0. lra.
Qed.

Print Assumptions C99_yield_partial. Print Assumptions C99_aerosol_partial.
