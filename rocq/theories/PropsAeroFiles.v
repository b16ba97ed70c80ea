(* C90: the aerosol model from its files.  The four Fortran files, read back as
   the compiler reads them and called as dydt_func calls them, give the
   derivative of the chemistry and of the exchange with the particles, and the
   attributes say what they are named after. *)
From Coq Require Import List Bool Arith Lia Ascii String ZArith QArith Reals Lra Permutation Sorted.
From Verif Require Import Base PyStr PyDict SpecRate ModelParse SpecMech ParseStruct ParseWritten ParseTables PropsParse
  SpecKin LangFacts GenReact GenLossGain GenParsed PropsKin PropsRhs SpecRo2 PropsRo2 SpecGas PropsGas
  SpecRateValue SpecMcmEnv SpecRateText ModelRate RateExpr RateNames PropsRate PropsRateValue ModelExpr RateParse
  ModelLang ModelOmp ModelGen ModelRhs ModelRo2 ModelGas ModelRateFile ModelRateBody ModelRateRun
  ModelSource ModelWrite SpecSource SourceRead SourceRun PropsSourceRun SourceWidth PropsWidth
  ModelRateText ModelRateWrite ModelRateRead RateFileN RateFileF RateFileUse ModelGasFiles PropsRateText
  ModelPart SpecPart PartValue PropsPart ModelPartText ModelFort PartRead PartProg PartRun PartCall PropsPartText
  ModelAero SpecAero PropsAero PropsAeroRun PropsAeroChem SpecAeroRun ModelAeroRun PropsAeroBatch ModelAeroFiles.
Import ListNotations.
Import Coq.Lists.List.
Open Scope nat_scope.
Open Scope list_scope.
Local Arguments eqb : simpl never.

(* Pressure of saturated water vapour in Pa (Hyland and Wexler), and the
   pressure of n molecules per cm3 of water vapour. *)
Definition saturation (T : R) : R :=
  exp (-5800.2206 / T + 1.3914993 - 0.048640239 * T + 0.000041764768 * T ^ 2 - 0.000000014452093 * T ^ 3 + 6.5459673 * ln T)%R.
Definition vapour_pressure (n T : R) : R := (n / avogadro * 8314000 * T)%R.

Lemma saturation_pos T : (0 < saturation T)%R.
Proof. apply exp_pos. Qed.
Lemma Rpower_water T : Rpower 10 (water_vp T) = (saturation T * 0.00000986923)%R.
Proof.
  unfold Rpower, water_vp. fold (saturation T). assert (S := saturation_pos T).
  assert (L : (0 < ln 10)%R) by (rewrite <- ln_1; apply ln_increasing; lra).
  replace (ln (saturation T * 0.00000986923) / ln 10 * ln 10)%R with (ln (saturation T * 0.00000986923)) by (field; lra).
  apply exp_ln. apply Rmult_lt_0_compat; lra.
Qed.
Lemma last_nth {A} (l : list A) d : last l d = nth (List.length l - 1) l d.
Proof.
  induction l as [|a l IH]; [reflexivity|]. destruct l as [|b l]; [reflexivity|]. change (last (b :: l) d = nth (List.length (b :: l)) (a :: b :: l) d).
  rewrite IH. cbn [List.length nth]. rewrite Nat.sub_succ, Nat.sub_0_r. reflexivity.
Qed.
Lemma last_app_one {A} (l : list A) a d : last (l ++ [a]) d = a.
Proof. induction l as [|b l IH]; [reflexivity|]. cbn [app last]. destruct (l ++ [a]) eqn:E; [destruct l; discriminate | exact IH]. Qed.

Lemma psat_last d q y_core nper cd cm diss temp y inp : partition_inputs d q y_core nper cd cm diss temp y = Some inp ->
  last (i_psat inp) 0%R = (saturation temp * 0.00000986923)%R.
Proof.
  unfold partition_inputs. destruct (omap _ _) as [cg|]; [|discriminate]. cbn [obind]. intros H. apply (f_equal (fun o => match o with Some i => i_psat i | None => [] end)) in H.
  cbn [i_psat] in H. rewrite <- H, map_app. cbn [map]. rewrite last_app_one. apply Rpower_water.
Qed.
Lemma nth_repeat' k n : nth k (repeat 0%R n) 0%R = 0%R.
Proof. destruct (Nat.lt_ge_cases k n); [apply nth_repeat | apply nth_overflow; rewrite repeat_length; assumption]. Qed.

Theorem C90_partial : forall m text num date, written m text -> one_line date ->
  Forall unit_coefficients m -> Forall (fun r => NoDup (names (rhs r)) /\ ~ In (last_reactant r) (names (rhs r))) m ->
  Forall distinct_reactants m -> peroxy_clean (first_seen (reading_order m)) -> Forall (fun r => mcm_text (rtext r)) m ->
  let sp := first_seen (reading_order m) in let N := List.length sp in
  exists st, extract_mechanism text = Ok (Z.of_nat (List.length m), st) /\
  forall o1 o2 o3, exists p1 t1,
    gen_reactants_fortran o1 (List.length m) (p_sp2a st) (p_reac st) (p_loss st) = Ok p1 /\
    write_reactants_fortran num date o1 (List.length m) (p_sp2a st) (p_reac st) (p_loss st) = Ok t1 /\
    let t2 := write_loss_gain_fortran num date o2 (List.length m) (species_count st) (p_sp2a st) (p_loss st) (p_gain st) in
  forall smiles objects cutoff temp nb y_core nper core_density core_mw diss d q,
    aerosol_setup st N smiles objects cutoff temp nb y_core nper core_density core_mw diss d q ->
    nb <> 0 -> (d_ns d + d_nc d * nb) + nb + d_ns d + d_nc d + 1 < 10 ^ 20 ->
    prints num p1 -> prints num (gen_loss_gain_fortran o2 (p_sp2a st) (p_loss st) (p_gain st)) ->
    fine t1 -> fine t2 -> fine (rate_file_fortran o3 st) ->
  (* the four files are read *)
  exists rs s1 s2 p, read_rates_fortran (rate_file_fortran o3 st) = Some rs /\
    read_fortran one_subscript t1 = Some s1 /\ read_fortran one_subscript t2 = Some s2 /\
    read_fsub (partition_file date d nb) = Some p /\ fs_bound p = nb /\
  (* a call, whatever order the parallel loops take and whatever memory held *)
  forall tr tr1 tr2 bins, runs_as o3 (fr_rates rs) tr -> runs_as o1 (f_prog s1) tr1 -> runs_as o2 (f_prog s2) tr2 -> Permutation bins (seq 0 nb) ->
  forall rnd a0 m0 garbage_before garbage_private e start_time t H2O y v, is_rounding rnd -> (0 <= H2O)%R ->
    List.length y = d_ns d + d_nc d * nb -> nonneg y ->
    let c := conc_of (p_sp2a st) (firstn N y) in
    coefficients m e (start_time + t) (peroxy_total sp c) H2O temp v ->
  exists dy out inp,
    aerosol_call_files rnd rs tr tr1 tr2 (List.length m) a0 m0 (write_RO2_indices (p_sp2a st)) p garbage_before garbage_private
      d q nb y_core nper core_density core_mw diss bins start_time t H2O temp y = Some (dy, out) /\
    List.length dy = List.length y /\
    partition_inputs d q y_core nper core_density core_mw diss temp y = Some inp /\
    (* gas and particles together follow the chemistry *)
    (forall i s j, nth_error sp i = Some s -> nth_error (d_include d) j = Some i ->
       (nth i dy 0 + rsum (map (fun b => nth (slot (d_ns d) (d_nc d) b j) dy 0) (seq 0 nb)) = expected m v c s)%R) /\
    (forall i s, nth_error sp i = Some s -> ~ In i (d_include d) -> nth i dy 0%R = expected m v c s) /\
    (nth N dy 0 + rsum (map (fun b => nth (slot (d_ns d) (d_nc d) b (d_nc d - 1)) dy 0) (seq 0 nb)) = 0)%R /\
    (* the particles have the reported radius and grow by condensation *)
    List.length (a_size out) = nb /\ List.length (a_water_activity out) = nb /\
    (forall b, b < nb -> is_radius (d_ns d) (d_nc d) inp b (nth b (a_size out) 0%R) /\
       nth b (a_water_activity out) 0%R = mole_fraction (d_ns d) (d_nc d) inp b (d_nc d - 1) /\
       forall j i, nth_error (d_include d) j = Some i -> nth (slot (d_ns d) (d_nc d) b j) dy 0%R =
         (transfer inp b (nth b (a_size out) 0) j * (nth i y 0 - equilibrium (d_ns d) (d_nc d) inp b (nth b (a_size out) 0) j))%R) /\
    (* the other attributes *)
    a_soa out = organic_mass (d_ns d) (d_nc d) nb inp /\ a_temp out = temp /\
    (Rabs (a_RH out - vapour_pressure (nth N y 0) temp / saturation temp) <= / 1000000 * (vapour_pressure (nth N y 0) temp / saturation temp))%R.
Proof.
  intros m text num date W Hd Hu Hp Hr Hc HM sp N.
  destruct (C83_rhs_fortran_partial m text num date W Hd Hu Hp Hr Hc HM) as (st & E & HF). exists st. split; [exact E|].
  intros o1 o2 o3. destruct (HF o1 o2 o3) as (p1 & t1 & G1 & G2 & HG). exists p1, t1. split; [exact G1|]. split; [exact G2|].
  intros t2 smiles objects cutoff temp nb y_core nper cd cm diss d q [(p & Hpc & Hpd) Hq Hchem Htemp SD] Hnb Hbig Pr1 Pr2 F1 F2 F3.
  destruct (sd_core _ _ _ _ _ _ SD) as [S1 S2], (sd_nper _ _ _ _ _ _ SD) as [S3 S4], (sd_pos _ _ _ _ _ _ SD) as (S5 & S6 & S7).
  destruct (HG Pr1 Pr2 F1 F2 F3) as (rs & s1 & s2 & R1 & R2 & R3 & HV). clear HG HF.
  assert (Est : st = interp m) by (assert (X := written_extract _ _ W); rewrite E in X; congruence).
  assert (HN : List.length (p_sp st) = N).
  { rewrite Est. destruct (interp_species m) as (-> & _). rewrite combine_length, seq_length. apply Nat.min_id. }
  rewrite <- HN in Hpc, Hpd.
  destruct (C44_partial _ _ _ smiles objects cutoff p temp E Hpc) as (d' & Hd' & Hns & Hnc & L1 & L2 & L3 & LF & Hs & Fb & _ & _ & Wnc & _).
  rewrite Hpd in Hd'. injection Hd' as <-.
  assert (Nd : NoDup (d_include d)).
  { clear - Hs. induction Hs as [|a l H IH F]; constructor; [|exact IH]. intros Ha. assert (Q := proj1 (Forall_forall _ _) F a Ha). lia. }
  assert (Linc : List.length (d_include d) <= d_nc d) by (rewrite Hnc; apply le_n).
  pose proof (reads_partition date _ nb _ _ _ Hd Hbig Linc Fb) as HR.
  pose proof (fun inp u bins g g' => C86_partial date _ _ nb _ inp u bins g g' Hd Hbig Nd (eq_sym Hnc) Fb) as H86. clear Hbig.
  exists rs, s1, s2, (partition_sub (d_ns d + d_nc d * nb) nb (d_ns d) (d_nc d) (d_include d)).
  split; [exact R1|]. split; [exact R2|]. split; [exact R3|]. split; [exact HR|]. split; [reflexivity|].
  intros tr tr1 tr2 bins T0 T1 T2 PB rnd a0 m0 g g' e start t H2O y v Hrnd HH Ly Hn c HC.
  assert (Ly' : List.length (firstn N y) = List.length sp) by (rewrite firstn_length; unfold N in *; lia).
  assert (Hn' : nonneg (firstn N y)).
  { unfold nonneg in *. rewrite <- (firstn_skipn N y) in Hn. apply Forall_app in Hn. apply Hn. }
  destruct (HV tr tr1 tr2 T0 T1 T2 rnd a0 m0 e start t H2O temp (firstn N y) v Hrnd Htemp HH Ly' Hn' HC) as (gd & Hg & Lg & Vg). clear HV.
  assert (Hro : RO2_sum (write_RO2_indices (p_sp2a st)) y = RO2_sum (write_RO2_indices (p_sp2a st)) (firstn N y)).
  { destruct Hc as (P1 & P2 & P3 & P4). rewrite (PropsRo2.C33_partial m text st W E P1 P2 P3 P4 (firstn N y) Ly').
    eapply RO2_sum_firstn, (PropsRo2.C33_partial m text st W E P1 P2 P3 P4 (firstn N y) Ly'). }
  rewrite Ly' in Lg. fold N in Lg.
  set (gas := gas_dydt_compiled rnd rs tr tr1 tr2 (List.length m) a0 m0 (RO2_sum (write_RO2_indices (p_sp2a st)) y) start t H2O temp).
  assert (Hgas : gas (firstn (List.length (p_sp st)) y) = Some gd) by (unfold gas; rewrite Hro, HN; exact Hg).
  assert (Py : forall b j, b < nb -> j < d_nc d -> (0 <= nth (slot (d_ns d) (d_nc d) b j) y 0)%R).
  { intros b j Hb Hj. unfold nonneg in Hn. rewrite Forall_forall in Hn.
    destruct (Nat.lt_ge_cases (slot (d_ns d) (d_nc d) b j) (List.length y)) as [K|K].
    - apply Hn, nth_In, K.
    - rewrite nth_overflow by exact K. lra. }
  destruct (C62_conservation text _ st smiles objects cutoff temp p d nb y_core nper cd cm diss y bins gas gd E Hpc Hpd Hchem Htemp S1 S3 Ly S2 S4 S5 S6 S7 Py PB Hnb Hgas ltac:(lia))
    as (q' & inp & dy & Q1 & Q2 & Q3 & Q4 & Q5 & Q6 & Q7 & _).
  rewrite Hq in Q1. injection Q1 as <-.
  destruct (inputs_physical text _ st smiles objects cutoff temp p d E Hpc Hpd Hchem Htemp nb y_core nper cd cm diss y S1 S3 Ly S2 S4 S5 S6 S7 Py)
    as (q' & inp' & Q1 & Q2' & ph & _ & _ & _ & _ & _ & _ & _ & _ & _ & Hcg).
  rewrite Hq in Q1. injection Q1 as <-. rewrite Q2 in Q2'. injection Q2' as <-.
  assert (Ui : List.length (u_ignore (not_used d)) = d_ns d) by (unfold not_used; cbn [u_ignore]; rewrite map_length; exact LF).
  assert (Ul : List.length (u_latent (not_used d)) = d_nc d) by (unfold not_used; cbn [u_latent]; rewrite app_length, repeat_length; cbn [List.length]; lia).
  destruct (H86 inp (not_used d) bins g g' ph Ui Ul PB) as (p' & results & RP & _ & _ & Call & Phys).
  rewrite HR in RP. apply (f_equal (fun o => match o with Some x => x | None => p' end)) in RP. subst p'.
  destruct Phys as (soa & aw & size & ex & -> & La & Lz & Le & Hsoa & HB & _).
  assert (Hb : Forall (fun b => b < nb) bins) by (apply Forall_forall; intros b I; apply (Permutation_in _ PB), in_seq in I; lia).
  destruct (call_partition nb (d_ns d) (d_nc d) (d_include d) inp (not_used d) ph Ui Ul Fb Linc bins g g' Hb) as (so & aw' & sz & ex' & P1 & P2).
  rewrite Call in P2. injection P2 as <- <- <- <-.
  set (full := gd ++ repeat 0%R (1 + d_nc d * nb)).
  assert (Lfull : List.length full = List.length ex) by (unfold full; rewrite app_length, repeat_length; lia).
  assert (Edy : dy = map (fun pr => fst pr + snd pr)%R (combine full ex)).
  { unfold aerosol_rhs in Q3. replace (d_ns d - 1) with (List.length (p_sp st)) in Q3 by lia. rewrite Hgas in Q3. cbn [obind] in Q3.
    replace (List.length gd) with (List.length (p_sp st)) in Q3 by lia. rewrite Nat.eqb_refl in Q3. cbn [negb] in Q3. rewrite Q2 in Q3. cbn [obind] in Q3.
    rewrite P1 in Q3. cbn [obind snd] in Q3. injection Q3 as <-. reflexivity. }
  assert (Sp := saturation_pos temp).
  assert (Eps : last (i_psat inp) 0%R = (saturation temp * 0.00000986923)%R).
  { exact (psat_last _ _ _ _ _ _ _ _ _ _ Q2). }
  set (vp := (vapour_pressure (nth N y 0) temp)%R).
  assert (Epg : last (map (fun c => c / avogadro * 8314000 * temp)%R (firstn (d_ns d) y)) 0%R = vp).
  { rewrite last_nth, map_length, firstn_length. replace (Nat.min (d_ns d) (List.length y) - 1) with N by lia.
    rewrite (nth_indep _ 0%R (0 / avogadro * 8314000 * temp)%R) by (rewrite map_length, firstn_length; lia).
    rewrite (map_nth (fun c => c / avogadro * 8314000 * temp)%R). unfold vp, vapour_pressure.
    replace (nth N (firstn (d_ns d) y) 0%R) with (nth N y 0%R); [reflexivity|].
    rewrite <- (firstn_skipn (d_ns d) y) at 1. apply app_nth1. rewrite firstn_length. lia. }
  set (RH := (vp / (saturation temp * 0.00000986923 * 101325))%R).
  exists dy, (Attributes soa size temp RH aw), inp. split; [|split; [exact Q4|]].
  { unfold aerosol_call_files, aerosol_call. fold gas. replace (d_ns d - 1) with (List.length (p_sp st)) by lia. rewrite Hgas. cbn [obind].
    replace (List.length gd) with (List.length (p_sp st)) by lia. rewrite Nat.eqb_refl. cbn [negb]. rewrite Q2. cbn [obind].
    rewrite Call. cbn [obind]. fold full. rewrite Lfull, Nat.eqb_refl. cbn [negb]. rewrite Eps, Epg, Edy.
    unfold rdiv. destruct (Req_EM_T _ 0) as [Z|Z]; [exfalso; nra|]. reflexivity. }
  split; [exact Q2|]. rewrite HN in *. split; [|split; [|split; [exact Q7|]]].
  - intros i s j Hi Hj. assert (Hi' : i < N) by (apply nth_error_Some; unfold sp in *; congruence).
    rewrite (Q5 j i Hj Hi'). apply nth_error_nth, Vg, Hi.
  - intros i s Hi Hni. assert (Hi' : i < N) by (apply nth_error_Some; unfold sp in *; congruence).
    rewrite (Q6 i Hi' Hni). apply nth_error_nth, Vg, Hi.
  - cbn [a_size a_water_activity a_soa a_temp a_RH]. split; [exact Lz|]. split; [exact La|]. split; [|split; [exact Hsoa|]; split; [reflexivity|]].
    + intros b B. destruct (HB b B) as (A1 & A2 & A3). split; [exact A2|]. split; [exact A1|]. intros j i Hj.
      assert (J : j < d_nc d) by (rewrite Hnc; apply nth_error_Some; congruence).
      assert (Es : slot (d_ns d) (d_nc d) b j = d_ns d + b * d_nc d + j) by reflexivity.
      assert (Sl : slot (d_ns d) (d_nc d) b j < List.length ex) by (rewrite Es, Le; nia).
      rewrite Edy, (nth_indep _ 0%R (fst (0, 0) + snd (0, 0))%R) by (rewrite map_length, combine_length; lia).
      rewrite (map_nth (fun pr => fst pr + snd pr)%R), combine_nth by exact Lfull. cbn [fst snd].
      rewrite (A3 j J). unfold full. rewrite app_nth2 by (rewrite Es; lia). rewrite nth_repeat'. unfold growth. rewrite (Hcg j i Hj). lra.
    + assert (V0 : (0 <= vp)%R).
      { unfold vp, vapour_pressure. assert (0 <= nth N y 0)%R.
        { unfold nonneg in Hn. rewrite Forall_forall in Hn. apply Hn, nth_In. lia. }
        assert (0 < avogadro)%R by (unfold avogadro; lra). repeat apply Rmult_le_pos; try lra. left. apply Rinv_0_lt_compat. assumption. }
      set (x := (vp / saturation temp)%R). assert (0 <= x)%R by (apply Rmult_le_pos; [exact V0 | left; apply Rinv_0_lt_compat, Sp]).
      replace RH with (x / (0.00000986923 * 101325))%R by (unfold RH, x; field; lra).
      replace (x / (0.00000986923 * 101325) - x)%R with (x * (1 / (0.00000986923 * 101325) - 1))%R by (unfold Rdiv; ring).
      rewrite Rabs_mult, (Rabs_right x) by lra. rewrite (Rmult_comm x). apply Rmult_le_compat_r; [assumption|].
      apply Rabs_le. split; lra.
Qed.


(* The hypotheses meet: the mechanism of C59_hypotheses, the molecules and size
   bins of C64_example, the second bin done first. *)
Example C90_example : forall garbage_before garbage_private, exists st d q rs s1 s2 p v dy out,
  let y := repeat 1%R (d_ns d + d_nc d * 2) in
  extract_mechanism (ParseShow.show gas_words) = Ok (3%Z, st) /\
  aerosol_setup st 7 gas_smiles gas_objects (-6) 288.15 2 [1; 1]%R [1; 1]%R 1770 132.14 3 d q /\
  read_rates_fortran (rate_file_fortran None st) = Some rs /\ read_fsub (partition_file date0 d 2) = Some p /\
  aerosol_call_files (fun x => x) rs (fr_rates rs) s1 s2 3 (fun _ => 0%R) (fun _ => 0%R) (write_RO2_indices (p_sp2a st)) p garbage_before garbage_private
    d q 2 [1; 1]%R [1; 1]%R 1770 132.14 3 [1; 0] 43200 60 1 288.15 y = Some (dy, out) /\
  (nth 7 dy 0 + (nth (slot (d_ns d) (d_nc d) 0 (d_nc d - 1)) dy 0 + (nth (slot (d_ns d) (d_nc d) 1 (d_nc d - 1)) dy 0 + 0)) = 0)%R /\
  coefficients gas_mech gas_expr (43200 + 60) (peroxy_total (first_seen (reading_order gas_mech)) (conc_of (p_sp2a st) (firstn 7 y))) 1 288.15 v.
Proof.
  intros g g'. destruct C76_hypotheses as (st & d & q & _ & _ & _ & _ & E & AS & _ & Ny & _).
  destruct C81_hypotheses as (_ & _ & _ & _ & M1 & M2 & M3 & _).
  destruct C59_hypotheses as (W & H1 & H2 & H3 & H4 & H5 & H6).
  destruct C83_hypotheses as (st1 & E1 & HM & F3). assert (st1 = st) by congruence. subst st1. clear E1.
  assert (D0 : one_line date0) by (apply one_line_dec; reflexivity).
  destruct (C90_partial gas_mech _ repr date0 W D0 H3 H4 H2 H5 HM) as (st1 & E1 & HX).
  assert (st1 = st) by (change (Z.of_nat (List.length gas_mech)) with 3%Z in E1; congruence). subst st1.
  destruct (HX None None None) as (p1 & t1 & G1 & W1 & HY). clear HX.
  assert (N7 : List.length (first_seen (reading_order gas_mech)) = 7) by (vm_compute; reflexivity).
  assert (Est : st = interp gas_mech) by (assert (X := written_extract _ _ W); rewrite E1 in X; congruence).
  assert (Nsp : List.length (p_sp st) = 7) by (rewrite Est; vm_compute; reflexivity).
  assert (Small : (d_ns d + d_nc d * 2) + 2 + d_ns d + d_nc d + 1 < 10 ^ 20).
  { destruct (as_arrays _ _ _ _ _ _ _ _ _ _ _ _ _ _ AS) as (pp & Hpc & Hpd). rewrite <- Nsp in Hpc, Hpd.
    destruct (C44_partial _ _ _ gas_smiles gas_objects (-6)%R pp 288.15%R E Hpc) as (d' & Hd & Hns & Hnc & _ & _ & _ & _ & Hs & Fb & _).
    rewrite Hpd in Hd. injection Hd as <-. rewrite Nsp in Hns.
    assert (Nd : NoDup (d_include d)).
    { clear - Hs. induction Hs as [|a l H IH F]; constructor; [|exact IH]. intros Ha. assert (Q := proj1 (Forall_forall _ _) F a Ha). lia. }
    assert (L8 : List.length (d_include d) <= 8).
    { rewrite <- (seq_length 8 0). apply NoDup_incl_length; [exact Nd|]. intros k K. apply in_seq. assert (Q := proj1 (Forall_forall _ _) Fb k K). cbv beta in Q. rewrite Hns in Q. clear - Q. lia. }
    apply (Nat.lt_le_trans _ (10 ^ 2)); [cbn [Nat.pow Nat.mul Nat.add]; lia | apply Nat.pow_le_mono_r; lia]. }
  rewrite N7 in HY.
  assert (Pr1 : prints repr p1 /\ printed_within repr 6 p1).
  { rewrite Est in G1. apply (f_equal (fun r => match r with Ok x => x | Err _ => p1 end)) in G1. rewrite <- G1. split; intros qq I; vm_compute in I; destruct I. }
  assert (Pr2 : prints repr (gen_loss_gain_fortran None (p_sp2a st) (p_loss st) (p_gain st)) /\ printed_within repr 6 (gen_loss_gain_fortran None (p_sp2a st) (p_loss st) (p_gain st))).
  { rewrite Est. split; intros qq I.
    - apply repr_ok. vm_compute in I. left. intuition congruence.
    - vm_compute in I. assert (Eq : (1 = qq)%Q) by (cbv in I |- *; intuition congruence). subst qq. vm_compute. lia. }
  destruct Pr1 as [Pr1 Pw1], Pr2 as [Pr2 Pw2].
  assert (F1 : fine t1) by (eapply (C81_reactants_fits gas_mech _ repr date0 5 6 6); try eassumption; lia).
  assert (F2 : fine (write_loss_gain_fortran repr date0 None (List.length gas_mech) (species_count st) (p_sp2a st) (p_loss st) (p_gain st)))
    by (eapply (C81_dydt_fits gas_mech _ repr date0 5 6); try eassumption; lia).
  destruct (HY gas_smiles gas_objects (-6)%R 288.15%R 2 [1; 1]%R [1; 1]%R 1770%R 132.14%R 3%R d q AS ltac:(discriminate) Small Pr1 Pr2 F1 F2 (F3 None))
    as (rs & s1 & s2 & p & R1 & R2 & R3 & R4 & _ & HV). clear HY.
  destruct (H6 (43200 + 60)%R (peroxy_total (first_seen (reading_order gas_mech))
     (conc_of (p_sp2a st) (firstn 7 (repeat 1%R (d_ns d + d_nc d * 2))))) 1%R 288.15%R ltac:(lra)) as [v Hv].
  destruct (HV (fr_rates rs) (f_prog s1) (f_prog s2) [1; 0]) with (rnd := fun x : Q => x) (a0 := fun _ : nat => 0%R) (m0 := fun _ : nat => 0%R) (garbage_before := g) (garbage_private := g')
    (e := gas_expr) (start_time := 43200%R) (t := 60%R) (H2O := 1%R) (y := repeat 1%R (d_ns d + d_nc d * 2)) (v := v) as (dy & out & inp & Q1 & _ & _ & _ & _ & Q2 & _).
  - reflexivity.
  - reflexivity.
  - reflexivity.
  - apply perm_swap.
  - intros x Hx. reflexivity.
  - lra.
  - apply repeat_length.
  - exact Ny.
  - exact Hv.
  - exists st, d, q, rs, (f_prog s1), (f_prog s2), p, v, dy, out. cbv zeta. split; [exact E|]. split; [exact AS|]. split; [exact R1|]. split; [exact R4|]. split; [exact Q1|].
    split; [exact Q2 | exact Hv].
Qed.

Print Assumptions C90_partial.
