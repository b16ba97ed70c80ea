(* C94: from the mechanism text to the rows of the gas and particle model. *)
From Coq Require Import String List Bool Arith Lia ZArith QArith Reals Qreals Lra Permutation Sorted FunctionalExtensionality.
From Flocq Require Import Core BinarySingleNaN.
From Verif Require Import Base PyStr PyDict SpecRateText RateNames RateParse ModelSource ModelWrite SpecSource SourceRead SourceRun PropsSource PropsSourceRun SourceWidth PropsWidth
  ModelRateText ModelRateWrite ModelRateRead RateFileN RateFileF RateFileUse ModelGasFiles PropsRateText
  ModelPartText ModelFort PartRead PartProg PartRun PartCall PropsPartText PropsAeroBatch ModelAeroFiles PropsAeroFiles.
From Verif Require Import SpecRate ModelParse SpecMech ParseStruct ParseTables ParseWritten ParseShow PropsParse
  ModelLang ModelGen ModelRhs SpecKin LangFacts GenReact GenLossGain GenParsed GenSparse PropsKin PropsRhs
  ModelOmp ModelExpr ModelRate ModelRateFile RateExpr PropsRate ModelRateBody ModelRateRun RateSym
  SpecRateValue SpecMcmEnv PropsRateValue ModelRo2 SpecRo2 PropsRo2 ModelGas SpecGas PropsGas PropsGasJac
  ModelSolver SpecSolver SolverFacts OdeFacts PropsSolver ModelSplit PropsSplit SpecMethod PropsMethod SpecTraj OdeSign PropsTraj
  OdeNear ModelPart SpecPart PartFacts PartValue PropsPart PartBounds ModelAero SpecAero PropsAero PropsAeroRun PropsAeroChem AeroPull GasFortran
  AeroFacts ModelYield PropsYield ModelAeroRun SpecAeroRun PropsAeroTraj PropsYieldTraj
  OdeClose GasFlow SpecSun SpecTroe SpecTame TameFacts PropsTame PropsUnique OdePicard OdeExist SunPieces TameFlow PropsExist OdeBox PartLip AeroExist PropsAeroExist
  SpecError PropsError SpecChem PropsChem SpecAeroChem.
Import ListNotations.
Import Coq.Lists.List.
Open Scope nat_scope.
Open Scope list_scope.
Local Arguments eqb : simpl never.

Section Slopes.
Context (m : mech) (text : str) (e : nat -> rexpr) (W : written m text) (Hu : Forall unit_coefficients m)
  (Hpr : Forall (fun r => NoDup (names (rhs r)) /\ ~ In (last_reactant r) (names (rhs r))) m) (Hdr : Forall distinct_reactants m)
  (PC : peroxy_clean (first_seen (reading_order m))).
Context (smiles : dict str str) (objects : dict str chem) (cutoff temp : R) (nb : nat) (y_core nper : list R) (cd cm diss : R) (d : prepared) (q : pc2)
  (AS : aerosol_setup (interp m) (List.length (species m)) smiles objects cutoff temp nb y_core nper cd cm diss d q) (Hnb : nb <> 0).
Context (H2O : R) (HH : (0 <= H2O)%R) (rnd : Q -> Q) (Hrnd : is_rounding rnd).
Notation N := (List.length (species m)).
Notation n := (d_ns d + d_nc d * nb).
Notation sp := (species m).

Lemma setup_facts : d_ns d = N + 1 /\ d_nc d = List.length (d_include d) /\ 1 <= d_nc d /\ Forall (fun g => g < d_ns d) (d_include d) /\
  nth_error (d_include d) (d_nc d - 1) = Some N /\ (0 < temp)%R.
Proof.
  destruct AS as [(p & Hp & Hd) Hq Hchem Htemp SD]. assert (E := written_extract _ _ W).
  assert (HN : List.length (p_sp (interp m)) = N) by (destruct (interp_species m) as (-> & _); rewrite combine_length, seq_length; apply Nat.min_id).
  rewrite <- HN in Hp, Hd. destruct (C44_partial _ _ _ smiles objects cutoff p temp E Hp) as (d' & Hd' & Hns & Hnc & _ & _ & _ & _ & _ & Fb & _ & _ & Wnc & WI & _).
  rewrite Hd in Hd'. injection Hd' as <-. rewrite HN in *. repeat (split; [assumption|]). exact Htemp.
Qed.

(* The slopes with the coefficients v. *)
Definition slopes_with (v : nat -> R) (y : list R) (dy : nat -> R) : Prop :=
  let c := concentration sp (firstn N y) in
  exists inp r, partition_inputs d q y_core nper cd cm diss temp y = Some inp /\
    (forall b, b < nb -> is_radius (d_ns d) (d_nc d) inp b (r b)) /\
    (forall b j i, b < nb -> nth_error (d_include d) j = Some i ->
       dy (slot (d_ns d) (d_nc d) b j) = (transfer inp b (r b) j * (nth i y 0 - equilibrium (d_ns d) (d_nc d) inp b (r b) j))%R) /\
    (forall i s j, nth_error sp i = Some s -> nth_error (d_include d) j = Some i ->
       dy i = (expected m v c s - rsum (map (fun b => dy (slot (d_ns d) (d_nc d) b j)) (seq 0 nb)))%R) /\
    (forall i s, nth_error sp i = Some s -> ~ In i (d_include d) -> dy i = expected m v c s) /\
    dy N = (- rsum (map (fun b => dy (slot (d_ns d) (d_nc d) b (d_nc d - 1))) (seq 0 nb)))%R.
Lemma slopes_split clock y dy : aerosol_slopes m e d q nb y_core nper cd cm diss H2O temp clock y dy <->
  exists v, coefficients m e clock (peroxy_total sp (concentration sp (firstn N y))) H2O temp v /\ slopes_with v y dy.
Proof.
  split.
  - intros (v & inp & r & C & P & X). exists v. split; [exact C|]. exists inp, r. split; [exact P | exact X].
  - intros (v & C & inp & r & P & X). exists v, inp, r. split; [exact C|]. split; [exact P | exact X].
Qed.

Lemma contents_nonneg y : nonneg y -> forall b j, b < nb -> j < d_nc d -> (0 <= nth (slot (d_ns d) (d_nc d) b j) y 0)%R.
Proof.
  intros Hn b j Hb Hj. unfold nonneg in Hn. rewrite Forall_forall in Hn.
  destruct (Nat.lt_ge_cases (slot (d_ns d) (d_nc d) b j) (List.length y)) as [K|K]; [apply Hn, nth_In, K | rewrite nth_overflow by exact K; lra].
Qed.
Lemma slopes_determined v y dy1 dy2 : List.length y = n -> nonneg y -> slopes_with v y dy1 -> slopes_with v y dy2 -> forall i, i < n -> dy1 i = dy2 i.
Proof.
  intros Ly Ny (inp & r1 & P1 & R1 & F1 & A1 & B1 & W1) (inp' & r2 & P2 & R2 & F2 & A2 & B2 & W2). rewrite P1 in P2. injection P2 as <-.
  destruct setup_facts as (Hns & Hnc & Wnc & Fb & WI & Htemp). assert (E := written_extract _ _ W).
  destruct AS as [(p & Hp & Hd) Hq Hchem _ SD]. destruct (sd_core _ _ _ _ _ _ SD) as [S1 S2], (sd_nper _ _ _ _ _ _ SD) as [S3 S4], (sd_pos _ _ _ _ _ _ SD) as (S5 & S6 & S7).
  assert (HN : List.length (p_sp (interp m)) = N) by (destruct (interp_species m) as (-> & _); rewrite combine_length, seq_length; apply Nat.min_id).
  rewrite <- HN in Hp, Hd.
  destruct (inputs_physical text _ (interp m) smiles objects cutoff temp p d E Hp Hd Hchem Htemp nb y_core nper cd cm diss y S1 S3 Ly S2 S4 S5 S6 S7 (contents_nonneg y Ny))
    as (q' & inp' & Q1 & Q2 & ph & _). rewrite Hq in Q1. injection Q1 as <-. rewrite P1 in Q2. injection Q2 as <-.
  assert (Er : forall b, b < nb -> r1 b = r2 b).
  { intros b Hb. rewrite (radius_unique _ _ _ _ ph b Hb _ (R1 b Hb)). symmetry. apply (radius_unique _ _ _ _ ph b Hb), R2, Hb. }
  assert (Es : forall b j, b < nb -> j < d_nc d -> dy1 (slot (d_ns d) (d_nc d) b j) = dy2 (slot (d_ns d) (d_nc d) b j)).
  { intros b j Hb Hj. destruct (nth_error (d_include d) j) as [i|] eqn:Ei; [|apply nth_error_None in Ei; lia].
    rewrite (F1 b j i Hb Ei), (F2 b j i Hb Ei), (Er b Hb). reflexivity. }
  assert (Esum : forall j, j < d_nc d -> rsum (map (fun b => dy1 (slot (d_ns d) (d_nc d) b j)) (seq 0 nb)) = rsum (map (fun b => dy2 (slot (d_ns d) (d_nc d) b j)) (seq 0 nb))).
  { intros j Hj. apply f_equal, map_ext_in. intros b Hb. apply in_seq in Hb. apply Es; lia. }
  intros i Hi. destruct (Nat.lt_trichotomy i N) as [L|[L|L]].
  - destruct (nth_error sp i) as [s|] eqn:Ei; [|apply nth_error_None in Ei; lia]. destruct (in_dec Nat.eq_dec i (d_include d)) as [Hin|Hin].
    + apply In_nth_error in Hin as (j & Hj). rewrite (A1 i s j Ei Hj), (A2 i s j Ei Hj), Esum; [reflexivity|]. rewrite Hnc. apply nth_error_Some. congruence.
    + rewrite (B1 i s Ei Hin), (B2 i s Ei Hin). reflexivity.
  - subst i. rewrite W1, W2, Esum by lia. reflexivity.
  - set (b := (i - d_ns d) / d_nc d). set (j := (i - d_ns d) mod d_nc d).
    assert (Hj : j < d_nc d) by (apply Nat.mod_upper_bound; lia). assert (Ei : i = slot (d_ns d) (d_nc d) b j).
    { unfold slot, b, j. assert (X := Nat.div_mod (i - d_ns d) (d_nc d) ltac:(lia)). nia. }
    assert (Hb : b < nb) by (apply Nat.div_lt_upper_bound; lia). rewrite Ei. apply Es; assumption.
Qed.

(* The derivative of the model, and of the files. *)
Lemma model_slopes o1 o2 o3 c clock y v : is_call (interp m) (List.length m) nb o1 o2 o3 c -> List.length y = n -> nonneg y ->
  coefficients m e clock (peroxy_total sp (concentration sp (firstn N y))) H2O temp v ->
  exists dy, aerosol_dydt (interp m) (List.length m) rnd H2O temp d q nb y_core nper cd cm diss c clock y = Some dy /\ List.length dy = n /\
    slopes_with v y (fun i => nth i dy 0%R).
Proof.
  intros ((p1 & G1 & T1) & T2 & T3 & PB) Ly Ny HC. destruct setup_facts as (Hns & Hnc & Wnc & Fb & WI & Htemp). assert (E := written_extract _ _ W).
  destruct AS as [(p & Hp & Hd) Hq Hchem _ SD]. destruct (sd_core _ _ _ _ _ _ SD) as [S1 S2], (sd_nper _ _ _ _ _ _ SD) as [S3 S4], (sd_pos _ _ _ _ _ _ SD) as (S5 & S6 & S7).
  assert (HN : List.length (p_sp (interp m)) = N) by (destruct (interp_species m) as (-> & _); rewrite combine_length, seq_length; apply Nat.min_id).
  rewrite <- HN in Hp, Hd.
  assert (Ly' : List.length (firstn N y) = N) by (rewrite firstn_length; lia).
  assert (Ny' : nonneg (firstn N y)) by (unfold nonneg in *; rewrite <- (firstn_skipn N y) in Ny; apply Forall_app in Ny; apply Ny).
  destruct (C59_fortran_partial m text e W Hu Hpr Hdr PC) as (st & E' & HF). rewrite E in E'. assert (st = interp m) by congruence. subst st. clear E'.
  specialize (HF o1 o2 o3 p1 (c_reactants c) (c_loss_gain c) (c_rates c) G1 T1 T2 T3 rnd (c_a0 c) (c_m0 c) clock 0%R H2O temp (firstn N y) v Hrnd Htemp HH Ly' Ny').
  cbv zeta in HF. rewrite (amount_conc m _ Ly'), Rplus_0_r in HF. destruct (HF HC) as (gd & Hg & Lg & Vg). clear HF.
  assert (Hro : RO2_sum (write_RO2_indices (p_sp2a (interp m))) y = RO2_sum (write_RO2_indices (p_sp2a (interp m))) (firstn N y)).
  { destruct PC as (P1 & P2 & P3 & P4). rewrite (PropsRo2.C33_partial m text _ W E P1 P2 P3 P4 (firstn N y) Ly').
    eapply RO2_sum_firstn, (PropsRo2.C33_partial m text _ W E P1 P2 P3 P4 (firstn N y) Ly'). }
  set (gas := aerosol_gas (interp m) (List.length m) rnd H2O temp c clock y).
  assert (Hgas : gas (firstn (List.length (p_sp (interp m))) y) = Some gd) by (unfold gas, aerosol_gas; rewrite Hro, HN; exact Hg).
  destruct (C62_conservation text _ (interp m) smiles objects cutoff temp p d nb y_core nper cd cm diss y (c_bins c) gas gd E Hp Hd Hchem Htemp S1 S3 Ly S2 S4 S5 S6 S7 (contents_nonneg y Ny) PB Hnb Hgas ltac:(lia))
    as (q' & inp & dy & Q1 & Q2 & Q3 & Q4 & Q5 & Q6 & Q7 & _ & Q8).
  rewrite Hq in Q1. injection Q1 as <-. exists dy. split; [exact Q3|]. split; [lia|]. rewrite HN in *.
  destruct (finite_choice 0%R (fun b r => is_radius (d_ns d) (d_nc d) inp b r /\ forall j i, nth_error (d_include d) j = Some i ->
      nth (slot (d_ns d) (d_nc d) b j) dy 0%R = (transfer inp b r j * (nth i y 0 - equilibrium (d_ns d) (d_nc d) inp b r j))%R) nb Q8) as (r & Hr).
  exists inp, r. split; [exact Q2|]. split; [intros b Hb; apply Hr, Hb|]. split; [intros b j i Hb Hj; apply Hr; assumption|]. split; [|split].
  - intros i s j Hi Hj. assert (Hi' : i < N) by (apply nth_error_Some; congruence). assert (X := Q5 j i Hj Hi'). rewrite <- (nth_error_nth _ i 0%R (Vg i s Hi)). lra.
  - intros i s Hi Hni. assert (Hi' : i < N) by (apply nth_error_Some; congruence). rewrite (Q6 i Hi' Hni). apply nth_error_nth, Vg, Hi.
  - lra.
Qed.
(* What C90 says of a call determines its derivative. *)
Lemma call_same o1 o2 o3 c clock y v dy' out inp : is_call (interp m) (List.length m) nb o1 o2 o3 c -> List.length y = n -> nonneg y ->
  coefficients m e clock (peroxy_total sp (conc_of (p_sp2a (interp m)) (firstn N y))) H2O temp v -> List.length dy' = List.length y ->
  partition_inputs d q y_core nper cd cm diss temp y = Some inp ->
  (forall i s j, nth_error sp i = Some s -> nth_error (d_include d) j = Some i ->
     (nth i dy' 0 + rsum (map (fun b => nth (slot (d_ns d) (d_nc d) b j) dy' 0) (seq 0 nb)) = expected m v (conc_of (p_sp2a (interp m)) (firstn N y)) s)%R) ->
  (forall i s, nth_error sp i = Some s -> ~ In i (d_include d) -> nth i dy' 0%R = expected m v (conc_of (p_sp2a (interp m)) (firstn N y)) s) ->
  (nth N dy' 0 + rsum (map (fun b => nth (slot (d_ns d) (d_nc d) b (d_nc d - 1)) dy' 0) (seq 0 nb)) = 0)%R ->
  (forall b, b < nb -> is_radius (d_ns d) (d_nc d) inp b (nth b (a_size out) 0%R) /\
     nth b (a_water_activity out) 0%R = mole_fraction (d_ns d) (d_nc d) inp b (d_nc d - 1) /\
     forall j i, nth_error (d_include d) j = Some i -> nth (slot (d_ns d) (d_nc d) b j) dy' 0%R =
       (transfer inp b (nth b (a_size out) 0) j * (nth i y 0 - equilibrium (d_ns d) (d_nc d) inp b (nth b (a_size out) 0) j))%R) ->
  aerosol_dydt (interp m) (List.length m) rnd H2O temp d q nb y_core nper cd cm diss c clock y = Some dy'.
Proof.
  intros Hc Ly Ny Hv Q2 Q3 Q4 Q5 Q6 Q7. destruct setup_facts as (Hns & Hnc & _).
  assert (Ly' : List.length (firstn N y) = N) by (rewrite firstn_length; lia). rewrite (amount_conc m _ Ly') in Hv, Q4, Q5.
  destruct (model_slopes o1 o2 o3 c clock y v Hc Ly Ny Hv) as (dy & Dy & Ldy & Sdy). rewrite Dy. f_equal. apply nth_ext with (d := 0%R) (d' := 0%R); [lia|]. intros i Hi.
  apply (slopes_determined v y (fun i => nth i dy 0%R) (fun i => nth i dy' 0%R) Ly Ny); [exact Sdy | | lia].
  exists inp, (fun b => nth b (a_size out) 0%R). split; [exact Q3|]. split; [intros b' Hb'; apply Q7, Hb'|]. split; [intros b' j i' Hb' Hj; apply Q7; assumption|]. split; [|split].
  - intros i' s j Hs Hj. assert (X := Q4 i' s j Hs Hj). lra.
  - exact Q5.
  - lra.
Qed.
End Slopes.

Lemma near_rows_ext delta n f g b : (forall t y, List.length y = n -> f t y = g t y) -> (0 <= b)%R ->
  forall y rows, near_rows delta f 0 b y rows -> List.length y = n -> near_rows delta g 0 b y rows.
Proof.
  intros E Pb y rows X. induction X as [y|u y1 rows N1 Cl U X IH]; intros L; [apply near_none|]. apply near_more; [exact N1 | exact Cl| |].
  - eapply solves_ext; [|exact U]. intros t Ht. cbv beta. apply E. rewrite (proj1 (proj1 U t Ht)). exact L.
  - apply IH. rewrite <- (proj1 Cl), (proj1 (proj1 U b ltac:(lra))). exact L.
Qed.

Section Batches.
Context (m : mech) (text : str) (e : nat -> rexpr) (W : written m text) (Hu : Forall unit_coefficients m)
  (Hpr : Forall (fun r => NoDup (names (rhs r)) /\ ~ In (last_reactant r) (names (rhs r))) m) (Hdr : Forall distinct_reactants m)
  (PC : peroxy_clean (first_seen (reading_order m))).
Context (smiles : dict str str) (objects : dict str chem) (cutoff temp : R) (nb : nat) (y_core nper : list R) (cd cm diss : R) (d : prepared) (q : pc2)
  (AS : aerosol_setup (interp m) (List.length (species m)) smiles objects cutoff temp nb y_core nper cd cm diss d q) (Hnb : nb <> 0).
Context (H2O : R) (HH : (0 <= H2O)%R) (rnd : Q -> Q) (Hrnd : is_rounding rnd) (Ht : tame_rates m e H2O temp).
Context (o1 o2 o3 : option (list nat)) (c0 : call) (Hc0 : is_call (interp m) (List.length m) nb o1 o2 o3 c0) (start b : R) (Pb : (0 < b)%R).
Notation N := (List.length (species m)).
Notation n := (d_ns d + d_nc d * nb).
Notation sp := (species m).
Notation equations := (fun t y => aerosol_dydt (interp m) (List.length m) rnd H2O temp d q nb y_core nper cd cm diss c0 (start + t)%R y).
Notation aobeys := (aerosol_obeys m e d q nb y_core nper cd cm diss H2O temp start).
Notation abatch := (aerosol_batch m e d q nb y_core nper cd cm diss H2O temp start b).
(* What C91 says. *)
Context (HX : forall y, List.length y = n -> nonneg y -> exists u, u 0%R = y /\ (forall t, (0 <= t <= b)%R -> nonneg (u t)) /\ solves equations b u /\
  forall v, v 0%R = y -> solves equations b v -> same_on b u v).

Lemma obeys_equations u : aobeys b u -> solves equations b u.
Proof.
  intros [A (jumps & B)]. assert (L0 := proj1 (A 0%R ltac:(lra))). split.
  - intros t Htt. destruct (A t Htt) as (L & _ & C). split; [congruence|]. intros i Hi. apply C. lia.
  - exists jumps. intros t Htt Hj. destruct (B t Htt Hj) as (dy & S & V). destruct (A t Htt) as (L & Nn & _). apply slopes_split in S as (v & Cv & S).
    destruct (model_slopes m text e W Hu Hpr Hdr PC smiles objects cutoff temp nb y_core nper cd cm diss d q AS Hnb H2O HH rnd Hrnd o1 o2 o3 c0 (start + t)%R (u t) v Hc0 L Nn Cv) as (dy' & D & _ & S').
    exists dy'. split; [exact D|]. intros i Hi. rewrite L0 in Hi.
    rewrite <- (slopes_determined m text W smiles objects cutoff temp nb y_core nper cd cm diss d q AS Hnb v (u t) _ _ L Nn S S' i Hi). apply V, Hi.
Qed.
Lemma equations_obeys u : List.length (u 0%R) = n -> (forall t, (0 <= t <= b)%R -> nonneg (u t)) -> solves equations b u -> aobeys b u.
Proof.
  intros L0 NN [A (jumps & B)]. destruct (C82_regular m e H2O temp Ht) as (k & _ & Hc). split.
  - intros t Htt. destruct (A t Htt) as [L C]. split; [congruence|]. split; [apply NN, Htt|]. intros i Hi. apply C. lia.
  - exists jumps. intros t Htt Hj. destruct (B t Htt Hj) as (dd & D & S). assert (L := proj1 (A t Htt)). rewrite L0 in L.
    destruct (model_slopes m text e W Hu Hpr Hdr PC smiles objects cutoff temp nb y_core nper cd cm diss d q AS Hnb H2O HH rnd Hrnd o1 o2 o3 c0 (start + t)%R (u t) _ Hc0 L (NN t Htt) (Hc _ _)) as (dy & D' & _ & S').
    rewrite D in D'. injection D' as <-. exists (fun i => nth i dd 0%R). split; [|intros i Hi; apply S; lia]. apply slopes_split. eexists. split; [apply Hc | exact S'].
Qed.
Lemma abatch_unique y y1 y2 : abatch y y1 -> abatch y y2 -> y1 = y2.
Proof.
  intros (u & U & U0 & <-) (v & V & V0 & <-). destruct (proj1 U 0%R ltac:(lra)) as (L & Nn & _). rewrite U0 in L, Nn. destruct (HX y L Nn) as (w & _ & _ & _ & Q).
  rewrite <- (Q u U0 (obeys_equations u U) b ltac:(lra)), <- (Q v V0 (obeys_equations v V) b ltac:(lra)). reflexivity.
Qed.
Lemma exact_abatch y rows : exact_rows equations 0 b y rows -> List.length y = n -> nonneg y -> chained abatch y rows.
Proof.
  intros X. induction X as [y|u y1 rows E U X IH]; intros L Nn; [apply chained_end|].
  assert (U' : solves equations b u) by (eapply solves_ext; [|exact U]; intros t _; cbv beta; rewrite Rplus_0_l; reflexivity).
  destruct (HX (u 0%R) L Nn) as (w & W0 & NN & _ & Q). assert (Q' := Q u eq_refl U').
  assert (Nu : forall t, (0 <= t <= b)%R -> nonneg (u t)) by (intros t Htt; rewrite <- (Q' t Htt); apply NN, Htt).
  apply chained_more.
  - exists u. split; [apply equations_obeys; assumption|]. split; [reflexivity | exact E].
  - apply IH; rewrite <- E; [|apply Nu; lra]. rewrite (proj1 (proj1 U b ltac:(lra))). exact L.
Qed.
End Batches.

(* ------------------------------------------------------------------ *)
(* The rows of a run of the aerosol driver.  The mechanism is given as text, the
   four modules are the generated files, read back; the integrator is off by at
   most delta per batch.  The rows are then within C*delta of the states that
   chemistry and condensation lead to, batch after batch, whatever the threads
   do and whatever the memory held. *)
Theorem C94_partial : forall m text e w num date, written m text -> one_line date ->
  Forall unit_coefficients m -> Forall (fun r => NoDup (names (rhs r)) /\ ~ In (last_reactant r) (names (rhs r))) m ->
  Forall distinct_reactants m -> peroxy_clean (first_seen (reading_order m)) -> Forall (fun r => mcm_text (rtext r)) m ->
  Forall (fun r => weight w (rhs r) <= weight w (lhs r))%R m -> w light = 0%R -> (forall b, In b bath -> w b = 0%R) ->
  (forall s, In s (first_seen (reading_order m)) -> ~ In s bath -> (0 < w s)%R) ->
  exists st, extract_mechanism text = Ok (Z.of_nat (List.length m), st) /\
  forall o1 o2 o3, exists p1 t1,
    gen_reactants_fortran o1 (List.length m) (p_sp2a st) (p_reac st) (p_loss st) = Ok p1 /\
    write_reactants_fortran num date o1 (List.length m) (p_sp2a st) (p_reac st) (p_loss st) = Ok t1 /\
    let t2 := write_loss_gain_fortran num date o2 (List.length m) (species_count st) (p_sp2a st) (p_loss st) (p_gain st) in
  forall smiles objects cutoff temp nb y_core nper core_density core_mw diss d q,
    aerosol_setup st (List.length (first_seen (reading_order m))) smiles objects cutoff temp nb y_core nper core_density core_mw diss d q ->
    nb <> 0 -> (d_ns d + d_nc d * nb) + nb + d_ns d + d_nc d + 1 < 10 ^ 20 ->
    prints num p1 -> prints num (gen_loss_gain_fortran o2 (p_sp2a st) (p_loss st) (p_gain st)) ->
    fine t1 -> fine t2 -> fine (rate_file_fortran o3 st) ->
  (* the four files are read *)
  exists rs s1 s2 p, read_rates_fortran (rate_file_fortran o3 st) = Some rs /\
    read_fortran one_subscript t1 = Some s1 /\ read_fortran one_subscript t2 = Some s2 /\
    read_fsub (partition_file date d nb) = Some p /\
  forall rnd H2O start b N A D, is_rounding rnd -> (0 <= H2O)%R -> (0 < B2R b)%R -> (0 <= A)%R -> (0 <= D)%R -> tame_rates m e H2O temp ->
    let idx := write_RO2_indices (p_sp2a st) in
    let step := aerosol_batch m e d q nb y_core nper core_density core_mw diss H2O temp (B2R start) (B2R b) in
    exists C, (0 <= C)%R /\ forall (rcalls : R -> list R -> fcall),
      (* a call runs the statements of the files; what the threads and the memory do may differ from call to call *)
      (forall t y, let c := rcalls t y in runs_as o3 (fr_rates rs) (fc_rates c) /\ runs_as o1 (f_prog s1) (fc_reactants c) /\
         runs_as o2 (f_prog s2) (fc_loss_gain c) /\ Permutation (fc_bins c) (seq 0 nb)) ->
      let equations := fun t y => option_map fst (files_call rnd rs (List.length m) idx p H2O temp d q nb y_core nper core_density core_mw diss (rcalls t y) (B2R start + t) y) in
      (* the function handed to the integrator computes chemistry and condensation at its clock *)
      (forall calls t y, (let c := calls t y in runs_as o3 (fr_rates rs) (fc_rates c) /\ runs_as o1 (f_prog s1) (fc_reactants c) /\
         runs_as o2 (f_prog s2) (fc_loss_gain c) /\ Permutation (fc_bins c) (seq 0 nb)) -> List.length y = d_ns d + d_nc d * nb -> nonneg y ->
         exists dy, files_func rnd rs (List.length m) idx p H2O temp d q nb y_core nper core_density core_mw diss calls start t y = Ok dy /\ List.length dy = List.length y /\
           aerosol_slopes m e d q nb y_core nper core_density core_mw diss H2O temp (B2R (fadd start t)) y (fun i => nth i dy 0%R)) /\
      forall delta calls simulate jac conc y_cond sim ts ys os y0, (0 <= delta <= D)%R ->
      off_by_physical delta equations (files_func rnd rs (List.length m) idx p H2O temp d q nb y_core nper core_density core_mw diss calls start) simulate ->
      aerosol_initial (d_ns d) (d_nc d) nb (d_sp2a d) conc y_cond = Ok y0 -> List.length y_cond = d_nc d * nb -> Forall (fun c => 0 <= c <= A)%R y0 ->
      aerosol_simulation_files rnd rs (List.length m) idx p H2O temp d q nb y_core nper core_density core_mw diss simulate jac calls start (d_sp2a d) conc y_cond sim b = Ok (ts, ys, os) ->
      List.length ts <= N ->
      exists rows, List.length rows = List.length ts /\ chained step y0 rows /\
        (forall rows', List.length rows' = List.length ts -> chained step y0 rows' -> rows' = rows) /\
        forall j, j < List.length ts -> close (C * delta) (nth j rows []) (nth j ys []).
Proof.
  intros m text e w num date W Hdate Hu Hpr Hdr PC HM Hwt Hl Hb Pp.
  destruct (C90_partial m text num date W Hdate Hu Hpr Hdr PC HM) as (st & Hst & H90). cbv zeta in H90.
  destruct (aerosol_rows m text e w W Hu Hpr Hdr PC Hwt Hl Hb Pp) as (st' & Hst' & HR). rewrite Hst in Hst'. injection Hst' as <-.
  destruct (C91_aerosol_partial m text e w W Hu Hpr Hdr PC Hwt Hl Hb Pp) as (st' & Hst' & HX). rewrite Hst in Hst'. injection Hst' as <-.
  assert (Est := written_extract _ _ W). rewrite Hst in Est. assert (st = interp m) by congruence. subst st. clear Est.
  exists (interp m). split; [exact Hst|]. intros o1 o2 o3.
  destruct (H90 None None None) as (p0 & t0 & G0 & _). destruct (H90 o1 o2 o3) as (p1 & t1 & G1 & T1 & H). clear H90. exists p1, t1. split; [exact G1|]. split; [exact T1|]. intros t2.
  intros smiles objects cutoff temp nb y_core nper cd cm diss d q AS Hnb Small Pr1 Pr2 F1 F2 F3.
  destruct (H smiles objects cutoff temp nb y_core nper cd cm diss d q AS Hnb Small Pr1 Pr2 F1 F2 F3) as (rs & s1 & s2 & p & R1 & R2 & R3 & R4 & _ & HC). clear H.
  exists rs, s1, s2, p. split; [exact R1|]. split; [exact R2|]. split; [exact R3|]. split; [exact R4|].
  intros rnd H2O start b NN A D Hrnd HH Pb PA PD Ht idx step.
  fold (species m) in AS.
  (* a call of the model to compare with *)
  set (c0 := Call (gen_rates_fortran None (convert_dict convert_fortran (p_rate (interp m)))) p0 (gen_loss_gain_fortran None (p_sp2a (interp m)) (p_loss (interp m)) (p_gain (interp m))) (fun _ => 0%R) (fun _ => 0%R) (seq 0 nb)).
  assert (Hc0 : is_call (interp m) (List.length m) nb None None None c0).
  { split; [exists p0; split; [exact G0 | reflexivity]|]. split; [reflexivity|]. split; [reflexivity | apply Permutation_refl]. }
  destruct (HR smiles objects cutoff temp nb y_core nper cd cm diss d q AS rnd H2O None None None (B2R start) (B2R b) (fun _ _ => c0) NN A D Hrnd HH Pb PA PD Ht (fun _ _ => Hc0)) as (C & PCC & HRows).
  cbv zeta beta in HRows. set (eqs := fun t y => aerosol_dydt (interp m) (List.length m) rnd H2O temp d q nb y_core nper cd cm diss c0 (B2R start + t)%R y) in HRows.
  assert (HX' : forall y, List.length y = d_ns d + d_nc d * nb -> nonneg y -> exists u, u 0%R = y /\ (forall t, (0 <= t <= B2R b)%R -> nonneg (u t)) /\ solves eqs (B2R b) u /\
    forall v, v 0%R = y -> solves eqs (B2R b) v -> same_on (B2R b) u v).
  { intros y Ly Ny. destruct (HX smiles objects cutoff temp nb y_core nper cd cm diss d q AS rnd H2O (B2R start) (B2R b) y Hrnd HH ltac:(lra) Ht) as (u & U0 & Nu & Q).
    - exists (fun _ _ => c0), None, None, None. intros _ _. exact Hc0.
    - exact Ly.
    - exact Ny.
    - destruct (Q (fun _ _ => c0)) as [U Un]; [exists None, None, None; intros _ _; exact Hc0|]. exists u. split; [exact U0|]. split; [exact Nu|]. split; [exact U | exact Un]. }
  exists C. split; [exact PCC|]. intros rcalls Hcalls equations.
  destruct (C82_regular m e H2O temp Ht) as (k & _ & Hk).
  assert (SameC : forall c clock y, runs_as o3 (fr_rates rs) (fc_rates c) /\ runs_as o1 (f_prog s1) (fc_reactants c) /\
      runs_as o2 (f_prog s2) (fc_loss_gain c) /\ Permutation (fc_bins c) (seq 0 nb) -> List.length y = d_ns d + d_nc d * nb -> nonneg y ->
      option_map fst (files_call rnd rs (List.length m) idx p H2O temp d q nb y_core nper cd cm diss c clock y) =
      aerosol_dydt (interp m) (List.length m) rnd H2O temp d q nb y_core nper cd cm diss c0 clock y).
  { intros c clock y (K3 & K1 & K2 & KB) Ly Ny. assert (Ns := setup_facts m text W smiles objects cutoff temp nb y_core nper cd cm diss d q AS).
    destruct Ns as (Hns & Hnc & _). assert (Ly' : List.length (firstn (List.length (species m)) y) = List.length (species m)) by (rewrite firstn_length; lia).
    set (v := fun r => k r clock (peroxy_total (species m) (concentration (species m) (firstn (List.length (species m)) y)))).
    assert (Hv : coefficients m e clock (peroxy_total (species m) (concentration (species m) (firstn (List.length (species m)) y))) H2O temp v) by (apply Hk).
    rewrite <- (amount_conc m _ Ly') in Hv.
    assert (Hv' : coefficients m e (clock + 0) (peroxy_total (species m) (conc_of (p_sp2a (interp m)) (firstn (List.length (species m)) y))) H2O temp v) by (rewrite Rplus_0_r; exact Hv).
    destruct (HC _ _ _ _ K3 K1 K2 KB rnd (fc_a0 c) (fc_m0 c) (fc_before c) (fc_private c) e clock 0%R H2O y v Hrnd HH Ly Ny Hv')
      as (dy' & out & inp & Q1 & Q2 & Q3 & Q4 & Q5 & Q6 & _ & _ & Q7 & _).
    fold idx in Q1. unfold files_call. rewrite Q1. cbn [option_map fst]. symmetry.
    exact (call_same m text e W Hu Hpr Hdr PC smiles objects cutoff temp nb y_core nper cd cm diss d q AS Hnb H2O HH rnd Hrnd None None None c0 clock y v dy' out inp Hc0 Ly Ny Hv Q2 Q3 Q4 Q5 Q6 Q7). }
  assert (Same : forall t y, List.length y = d_ns d + d_nc d * nb -> nonneg y -> equations t y = eqs t y).
  { intros t y Ly Ny. exact (SameC (rcalls t y) (B2R start + t)%R y (Hcalls t y) Ly Ny). }
  split.
  { intros calls t y Hcl Ly Ny.
    destruct (model_slopes m text e W Hu Hpr Hdr PC smiles objects cutoff temp nb y_core nper cd cm diss d q AS Hnb H2O HH rnd Hrnd None None None c0 (B2R (fadd start t)) y _ Hc0 Ly Ny (Hk _ _)) as (dy & Dy & Ldy & Sdy).
    assert (X := SameC (calls t y) (B2R (fadd start t)) y Hcl Ly Ny). rewrite Dy in X. exists dy. split; [|split; [congruence|]].
    - unfold files_func. destruct (files_call rnd rs (List.length m) idx p H2O temp d q nb y_core nper cd cm diss (calls t y) (B2R (fadd start t)) y) as [r|]; [|discriminate X].
      cbn [option_map] in X. injection X as <-. reflexivity.
    - apply slopes_split. eexists. split; [apply Hk | exact Sdy]. }
  intros delta calls simulate jac conc y_cond sim ts ys os y0 Hdl HE I0 Lc F0 Hrun LN.
  destruct (aerosol_start _ _ _ _ _ _ _ I0 Lc) as [L0 _]. assert (N0 := range_nonneg _ _ F0). unfold aerosol_simulation_files in Hrun. rewrite I0 in Hrun. cbn [bind] in Hrun.
  set (mixed := fun t y => if List.length y =? d_ns d + d_nc d * nb then eqs t y else equations t y).
  assert (HE' : off_by_recording delta mixed (files_func rnd rs (List.length m) idx p H2O temp d q nb y_core nper cd cm diss calls start) simulate).
  { intros jac' y tf y1 last Ny Ptf Hs. destruct (HE jac' y tf y1 last Ny Ptf Hs) as (N1 & u & U0 & U & Nu & Cl). split; [exact N1|]. exists u. split; [exact U0|]. split; [|exact Cl].
    eapply solves_ext; [|exact U]. intros t Htt. cbv beta. unfold mixed. destruct (Nat.eqb_spec (List.length (u t)) (d_ns d + d_nc d * nb)) as [L|L]; [|reflexivity]. apply Same; [exact L | apply Nu, Htt]. }
  destruct (run_near delta mixed _ _ _ _ _ _ _ _ _ _ _ _ Pb HE' N0 Hrun) as [X L].
  apply (near_rows_ext delta (d_ns d + d_nc d * nb) mixed eqs (B2R b)) in X; [|intros t y Ly; unfold mixed; rewrite Ly, Nat.eqb_refl; reflexivity | lra | exact L0].
  assert (Lf : List.length (firstn (List.length ts) ys) = List.length ts) by (rewrite firstn_length; lia).
  destruct (HRows delta y0 _ Hdl (conj L0 F0) X ltac:(lia)) as (rws & Lr & X' & Cl). rewrite Lf in Lr, Cl.
  assert (Ch : chained step y0 rws).
  { apply (exact_abatch m text e W Hu Hpr Hdr PC smiles objects cutoff temp nb y_core nper cd cm diss d q AS Hnb H2O HH rnd Hrnd Ht None None None c0 Hc0 (B2R start) (B2R b) Pb HX'); assumption. }
  exists rws. split; [exact Lr|]. split; [exact Ch|]. split.
  - intros rows' L' Ch'. apply (chained_unique step) with (y := y0); [|exact Ch | exact Ch' | lia].
    intros y a b' Ha Hb'. exact (abatch_unique m text e W Hu Hpr Hdr PC smiles objects cutoff temp nb y_core nper cd cm diss d q AS Hnb H2O HH rnd Hrnd None None None c0 Hc0 (B2R start) (B2R b) Pb HX' y a b' Ha Hb').
  - intros j Hj. rewrite <- (firstn_row (List.length ts) ys j Hj). apply Cl, Hj.
Qed.

Lemma self_integrator_cases w c0 rhs jac y0 tf y1 last : self_integrator w c0 (Problem rhs jac y0 fzero) tf = Ok (y1, last) ->
  exists a b, (0 <= a)%R /\ (0 <= b)%R /\ y0 = with_water w c0 [a; b] /\ y1 = with_water w c0 (self_solution a b (B2R tf)).
Proof.
  unfold self_integrator. cbn [pb_y0]. intros H. destruct y0 as [|a [|b [|w' [|c' [|]]]]]; try discriminate.
  destruct (Rle_dec 0 a) as [Pa|]; [|discriminate]. destruct (Rle_dec 0 b) as [Pb|]; [|discriminate]. destruct (Req_EM_T w' w) as [->|]; [|discriminate]. destruct (Req_EM_T c' c0) as [->|]; [|discriminate].
  exists a, b. split; [exact Pa|]. split; [exact Pb|]. split; [reflexivity|]. cbv zeta in H. congruence.
Qed.
(* The mechanism CH3O2 -> CH3O with one size bin of ammonium sulphate and water:
   20 ppb of CH3O2, one hour, and an integrator off by less than five molecules. *)
Example C94_hypotheses : forall before private, exists st p1 t1 d q rs s1 s2 p w c0 y_cond y0 ts row o,
  let t2 := write_loss_gain_fortran repr date0 None 1 (species_count st) (p_sp2a st) (p_loss st) (p_gain st) in
  let fc := FCall (fr_rates rs) (f_prog s1) (f_prog s2) zeros zeros before private [0] in
  let idx := write_RO2_indices (p_sp2a st) in
  Forall unit_coefficients self_mech /\ Forall (fun r => NoDup (names (rhs r)) /\ ~ In (last_reactant r) (names (rhs r))) self_mech /\
  extract_mechanism (ParseShow.show self_words) = Ok (1%Z, st) /\ aerosol_setup st 2 [] [] (-6) 298.15 1 [1e9]%R [50]%R 1770 132.14 3 d q /\
  (d_ns d + d_nc d * 1) + 1 + d_ns d + d_nc d + 1 < 10 ^ 20 /\
  gen_reactants_fortran None 1 (p_sp2a st) (p_reac st) (p_loss st) = Ok p1 /\ write_reactants_fortran repr date0 None 1 (p_sp2a st) (p_reac st) (p_loss st) = Ok t1 /\
  prints repr p1 /\ prints repr (gen_loss_gain_fortran None (p_sp2a st) (p_loss st) (p_gain st)) /\ fine t1 /\ fine t2 /\ fine (rate_file_fortran None st) /\
  read_rates_fortran (rate_file_fortran None st) = Some rs /\ read_fortran one_subscript t1 = Some s1 /\ read_fortran one_subscript t2 = Some s2 /\
  read_fsub (partition_file date0 d 1) = Some p /\ tame_rates self_mech self_expr 1e17 298.15 /\
  off_by_physical 5 (fun t y => option_map fst (files_call (fun x => x) rs 1 idx p 1e17 298.15 d q 1 [1e9]%R [50]%R 1770 132.14 3 fc (B2R f43200 + t) y))
    (files_func (fun x => x) rs 1 idx p 1e17 298.15 d q 1 [1e9]%R [50]%R 1770 132.14 3 (fun _ _ => fc) f43200) (self_integrator w c0) /\
  aerosol_initial (d_ns d) (d_nc d) 1 (d_sp2a d) [(s_ "CH3O2", 20%R); (s_ "H2O", w)] y_cond = Ok y0 /\ List.length y_cond = d_nc d * 1 /\
  Forall (fun c => 0 <= c <= 1e15 + w)%R y0 /\
  aerosol_simulation_files (fun x => x) rs 1 idx p 1e17 298.15 d q 1 [1e9]%R [50]%R 1770 132.14 3 (self_integrator w c0) (fun _ _ => Err ValueError)
    (fun _ _ => fc) f43200 (d_sp2a d) [(s_ "CH3O2", 20%R); (s_ "H2O", w)] y_cond f3600 f3600 = Ok (ts, [row], [o]) /\ List.length ts = 1 /\ (nth 0 row 0 < 20 * Cfactor)%R.
Proof.
  intros before private. set (c0 := (1e9 * 3 * (0.5 / (1 - 0.5)))%R). assert (Pc : (0 <= c0)%R) by (unfold c0; lra).
  destruct (self_aerosol c0 Pc) as (st & d & q & p0 & w & Hst & AS & Hns & Hnc & Hinc & S0 & S2 & Hcall & Pw & HD).
  assert (W := self_written). assert (PC := self_clean). destruct self_ready as [Hu Hpr Hdr].
  assert (M : Forall (fun r => mcm_text (rtext r)) self_mech).
  { apply Forall_forall. intros r I. apply In_nth_error in I. destruct I as (k & Hk).
    destruct (self_coefficients 0 0 0 1 Rlt_0_1 k r Hk) as (A & B & C & F & G). exists (self_expr k), 0%R, 0%R, 1%R, 0%R, (self_rate k 0 0). repeat (split; [assumption|]). exact G. }
  assert (O : one_line date0) by (apply one_line_dec; reflexivity).
  destruct (C90_partial self_mech _ repr date0 W O Hu Hpr Hdr PC M) as (st' & E & HX). assert (X := written_extract _ _ W). rewrite E in X. injection X as ->.
  change (Z.of_nat (List.length self_mech)) with 1%Z in E. rewrite Hst in E. injection E as ->. assert (E := written_extract _ _ W).
  destruct (HX None None None) as (p1 & t1 & G1 & W1 & HY). clear HX. change (List.length self_mech) with 1 in G1, W1.
  assert (Pr1 : prints repr p1 /\ printed_within repr 6 p1).
  { assert (G := G1). apply (f_equal (fun r => match r with Ok x => x | Err _ => p1 end)) in G. rewrite <- G. split; intros qq I; [apply repr_ok|]; vm_compute in I |- *; tauto. }
  destruct Pr1 as [Pr1 Pw1].
  assert (Pr2 : prints repr (gen_loss_gain_fortran None (p_sp2a (interp self_mech)) (p_loss (interp self_mech)) (p_gain (interp self_mech))) /\
    printed_within repr 6 (gen_loss_gain_fortran None (p_sp2a (interp self_mech)) (p_loss (interp self_mech)) (p_gain (interp self_mech)))).
  { split; intros qq I.
    - apply repr_ok. vm_compute in I. left. intuition congruence.
    - vm_compute in I. assert (Eq : (1 = qq)%Q) by (cbv in I |- *; intuition congruence). subst qq. vm_compute. lia. }
  destruct Pr2 as [Pr2 Pw2].
  assert (T5 : 2 < 10 ^ 5) by (apply (Nat.lt_le_trans _ (10 ^ 1)); [cbn; lia | apply Nat.pow_le_mono_r; lia]).
  assert (F1 : fine t1).
  { eapply (C81_reactants_fits self_mech _ repr date0 5 6 2 None (interp self_mech) p1 t1 W O E ltac:(lia) ltac:(lia)); [| | |exact G1|exact Pr1|exact Pw1|exact W1|lia].
    - change (List.length self_mech) with 1. lia.
    - change (List.length (first_seen (reading_order self_mech))) with 2. exact T5.
    - apply Forall_cons; [|constructor]. vm_compute. lia. }
  assert (F2 : fine (write_loss_gain_fortran repr date0 None 1 (species_count (interp self_mech)) (p_sp2a (interp self_mech)) (p_loss (interp self_mech)) (p_gain (interp self_mech)))).
  { apply (C81_dydt_fits self_mech _ repr date0 5 6 None (interp self_mech) W O E ltac:(lia) ltac:(lia)); [| |exact Pr2|exact Pw2|lia].
    - change (List.length self_mech) with 1. lia.
    - change (List.length (first_seen (reading_order self_mech))) with 2. exact T5. }
  assert (F3 : fine (rate_file_fortran None (interp self_mech))).
  { unfold rate_file_fortran. destruct (rates_of_mech _ _ convert_fortran good_rate _ W E) as (Fg & L).
    { intros k r I. rewrite Forall_forall in M. exact (proj1 (mcm_fortran k _ (M r I))). }
    apply C83_fits; [exact Fg | |].
    - rewrite L. apply (Nat.lt_le_trans _ (10 ^ 1)); [vm_compute; lia | apply Nat.pow_le_mono_r; lia].
    - rewrite interp_rate. cbn [List.length self_mech self_words map seq combine convert_dict fst snd]. repeat (apply Forall_cons; [vm_compute; reflexivity|]). constructor. }
  assert (Small : (d_ns d + d_nc d * 1) + 1 + d_ns d + d_nc d + 1 < 10 ^ 20).
  { rewrite Hns, Hnc. apply (Nat.lt_le_trans _ (10 ^ 2)); [cbn; lia | apply Nat.pow_le_mono_r; lia]. }
  change (List.length (first_seen (reading_order self_mech))) with 2 in HY.
  destruct (HY [] [] (-6)%R 298.15%R 1 [1e9]%R [50]%R 1770%R 132.14%R 3%R d q AS ltac:(discriminate) Small Pr1 Pr2 F1 F2 F3)
    as (rs & s1 & s2 & p & R1 & R2 & R3 & R4 & _ & HC). clear HY.
  set (fc := FCall (fr_rates rs) (f_prog s1) (f_prog s2) zeros zeros before private [0]). set (idx := write_RO2_indices (p_sp2a (interp self_mech))).
  assert (Files : forall clock y, List.length y = d_ns d + d_nc d * 1 -> nonneg y -> exists dy out,
    files_call (fun x => x) rs 1 idx p 1e17 298.15 d q 1 [1e9]%R [50]%R 1770 132.14 3 fc clock y = Some (dy, out) /\
    aerosol_dydt (interp self_mech) 1 (fun x => x) 1e17 298.15 d q 1 [1e9]%R [50]%R 1770 132.14 3 (self_call p0 (interp self_mech)) clock y = Some dy).
  { intros clock y Ly Ny. destruct (HC (fr_rates rs) (f_prog s1) (f_prog s2) [0] eq_refl eq_refl eq_refl (Permutation_refl [0]) (fun x => x) zeros zeros before private self_expr clock 0%R 1e17%R y _
      (fun x _ => eq_refl) ltac:(lra) Ly Ny (self_coefficients _ _ _ 298.15%R ltac:(lra))) as (dy & out & inp & Q1 & Q2 & Q3 & Q4 & Q5 & Q6 & _ & _ & Q7 & _).
    exists dy, out. split; [exact Q1|].
    refine (call_same self_mech _ self_expr W Hu Hpr Hdr PC [] [] (-6)%R 298.15%R 1 [1e9]%R [50]%R 1770%R 132.14%R 3%R d q AS ltac:(discriminate) 1e17%R ltac:(lra) (fun x => x) (fun x _ => eq_refl) None None None _ clock y _ dy out inp Hcall Ly Ny _ Q2 Q3 Q4 Q5 Q6 Q7).
    rewrite Rplus_0_r. apply self_coefficients. lra. }
  assert (Nn : forall a b t, (0 <= a)%R -> (0 <= b)%R -> (0 <= t)%R -> nonneg (with_water w c0 (self_solution a b t))).
  { intros a b t Pa Pb Pt. apply Forall_app. split; [apply self_nonneg; assumption|]. repeat (apply Forall_cons; [assumption|]). apply Forall_nil. }
  assert (Ll : forall a b t, List.length (with_water w c0 (self_solution a b t)) = d_ns d + d_nc d * 1) by (intros a b t; rewrite Hns, Hnc; reflexivity).
  set (y1 := with_water w c0 (self_solution (20 * Cfactor) 0 (B2R f3600))).
  assert (B36 : B2R f3600 = 3600%R) by (destruct f3600_num as [_ Q]; rewrite Q; cbn [bpow]; ring).
  assert (P1 : (1 < 1 + 1.82e-13 * (20 * Cfactor) * B2R f3600)%R) by (rewrite B36; unfold Cfactor; lra).
  assert (PCf : (0 < 20 * Cfactor)%R) by (unfold Cfactor; lra).
  assert (Bx : (20 * Cfactor / (1 + 1.82e-13 * (20 * Cfactor) * B2R f3600) < 20 * Cfactor)%R).
  { apply Rmult_lt_reg_r with (1 + 1.82e-13 * (20 * Cfactor) * B2R f3600)%R; [lra|]. unfold Rdiv at 1. rewrite Rmult_assoc, Rinv_l by lra. rewrite Rmult_1_r, <- (Rmult_1_r (20 * Cfactor)) at 1. apply Rmult_lt_compat_l; assumption. }
  destruct (Files (B2R (fadd f43200 f3600)) y1 (Ll _ _ _) (Nn (20 * Cfactor)%R 0%R (B2R f3600) ltac:(lra) ltac:(lra) ltac:(lra))) as (dy1 & out1 & O1 & _).
  assert (I0 : aerosol_initial (d_ns d) (d_nc d) 1 (d_sp2a d) [(s_ "CH3O2", 20%R); (s_ "H2O", w)] [c0] = Ok (with_water w c0 [20 * Cfactor; 0]%R)).
  { rewrite Hns, Hnc. unfold aerosol_initial. cbn [foldM]. unfold set_gas at 1. cbn [fst snd]. unfold lookup. rewrite S0. cbn [bind].
    change (eqb (s_ "CH3O2") (s_ "H2O")) with false. cbv iota. unfold store at 1. cbn [repeat Nat.add Nat.mul List.length Nat.ltb Nat.leb bind set_nth].
    unfold set_gas. cbn [fst snd]. unfold lookup. rewrite S2. cbn [bind]. change (eqb (s_ "H2O") (s_ "H2O")) with true. cbv iota. unfold store. cbn [List.length Nat.ltb Nat.leb bind set_nth].
    unfold slice_assign. cbn [firstn skipn app Nat.add Nat.mul bind List.length]. reflexivity. }
  exists (interp self_mech), p1, t1, d, q, rs, s1, s2, p, w, c0, [c0], (with_water w c0 [20 * Cfactor; 0]%R). eexists _, y1, _. cbv zeta. fold fc. fold idx.
  split; [exact Hu|]. split; [exact Hpr|]. split; [exact Hst|]. split; [exact AS|]. split; [exact Small|]. split; [exact G1|]. split; [exact W1|]. split; [exact Pr1|]. split; [exact Pr2|].
  split; [exact F1|]. split; [exact F2|]. split; [exact F3|]. split; [exact R1|]. split; [exact R2|]. split; [exact R3|]. split; [exact R4|]. split; [apply self_tame; lra|]. split.
  { intros jac y tf y2 last Ny Ptf H. apply self_integrator_cases in H as (a & b & Pa & Pb & -> & ->). split; [apply Nn; assumption|].
    exists (fun t => with_water w c0 (self_solution a b t)).
    split; [unfold with_water, self_solution; cbn [app]; f_equal; [field | f_equal; field]|]. split.
    { eapply solves_ext; [|exact (self_aerosol_solves (interp self_mech) d q p0 w c0 (B2R f43200) 1e17 a b (B2R tf) Hst (fun clock a' b' Pa' Pb' => proj1 (HD 1e17%R clock a' b' ltac:(lra) Pa' Pb')) ltac:(lra) Pa Pb)].
      intros t Htt. cbv beta. destruct (Files (B2R f43200 + t)%R (with_water w c0 (self_solution a b t)) (Ll _ _ _) (Nn a b t Pa Pb ltac:(lra))) as (dy & out & Q1 & Q2). rewrite Q1, Q2. reflexivity. }
    split; [intros t Htt; apply Nn; [exact Pa | exact Pb | lra]|]. split; [reflexivity|]. intros i _. unfold Rminus. rewrite Rplus_opp_r, Rabs_R0. lra. }
  split; [exact I0|]. split; [rewrite Hnc; reflexivity|]. split.
  { unfold with_water. cbn [app]. repeat apply Forall_cons; [split; [lra | unfold Cfactor; lra] | split; lra | split; [exact Pw | lra] | split; [exact Pc | unfold c0; lra] | constructor]. }
  split; [|split; [|unfold y1, with_water, self_solution; cbn [app nth]; exact Bx]].
  - unfold aerosol_simulation_files. rewrite I0. cbn [bind].
    assert (B := f3600_num). destruct (quotient_exact f3600 f3600 3600 1 0 B B ltac:(lia) ltac:(lia)) as [E1 E2].
    unfold record_run. rewrite E1. cbn [bind]. rewrite E2. cbn [bind]. change (Z.of_nat 1 <? 0)%Z with false. cbv iota. change (Z.to_nat (Z.of_nat 1)) with 1. cbn [record_loop].
    rewrite (bltb_num fzero f3600 0 3600 0 (fzero_num 0) B). change (0 <? 3600)%Z with true. cbv iota.
    rewrite (beqb_num fzero 0 0 (fzero_num 0)). change (0 =? 0)%Z with true. cbv iota. cbn [bind].
    unfold self_integrator at 1. cbn [pb_y0]. unfold with_water at 1. cbn [app]. destruct (Rle_dec 0 (20 * Cfactor)) as [_|F]; [|exfalso; lra]. destruct (Rle_dec 0 0) as [_|F]; [|exfalso; lra].
    destruct (Req_EM_T w w) as [_|F]; [|congruence]. destruct (Req_EM_T c0 c0) as [_|F]; [|congruence]. cbv zeta. cbn [bind]. fold y1.
    assert (Obs : files_observe (fun x => x) rs 1 idx p 1e17 298.15 d q 1 [1e9]%R [50]%R 1770 132.14 3 (fun _ _ => fc) f43200 f3600 y1 = Ok (a_soa out1, a_size out1)) by (unfold files_observe; rewrite O1; reflexivity).
    rewrite Obs. cbn [bind].
    assert (FA := fadd_exact fzero f3600 0 3600 0 (fzero_num 0) B ltac:(cbn; lia) ltac:(lia) ltac:(cbn [bpow]; rewrite Rmult_1_r; apply small_int_bound; cbn; lia)).
    assert (E3 : Bltb (fadd fzero f3600) f3600 = false) by (rewrite (bltb_num _ _ _ _ _ FA B); reflexivity).
    rewrite E3. cbn [bind fst snd repeat]. reflexivity.
  - reflexivity.
Qed.

Print Assumptions C94_partial.
