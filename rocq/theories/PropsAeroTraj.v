(* C73-C75: runs of the aerosol models. *)
From Coq Require Import String List Bool Arith Lia ZArith QArith Reals Qreals Lra Permutation Sorted.
From Flocq Require Import Core BinarySingleNaN.
From Verif Require Import Base PyStr PyDict ModelParse SpecMech ParseStruct ParseTables ParseWritten ParseShow PropsParse
  ModelLang ModelGen ModelRhs SpecKin LangFacts GenReact GenLossGain GenParsed GenSparse PropsKin PropsRhs
  ModelOmp ModelExpr ModelRate ModelRateFile SpecRate RateExpr PropsRate ModelRateBody ModelRateRun RateSym
  SpecRateValue SpecMcmEnv PropsRateValue ModelRo2 SpecRo2 PropsRo2 ModelGas SpecGas PropsGas PropsGasJac
  ModelSolver SpecSolver SolverFacts OdeFacts PropsSolver ModelSplit PropsSplit SpecMethod PropsMethod SpecTraj OdeSign PropsTraj
  OdeNear ModelPart SpecPart PartFacts PartValue PropsPart PartBounds ModelAero SpecAero PropsAero PropsAeroRun PropsAeroChem AeroPull GasFortran
  ModelYield PropsYield ModelAeroRun SpecAeroRun.
Import ListNotations.
Import Coq.Lists.List.
Open Scope nat_scope.
Open Scope list_scope.
Local Arguments eqb : simpl never.

(* What the set-ups of both drivers give. *)
Record well_prepared (d : prepared) : Prop := {
  wp_nc : d_nc d = List.length (d_include d); wp_density : List.length (d_density d) = d_nc d; wp_mw : List.length (d_mw d) = d_nc d;
  wp_vp : List.length (d_vp d) = d_nc d; wp_range : Forall (fun g => g < d_ns d) (d_include d); wp_nodup : NoDup (d_include d);
  wp_water : 1 <= d_nc d; wp_pos : Forall (Rlt 0) (d_density d) /\ Forall (Rlt 0) (d_mw d); wp_ns : 1 <= d_ns d }.

Lemma sorted_nodup l : StronglySorted lt l -> NoDup l.
Proof. induction 1 as [|x l S IH F]; constructor; [|exact IH]. intros C. rewrite Forall_forall in F. specialize (F x C). lia. Qed.

Lemma firstn_nth k (y : list R) i : i < k -> nth i (firstn k y) 0%R = nth i y 0%R.
Proof. revert i y. induction k as [|k IH]; intros [|i] [|x y] Hi; cbn; try reflexivity; try lia. apply IH. lia. Qed.

Lemma aerosol_prepared text n st smiles objects cutoff temp p d : extract_mechanism text = Ok (n, st) ->
  Pure_component1 (List.length (p_sp st)) (p_sp st) (p_sp2a st) smiles objects true cutoff = Ok p ->
  prepare (List.length (p_sp st)) (p_sp2a st) p true temp = Ok d ->
  (forall i x c, dget i (p_sp st) = Some x -> molecule_of smiles objects x c -> sensible c) -> well_prepared d.
Proof.
  intros Htext Hp Hd Hchem.
  destruct (C44_partial text n st smiles objects cutoff p temp Htext Hp) as (d' & Hd' & Hns & Hnc & L1 & L2 & L3 & LF & Hs & Fb & Hin & _ & Wnc & WI & WD & WM & WV & _).
  assert (d' = d) by congruence. subst d'. constructor; try assumption; [apply sorted_nodup, Hs | | lia].
  split; apply Forall_forall; intros v Hv; apply In_nth_error in Hv as [j Hj].
  - assert (Hjl : j < d_nc d) by (rewrite <- L1; apply nth_error_Some; congruence).
    destruct (Nat.eq_dec j (d_nc d - 1)) as [->|Hne]; [rewrite WD in Hj; injection Hj as <-; lra|].
    destruct (nth_error (d_include d) j) as [i|] eqn:Ei; [|apply nth_error_None in Ei; lia]. destruct (Hin j i Ei ltac:(lia)) as (x & c & Hx & Hc & _ & E & _).
    rewrite E in Hj. injection Hj as <-. destruct (Hchem i x c Hx Hc). lra.
  - assert (Hjl : j < d_nc d) by (rewrite <- L2; apply nth_error_Some; congruence).
    destruct (Nat.eq_dec j (d_nc d - 1)) as [->|Hne]; [rewrite WM in Hj; injection Hj as <-; lra|].
    destruct (nth_error (d_include d) j) as [i|] eqn:Ei; [|apply nth_error_None in Ei; lia]. destruct (Hin j i Ei ltac:(lia)) as (x & c & Hx & Hc & _ & _ & E & _).
    rewrite E in Hj. injection Hj as <-. destruct (Hchem i x c Hx Hc). lra.
Qed.

(* Amounts in both phases as one weighted sum over the state. *)
Definition slot_weight (wt : nat -> R) (ns nc : nat) (include : list nat) (i : nat) : R :=
  if i <? ns then wt i else wt (nth ((i - ns) mod nc) include 0).

Lemma slot_weight_slot wt ns nc include b j : j < nc -> slot_weight wt ns nc include (slot ns nc b j) = wt (nth j include 0).
Proof.
  intros Hj. unfold slot_weight, slot. rewrite (proj2 (Nat.ltb_ge _ _)) by lia. do 2 f_equal.
  replace (ns + b * nc + j - ns) with (j + b * nc) by lia. rewrite Nat.mod_add by lia. apply Nat.mod_small, Hj.
Qed.

Lemma both_phases_amount wt ns nc nb include y :
  amount_of (both_phases wt ns nc nb include) y = rsum (map (fun i => slot_weight wt ns nc include i * nth i y 0)%R (seq 0 (ns + nc * nb))).
Proof.
  unfold amount_of, both_phases. rewrite map_app, rsum_app, seq_app, map_app, rsum_app, Nat.add_0_l. f_equal.
  - rewrite map_map. apply rsum_ext. intros i Hi. apply in_seq in Hi. cbn [fst snd]. unfold slot_weight. rewrite (proj2 (Nat.ltb_lt _ _)) by lia. reflexivity.
  - rewrite (condensed_sum (fun i => slot_weight wt ns nc include i * nth i y 0)%R ns nc nb).
    induction (seq 0 nb) as [|b l IH]; [reflexivity|]. cbn [flat_map]. rewrite map_app, rsum_app, IH. cbn [map rsum fold_right]. f_equal.
    rewrite map_map. cbn [fst snd]. apply rsum_ext. intros j Hj. apply in_seq in Hj. rewrite slot_weight_slot by lia. reflexivity.
Qed.

Lemma both_phases_range wt ns nc nb include : Forall (fun a => snd a < ns + nc * nb) (both_phases wt ns nc nb include).
Proof.
  unfold both_phases. apply Forall_app. split; apply Forall_forall; intros a Ha.
  - apply in_map_iff in Ha as (i & <- & Hi). apply in_seq in Hi. cbn [snd]. lia.
  - apply in_flat_map in Ha as (b & Hb & Ha). apply in_map_iff in Ha as (j & <- & Hj). apply in_seq in Hb, Hj. cbn [snd]. unfold slot. nia.
Qed.

(* The exchange moves molecules and changes no amount. *)
Lemma exchange_keeps wt d temp q nb y_core nper core_density core_mw diss bins y e : well_prepared d -> Permutation bins (seq 0 nb) ->
  exchange d temp q nb y_core nper core_density core_mw diss bins y = Some e -> amount_of (both_phases wt (d_ns d) (d_nc d) nb (d_include d)) e = 0%R.
Proof.
  intros WP PB E. unfold exchange in E. destruct (partition_inputs _ _ _ _ _ _ _ _ _) as [inp|]; [|discriminate]. cbn [obind] in E.
  destruct (dydt_partition _ _ _ _ _ _) as [[[[soa aw] size] dy]|] eqn:EP; [|discriminate]. cbn [option_map snd] in E. injection E as <-.
  rewrite both_phases_amount.
  rewrite (weighted_total _ _ _ _ _ _ _ _ _ _ _ (wp_nodup d WP) (eq_sym (wp_nc d WP)) PB (wp_range d WP) EP).
  apply rsum_zero. intros j Hj. apply in_seq in Hj. apply rsum_zero. intros b _. rewrite slot_weight_slot by lia.
  assert (In (nth j (d_include d) 0) (d_include d)) by (apply nth_In; rewrite <- (wp_nc d WP); lia).
  assert (R := proj1 (Forall_forall _ _) (wp_range d WP) _ H). cbv beta in R.
  unfold slot_weight at 1. rewrite (proj2 (Nat.ltb_lt _ _) R). ring.
Qed.

(* ------------------------------------------------------------------ *)
Section Aerosol.
Context (m : mech) (text : str) (st : pstate) (W : written m text) (FR : fortran_ready m)
  (Hst : extract_mechanism text = Ok (Z.of_nat (List.length m), st)).
Notation N := (List.length (species m)).
Context (smiles : dict str str) (objects : dict str chem) (cutoff temp : R) (p : pc1) (d : prepared) (q : pc2).
Context (Hp : Pure_component1 N (p_sp st) (p_sp2a st) smiles objects true cutoff = Ok p).
Context (Hd : prepare N (p_sp2a st) p true temp = Ok d).
Context (Hchem : forall i x c, dget i (p_sp st) = Some x -> molecule_of smiles objects x c -> sensible c).
Context (Htemp : (0 < temp)%R) (Hq : Pure_component2 (d_nc d) (d_mw d) Rgas temp = Some q).
Context (nb : nat) (y_core nper : list R) (core_density core_mw diss : R) (SD : seeds nb y_core nper core_density core_mw diss).
Context (rnd : Q -> Q) (Hrnd : is_rounding rnd) (H2O : R) (o1 o2 o3 : option (list nat)).
Notation n := (d_ns d + d_nc d * nb).
Notation dydt := (aerosol_dydt st (List.length m) rnd H2O temp d q nb y_core nper core_density core_mw diss).

Lemma species_length : List.length (p_sp st) = N.
Proof. rewrite (is_interp m text st W Hst). destruct (interp_species m) as (-> & _). rewrite combine_length, seq_length. apply Nat.min_id. Qed.

Lemma prepared_here : well_prepared d.
Proof. rewrite <- species_length in Hp, Hd. exact (aerosol_prepared text _ st smiles objects cutoff temp p d Hst Hp Hd Hchem). Qed.

Lemma gas_count : d_ns d = N + 1.
Proof.
  rewrite <- species_length in Hp, Hd |- *. destruct (C44_partial _ _ _ smiles objects cutoff p temp Hst Hp) as (d' & Hd' & Hns & _). congruence.
Qed.

Lemma dydt_split c clock y dy : is_call st (List.length m) nb o1 o2 o3 c -> List.length y = n -> dydt c clock y = Some dy ->
  exists g e, aerosol_gas st (List.length m) rnd H2O temp c clock y (firstn N y) = Some g /\ List.length g = N /\
    exchange d temp q nb y_core nper core_density core_mw diss (c_bins c) y = Some e /\ List.length e = n /\ List.length dy = n /\
    forall i, i < n -> nth i dy 0%R = ((if i <? d_ns d - 1 then nth i g 0 else 0) + nth i e 0)%R.
Proof.
  intros (_ & _ & _ & PB) Ly H. assert (WP := prepared_here).
  destruct (rhs_split d temp q (wp_nc d WP) (wp_density d WP) (wp_mw d WP) (wp_vp d WP) (wp_water d WP) nb y_core nper core_density core_mw diss (proj1 (sd_core _ _ _ _ _ _ SD)) (proj1 (sd_nper _ _ _ _ _ _ SD)) _ _ _ _ (wp_ns d WP) Ly PB H) as (g & e & G1 & G2 & G3 & G4 & G5 & G6).
  assert (Gm : d_ns d - 1 = N) by (rewrite gas_count; lia). exists g, e. rewrite Gm in G1, G2. repeat split; assumption.
Qed.

(* Non-negativity of exact solutions. *)
Lemma aerosol_nonneg e k start_time T calls u : peroxy_clean (species m) -> (0 <= H2O)%R -> (0 <= T)%R ->
  regular_rates (List.length m) k start_time (start_time + T) ->
  (forall t x, (start_time <= t <= start_time + T)%R -> coefficients m e t x H2O temp (fun r => k r t x)) ->
  (forall t y, is_call st (List.length m) nb o1 o2 o3 (calls t y)) ->
  List.length (u 0%R) = n -> solves (fun t y => dydt (calls t y) (start_time + t)%R y) T u ->
  nonneg (u 0%R) -> forall t, (0 <= t <= T)%R -> nonneg (u t).
Proof.
  intros PC HH PT HR HC Hcall Lu Hs H0. assert (WP := prepared_here). assert (Est := is_interp m text st W Hst).
  assert (Hne : species m <> []) by (destruct PC as ((s & Hin & _) & _); destruct (species m); [destruct Hin | discriminate]).
  destruct (sd_core _ _ _ _ _ _ SD) as [S1 S2], (sd_nper _ _ _ _ _ _ SD) as [S3 S4], (sd_pos _ _ _ _ _ _ SD) as (S5 & S6 & S7).
  destruct (exchange_pull d temp q (wp_nc d WP) (wp_density d WP) (wp_mw d WP) (wp_vp d WP) (wp_range d WP) (wp_nodup d WP) (wp_water d WP)
     (proj1 (wp_pos d WP)) (proj2 (wp_pos d WP)) Htemp Hq nb y_core nper core_density core_mw diss S1 S3 S2 S4 S5 S6 S7) as (eps & Pe & HX).
  apply (solution_nonneg_near (fun t y => dydt (calls t y) (start_time + t)%R y) T u eps PT Hs Pe); [|exact H0].
  intros M PM. rewrite Lu. destruct (HX M PM) as (K2 & PK2 & X2).
  assert (Wh := ready_whole m FR).
  destruct (quasi_estimate N (fun t => 0 <= t <= T)%R (fun t y => generated m (rates_at m k start_time t y) y)
     (fun i _ => generated_ulip m k start_time T i Wh HR)) with (M := Rmax M eps) as (K1 & PK1 & X1).
  { intros t y i Ht Ly Ny Hi Hz. apply (generated_boundary m text); try assumption; [unfold rates_at; rewrite map_length, seq_length; reflexivity| | lia].
    apply Forall_forall. intros x Hx. unfold rates_at in Hx. apply in_map_iff in Hx as (r & <- & Hr). apply in_seq in Hr. apply HR; [lia | lra|].
    unfold peroxy_total. apply rsum_nonneg. intros x Hx. apply in_map_iff in Hx as (s & <- & _). destruct (is_peroxy s); [apply conc_of_nonneg, Ny | lra]. }
  { apply Rle_trans with M; [exact PM | apply Rmax_l]. }
  exists (K1 + K2)%R. intros t y dy Ht Ly By Hy. destruct (dydt_split _ _ _ _ (Hcall t y) Ly Hy) as (g & ex & G1 & G2 & G3 & G4 & G5 & G6).
  assert (Gc := gas_count). assert (Hns : 1 <= d_ns d) by lia.
  rewrite (rhs_pull d (wp_nc d WP) (wp_density d WP) (wp_mw d WP) (wp_vp d WP) (wp_water d WP) nb y_core nper S1 S3 y dy g ex G6 Hns). rewrite Gc, Nat.add_sub.
  destruct (Hcall t y) as ((p1 & C1 & C2) & C3 & C4 & C5).
  assert (Eg : g = generated m (rates_at m k start_time t (firstn N y)) (firstn N y)).
  { assert (Q := generated_fortran m text st W FR Hst Hne e o1 o2 o3 p1 _ _ _ rnd (c_a0 (calls t y)) (c_m0 (calls t y)) (start_time + t)%R 0%R H2O temp y
      (fun r => k r (start_time + t)%R (peroxy_total (species m) (conc_of (p_sp2a st) (firstn N y)))) PC C1 C2 C3 C4 Hrnd Htemp HH ltac:(lia)).
    cbv zeta in Q. rewrite Rplus_0_r in Q. assert (Ht' : (start_time <= start_time + t <= start_time + T)%R) by lra. specialize (Q (HC _ _ Ht')). unfold aerosol_gas in G1. rewrite Q in G1. injection G1 as <-.
    unfold rates_at. rewrite Est. reflexivity. }
  assert (Bf : bounded_by N (Rmax M eps) (firstn N y)).
  { split; [rewrite firstn_length; lia|]. intros i Hi. rewrite firstn_nth by exact Hi. assert (B := By i ltac:(lia)). apply Rabs_le.
    assert (B1 := Rmax_l M eps). assert (B2 := Rmax_r M eps). lra. }
  assert (Y1 := X1 t (firstn N y) Ht Bf). rewrite <- Eg in Y1.
  assert (Y2 := X2 _ y ex C5 Ly By G3). assert (Y3 := deficit_firstn N n y ltac:(lia)). rewrite Gc in Y2, Y3.
  assert (Y4 := Rmult_le_compat_l _ _ _ PK1 Y3). lra.
Qed.

(* Amounts that the reactions balance. *)
Lemma dydt_keeps w water c clock y dy : species m <> [] -> Forall (fun r => weight w (lhs r) = weight w (rhs r)) m -> w light = 0%R -> (forall x, In x bath -> w x = 0%R) ->
  is_call st (List.length m) nb o1 o2 o3 c -> List.length y = n -> dydt c clock y = Some dy ->
  amount_of (both_phases (by_species (species m) w water) (d_ns d) (d_nc d) nb (d_include d)) dy = 0%R.
Proof.
  intros Hne Hw Hl Hb Hc Ly H. assert (WP := prepared_here). assert (Gc := gas_count).
  destruct (dydt_split _ _ _ _ Hc Ly H) as (g & ex & G1 & G2 & G3 & G4 & G5 & G6). destruct Hc as (_ & C3 & _ & C5).
  assert (X := exchange_keeps (by_species (species m) w water) _ _ _ _ _ _ _ _ _ _ _ _ WP C5 G3).
  rewrite both_phases_amount in X |- *.
  transitivity (rsum (map (fun i => slot_weight (by_species (species m) w water) (d_ns d) (d_nc d) (d_include d) i * (if i <? N then nth i g 0 else 0))%R (seq 0 n)) +
     rsum (map (fun i => slot_weight (by_species (species m) w water) (d_ns d) (d_nc d) (d_include d) i * nth i ex 0)%R (seq 0 n)))%R.
  { rewrite rsum_plus. apply rsum_ext. intros i Hi. apply in_seq in Hi. rewrite G6 by lia. rewrite Gc, Nat.add_sub. ring. }
  rewrite X, Rplus_0_r. replace n with (N + (1 + d_nc d * nb)) by lia. rewrite seq_app, map_app, rsum_app.
  rewrite (rsum_zero _ (seq (0 + N) (1 + d_nc d * nb))) by (intros i Hi; apply in_seq in Hi; rewrite (proj2 (Nat.ltb_ge _ _)) by lia; ring).
  destruct (fortran_keeps m text st W FR Hst Hne w o2 rnd (c_a0 c) (c_m0 c) (c_reactants c) (c_loss_gain c) (c_rates c) _ clock 0%R H2O temp (firstn N y) g Hw Hl Hb Hrnd C3 ltac:(rewrite firstn_length; lia) G1) as [A _].
  rewrite Rplus_0_r. etransitivity; [|exact A]. unfold amount_of, atoms. rewrite map_map. cbn [fst snd].
  rewrite (is_interp m text st W Hst). destruct (interp_species m) as (_ & -> & _ & _).
  assert (G : forall (l : list str) k, (forall i, i < List.length l -> nth_error (species m) (k + i) = nth_error l i) -> k + List.length l <= N ->
    rsum (map (fun i => slot_weight (by_species (species m) w water) (d_ns d) (d_nc d) (d_include d) i * (if i <? N then nth i g 0 else 0))%R (seq k (List.length l))) =
    rsum (map (fun x => w (fst x) * nth (snd x) g 0)%R (combine l (seq k (List.length l))))).
  { induction l as [|s l IH]; intros k Hk Hl'; [reflexivity|]. cbn [List.length seq map combine rsum fold_right fst snd] in *. f_equal.
    - unfold slot_weight. rewrite !(proj2 (Nat.ltb_lt _ _)) by lia. unfold by_species. assert (Q := Hk 0 ltac:(lia)). rewrite Nat.add_0_r in Q. rewrite Q. reflexivity.
    - apply IH; [|lia]. intros i Hi. replace (Datatypes.S k + i) with (k + Datatypes.S i) by lia. apply (Hk (Datatypes.S i)). lia. }
  apply (G (species m) 0); [reflexivity | lia].
Qed.
End Aerosol.

(* ------------------------------------------------------------------ *)
(* C73: exact solutions of the aerosol equations stay non-negative, in the gas
   and in the particles, whatever order the parallel loops take at each call. *)
Theorem C73_partial : forall m text e k, written m text ->
  Forall unit_coefficients m -> Forall (fun r => NoDup (names (rhs r)) /\ ~ In (last_reactant r) (names (rhs r))) m ->
  Forall distinct_reactants m -> peroxy_clean (first_seen (reading_order m)) ->
  exists st, extract_mechanism text = Ok (Z.of_nat (List.length m), st) /\
  forall smiles objects cutoff temp nb y_core nper core_density core_mw diss d q,
    aerosol_setup st (List.length (first_seen (reading_order m))) smiles objects cutoff temp nb y_core nper core_density core_mw diss d q ->
  forall rnd H2O o1 o2 o3 calls start_time T u, is_rounding rnd -> (0 <= H2O)%R -> (0 <= T)%R ->
    regular_rates (List.length m) k start_time (start_time + T) ->
    (forall t x, (start_time <= t <= start_time + T)%R -> coefficients m e t x H2O temp (fun r => k r t x)) ->
    (forall t y, is_call st (List.length m) nb o1 o2 o3 (calls t y)) ->
    List.length (u 0%R) = d_ns d + d_nc d * nb ->
    solves (fun t y => aerosol_dydt st (List.length m) rnd H2O temp d q nb y_core nper core_density core_mw diss (calls t y) (start_time + t)%R y) T u ->
    nonneg (u 0%R) -> forall t, (0 <= t <= T)%R -> nonneg (u t).
Proof.
  intros m text e k W Hu Hpr Hdr PC. exists (interp m). assert (Hst := written_extract _ _ W). split; [exact Hst|].
  intros smiles objects cutoff temp nb y_core nper cd cm diss d q [(p & Hp & Hd) Hq Hchem Htemp SD] rnd H2O o1 o2 o3 calls start T u Hrnd HH PT HR HC Hcall Lu Hs H0.
  assert (FR : fortran_ready m) by (constructor; assumption).
  exact (aerosol_nonneg m text (interp m) W FR Hst smiles objects cutoff temp p d q Hp Hd Hchem Htemp Hq nb y_core nper cd cm diss SD rnd Hrnd H2O o1 o2 o3 e k start T calls u PC HH PT HR HC Hcall Lu Hs H0).
Qed.

(* The starting state. *)
Lemma store_in i v (y r : list R) : store i v y = Ok r -> r = set_nth i v y /\ i < List.length y.
Proof. unfold store. destruct (i <? List.length y) eqn:E; [|discriminate]. intros H. injection H as <-. split; [reflexivity | apply Nat.ltb_lt, E]. Qed.
Lemma set_nth_nonneg i v (y : list R) : nonneg y -> (0 <= v)%R -> nonneg (set_nth i v y).
Proof.
  unfold nonneg. rewrite !Forall_forall. intros Hy Hv z Hz. assert (Hz' : In z y \/ z = v).
  { clear -Hz. revert i Hz. induction y as [|a y IH]; intros [|i] Hz; cbn in Hz; try tauto.
    - destruct Hz as [<-|Hz]; [right; reflexivity | left; right; exact Hz].
    - destruct Hz as [<-|Hz]; [left; left; reflexivity|]. destruct (IH i Hz) as [I|I]; [left; right; exact I | right; exact I]. }
  destruct Hz' as [I| ->]; auto.
Qed.
Lemma condensed_start nc nb y_core diss RH nx y : initial_condensed nc nb y_core diss RH nx = Ok y -> Forall (Rlt 0) y_core -> (0 < diss)%R -> (0 <= RH < 1)%R ->
  List.length y = nc * nb /\ nonneg y.
Proof.
  unfold initial_condensed. intros H Pc Pd HR.
  assert (G : forall l z r, foldM (water_step nc y_core diss RH) l z = Ok r -> nonneg z -> List.length r = List.length z /\ nonneg r).
  { induction l as [|x l IH]; intros z r Hr Nz; cbn [foldM] in Hr; [injection Hr as <-; auto|]. apply bind_Ok in Hr as (z1 & H1 & Hr).
    unfold water_step in H1. apply bind_Ok in H1 as (c & Hc & H1). unfold rdiv in H1. destruct (Req_EM_T (1 - RH) 0) as [C|C]; [lra|].
    apply store_in in H1 as [-> _]. destruct (IH _ _ Hr) as [L Nn].
    - apply set_nth_nonneg; [exact Nz|]. unfold py_nth in Hc. destruct (nth_error y_core x) as [c'|] eqn:E; [|discriminate]. injection Hc as ->.
      assert (0 < c)%R by (apply (proj1 (Forall_forall _ _) Pc), (nth_error_In _ _ E)).
      assert (0 <= RH / (1 - RH))%R by (apply Rmult_le_pos; [lra | left; apply Rinv_0_lt_compat; lra]).
      apply Rmult_le_pos; [apply Rmult_le_pos; lra | assumption].
    - split; [rewrite L; apply set_nth_len | exact Nn]. }
  destruct (G _ _ _ H) as [L Nn]; [|rewrite L, repeat_length; auto]. apply Forall_forall. intros x Hx. apply repeat_spec in Hx. lra.
Qed.
Lemma aerosol_start ns nc nb sp2a conc y_cond y : aerosol_initial ns nc nb sp2a conc y_cond = Ok y -> List.length y_cond = nc * nb ->
  List.length y = ns + nc * nb /\ (Forall (fun sc => 0 <= snd sc)%R conc -> nonneg y_cond -> nonneg y).
Proof.
  unfold aerosol_initial. intros H Lc. apply bind_Ok in H as (z & Hz & H). assert (E : y = slice_assign ns (ns + nb * nc) y_cond z) by congruence. subst y. clear H.
  assert (G : forall c a r, foldM (set_gas sp2a) c a = Ok r -> List.length r = List.length a /\ (Forall (fun sc => 0 <= snd sc)%R c -> nonneg a -> nonneg r)).
  { induction c as [|x c IH]; intros a r Hr; cbn [foldM] in Hr; [injection Hr as <-; auto|]. apply bind_Ok in Hr as (a1 & H1 & Hr).
    unfold set_gas in H1. apply bind_Ok in H1 as (i & _ & H1). apply store_in in H1 as [-> _]. destruct (IH _ _ Hr) as [L Nn].
    split; [rewrite L; apply set_nth_len|]. intros Fc Na. inversion Fc as [|? ? Fx Fc']; subst. apply Nn; [exact Fc'|]. apply set_nth_nonneg; [exact Na|].
    destruct (eqb (fst x) (s_ "H2O")); [exact Fx | apply Rmult_le_pos; [exact Fx | unfold Cfactor; lra]]. }
  destruct (G _ _ _ Hz) as [L Nn]. rewrite repeat_length in L. unfold slice_assign. split.
  - rewrite !app_length, firstn_length, skipn_length. lia.
  - intros Fc Nc. assert (Nz : nonneg z) by (apply Nn; [exact Fc|]; apply Forall_forall; intros x Hx; apply repeat_spec in Hx; lra).
    unfold nonneg in *. apply Forall_app. split; [rewrite <- (firstn_skipn ns z) in Nz; apply Forall_app in Nz; apply Nz|].
    apply Forall_app. split; [exact Nc|]. rewrite <- (firstn_skipn (ns + nb * nc) z) in Nz. apply Forall_app in Nz. apply Nz.
Qed.

(* C73 for whole runs, through all batches. *)
Theorem C73_rows_partial : forall m text e k, written m text ->
  Forall unit_coefficients m -> Forall (fun r => NoDup (names (rhs r)) /\ ~ In (last_reactant r) (names (rhs r))) m ->
  Forall distinct_reactants m -> peroxy_clean (first_seen (reading_order m)) ->
  exists st, extract_mechanism text = Ok (Z.of_nat (List.length m), st) /\
  forall smiles objects cutoff temp nb y_core nper core_density core_mw diss d q,
    aerosol_setup st (List.length (first_seen (reading_order m))) smiles objects cutoff temp nb y_core nper core_density core_mw diss d q ->
  forall rnd H2O o1 o2 o3 calls rcalls simulate jac start_time RH conc y_cond sim b ts ys os, is_rounding rnd -> (0 <= H2O)%R -> (0 <= B2R b)%R ->
    regular_rates (List.length m) k (B2R start_time) (B2R start_time + B2R b) ->
    (forall t x, (B2R start_time <= t <= B2R start_time + B2R b)%R -> coefficients m e t x H2O temp (fun r => k r t x)) ->
    (forall t y, is_call st (List.length m) nb o1 o2 o3 (rcalls t y)) ->
    error_free_recording
      (fun t y => aerosol_dydt st (List.length m) rnd H2O temp d q nb y_core nper core_density core_mw diss (rcalls t y) (B2R start_time + t)%R y)
      (aerosol_dydt_func st (List.length m) rnd H2O temp d q nb y_core nper core_density core_mw diss calls start_time) simulate ->
    initial_condensed (d_nc d) nb y_core diss RH nb = Ok y_cond -> (0 <= RH < 1)%R -> Forall (fun sc => 0 <= snd sc)%R conc ->
    aerosol_simulation st (List.length m) rnd H2O temp d q nb y_core nper core_density core_mw diss simulate jac calls start_time (d_sp2a d) conc y_cond sim b = Ok (ts, ys, os) ->
    forall j row, j < List.length ts -> nth_error ys j = Some row -> nonneg row.
Proof.
  intros m text e k W Hu Hpr Hdr PC. destruct (C73_partial m text e k W Hu Hpr Hdr PC) as (st & Hst & HX). exists st. split; [exact Hst|].
  intros smiles objects cutoff temp nb y_core nper cd cm diss d q AS rnd H2O o1 o2 o3 calls rcalls simulate jac start RH conc y_cond sim b ts ys os
    Hrnd HH PB HR HC Hcall HE Hcond HRH Hconc H j row Hj Hrow.
  unfold aerosol_simulation in H. apply bind_Ok in H as (y0 & H0 & H). unfold record_run in H.
  apply bind_Ok in H as (x & _ & H). apply bind_Ok in H as (nz & _ & H). destruct (nz <? 0)%Z; [discriminate|].
  destruct (condensed_start _ _ _ _ _ _ _ Hcond (proj2 (sd_core _ _ _ _ _ _ (as_seeds _ _ _ _ _ _ _ _ _ _ _ _ _ _ AS))) (proj2 (proj2 (sd_pos _ _ _ _ _ _ (as_seeds _ _ _ _ _ _ _ _ _ _ _ _ _ _ AS)))) HRH) as [Lc Nc].
  destruct (aerosol_start _ _ _ _ _ _ _ H0 Lc) as [L0 N0]. specialize (N0 Hconc Nc).
  refine (proj2 (proj1 (record_rows simulate _ jac _ sim b _ _ (fun y => List.length y = d_ns d + d_nc d * nb /\ nonneg y) (fun _ _ => True) _
      _ _ y0 None _ _ _ (conj L0 N0) _ H j row Hj Hrow))); [|discriminate].
  intros y y1 t z [Ly Ny] Hs. split; [|auto]. destruct (HE _ _ _ _ _ Hs) as (u & U0 & U1 & U).
  assert (Lu : List.length (u 0%R) = d_ns d + d_nc d * nb) by (rewrite U0; exact Ly).
  split; [rewrite <- U1, (proj1 (proj1 U (B2R b) ltac:(lra))); exact Lu|]. rewrite <- U1.
  apply (HX smiles objects cutoff temp nb y_core nper cd cm diss d q AS rnd H2O o1 o2 o3 rcalls (B2R start) (B2R b) u Hrnd HH PB HR HC Hcall Lu U); [rewrite U0; exact Ny | lra].
Qed.

(* ------------------------------------------------------------------ *)
(* C74: what every reaction balances, counted in the gas and in the particles,
   is the same in every row of the output: with any linear method, any rates,
   any orders of the parallel loops. *)
Theorem C74_rows_partial : forall m text w water, written m text ->
  Forall unit_coefficients m -> Forall (fun r => NoDup (names (rhs r)) /\ ~ In (last_reactant r) (names (rhs r))) m ->
  Forall distinct_reactants m -> first_seen (reading_order m) <> [] ->
  Forall (fun r => weight w (lhs r) = weight w (rhs r)) m -> w light = 0%R -> (forall x, In x bath -> w x = 0%R) ->
  exists st, extract_mechanism text = Ok (Z.of_nat (List.length m), st) /\
  forall smiles objects cutoff temp nb y_core nper core_density core_mw diss d q,
    aerosol_setup st (List.length (first_seen (reading_order m))) smiles objects cutoff temp nb y_core nper core_density core_mw diss d q ->
  forall rnd H2O o1 o2 o3 calls simulate jac start_time conc y_cond sim b ts ys os, is_rounding rnd ->
    (forall t y, is_call st (List.length m) nb o1 o2 o3 (calls t y)) -> recording_linear simulate ->
    List.length y_cond = d_nc d * nb ->
    aerosol_simulation st (List.length m) rnd H2O temp d q nb y_core nper core_density core_mw diss simulate jac calls start_time (d_sp2a d) conc y_cond sim b = Ok (ts, ys, os) ->
    exists y0, aerosol_initial (d_ns d) (d_nc d) nb (d_sp2a d) conc y_cond = Ok y0 /\
    let total := both_phases (by_species (first_seen (reading_order m)) w water) (d_ns d) (d_nc d) nb (d_include d) in
    forall j row, j < List.length ts -> nth_error ys j = Some row -> amount_of total row = amount_of total y0.
Proof.
  intros m text w water W Hu Hpr Hdr Hne Hw Hl Hb. assert (Hst := written_extract _ _ W). exists (interp m). split; [exact Hst|].
  intros smiles objects cutoff temp nb y_core nper cd cm diss d q [(p & Hp & Hd) Hq Hchem Htemp SD] rnd H2O o1 o2 o3 calls simulate jac start conc y_cond sim b ts ys os Hrnd Hcall M Lc H.
  assert (FR : fortran_ready m) by (constructor; assumption).
  unfold aerosol_simulation in H. apply bind_Ok in H as (y0 & H0 & H). exists y0. split; [exact H0|]. intros total j row Hj Hrow. unfold record_run in H.
  apply bind_Ok in H as (x & _ & H). apply bind_Ok in H as (nz & _ & H). destruct (nz <? 0)%Z; [discriminate|].
  destruct (aerosol_start _ _ _ _ _ _ _ H0 Lc) as [L0 _].
  refine (proj2 (proj1 (record_rows simulate _ jac _ sim b _ _ (fun y => List.length y = List.length y0 /\ amount_of total y = amount_of total y0) (fun _ _ => True) _
      _ _ y0 None _ _ _ (conj eq_refl eq_refl) _ H j row Hj Hrow))); [|discriminate].
  intros y y1 t z [Ly Ay] Hs. split; [|auto]. apply M in Hs. cbn [pb_rhs pb_y0] in Hs. split; [rewrite (computed_length _ _ _ Hs); exact Ly|].
  rewrite (computed_keeps _ y total) with (3 := Hs); [exact Ay | rewrite Ly, L0; apply both_phases_range|].
  intros t' z' dd Lz Hdd. unfold aerosol_dydt_func in Hdd. destruct (aerosol_dydt _ _ _ _ _ _ _ _ _ _ _ _ _ _ _ z') as [dd'|] eqn:E; [|discriminate]. injection Hdd as ->.
  apply (dydt_keeps m text (interp m) W FR Hst smiles objects cutoff temp p d q Hp Hd Hchem nb y_core nper cd cm diss SD rnd Hrnd H2O o1 o2 o3 w water (calls t' z') (B2R (fadd start t')) z' dd Hne Hw Hl Hb (Hcall t' z')); [lia | exact E].
Qed.

(* The same along exact solutions, and with it a bound for every component. *)
Theorem C74_conserved_partial : forall m text w water, written m text ->
  Forall unit_coefficients m -> Forall (fun r => NoDup (names (rhs r)) /\ ~ In (last_reactant r) (names (rhs r))) m ->
  Forall distinct_reactants m -> first_seen (reading_order m) <> [] ->
  Forall (fun r => weight w (lhs r) = weight w (rhs r)) m -> w light = 0%R -> (forall x, In x bath -> w x = 0%R) ->
  exists st, extract_mechanism text = Ok (Z.of_nat (List.length m), st) /\
  forall smiles objects cutoff temp nb y_core nper core_density core_mw diss d q,
    aerosol_setup st (List.length (first_seen (reading_order m))) smiles objects cutoff temp nb y_core nper core_density core_mw diss d q ->
  forall rnd H2O o1 o2 o3 calls start_time T u, is_rounding rnd -> (0 <= T)%R ->
    (forall t y, is_call st (List.length m) nb o1 o2 o3 (calls t y)) -> List.length (u 0%R) = d_ns d + d_nc d * nb ->
    solves (fun t y => aerosol_dydt st (List.length m) rnd H2O temp d q nb y_core nper core_density core_mw diss (calls t y) (start_time + t)%R y) T u ->
    let total := both_phases (by_species (first_seen (reading_order m)) w water) (d_ns d) (d_nc d) nb (d_include d) in
    forall t, (0 <= t <= T)%R -> amount_of total (u t) = amount_of total (u 0%R).
Proof.
  intros m text w water W Hu Hpr Hdr Hne Hw Hl Hb. assert (Hst := written_extract _ _ W). exists (interp m). split; [exact Hst|].
  intros smiles objects cutoff temp nb y_core nper cd cm diss d q [(p & Hp & Hd) Hq Hchem Htemp SD] rnd H2O o1 o2 o3 calls start T u Hrnd PT Hcall Lu U total.
  assert (FR : fortran_ready m) by (constructor; assumption).
  apply (solution_conserves _ T u _ PT U).
  - rewrite Lu. apply both_phases_range.
  - intros t dd Ht Hdd. apply (dydt_keeps m text (interp m) W FR Hst smiles objects cutoff temp p d q Hp Hd Hchem nb y_core nper cd cm diss SD rnd Hrnd H2O o1 o2 o3 w water (calls t (u t)) (start + t)%R (u t) dd Hne Hw Hl Hb (Hcall t (u t))); [|exact Hdd].
    rewrite (proj1 (proj1 U t Ht)). exact Lu.
Qed.

Lemma amount_part (qy : quantity) (y : list R) c i : (forall a, In a qy -> (0 <= fst a)%R) -> nonneg y -> In (c, i) qy -> (c * nth i y 0 <= amount_of qy y)%R.
Proof.
  intros Hc Hy. assert (Pn : forall a, (0 <= nth a y 0)%R).
  { intros a. destruct (Nat.lt_ge_cases a (List.length y)) as [La|La]; [unfold nonneg in Hy; rewrite Forall_forall in Hy; apply Hy, nth_In, La | rewrite nth_overflow by exact La; lra]. }
  unfold amount_of. induction qy as [|p qy IH]; intros Hin; [contradiction|]. cbn [map rsum fold_right]. change (fold_right Rplus 0%R (map (fun p0 => fst p0 * nth (snd p0) y 0)%R qy)) with (rsum (map (fun p0 => fst p0 * nth (snd p0) y 0)%R qy)).
  destruct Hin as [->|Hin].
  - cbn [fst snd]. assert (X : (0 <= rsum (map (fun p0 => fst p0 * nth (snd p0) y 0) qy))%R); [|lra].
    apply rsum_nonneg. intros x Hx. apply in_map_iff in Hx as (p & <- & Hp). apply Rmult_le_pos; [apply Hc; right; exact Hp | apply Pn].
  - specialize (IH (fun a Ha => Hc a (or_intror Ha)) Hin). assert (X : (0 <= fst p * nth (snd p) y 0)%R) by (apply Rmult_le_pos; [apply Hc; left; reflexivity | apply Pn]). lra.
Qed.

Theorem C74_bounded_partial : forall m text w water e k, written m text ->
  Forall unit_coefficients m -> Forall (fun r => NoDup (names (rhs r)) /\ ~ In (last_reactant r) (names (rhs r))) m ->
  Forall distinct_reactants m -> peroxy_clean (first_seen (reading_order m)) ->
  Forall (fun r => weight w (lhs r) = weight w (rhs r)) m -> w light = 0%R -> (forall x, In x bath -> w x = 0%R) -> (forall s, (0 <= w s)%R) -> (0 <= water)%R ->
  exists st, extract_mechanism text = Ok (Z.of_nat (List.length m), st) /\
  forall smiles objects cutoff temp nb y_core nper core_density core_mw diss d q,
    aerosol_setup st (List.length (first_seen (reading_order m))) smiles objects cutoff temp nb y_core nper core_density core_mw diss d q ->
  forall rnd H2O o1 o2 o3 calls start_time T u, is_rounding rnd -> (0 <= H2O)%R -> (0 <= T)%R ->
    regular_rates (List.length m) k start_time (start_time + T) ->
    (forall t x, (start_time <= t <= start_time + T)%R -> coefficients m e t x H2O temp (fun r => k r t x)) ->
    (forall t y, is_call st (List.length m) nb o1 o2 o3 (calls t y)) -> List.length (u 0%R) = d_ns d + d_nc d * nb ->
    solves (fun t y => aerosol_dydt st (List.length m) rnd H2O temp d q nb y_core nper core_density core_mw diss (calls t y) (start_time + t)%R y) T u ->
    nonneg (u 0%R) ->
    let wt := by_species (first_seen (reading_order m)) w water in
    let total := both_phases wt (d_ns d) (d_nc d) nb (d_include d) in
    forall t, (0 <= t <= T)%R ->
      (forall i, i < d_ns d -> (0 < wt i)%R -> (0 <= nth i (u t) 0 <= amount_of total (u 0%R) / wt i)%R) /\
      (forall b j i, b < nb -> nth_error (d_include d) j = Some i -> (0 < wt i)%R ->
         (0 <= nth (slot (d_ns d) (d_nc d) b j) (u t) 0 <= amount_of total (u 0%R) / wt i)%R).
Proof.
  intros m text w water e k W Hu Hpr Hdr PC Hw Hl Hb Pw Pwat.
  assert (Hne : first_seen (reading_order m) <> []) by (destruct PC as ((s & Hin & _) & _); intros X; rewrite X in Hin; destruct Hin).
  destruct (C73_partial m text e k W Hu Hpr Hdr PC) as (st & Hst & H1). destruct (C74_conserved_partial m text w water W Hu Hpr Hdr Hne Hw Hl Hb) as (st' & Hst' & H2).
  rewrite Hst in Hst'. injection Hst' as <-. exists st. split; [exact Hst|].
  intros smiles objects cutoff temp nb y_core nper cd cm diss d q AS rnd H2O o1 o2 o3 calls start T u Hrnd HH PT HR HC Hcall Lu U N0 wt total t Ht.
  assert (Nt := H1 _ _ _ _ _ _ _ _ _ _ _ _ AS rnd H2O o1 o2 o3 calls start T u Hrnd HH PT HR HC Hcall Lu U N0 t Ht).
  assert (Ct := H2 _ _ _ _ _ _ _ _ _ _ _ _ AS rnd H2O o1 o2 o3 calls start T u Hrnd PT Hcall Lu U t Ht). cbv zeta in Ct. fold wt in Ct. fold total in Ct. rewrite <- Ct.
  assert (Pwt : forall i, (0 <= wt i)%R) by (intros i; unfold wt, by_species; destruct (nth_error _ i); [apply Pw | exact Pwat]).
  assert (Pa : forall a, In a total -> (0 <= fst a)%R).
  { intros a Ha. unfold total, both_phases in Ha. apply in_app_iff in Ha as [Ha|Ha]; [apply in_map_iff in Ha as (i & <- & _); apply Pwt|].
    apply in_flat_map in Ha as (bb & _ & Ha). apply in_map_iff in Ha as (j & <- & _). apply Pwt. }
  assert (Pn : forall a, (0 <= nth a (u t) 0)%R).
  { intros a. destruct (Nat.lt_ge_cases a (List.length (u t))) as [La|La]; [unfold nonneg in Nt; rewrite Forall_forall in Nt; apply Nt, nth_In, La | rewrite nth_overflow by exact La; lra]. }
  assert (G : forall i c, (0 < c)%R -> In (c, i) total -> (0 <= nth i (u t) 0 <= amount_of total (u t) / c)%R).
  { intros i c Pc Hin. split; [apply Pn|]. assert (X := amount_part total (u t) c i Pa Nt Hin).
    apply Rmult_le_reg_r with c; [exact Pc|]. unfold Rdiv. rewrite Rmult_assoc, Rinv_l by lra. lra. }
  destruct AS as [(p & Hp & Hd) _ Hchem _ _].
  assert (WP : well_prepared d).
  { assert (Est := is_interp m text st W Hst). assert (E : List.length (p_sp st) = List.length (first_seen (reading_order m))) by (rewrite Est; destruct (interp_species m) as (-> & _); rewrite combine_length, seq_length; apply Nat.min_id).
    rewrite <- E in Hp, Hd. exact (aerosol_prepared text _ st smiles objects cutoff temp p d Hst Hp Hd Hchem). }
  split.
  - intros i Hi Pi. apply G; [exact Pi|]. unfold total, both_phases. apply in_app_iff. left. apply in_map_iff. exists i. split; [reflexivity | apply in_seq; lia].
  - intros b j i Hbb Hj Pi. apply G; [exact Pi|]. unfold total, both_phases. apply in_app_iff. right. apply in_flat_map. exists b. split; [apply in_seq; lia|].
    apply in_map_iff. exists j. split; [rewrite (nth_error_nth _ _ 0 Hj); reflexivity|]. apply in_seq. assert (j < List.length (d_include d)) by (apply nth_error_Some; congruence). rewrite (wp_nc d WP). lia.
Qed.

(* ------------------------------------------------------------------ *)
(* C75: the rows of the SOA mass and of the particle sizes. *)
Theorem C75_partial : forall text n st, extract_mechanism text = Ok (n, st) ->
  forall smiles objects cutoff temp nb y_core nper core_density core_mw diss d q,
    aerosol_setup st (List.length (p_sp st)) smiles objects cutoff temp nb y_core nper core_density core_mw diss d q ->
  forall k rnd H2O calls simulate jac start_time conc y_cond sim b ts ys os,
    (forall t y, Permutation (c_bins (calls t y)) (seq 0 nb)) ->
    recording_linear simulate -> last_at_output simulate -> List.length y_cond = d_nc d * nb ->
    aerosol_simulation st k rnd H2O temp d q nb y_core nper core_density core_mw diss simulate jac calls start_time (d_sp2a d) conc y_cond sim b = Ok (ts, ys, os) ->
    forall j row, j < List.length ts -> nth_error ys j = Some row ->
      (forall b i, b < nb -> i < d_nc d -> (0 <= nth (slot (d_ns d) (d_nc d) b i) row 0)%R) ->
      exists inp size, partition_inputs d q y_core nper core_density core_mw diss temp row = Some inp /\
        nth_error os j = Some (organic_mass (d_ns d) (d_nc d) nb inp, size) /\ List.length size = nb /\
        forall b, b < nb -> is_radius (d_ns d) (d_nc d) inp b (nth b size 0%R).
Proof.
  intros text n st Hst smiles objects cutoff temp nb y_core nper cd cm diss d q [(p & Hp & Hd) Hq Hchem Htemp SD] k rnd H2O calls simulate jac start conc y_cond sim b ts ys os PBs M La Lc H j row Hj Hrow Hpos.
  unfold aerosol_simulation in H. apply bind_Ok in H as (y0 & H0 & H). unfold record_run in H.
  apply bind_Ok in H as (x & _ & H). apply bind_Ok in H as (nz & _ & H). destruct (nz <? 0)%Z; [discriminate|].
  destruct (aerosol_start _ _ _ _ _ _ _ H0 Lc) as [L0 _].
  set (Rel := fun (y : list R) (o : R * list R) => exists c clock, Permutation (c_bins c) (seq 0 nb) /\ aerosol_attributes st k rnd H2O temp d q nb y_core nper cd cm diss c clock y = Some o).
  set (Inv := fun y : list R => List.length y = List.length y0).
  assert (St : forall y y1 t z, Inv y -> simulate (Problem (aerosol_dydt_func st k rnd H2O temp d q nb y_core nper cd cm diss calls start) jac y fzero) b = Ok (y1, (t, z)) ->
     Inv y1 /\ forall o, aerosol_observe st k rnd H2O temp d q nb y_core nper cd cm diss calls start t z = Ok o -> Rel y1 o).
  { unfold Inv. intros y y1 t z Ly Hs. split; [assert (Q := computed_length _ _ _ (M _ _ _ _ _ Hs)); cbn [pb_y0] in Q; congruence|]. apply La in Hs. subst z. intros o Ho.
    unfold aerosol_observe in Ho. destruct (aerosol_attributes _ _ _ _ _ _ _ _ _ _ _ _ _ _ _ y1) as [o'|] eqn:E; [|discriminate]. injection Ho as ->.
    exists (calls t y1), (B2R (fadd start t)). split; [apply PBs | exact E]. }
  destruct (record_rows simulate _ jac _ sim b _ _ Inv Rel St _ _ y0 None _ _ _ (eq_refl : Inv y0) ltac:(intros ? X; discriminate X) H j row Hj Hrow) as [Lr (o & Ho & c & clock & PB & Ro)].
  unfold Inv in Lr.
    destruct (sd_core _ _ _ _ _ _ SD) as [S1 S2], (sd_nper _ _ _ _ _ _ SD) as [S3 S4], (sd_pos _ _ _ _ _ _ SD) as (S5 & S6 & S7).
    destruct (inputs_physical text n st smiles objects cutoff temp p d Hst Hp Hd Hchem Htemp nb y_core nper cd cm diss row S1 S3 ltac:(lia) S2 S4 S5 S6 S7 Hpos)
      as (q' & inp & Hq' & Hinp & ph & _). rewrite Hq in Hq'. injection Hq' as <-.
    unfold aerosol_attributes in Ro. destruct (aerosol_dydt _ _ _ _ _ _ _ _ _ _ _ _ _ _ _ row); [|discriminate]. cbn [obind] in Ro. rewrite Hinp in Ro. cbn [obind] in Ro.
    destruct (dydt_partition _ _ _ _ inp _) as [[[[soa aw] size] dy]|] eqn:EP; [|discriminate]. cbn [obind] in Ro. injection Ro as <-.
    destruct (C61_outputs _ _ _ _ _ _ _ _ _ _ ph PB EP) as (E1 & _ & _ & E3 & E4). exists inp, size. split; [exact Hinp|]. split; [rewrite Ho, E1; reflexivity|]. split; [exact E3|].
    intros bb Hbb. apply (E4 bb Hbb).
Qed.
