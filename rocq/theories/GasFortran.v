(* The gas-phase right-hand side of the Fortran modules at every state, also
   with negative entries: the same total function as with the numba modules. *)
From Coq Require Import String List Bool Arith Lia ZArith QArith Reals Qreals Lra.
From Verif Require Import Base PyStr PyDict ModelParse SpecMech ParseStruct ParseTables ParseWritten PropsParse
  ModelLang ModelGen ModelRhs SpecKin LangFacts GenReact GenLossGain GenParsed GenSparse PropsKin PropsRhs
  ModelOmp ModelExpr ModelRate ModelRateFile SpecRate RateExpr ModelRateBody ModelRateRun RateSym
  SpecRateValue SpecMcmEnv PropsRateValue ModelRo2 SpecRo2 PropsRo2 ModelGas SpecGas PropsGas PropsTraj SpecMethod PropsMethod PropsAeroChem.
Import ListNotations.
Import Coq.Lists.List.
Open Scope nat_scope.
Open Scope list_scope.
Local Arguments eqb : simpl never.

(* The mechanisms the Fortran modules get right (C13, C16_fortran). *)
Record fortran_ready (m : mech) : Prop := {
  fr_units : Forall unit_coefficients m;
  fr_products : Forall (fun r => NoDup (names (rhs r)) /\ ~ In (last_reactant r) (names (rhs r))) m;
  fr_reactants : Forall distinct_reactants m }.

Section Fortran.
Context (m : mech) (text : str) (st : pstate) (W : written m text) (FR : fortran_ready m)
  (Hst : extract_mechanism text = Ok (Z.of_nat (List.length m), st)) (Hne : species m <> []).

Lemma is_interp : st = interp m.
Proof. assert (X := written_extract _ _ W). congruence. Qed.

Lemma ready_one r s : In r m -> In s (names (lhs r)) -> total s (lhs r) == 1.
Proof.
  destruct FR as [Hu _ Hd]. intros Hr Hs. rewrite Forall_forall in Hu, Hd. specialize (Hu r Hr). apply Forall_app in Hu as [Hu _].
  apply total_unit; [exact Hu | apply (Hd r Hr) | exact Hs].
Qed.

Lemma ready_safe : Forall products_safe m.
Proof. destruct FR as [_ Hp _]. eapply Forall_impl; [|exact Hp]. intros r [H1 H2]. left. auto. Qed.

Lemma ready_whole : whole m.
Proof.
  intros r s Hr Hs. exists 1. apply as_nat_spec. rewrite (ready_one r s Hr Hs). reflexivity.
Qed.

Lemma mech_nonempty : List.length m <> 0.
Proof. intros X. apply length_zero_iff_nil in X. rewrite X in Hne. apply Hne. reflexivity. Qed.

Lemma single_one : single 1%Q. Proof. apply (single_nat 1); reflexivity. Qed.

(* Sums of losses and gains: the same as with numba, in any parallel order. *)
Lemma fortran_loss_gain o tr rnd r : is_rounding rnd ->
  runs_as o (gen_loss_gain_fortran o (p_sp2a st) (p_loss st) (p_gain st)) tr -> List.length r = List.length m ->
  exists v, loss_gain_fortran rnd tr (List.length (species m)) r = Some v /\
    dydt_numba (snd (gen_loss_gain_numba (p_sp2a st) (p_loss st) (p_gain st))) (List.length (species m)) r = Some v /\
    List.length v = List.length (species m).
Proof.
  rewrite is_interp. intros Hr Ro Lr.
  assert (Hsp : p_sp2a (interp m) <> []) by (destruct (interp_species m) as (_ & -> & _ & _); destruct (species m); [congruence | discriminate]).
  rewrite (runs_as_loss_gain _ _ _ _ _ Hsp (wf_vals _ _ _ _ _ (interp_lg_wf m)) Ro).
  destruct (C13_partial (List.length m) (List.length (species m)) (p_sp2a (interp m)) (p_loss (interp m)) (p_gain (interp m))
              None rnd (interp_lg_wf m) (Hr 1%Q single_one)) with (r := r) as (w1 & w2 & Hw1 & Hw2 & Hw).
  - intros s i Hi _. apply has_terms_entry, safe_has_entry; [exact ready_safe|]. apply In_sp2a in Hi. eapply nth_error_In, Hi.
  - intros s k q [Hq|Hq].
    + assert (G := interp_loss m s k). destruct (nth_error m k) as [x|] eqn:Er; [|congruence].
      rewrite Hq in G. destruct G as [Gin Gq]. rewrite Gq. apply ready_one; [eapply nth_error_In, Er | exact Gin].
    + rewrite interp_gain in Hq. destruct (nth_error m k) as [x|] eqn:Er; [|discriminate].
      assert (Hs := ready_safe). rewrite Forall_forall in Hs. assert (G := gain_safe_ok x s (Hs x (nth_error_In _ _ Er))).
      rewrite Hq in G. destruct G as [Gin Gq]. rewrite Gq. destruct FR as [Hu Hp _]. rewrite Forall_forall in Hu, Hp.
      assert (Hu' := Hu x (nth_error_In _ _ Er)). apply Forall_app in Hu' as [_ Hu'].
      apply total_unit; [exact Hu' | apply (Hp x (nth_error_In _ _ Er)) | exact Gin].
  - exact Lr.
  - assert (L1 : List.length w1 = List.length (species m)) by (unfold dydt_numba in Hw1; destruct (run _ _ _ _); [|discriminate]; injection Hw1 as <-; apply array_length).
    assert (L2 : List.length w2 = List.length (species m)) by (unfold loss_gain_fortran, returned in Hw2; destruct (run _ _ _ _); [|discriminate]; injection Hw2 as <-; apply array_length).
    exists w1. split; [|split; [exact Hw1 | exact L1]]. rewrite Hw2. f_equal. apply nth_error_eq. intros i.
    destruct (nth_error (species m) i) as [s|] eqn:Es; [apply (Hw s i), In_sp2a, Es|].
    apply nth_error_None in Es. rewrite !(proj2 (nth_error_None _ _)) by lia. reflexivity.
Qed.

(* The products of the reactants, from any previous contents of the array. *)
Lemma fortran_products o p tr rnd m0 y : gen_reactants_fortran o (List.length m) (p_sp2a st) (p_reac st) (p_loss st) = Ok p ->
  runs_as o p tr -> List.length y = List.length (species m) ->
  reactants_fortran rnd tr (List.length m) m0 y = Some (products m zeros (conc_of (p_sp2a st) y)).
Proof.
  rewrite is_interp. intros Hp Ro Ly. destruct (runs_as_reactants _ _ _ _ _ _ _ mech_nonempty Hp Ro) as (p0 & G0 & ->).
  destruct (gen_reactants_fortran_ok None _ _ _ _ (all_known_interp m)) as (p0' & G0' & Ha). rewrite G0 in G0'. injection G0' as <-.
  unfold reactants_fortran. rewrite (products_vec_gen m 1 (fortran rnd) m0 p0 y).
  - f_equal. unfold products, array. apply map_ext_in. intros k Hk. apply in_seq in Hk. destruct (nth_error m k) as [r|] eqn:Er; [|apply nth_error_None in Er; lia].
    destruct FR as [_ _ Hd]. rewrite Forall_forall in Hd. destruct (Hd r (nth_error_In _ _ Er)) as [Hn _]. unfold only_light. destruct (names (lhs r)); [congruence | reflexivity].
  - right; reflexivity.
  - intros i. replace (i + 1) with (Datatypes.S i) by lia. reflexivity.
  - exact Ly.
  - apply whole_powers, ready_whole.
  - intros k r s Er Hs Hn. exfalso. apply Hn. apply ready_one; [eapply nth_error_In, Er | exact Hs].
  - exact Ha.
Qed.

Lemma numba_generated ks y d : List.length ks = List.length m -> 
  dydt_numba (snd (gen_loss_gain_numba (p_sp2a st) (p_loss st) (p_gain st))) (List.length (species m)) (multiply (products m zeros (conc_of (p_sp2a st) y)) ks) = Some d ->
  d = generated m ks y.
Proof.
  rewrite is_interp. intros Lk H. set (c := products m zeros (conc_of (p_sp2a (interp m)) y)) in *.
  assert (Hlen : List.length (multiply c ks) = List.length m).
  { assert (L1 : List.length c = List.length m) by apply array_length. rewrite multiply_length; congruence. }
  destruct (ran_lg_numba _ _ _ _ _ _ _ (interp_lg_wf m) Hlen H) as [_ Hd].
  assert (Ld : List.length d = List.length (species m)) by (unfold dydt_numba in H; destruct (run _ _ _ _); [|discriminate]; injection H as <-; apply array_length).
  apply nth_ext with (d := 0%R) (d' := 0%R); [rewrite Ld; unfold generated; rewrite map_length; reflexivity|].
  intros i Hi. rewrite Ld in Hi. destruct (nth_error (species m) i) as [s|] eqn:Es; [|apply nth_error_None in Es; lia].
  rewrite (nth_error_nth (generated m ks y) i 0%R (x := if inb s bath then 0%R else table_rate Q2R (p_loss (interp m)) (p_gain (interp m)) (multiply c ks) s))
    by (unfold generated; rewrite nth_error_map, Es; reflexivity).
  assert (Hin : In (s, i) (p_sp2a (interp m))) by (apply In_sp2a, Es).
  assert (W' := interp_lg_wf m).
  destruct (inb s bath) eqn:Eb.
  - apply nth_error_nth. eapply C14_numba; [apply (wf_vals _ _ _ _ _ W') | exact H | apply inb_In, Eb | exact Hin | apply (wf_range _ _ _ _ _ W' s i Hin)].
  - apply nth_error_nth. apply (Hd s i Hin). rewrite excluded_bath; [exact Eb | eapply species_not_light, nth_error_In, Es].
Qed.

(* The whole gas-phase right-hand side.  RO2 may be summed over a longer state. *)
Lemma generated_fortran e o1 o2 o3 p1 tr1 tr2 tr3 rnd a0 m0 start_time t H2O T y v : peroxy_clean (species m) ->
  gen_reactants_fortran o1 (List.length m) (p_sp2a st) (p_reac st) (p_loss st) = Ok p1 -> runs_as o1 p1 tr1 ->
  runs_as o2 (gen_loss_gain_fortran o2 (p_sp2a st) (p_loss st) (p_gain st)) tr2 ->
  runs_as o3 (gen_rates_fortran o3 (convert_dict convert_fortran (p_rate st))) tr3 ->
  is_rounding rnd -> (0 < T)%R -> (0 <= H2O)%R -> List.length (species m) <= List.length y ->
  let y1 := firstn (List.length (species m)) y in
  coefficients m e (start_time + t) (peroxy_total (species m) (conc_of (p_sp2a st) y1)) H2O T v ->
  gas_dydt_fortran rnd tr3 tr1 tr2 (List.length m) a0 m0 (RO2_sum (write_RO2_indices (p_sp2a st)) y) start_time t H2O T y1 =
    Some (generated m (map v (seq 0 (List.length m))) y1).
Proof.
  intros (P1 & P2 & P3 & P4) G1 R1 R2 R3 Hr HT HH Ly y1 HC.
  assert (L1 : List.length y1 = List.length (species m)) by (unfold y1; rewrite firstn_length; lia).
  unfold gas_dydt_fortran. rewrite (RO2_sum_firstn _ _ _ _ (C33_partial m text st W Hst P1 P2 P3 P4 y1 L1)).
  destruct (C58_partial m text e v (start_time + t) _ H2O T W HT HH HC) as (st' & en & ef & E' & _ & Ef & _ & Hrt & Ho).
  rewrite Hst in E'. injection E' as <-. fold (species m). change (first_seen (reading_order m)) with (species m) in *. rewrite Ef. cbn [obind].
  assert (HK : returned (List.length m) (run (cell 1 (List.length m)) (text_value fortran_lang ef) tr3 a0) =
               Some (map v (seq 0 (List.length m)))).
  { destruct o3 as [br|]; cbn [runs_as] in R3.
    - destruct R3 as (bs & tr & Hb & He & ->). destruct (Ho ltac:(assert (X := mech_nonempty); lia) br) as (bs' & Hb' & HX).
      rewrite Hb in Hb'. injection Hb' as <-. apply HX, He.
    - rewrite R3. apply Hrt. }
  rewrite HK. cbn [obind]. unfold rhs_fortran. rewrite (fortran_products _ _ _ rnd m0 y1 G1 R1 L1).
  set (ks := map v (seq 0 (List.length m))). assert (Lk : List.length ks = List.length m) by (unfold ks; rewrite map_length, seq_length; reflexivity).
  assert (Lc : List.length (products m zeros (conc_of (p_sp2a st) y1)) = List.length m) by apply array_length.
  destruct (fortran_loss_gain o2 tr2 rnd (multiply (products m zeros (conc_of (p_sp2a st) y1)) ks) Hr R2) as (d & D1 & D2 & _); [rewrite multiply_length; congruence|].
  rewrite L1, D1. f_equal. apply numba_generated; assumption.
Qed.

(* What every reaction balances, the right-hand side does not change. *)
Lemma fortran_keeps w o2 rnd a0 m0 tr1 tr2 tr3 RO2 start_time t H2O T y d : Forall (fun r => weight w (lhs r) = weight w (rhs r)) m -> w light = 0%R ->
  (forall x, In x bath -> w x = 0%R) -> is_rounding rnd ->
  runs_as o2 (gen_loss_gain_fortran o2 (p_sp2a st) (p_loss st) (p_gain st)) tr2 -> List.length y = List.length (species m) ->
  gas_dydt_fortran rnd tr3 tr1 tr2 (List.length m) a0 m0 RO2 start_time t H2O T y = Some d ->
  amount_of (atoms w (p_sp2a st)) d = 0%R /\ List.length d = List.length (species m).
Proof.
  intros Hw Hl Hb Hr R2 Ly E. unfold gas_dydt_fortran in E. destruct RO2 as [x|]; [|discriminate].
  destruct (fortran_run _ _ _ _) as [en|]; [|discriminate]. cbn [obind] in E. destruct (returned _ _) as [rates|] eqn:Er in E; [|discriminate]. cbn [obind] in E.
  unfold rhs_fortran in E. destruct (reactants_fortran rnd tr1 _ m0 y) as [c|] eqn:Ec; [|discriminate].
  assert (Lm : List.length (multiply c rates) = List.length m).
  { unfold multiply. rewrite map_length, combine_length. unfold reactants_fortran, returned in Ec, Er.
    destruct (run _ _ tr1 m0); [|discriminate]. injection Ec as <-. destruct (run _ _ tr3 a0) in Er; [|discriminate]. injection Er as <-. rewrite !array_length. lia. }
  destruct (fortran_loss_gain o2 tr2 rnd _ Hr R2 Lm) as (v & V1 & V2 & V3). rewrite Ly, V1 in E. assert (v = d) by congruence. subst v.
  split; [|exact V3]. unfold amount_of, atoms. rewrite map_map. cbn [fst snd].
  apply (C17_partial m text st w W Hst ready_safe Hw Hl Hb (multiply c rates) d Lm). rewrite <- V2. f_equal.
  rewrite is_interp. unfold species_count. apply sp2a_length.
Qed.
End Fortran.
