(* C82: rate coefficients of the usual form meet the conditions on the rates
   in C58, C59, C71-C74. *)
From Coq Require Import String List Bool Arith Lia ZArith QArith Reals Qreals Lra Permutation Sorted.
From Flocq Require Import Core BinarySingleNaN.
From Verif Require Import Base PyStr PyDict ModelParse SpecMech ParseStruct ParseTables ParseWritten ParseShow PropsParse
  ModelLang ModelGen ModelRhs SpecKin LangFacts GenReact GenLossGain GenParsed GenSparse PropsKin PropsRhs
  ModelOmp ModelExpr ModelRate ModelRateFile SpecRate RateExpr PropsRate ModelRateBody ModelRateRun RateSym
  SpecRateValue SpecMcmEnv PropsRateValue ModelRo2 SpecRo2 PropsRo2 ModelGas SpecGas PropsGas PropsGasJac
  ModelSolver SpecSolver SolverFacts OdeFacts PropsSolver ModelSplit PropsSplit SpecMethod PropsMethod SpecTraj OdeSign PropsTraj
  OdeNear ModelPart SpecPart PartFacts PartValue PropsPart PartBounds ModelAero SpecAero PropsAero PropsAeroRun PropsAeroChem AeroPull GasFortran
  ModelYield PropsYield ModelAeroRun SpecAeroRun PropsAeroTraj SpecSun SpecTroe SpecTame TameFacts.
Import ListNotations.
Import Coq.Lists.List.
Open Scope nat_scope.
Open Scope list_scope.
Local Arguments eqb : simpl never.

(* An expression of the usual form is tame at every temperature and water vapour. *)
Theorem C82_usual : forall H2O T e, (0 < T)%R -> (0 <= H2O)%R -> usual e -> tame H2O T e.
Proof. intros. apply usual_tame; assumption. Qed.

(* Tame rates have values at all times and peroxy radical totals, and the
   values are regular functions of these two. *)
Theorem C82_regular : forall m e H2O T, tame_rates m e H2O T ->
  exists k, (forall from until, regular_rates (List.length m) k from until) /\
    forall t x, coefficients m e t x H2O T (fun r => k r t x).
Proof.
  intros m e w T H.
  destruct (finite_choice (fun _ _ : R => 0%R) (fun r f => regular f /\ forall t x, means (mcm_var x w T) (mcm_J t) (e r) (f t x)) (List.length m)) as [k K].
  { intros r Hr. destruct (nth_error m r) as [rx|] eqn:E; [|apply nth_error_None in E; lia].
    destruct (H r rx E) as (_ & _ & _ & _ & Tm). destruct (tame_value w T (e r) Tm) as (f & F). exists f. exact F. }
  exists k. split; [apply regular_all; intros r Hr; apply (K r Hr)|]. intros t x r rx E.
  destruct (H r rx E) as (A1 & A2 & A3 & A4 & _). repeat (split; [assumption|]). apply K. apply nth_error_Some. congruence.
Qed.

(* The generated evaluate_rates never fails on such a mechanism: both modules
   return the same numbers, one for each reaction, and none is negative where
   the peroxy radical total is not. *)
Theorem C82_rates : forall m text e H2O T, written m text -> (0 < T)%R -> (0 <= H2O)%R -> tame_rates m e H2O T ->
  let N := List.length m in
  exists st, extract_mechanism text = Ok (Z.of_nat N, st) /\
  forall ttime RO2, (0 <= RO2)%R -> exists en_n en_f ks,
    numba_run ttime RO2 H2O T = Some en_n /\ fortran_run ttime RO2 H2O T = Some en_f /\
    List.length ks = N /\ nonneg ks /\
    (forall a, returned N (run (cell 0 N) (text_value numba_lang en_n) (gen_rates_python (convert_dict convert_numba (p_rate st))) a) = Some ks) /\
    (forall a, returned N (run (cell 1 N) (text_value fortran_lang en_f) (gen_rates_fortran None (convert_dict convert_fortran (p_rate st))) a) = Some ks).
Proof.
  intros m text e w T W HT HW Ht N. destruct (C82_regular m e w T Ht) as (k & Hr & Hc).
  exists (interp m). split; [apply written_extract, W|]. intros t r Pr.
  destruct (C58_partial m text e (fun i => k i t r) t r w T W HT HW (Hc t r)) as (st & en & ef & E & En & Ef & A & B & _).
  assert (Est : st = interp m) by (assert (X := written_extract _ _ W); congruence). subst st.
  exists en, ef, (map (fun i => k i t r) (seq 0 N)). split; [exact En|]. split; [exact Ef|].
  split; [rewrite map_length, seq_length; reflexivity|]. split; [|split; [exact A | exact B]].
  apply Forall_map, Forall_forall. intros i Hi. apply in_seq in Hi. apply (proj1 (Hr t t)); [unfold N in Hi; lia | lra | exact Pr].
Qed.

(* The gas-phase right-hand side is defined at every non-negative state. *)
Theorem C82_rhs_partial : forall m text e, written m text ->
  Forall products_safe m -> Forall distinct_reactants m -> peroxy_clean (first_seen (reading_order m)) ->
  exists st, extract_mechanism text = Ok (Z.of_nat (List.length m), st) /\
  forall start_time t H2O T y, (0 < T)%R -> (0 <= H2O)%R -> tame_rates m e H2O T ->
    List.length y = List.length (first_seen (reading_order m)) -> nonneg y ->
    let c := conc_of (p_sp2a st) y in
    exists v dy, coefficients m e (start_time + t) (peroxy_total (first_seen (reading_order m)) c) H2O T v /\
      (forall k, k < List.length m -> (0 <= v k)%R) /\
      gas_dydt_numba st (List.length m) start_time t H2O T y = Some dy /\ List.length dy = List.length y /\
      forall i s, nth_error (first_seen (reading_order m)) i = Some s -> nth_error dy i = Some (expected m v c s).
Proof.
  intros m text e W Hs Hd PC. destruct (C59_partial m text e W Hs Hd PC) as (st & E & H). exists st. split; [exact E|].
  intros t0 t w T y HT HW Ht Hy Hn c. destruct (C82_regular m e w T Ht) as (k & Hr & Hc).
  set (r := peroxy_total (first_seen (reading_order m)) c) in *.
  destruct (H t0 t w T y (fun i => k i (t0 + t)%R r) HT HW Hy Hn (Hc _ _)) as (dy & A).
  exists (fun i => k i (t0 + t)%R r), dy. split; [apply Hc|]. split; [|exact A].
  intros i Hi. apply (proj1 (Hr (t0 + t)%R (t0 + t)%R)); [exact Hi | lra|]. unfold r, peroxy_total. apply rsum_nonneg.
  intros x Hx. apply in_map_iff in Hx as (s & <- & _). destruct (is_peroxy s); [|lra]. apply conc_of_nonneg, Hn.
Qed.

(* C71 without conditions on the values of the rates. *)
Theorem C82_gas_partial : forall m text e, written m text -> whole m -> peroxy_clean (first_seen (reading_order m)) ->
  exists st, extract_mechanism text = Ok (Z.of_nat (List.length m), st) /\
  forall start_time H2O temp T u, (0 < temp)%R -> (0 <= H2O)%R -> (0 <= T)%R -> tame_rates m e H2O temp ->
    List.length (u 0%R) = List.length (first_seen (reading_order m)) ->
    solves (fun t => gas_dydt_numba st (List.length m) start_time t H2O temp) T u ->
    nonneg (u 0%R) -> forall t, (0 <= t <= T)%R -> nonneg (u t).
Proof.
  intros m text e W Hw PC. exists (interp m). split; [apply written_extract, W|]. intros start w temp T u HT HW PT Ht.
  destruct (C82_regular m e w temp Ht) as (k & Hr & Hc). destruct (C71_partial m text e k W Hw PC) as (st & E & H).
  assert (Est : st = interp m) by (assert (X := written_extract _ _ W); congruence). subst st.
  apply (H start w temp T u HT HW PT (Hr _ _)). intros; apply Hc.
Qed.

Theorem C82_gas_rows_partial : forall m text e, written m text -> whole m -> peroxy_clean (first_seen (reading_order m)) ->
  exists st, extract_mechanism text = Ok (Z.of_nat (List.length m), st) /\
  forall simulate jac_at start H2O temp conc sim b ts ys, (0 < temp)%R -> (0 <= H2O)%R -> (0 <= B2R b)%R -> tame_rates m e H2O temp ->
    error_free (fun clock => gas_dydt_numba st (List.length m) clock 0 H2O temp) (gas_rhs_at st (List.length m) H2O temp) simulate ->
    Forall (fun sc => 0 <= snd sc)%R conc ->
    run_simulation simulate (gas_rhs_at st (List.length m) H2O temp) jac_at start (p_sp st) (p_sp2a st) conc sim b = Ok (ts, ys) ->
    forall j row, j < List.length ts -> nth_error ys j = Some row -> nonneg row.
Proof.
  intros m text e W Hw PC. exists (interp m). split; [apply written_extract, W|]. intros simulate jac start w temp conc sim b ts ys HT HW PB Ht.
  destruct (C82_regular m e w temp Ht) as (k & Hr & Hc). destruct (C71_rows_partial m text e k W Hw PC) as (st & E & H).
  assert (Est : st = interp m) by (assert (X := written_extract _ _ W); congruence). subst st.
  apply (H simulate jac start w temp conc sim b ts ys HT HW PB (Hr _ _)). intros; apply Hc.
Qed.

(* C73 and C74 without conditions on the values of the rates. *)
Theorem C82_aerosol_partial : forall m text e, written m text ->
  Forall unit_coefficients m -> Forall (fun r => NoDup (names (rhs r)) /\ ~ In (last_reactant r) (names (rhs r))) m ->
  Forall distinct_reactants m -> peroxy_clean (first_seen (reading_order m)) ->
  exists st, extract_mechanism text = Ok (Z.of_nat (List.length m), st) /\
  forall smiles objects cutoff temp nb y_core nper core_density core_mw diss d q,
    aerosol_setup st (List.length (first_seen (reading_order m))) smiles objects cutoff temp nb y_core nper core_density core_mw diss d q ->
  forall rnd H2O o1 o2 o3 calls start_time T u, is_rounding rnd -> (0 <= H2O)%R -> (0 <= T)%R -> tame_rates m e H2O temp ->
    (forall t y, is_call st (List.length m) nb o1 o2 o3 (calls t y)) ->
    List.length (u 0%R) = d_ns d + d_nc d * nb ->
    solves (fun t y => aerosol_dydt st (List.length m) rnd H2O temp d q nb y_core nper core_density core_mw diss (calls t y) (start_time + t)%R y) T u ->
    nonneg (u 0%R) -> forall t, (0 <= t <= T)%R -> nonneg (u t).
Proof.
  intros m text e W Hu Hpr Hdr PC. exists (interp m). split; [apply written_extract, W|].
  intros smiles objects cutoff temp nb y_core nper cd cm diss d q AS rnd w o1 o2 o3 calls start T u Hrnd HW PT Ht.
  destruct (C82_regular m e w temp Ht) as (k & Hr & Hc). destruct (C73_partial m text e k W Hu Hpr Hdr PC) as (st & E & H).
  assert (Est : st = interp m) by (assert (X := written_extract _ _ W); congruence). subst st.
  apply (H _ _ _ _ _ _ _ _ _ _ _ _ AS rnd w o1 o2 o3 calls start T u Hrnd HW PT (Hr _ _)). intros; apply Hc.
Qed.

Theorem C82_aerosol_rows_partial : forall m text e, written m text ->
  Forall unit_coefficients m -> Forall (fun r => NoDup (names (rhs r)) /\ ~ In (last_reactant r) (names (rhs r))) m ->
  Forall distinct_reactants m -> peroxy_clean (first_seen (reading_order m)) ->
  exists st, extract_mechanism text = Ok (Z.of_nat (List.length m), st) /\
  forall smiles objects cutoff temp nb y_core nper core_density core_mw diss d q,
    aerosol_setup st (List.length (first_seen (reading_order m))) smiles objects cutoff temp nb y_core nper core_density core_mw diss d q ->
  forall rnd H2O o1 o2 o3 calls rcalls simulate jac start_time RH conc y_cond sim b ts ys os, is_rounding rnd -> (0 <= H2O)%R -> (0 <= B2R b)%R ->
    tame_rates m e H2O temp ->
    (forall t y, is_call st (List.length m) nb o1 o2 o3 (rcalls t y)) ->
    error_free_recording
      (fun t y => aerosol_dydt st (List.length m) rnd H2O temp d q nb y_core nper core_density core_mw diss (rcalls t y) (B2R start_time + t)%R y)
      (aerosol_dydt_func st (List.length m) rnd H2O temp d q nb y_core nper core_density core_mw diss calls start_time) simulate ->
    initial_condensed (d_nc d) nb y_core diss RH nb = Ok y_cond -> (0 <= RH < 1)%R -> Forall (fun sc => 0 <= snd sc)%R conc ->
    aerosol_simulation st (List.length m) rnd H2O temp d q nb y_core nper core_density core_mw diss simulate jac calls start_time (d_sp2a d) conc y_cond sim b = Ok (ts, ys, os) ->
    forall j row, j < List.length ts -> nth_error ys j = Some row -> nonneg row.
Proof.
  intros m text e W Hu Hpr Hdr PC. exists (interp m). split; [apply written_extract, W|].
  intros smiles objects cutoff temp nb y_core nper cd cm diss d q AS rnd w o1 o2 o3 calls rcalls simulate jac start RH conc y_cond sim b ts ys os Hrnd HW PB Ht.
  destruct (C82_regular m e w temp Ht) as (k & Hr & Hc). destruct (C73_rows_partial m text e k W Hu Hpr Hdr PC) as (st & E & H).
  assert (Est : st = interp m) by (assert (X := written_extract _ _ W); congruence). subst st.
  apply (H _ _ _ _ _ _ _ _ _ _ _ _ AS rnd w o1 o2 o3 calls rcalls simulate jac start RH conc y_cond sim b ts ys os Hrnd HW PB (Hr _ _)). intros; apply Hc.
Qed.

(* ------------------------------------------------------------------ *)
(* The hypotheses hold: the mechanism of C59_hypotheses at every temperature
   and water vapour; a rate of the MCM with a difference at 298 K. *)
Example C82_hypotheses : forall H2O T, (0 < T)%R -> (0 <= H2O)%R -> tame_rates gas_mech gas_expr H2O T.
Proof.
  intros w T HT HW k rx Hk. destruct (gas_coefficients 0 0 w T HT k rx Hk) as (A1 & A2 & A3 & A4 & _). repeat (split; [assumption|]).
  apply usual_tame; [assumption|assumption|]. destruct k as [|[|[|k]]]; [| | | destruct k; discriminate]; cbn [gas_expr].
  - apply usual_plus. apply plus_mul; [eapply plus_lit; [vm_compute; reflexivity | reflexivity]|]. apply plus_exp; [|reflexivity]. apply calc_div; [| |reflexivity].
    + eapply calc_lit. vm_compute. reflexivity.
    + apply (plus_name "TEMP"). left. reflexivity.
  - eapply (usual_phot _ 11); [reflexivity|]. vm_compute. tauto.
  - apply usual_mul; [apply usual_plus; eapply plus_lit; [vm_compute; reflexivity | reflexivity]|]. apply (usual_name "RO2"). left. reflexivity.
Qed.

(* KCH3O2*0.5*(1-7.18*EXP(-885/TEMP))*RO2 *)
Definition mcm_difference : rexpr :=
  RBin (s_ "*") (RBin (s_ "*") (RBin (s_ "*") (RVar (s_ "KCH3O2")) (RLit (s_ "0.5") None))
    (RParen (RBin (s_ "-") (RLit (s_ "1") None)
       (RBin (s_ "*") (RLit (s_ "7.18") None) (RExp (RBin (s_ "/") (RNeg (RLit (s_ "885") None)) (RVar (s_ "TEMP"))))))))
    (RVar (s_ "RO2")).
Example C82_difference : show kpp mcm_difference = s_ "KCH3O2*0.5*(1-7.18*EXP(-885/TEMP))*RO2" /\
  forall H2O, (0 <= H2O)%R -> tame H2O 298 mcm_difference.
Proof.
  split; [reflexivity|]. intros w HW. unfold mcm_difference. apply tame_mul; [|apply tame_RO2].
  assert (HT : (0 < 298)%R) by lra. apply tame_mul.
  - apply usual_tame; [exact HT|exact HW|]. apply usual_plus. apply plus_mul; [apply (plus_name "KCH3O2"); vm_compute; tauto|].
    eapply plus_lit; [vm_compute; reflexivity | reflexivity].
  - apply (tame_steady _ _ _ (1 - 7.18 * exp (- (885) / 298))%R).
    + apply m_paren, m_sub; [eapply lit_value; [vm_compute; reflexivity | unfold Q2R; cbn; lra]|].
      apply m_mul; [eapply lit_value; [vm_compute; reflexivity | unfold Q2R; cbn; lra]|]. apply m_exp; [|reflexivity].
      apply m_div; [apply m_neg; eapply lit_value; [vm_compute; reflexivity | unfold Q2R; cbn; lra] | apply (m_var _ _ _ 298%R); reflexivity | lra | reflexivity].
    + assert (C : (- (885) / 298 = - (885/894 + 885/894 + 885/894))%R) by field.
      rewrite C, exp_Ropp, !exp_plus. set (x := exp (885/894)) in *.
      assert (X : (7.18 < x * x * x)%R).
      { assert (X0 : (1.98 < x)%R) by (unfold x; eapply Rlt_trans; [|apply exp_ineq1; intros Z; lra]; lra).
        assert (X1 : (1.98 * 1.98 < x * x)%R) by (apply Rmult_gt_0_lt_compat; lra).
        assert (X2 : (1.98 * 1.98 * 1.98 < x * x * x)%R) by (apply Rmult_gt_0_lt_compat; lra). lra. }
      assert (Y : (7.18 * / (x * x * x) < 1)%R); [|lra].
      apply (Rmult_lt_reg_r (x * x * x)); [lra|]. rewrite Rmult_assoc, Rinv_l by lra. lra.
Qed.

Print Assumptions C82_usual. Print Assumptions C82_regular. Print Assumptions C82_rates. Print Assumptions C82_rhs_partial.
Print Assumptions C82_gas_partial. Print Assumptions C82_gas_rows_partial. Print Assumptions C82_aerosol_partial. Print Assumptions C82_aerosol_rows_partial.
