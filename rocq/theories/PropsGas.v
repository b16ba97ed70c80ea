(* C59: the whole gas-phase right-hand side, from the text of the mechanism to
   the vector given to the solver. *)
From Coq Require Import String List Bool Arith Lia ZArith QArith Reals Lra Permutation.
From Verif Require Import Base PyStr PyDict ModelParse SpecMech ParseStruct ParseTables ParseWritten ParseShow PropsParse
  ModelLang ModelGen ModelRhs SpecKin LangFacts GenReact GenLossGain GenParsed PropsKin PropsRhs GenJac GenJacParsed PropsJac
  ModelOmp OmpFacts PropsOmp ModelExpr ModelRate ModelRateFile SpecRate RateExpr PropsRate ModelRateBody ModelRateRun RateSym
  SpecRateValue SpecMcmEnv PropsRateValue ModelRo2 SpecRo2 PropsRo2 ModelGas SpecGas.
Import ListNotations.
Import Coq.Lists.List.
Open Scope nat_scope.
Open Scope list_scope.
Local Arguments eqb : simpl never.

Lemma species_count_interp m : species_count (interp m) = List.length (first_seen (reading_order m)).
Proof.
  unfold species_count. destruct (interp_species m) as (_ & -> & _ & _). unfold species.
  rewrite combine_length, seq_length. apply Nat.min_id.
Qed.

Theorem C59_partial : forall m text e, written m text ->
  Forall products_safe m -> Forall distinct_reactants m -> peroxy_clean (first_seen (reading_order m)) ->
  exists st, extract_mechanism text = Ok (Z.of_nat (List.length m), st) /\
  forall start_time t H2O T y v, (0 < T)%R -> (0 <= H2O)%R ->
    List.length y = List.length (first_seen (reading_order m)) -> nonneg y ->
    let c := conc_of (p_sp2a st) y in
    coefficients m e (start_time + t) (peroxy_total (first_seen (reading_order m)) c) H2O T v ->
    exists dy, gas_dydt_numba st (List.length m) start_time t H2O T y = Some dy /\ List.length dy = List.length y /\
      forall i s, nth_error (first_seen (reading_order m)) i = Some s -> nth_error dy i = Some (expected m v c s).
Proof.
  intros m text e W Hs Hd (P1 & P2 & P3 & P4).
  destruct (C16_partial m text W Hs Hd) as (st & p1 & E & G & HR). exists st. split; [exact E|].
  intros t0 t H2O T y v HT HH Hy Hn c HC.
  assert (Est : st = interp m) by (assert (X := written_extract _ _ W); rewrite E in X; congruence).
  unfold gas_dydt_numba. rewrite (C33_partial m text st W E P1 P2 P3 P4 y Hy). fold c. rewrite G.
  destruct (C58_partial m text e v (t0 + t) _ H2O T W HT HH HC) as (st' & en & ef & E' & En & _ & Hr & _).
  rewrite E in E'. injection E' as <-. rewrite En. cbn [obind]. rewrite Hr. cbn [obind].
  assert (Hy' : List.length y = species_count st) by (rewrite Est, species_count_interp; exact Hy).
  rewrite Hy'.
  destruct (HR (map v (seq 0 (List.length m))) y) as (dy & Hdy & Ldy & Vdy);
    [rewrite map_length, seq_length; reflexivity | exact Hy' | exact Hn |].
  exists dy. split; [exact Hdy|]. split; [exact Ldy|]. intros i s Hi. unfold expected.
  rewrite (Vdy s i); [reflexivity|]. rewrite Est. apply interp_sp2a. exact Hi.
Qed.

(* A statement list executed as the generated subroutine prescribes. *)
Lemma runs_as_reactants omp n sp2a rt loss p tr : n <> 0 -> gen_reactants_fortran omp n sp2a rt loss = Ok p -> runs_as omp p tr ->
  exists p0, gen_reactants_fortran None n sp2a rt loss = Ok p0 /\
    forall rnd m0 y, reactants_fortran rnd tr n m0 y = reactants_fortran rnd p0 n m0 y.
Proof.
  intros Hn Hp Hr. destruct omp as [br|]; cbn [runs_as] in Hr.
  - destruct Hr as (bs & t & Hb & He & ->). destruct (C24_reactants _ _ _ _ _ _ Hn Hp) as (p0 & bs' & H0 & Hb' & HX).
    rewrite Hb in Hb'. injection Hb' as <-. exists p0. split; [exact H0|]. intros. apply HX, He.
  - exists p. split; [exact Hp|]. intros. rewrite Hr. reflexivity.
Qed.

Lemma runs_as_loss_gain omp (sp2a : dict str nat) loss gain tr : sp2a <> [] -> NoDup (dvals sp2a) ->
  runs_as omp (gen_loss_gain_fortran omp sp2a loss gain) tr ->
  forall rnd N r, loss_gain_fortran rnd tr N r = loss_gain_fortran rnd (gen_loss_gain_fortran None sp2a loss gain) N r.
Proof.
  intros Hne Hnd Hr rnd N r. destruct omp as [br|]; cbn [runs_as] in Hr.
  - destruct Hr as (bs & t & Hb & He & ->). destruct (C24_loss_gain sp2a loss gain br Hne Hnd) as (bs' & Hb' & HX).
    rewrite Hb in Hb'. injection Hb' as <-. apply HX, He.
  - rewrite Hr. reflexivity.
Qed.

Theorem C59_fortran_partial : forall m text e, written m text ->
  Forall unit_coefficients m -> Forall (fun r => NoDup (names (rhs r)) /\ ~ In (last_reactant r) (names (rhs r))) m ->
  Forall distinct_reactants m -> peroxy_clean (first_seen (reading_order m)) ->
  exists st, extract_mechanism text = Ok (Z.of_nat (List.length m), st) /\
  forall o1 o2 o3 p1 pr1 tr2 tr3,
    gen_reactants_fortran o1 (List.length m) (p_sp2a st) (p_reac st) (p_loss st) = Ok p1 -> runs_as o1 p1 pr1 ->
    runs_as o2 (gen_loss_gain_fortran o2 (p_sp2a st) (p_loss st) (p_gain st)) tr2 ->
    runs_as o3 (gen_rates_fortran o3 (convert_dict convert_fortran (p_rate st))) tr3 ->
  forall rnd a0 m0 start_time t H2O T y v, is_rounding rnd -> (0 < T)%R -> (0 <= H2O)%R ->
    List.length y = List.length (first_seen (reading_order m)) -> nonneg y ->
    let c := conc_of (p_sp2a st) y in
    coefficients m e (start_time + t) (peroxy_total (first_seen (reading_order m)) c) H2O T v ->
    exists dy, gas_dydt_fortran rnd tr3 pr1 tr2 (List.length m) a0 m0 (RO2_sum (write_RO2_indices (p_sp2a st)) y)
                 start_time t H2O T y = Some dy /\ List.length dy = List.length y /\
      forall i s, nth_error (first_seen (reading_order m)) i = Some s -> nth_error dy i = Some (expected m v c s).
Proof.
  intros m text e W Hu Hp Hd (P1 & P2 & P3 & P4).
  destruct (C16_fortran_partial m text W Hu Hp Hd) as (st & E & HR). exists st. split; [exact E|].
  intros o1 o2 o3 p1 tr1 tr2 tr3 G1 R1 R2 R3 rnd a0 m0 t0 t H2O T y v Hrnd HT HH Hy Hn c HC.
  assert (Est : st = interp m) by (assert (X := written_extract _ _ W); rewrite E in X; congruence).
  assert (Hne : species m <> []).
  { destruct P1 as (s & Hs & _). unfold species. intros X. rewrite X in Hs. destruct Hs. }
  assert (Hm : List.length m <> 0).
  { intros X. apply length_zero_iff_nil in X. subst m. apply Hne. reflexivity. }
  destruct (runs_as_reactants _ _ _ _ _ _ _ Hm G1 R1) as (p0 & G0 & X1).
  destruct (HR None None) as (p0' & G0' & HV). rewrite G0 in G0'. injection G0' as <-.
  assert (Hsp : p_sp2a st <> []).
  { rewrite Est. destruct (interp_species m) as (_ & -> & _ & _). destruct (species m); [congruence | discriminate]. }
  assert (Hnd : NoDup (dvals (p_sp2a st))) by (rewrite Est; exact (wf_vals _ _ _ _ _ (interp_lg_wf m))).
  assert (X2 := runs_as_loss_gain _ _ _ _ _ Hsp Hnd R2).
  unfold gas_dydt_fortran. rewrite (C33_partial m text st W E P1 P2 P3 P4 y Hy). fold c.
  destruct (C58_partial m text e v (t0 + t) _ H2O T W HT HH HC) as (st' & en & ef & E' & _ & Ef & _ & Hr & Ho).
  rewrite E in E'. injection E' as <-. rewrite Ef. cbn [obind].
  assert (HK : returned (List.length m) (run (cell 1 (List.length m)) (text_value fortran_lang ef) tr3 a0) =
               Some (map v (seq 0 (List.length m)))).
  { destruct o3 as [br|]; cbn [runs_as] in R3.
    - destruct R3 as (bs & tr & Hb & He & ->). destruct (Ho ltac:(lia) br) as (bs' & Hb' & HX).
      rewrite Hb in Hb'. injection Hb' as <-. apply HX, He.
    - rewrite R3. apply Hr. }
  rewrite HK. cbn [obind].
  assert (Hy' : List.length y = species_count st) by (rewrite Est, species_count_interp; exact Hy).
  destruct (HV rnd m0 (map v (seq 0 (List.length m))) y) as (dy & Hdy & Vdy);
    [exact Hrnd | rewrite map_length, seq_length; reflexivity | exact Hy' | exact Hn |].
  exists dy. rewrite Hy'. unfold rhs_fortran in *. rewrite X1.
  destruct (reactants_fortran rnd p0 (List.length m) m0 y) as [cc|]; [|discriminate]. rewrite X2.
  split; [exact Hdy|]. split.
  - unfold loss_gain_fortran, returned in Hdy. destruct (run _ _ _ _) in Hdy; [|discriminate].
    injection Hdy as <-. apply array_length.
  - intros i s Hi. unfold expected. rewrite (Vdy s i); [reflexivity|]. rewrite Est. apply interp_sp2a. exact Hi.
Qed.

(* The hypotheses meet for a mechanism whose rates use a temperature
   expression, a photolysis rate and the total peroxy radical. *)
Definition gas_words : list wrx :=
  [ ([s_ "CH3O2"; s_ "NO"], [s_ "CH3O"; s_ "NO2"], s_ "2.3D-12*EXP(360/TEMP)")
  ; ([s_ "HCHO"; s_ "hv"], [s_ "CO"; s_ "HO2"], s_ "J(11)")
  ; ([s_ "CH3O2"], [s_ "CH3O"], s_ "1.82D-13*RO2") ].
Definition gas_mech : mech := map bare gas_words.
Definition gas_expr (k : nat) : rexpr :=
  match k with
  | 0 => RBin (s_ "*") (RLit (s_ "2.3") (Some (true, s_ "-", s_ "12")))
           (RExp (RBin (s_ "/") (RLit (s_ "360") None) (RVar (s_ "TEMP"))))
  | 1 => RPhot (s_ "11")
  | _ => RBin (s_ "*") (RLit (s_ "1.82") (Some (true, s_ "-", s_ "13"))) (RVar (s_ "RO2"))
  end.
Example C59_hypotheses :
  written gas_mech (ParseShow.show gas_words) /\
  Forall products_safe gas_mech /\ Forall distinct_reactants gas_mech /\
  Forall unit_coefficients gas_mech /\
  Forall (fun r => NoDup (names (rhs r)) /\ ~ In (last_reactant r) (names (rhs r))) gas_mech /\
  peroxy_clean (first_seen (reading_order gas_mech)) /\
  forall ttime RO2 H2O T, (0 < T)%R -> exists v, coefficients gas_mech gas_expr ttime RO2 H2O T v.
Proof.
  split; [apply bare_written; [discriminate | reflexivity]|].
  split. { repeat (apply Forall_cons; [|]); [..|constructor]; left; (split; [vm_compute; intuition discriminate |
      vm_compute; repeat constructor; cbn; intuition discriminate]). }
  split. { repeat (apply Forall_cons; [|]); [..|constructor]; (split; [vm_compute; discriminate | vm_compute; repeat constructor; cbn; intuition discriminate]). }
  split. { repeat (apply Forall_cons; [|]); [..|constructor]; repeat constructor; reflexivity. }
  split. { repeat (apply Forall_cons; [|]); [..|constructor];
    (split; [vm_compute; repeat constructor; cbn; intuition discriminate | vm_compute; intuition discriminate]). }
  split. { split; [exists (s_ "CH3O2"); split; [vm_compute; tauto | vm_compute; reflexivity]|].
    vm_compute; intuition discriminate. }
  intros t r w T HT.
  destruct (mcm_J t 11) as [j|] eqn:J; [|vm_compute in J; discriminate].
  assert (M : forall k, exists v, k < 3 -> means (mcm_var r w T) (mcm_J t) (gas_expr k) v).
  { intros [|[|[|k]]]; try (exists 0%R; lia); eexists; intros _; cbn [gas_expr].
    - apply m_mul; [apply m_lit; vm_compute; reflexivity|].
      apply m_exp; [|reflexivity]. apply m_div; [apply m_lit; vm_compute; reflexivity|apply (m_var _ _ _ T); reflexivity|lra|reflexivity].
    - eapply (m_phot _ _ (s_ "11") 11); [reflexivity|exact J].
    - apply m_mul; [apply m_lit; vm_compute; reflexivity|apply (m_var _ _ _ r); reflexivity]. }
  destruct (M 0) as [v0 V0], (M 1) as [v1 V1], (M 2) as [v2 V2].
  exists (fun k => match k with 0 => v0 | 1 => v1 | _ => v2 end).
  assert (T1 : safe_name (s_ "TEMP")) by (apply safe_name_by; try reflexivity; discriminate).
  assert (T2 : safe_name (s_ "RO2")) by (apply safe_name_by; try reflexivity; discriminate).
  intros [|[|[|k]]] rx Hk; [| | | destruct k; discriminate]; injection Hk as <-.
  - split; [reflexivity|]. split; [|split; [|split; [|apply V0; lia]]].
    + cbn [gas_expr good]. unfold digits, mantissa, good_exponent, digits.
      repeat match goal with |- safe_name _ => assumption | |- _ /\ _ => split end; try discriminate;
      try (cbn; tauto); try (repeat (constructor; [first [reflexivity | left; reflexivity | right; reflexivity]|]); constructor).
    + unfold well_formed, gas_expr. cbn [at_level In]. intuition lia.
    + cbn. repeat split; reflexivity.
  - split; [reflexivity|]. split; [|split; [|split; [|apply V1; lia]]].
    + cbn [gas_expr good]. unfold digits, mantissa, good_exponent, digits.
      repeat match goal with |- safe_name _ => assumption | |- _ /\ _ => split end; try discriminate;
      try (cbn; tauto); try (repeat (constructor; [first [reflexivity | left; reflexivity | right; reflexivity]|]); constructor).
    + unfold well_formed, gas_expr. cbn [at_level In]. intuition lia.
    + cbn. repeat split; reflexivity.
  - split; [reflexivity|]. split; [|split; [|split; [|apply V2; lia]]].
    + cbn [gas_expr good]. unfold digits, mantissa, good_exponent, digits.
      repeat match goal with |- safe_name _ => assumption | |- _ /\ _ => split end; try discriminate;
      try (cbn; tauto); try (repeat (constructor; [first [reflexivity | left; reflexivity | right; reflexivity]|]); constructor).
    + unfold well_formed, gas_expr. cbn [at_level In]. intuition lia.
    + cbn. repeat split; reflexivity.
Qed.

Print Assumptions C59_partial.
Print Assumptions C59_fortran_partial.
