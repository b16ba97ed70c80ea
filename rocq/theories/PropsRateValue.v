(* C55, C58: values of the converted rate texts. *)
From Coq Require Import List Bool Arith Lia Ascii String ZArith QArith Reals Qreals Lra.
From Verif Require Import Base PyStr PyDict ModelParse SpecMech PropsParse ModelLang ModelRhs ModelOmp PropsOmp
  ModelRate ModelRateFile SpecRate RateExpr PropsRate SpecRateValue ModelExpr ModelRateBody ModelRateRun
  SpecSun SpecTroe SpecMcmEnv RateSym RateBody RateSun PropsBody PropsTroe RateParse.
Import ListNotations.
Import Coq.Lists.List.
Open Scope nat_scope.
Open Scope list_scope.
Local Arguments eqb : simpl never.

Lemma ident_by x : forallb is_ident_char x = true -> Forall (fun c => is_ident_char c = true) x.
Proof. rewrite forallb_forall. apply Forall_forall. Qed.

(* The converted text, read by the target language, has the value of the KPP
   expression.  Names are case insensitive in Fortran. *)
Theorem C55_partial : forall e v en_n en_f var J, good e -> well_formed e -> proper_names e -> means var J e v ->
  (forall x u, var x = Some u -> rvar en_n x = Some u /\ rvar en_f (lower x) = Some u) ->
  (forall k u, J k = Some u -> rj en_n k = Some u /\ rj en_f k = Some u) ->
  text_value numba_lang en_n (convert_numba (show kpp e)) = Some v /\
  text_value fortran_lang en_f (convert_fortran (show kpp e)) = Some v.
Proof.
  intros e v en_n en_f var J G W P M HV HJ.
  assert (Mono : forall var' J', (forall x u, var x = Some u -> var' x = Some u) -> (forall k u, J k = Some u -> J' k = Some u) ->
     means var' J' e v).
  { intros var' J' H1 H2. clear - M H1 H2. induction M; try (econstructor; eauto; fail). }
  rewrite (convert_numba_show e G), (convert_fortran_show e G). split.
  - apply (show_value numba_lang numba "[" "]" KLb KRb) with (var := fun x => rvar en_n x); auto.
    + split; [apply ident_by; reflexivity|]. eexists _, _. split; reflexivity.
    + split; [reflexivity|]. intros c C. unfold kpp_letter. rewrite orb_comm. cbn in C. unfold py_letter in C. rewrite C. reflexivity.
    + apply Mono; intros; [apply (HV _ _ H) | apply (HJ _ _ H)].
  - apply (show_value fortran_lang fortran_text "(" ")" KLp KRp) with (var := fun x => rvar en_f (lower x)); auto.
    + split; [apply ident_by; reflexivity|]. eexists _, _. split; reflexivity.
    + apply Mono; intros; [apply (HV _ _ H) | apply (HJ _ _ H)].
Qed.
(* An exponent written D0.. is not converted, and the numba text has no value. *)
Theorem C55_refuted : exists e v, well_formed e /\ proper_names e /\ (forall var J, means var J e v) /\
  (forall en, text_value numba_lang en (convert_numba (show kpp e)) = None).
Proof.
  exists (RLit (s_ "2.5") (Some (true, [], s_ "02"))). eexists. split; [exact I|]. split; [exact I|]. split.
  - intros. apply m_lit. vm_compute. reflexivity.
  - intros en. unfold text_value. replace (tokens numba_lang _) with (Some [KNum (25 # 10); KName (s_ "D02")]) by (vm_compute; reflexivity). reflexivity.
Qed.

(* ------------------------------------------------------------------ *)
(* C58: from the mechanism file to the array of rate coefficients. *)
Lemma mcm_env t r w T : (0 < T)%R -> (0 <= w)%R ->
  exists en_n en_f, numba_run t r w T = Some en_n /\ fortran_run t r w T = Some en_f /\
    (forall x u, mcm_var r w T x = Some u -> rvar en_n x = Some u /\ rvar en_f (lower x) = Some u) /\
    (forall k u, mcm_J t k = Some u -> rj en_n k = Some u /\ rj en_f k = Some u).
Proof.
  intros HT HW. destruct (C57_troe t r w T HT HW) as (en & ef & N & F & A).
  destruct (C57_plain t r w T HT HW) as (en' & ef' & N' & F' & B). rewrite N in N'; injection N' as <-. rewrite F in F'; injection F' as <-.
  destruct (C31_values t r w T HT HW) as (en' & ef' & N' & F' & C & _). rewrite N in N'; injection N' as <-. rewrite F in F'; injection F' as <-.
  destruct (numba_runs t r w T HT HW) as (en' & R & N' & _). rewrite N in N'; injection N' as <-.
  destruct (fortran_runs t r w T HT HW) as (ef' & Rf & F' & _). rewrite F in F'; injection F' as <-.
  exists en, ef. split; [exact N|]. split; [exact F|]. split.
  - intros x u H. unfold mcm_var in H. destruct (find _ _) as [[n v]|] eqn:Fd; [|discriminate]. injection H as <-. cbn [snd].
    apply find_some in Fd. destruct Fd as [I E]. apply eqb_eq in E. cbn [fst] in E. subst x.
    unfold mcm_names in I. apply in_app_or in I. destruct I as [I|I]; [|apply in_app_or in I; destruct I as [I|I]].
    + assert (IT : rvar en (s_ "temp") = Some T).
      { rewrite (run_frame _ _ _ _ (s_ "temp") R); [reflexivity|]. apply inb_nIn. vm_compute. reflexivity. }
      assert (IW : rvar en (s_ "H2O") = Some w).
      { rewrite (run_frame _ _ _ _ (s_ "H2O") R); [reflexivity|]. apply inb_nIn. vm_compute. reflexivity. }
      assert (IR : rvar en (s_ "RO2") = Some r).
      { rewrite (run_frame _ _ _ _ (s_ "RO2") R); [reflexivity|]. apply inb_nIn. vm_compute. reflexivity. }
      assert (ITf : rvar ef (s_ "temp") = Some T).
      { rewrite (run_frame _ _ _ _ (s_ "temp") Rf); [reflexivity|]. apply inb_nIn. vm_compute. reflexivity. }
      assert (IWf : rvar ef (s_ "h2o") = Some w).
      { rewrite (run_frame _ _ _ _ (s_ "h2o") Rf); [reflexivity|]. apply inb_nIn. vm_compute. reflexivity. }
      assert (IRf : rvar ef (s_ "ro2") = Some r).
      { rewrite (run_frame _ _ _ _ (s_ "ro2") Rf); [reflexivity|]. apply inb_nIn. vm_compute. reflexivity. }
      vm_compute (s_ "temp") in IT.
      val en R "TEMP"%string T. { reflexivity. }
      destruct I as [I|[I|[I|[]]]]; injection I as <- <-; split; assumption.
    + apply in_map_iff in I. destruct I as ([[[y k0] ki] fc] & E & J). injection E as <- <-.
      destruct (A _ _ _ _ J) as (A1 & A2 & _). auto.
    + apply in_map_iff in I. destruct I as ([y f] & E & J). injection E as <- <-. apply (B _ _ J).
  - intros k u H. unfold mcm_J in H. destruct (find _ _) as [[j lmn]|] eqn:Fd; [|discriminate]. injection H as <-. cbn [snd].
    apply find_some in Fd. destruct Fd as [I E]. apply Nat.eqb_eq in E. cbn [fst] in E. subst j. apply (C _ _ I).
Qed.

(* For a mechanism m written in a file, at every time, water vapour, RO2 and
   positive temperature: if rate expression e_k of reaction k has value v_k with
   the MCM constants, the array returned by the generated evaluate_rates of
   both modules is v_0, v_1, ... whatever the array held before (Fortran: also
   for every division into OpenMP blocks and every interleaving). *)
Theorem C58_partial : forall m text e v ttime RO2 H2O T, written m text -> (0 < T)%R -> (0 <= H2O)%R ->
  (forall k r, nth_error m k = Some r -> rtext r = show kpp (e k) /\ good (e k) /\ well_formed (e k) /\ proper_names (e k) /\
     means (mcm_var RO2 H2O T) (mcm_J ttime) (e k) (v k)) ->
  let N := List.length m in
  exists st en_n en_f, extract_mechanism text = Ok (Z.of_nat N, st) /\
    numba_run ttime RO2 H2O T = Some en_n /\ fortran_run ttime RO2 H2O T = Some en_f /\
    let pn := gen_rates_python (convert_dict convert_numba (p_rate st)) in
    let pf := convert_dict convert_fortran (p_rate st) in
    (forall a, returned N (run (cell 0 N) (text_value numba_lang en_n) pn a) = Some (map v (seq 0 N))) /\
    (forall a, returned N (run (cell 1 N) (text_value fortran_lang en_f) (gen_rates_fortran None pf) a) = Some (map v (seq 0 N))) /\
    (0 < N -> forall breaks, exists bs, omp_program (gen_rates_fortran (Some breaks) pf) = Some bs /\
       forall tr a, execution bs tr ->
         returned N (run (cell 1 N) (text_value fortran_lang en_f) (as_items tr) a) = Some (map v (seq 0 N))).
Proof.
  intros m text e v t r w T Wr HT HW HM N. destruct (C04_written m text Wr) as (st & St & Rt).
  destruct (mcm_env t r w T HT HW) as (en & ef & En & Ef & HV & HJ). exists st, en, ef.
  split; [exact St|]. split; [exact En|]. split; [exact Ef|]. cbv zeta.
  assert (K : forall k K, dget k (p_rate st) = Some K ->
     text_value numba_lang en (convert_numba K) = Some (v k) /\ text_value fortran_lang ef (convert_fortran K) = Some (v k)).
  { intros k K H. rewrite Rt in H. destruct (nth_error m k) as [rx|] eqn:Rk; [|discriminate]. injection H as <-.
    destruct (HM k rx Rk) as (E & G & W & P & M). rewrite E. apply (C55_partial (e k) (v k) en ef _ _ G W P M HV HJ). }
  destruct (C30_values text (Z.of_nat N) st convert_numba (text_value numba_lang en) v St (fun k x H => proj1 (K k x H))) as (A & _).
  destruct (C30_values text (Z.of_nat N) st convert_fortran (text_value fortran_lang ef) v St (fun k x H => proj2 (K k x H))) as (_ & B & C).
  rewrite Nat2Z.id in A, B, C. auto.
Qed.

(* 2.8D-12*EXP(285/TEMP)*J(4)*(KMT01/300)**(-2.6D1) *)
Definition ex_expr : rexpr :=
  RBin (s_ "*") (RBin (s_ "*") (RBin (s_ "*") (RLit (s_ "2.8") (Some (true, s_ "-", s_ "12")))
      (RExp (RBin (s_ "/") (RLit (s_ "285") None) (RVar (s_ "TEMP"))))) (RPhot (s_ "4")))
    (RBin (s_ "**") (RParen (RBin (s_ "/") (RVar (s_ "KMT01")) (RLit (s_ "300") None)))
                    (RParen (RNeg (RLit (s_ "2.6") (Some (true, [], s_ "1")))))).
Example C58_hypotheses : show kpp ex_expr = s_ "2.8D-12*EXP(285/TEMP)*J(4)*(KMT01/300)**(-2.6D1)" /\
  good ex_expr /\ well_formed ex_expr /\ proper_names ex_expr /\
  forall t r w T, (0 < T)%R -> exists v, means (mcm_var r w T) (mcm_J t) ex_expr v.
Proof.
  split; [reflexivity|]. split.
  { assert (T : safe_name (s_ "TEMP")) by (apply safe_name_by; try reflexivity; discriminate).
    assert (K : safe_name (s_ "KMT01")) by (apply safe_name_by; try reflexivity; discriminate).
    cbn [ex_expr good]. unfold digits, mantissa, good_exponent, digits.
    repeat match goal with |- safe_name _ => assumption | |- _ /\ _ => split end; try discriminate;
      try (cbn; tauto); try (repeat (constructor; [first [reflexivity | left; reflexivity | right; reflexivity]|]); constructor). }
  split. { unfold well_formed, ex_expr. cbn [at_level In]. intuition lia. }
  split. { unfold ex_expr. cbn. repeat split; reflexivity. }
  intros t r w T HT. unfold ex_expr.
  destruct (mcm_var r w T (s_ "KMT01")) as [k|] eqn:K; [|vm_compute in K; discriminate].
  assert (KP : (0 < k)%R).
  { unfold mcm_var in K. destruct (find _ _) as [[n u]|] eqn:F; [|discriminate]. injection K as <-. cbn [snd].
    assert (I : In ("KMT01"%string, per_air (power 1.00e-31 (-1.6)), power 5.0e-11 0.3, const 0.85) troe_table) by (unfold troe_table, fall_off; cbn [In]; auto).
    destruct (C57_troe 0 r 0 T HT (Rle_refl 0)) as (en & ef & _ & _ & A). destruct (A _ _ _ _ I) as (_ & _ & A3 & _).
    vm_compute in F. injection F as <- <-. exact (proj1 A3). }
  destruct (mcm_J t 4) as [j|] eqn:J; [|vm_compute in J; discriminate].
  eexists. apply m_mul.
  - apply m_mul; [apply m_mul|].
    + apply m_lit. vm_compute. reflexivity.
    + apply m_exp; [|reflexivity]. apply m_div; [apply m_lit; vm_compute; reflexivity|apply (m_var _ _ _ T); reflexivity|lra|reflexivity].
    + eapply (m_phot _ _ (s_ "4") 4); [reflexivity|exact J].
  - apply m_pow.
    + apply m_paren, m_div; [apply m_var, K|apply m_lit; vm_compute; reflexivity|q2r; lra|reflexivity].
    + apply m_paren, m_neg, m_lit. vm_compute. reflexivity.
    + apply Rmult_lt_0_compat; [exact KP|apply Rinv_0_lt_compat; q2r; lra].
    + reflexivity.
Qed.
Print Assumptions C55_partial.
Print Assumptions C55_refuted.
Print Assumptions C58_partial.
