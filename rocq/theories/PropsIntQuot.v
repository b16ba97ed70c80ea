(* C87: a quotient of integer literals in a rate expression. *)
From Coq Require Import List Bool Arith Lia Ascii String ZArith QArith Reals Qreals Lra.
From Verif Require Import Base PyStr PyDict ModelParse SpecMech PropsParse ModelLang ModelRhs ModelOmp PropsOmp
  ModelRate ModelRateFile SpecRate RateExpr PropsRate SpecRateValue ModelExpr ModelRateBody ModelRateRun
  SpecSun SpecTroe SpecMcmEnv RateSym RateBody RateSun PropsBody PropsTroe RateParse PropsRateValue.
Import ListNotations.
Import Coq.Lists.List.
Open Scope nat_scope.
Open Scope list_scope.
Local Arguments eqb : simpl never.

(* The expression e*(a/b). *)
Definition scaled (e : rexpr) (a b : str) : rexpr :=
  RBin (s_ "*") e (RParen (RBin (s_ "/") (RLit a None) (RLit b None))).
(* a is an integer literal without sign, of value z. *)
Definition integer_literal (a : str) (z : Z) : Prop := digits a /\ dec_digits 0 a = Some z.

Lemma literal_good a z : integer_literal a z -> good (RLit a None) /\ valued (RLit a None).
Proof.
  intros [D H]. split; [split; [apply digits_mantissa, D | exact I]|]. cbn [valued].
  exists (Qmake z 1). cbn [show show_ex]. rewrite app_nil_r.
  unfold read_literal. pose proof (mant_forall a (digits_mantissa a D)) as F.
  assert (F1 : Forall (fun c => kpp_letter c = false) a) by (eapply Forall_impl; [|exact F]; intros; apply kpp_E_not_mant; assumption).
  rewrite split_exponent_no by exact F1. rewrite (digits_no_point a D).
  unfold dec_unsigned. assert (E : split1 "." a = [a]).
  { clear - D. destruct D as [_ D]. induction D as [|c k C _ IH]; [reflexivity|]. cbn [split1]. destruct (Ascii.eqb_spec c ".") as [->|_]; [discriminate|]. rewrite IH. reflexivity. }
  rewrite E. destruct a; [destruct D; congruence|]. rewrite H. reflexivity.
Qed.
Lemma literal_nonneg a z : integer_literal a z -> (0 <= z)%Z.
Proof. intros [_ H]. eapply dec_digits_nonneg; [|exact H]. lia. Qed.
Lemma Q2R_int z : Q2R (z # 1) = IZR z.
Proof. unfold Q2R. cbn [Qnum Qden]. field. Qed.

Lemma Int_part_quot p q : (0 <= p)%Z -> (0 < q)%Z -> Int_part (IZR p / IZR q) = (p / q)%Z.
Proof.
  intros P Q. pose proof (IZR_lt _ _ Q) as Q'. unfold Int_part. rewrite <- (tech_up (IZR p / IZR q) (p / q + 1)); [lia| |]; rewrite plus_IZR.
  - apply (Rmult_lt_reg_r (IZR q)); [exact Q'|]. unfold Rdiv. rewrite Rmult_assoc, Rinv_l, Rmult_1_r by lra.
    rewrite <- plus_IZR, <- mult_IZR. apply IZR_lt. pose proof (Z.mod_pos_bound p q Q). pose proof (Z.div_mod p q ltac:(lia)). nia.
  - assert (IZR (p / q) <= IZR p / IZR q)%R; [|lra].
    apply (Rmult_le_reg_r (IZR q)); [exact Q'|]. unfold Rdiv. rewrite Rmult_assoc, Rinv_l, Rmult_1_r by lra.
    rewrite <- mult_IZR. apply IZR_le. pose proof (Z.mod_pos_bound p q Q). pose proof (Z.div_mod p q ltac:(lia)). nia.
Qed.
Lemma iquot_value p q : (0 <= p)%Z -> (0 < q)%Z -> iquot (IZR p) (IZR q) = Some (IZR (p / q)).
Proof.
  intros P Q. pose proof (IZR_lt _ _ Q) as Q'. pose proof (IZR_le _ _ P) as P'. unfold iquot. rewrite rdiv_ok by lra. cbn [option_map]. f_equal.
  unfold rint. destruct (Rle_dec 0 (IZR p / IZR q)) as [_|N]; [rewrite Int_part_quot by assumption; reflexivity|].
  exfalso. apply N. apply Rmult_le_pos; [exact P'|]. left. apply Rinv_0_lt_compat, Q'.
Qed.

Section Scaled.
Variables (e : rexpr) (v : R) (a b : str) (p q : Z).
Hypothesis Ge : good e.
Hypothesis Le : at_level 1 e.
Hypothesis Pe : proper_names e.
Hypothesis Ha : integer_literal a p.
Hypothesis Hb : integer_literal b q.
Hypothesis Hq : (0 < q)%Z.
Lemma scaled_good : good (scaled e a b) /\ well_formed (scaled e a b) /\ proper_names (scaled e a b).
Proof.
  unfold scaled. split; [|split].
  - cbn [good]. split; [cbn; tauto|]. split; [exact Ge|]. split; [cbn; tauto|]. split; [exact (proj1 (literal_good a p Ha)) | exact (proj1 (literal_good b q Hb))].
  - unfold well_formed. cbn [at_level]. right. left. split; [left; reflexivity|]. split; [lia|]. split; [exact Le|].
    right. left. split; [right; left; reflexivity|]. split; [lia|]. split; exact I.
  - cbn [proper_names]. auto.
Qed.
End Scaled.

Section Lang.
Variable L : rlang.
Variable S : syntax.
Variables (op cl : ascii) (opt clt : rtok).
Hypothesis comment_ok : comment_char L = "#"%char \/ comment_char L = "!"%char.
Hypothesis exp_ident : Forall (fun c => is_ident_char c = true) (exp_name S) /\ exists c x', exp_name S = c :: x' /\ is_digit c = false.
Hypothesis exp_func : func L (norm L (exp_name S)) = Some (some1 exp) /\ is_array L (norm L (exp_name S)) = false /\
  eqb (norm L (exp_name S)) (s_ "floor") = false /\ eqb (norm L (exp_name S)) (s_ "abs") = false.
Hypothesis exponent_E : exponent S = e_exponent.
Hypothesis letter_E : exp_letter L "E"%char = true /\ forall c, exp_letter L c = true -> kpp_letter c = true.
Hypothesis phot_text : forall k, phot S k = "J"%char :: op :: k ++ [cl].
Hypothesis brackets : (op, cl, opt, clt) = ("("%char, ")"%char, KLp, KRp) \/ (op, cl, opt, clt) = ("["%char, "]"%char, KLb, KRb).
Hypothesis J_array : is_array L (norm L ["J"%char]) = true /\
  eqb (norm L ["J"%char]) (s_ "floor") = false /\ eqb (norm L ["J"%char]) (s_ "abs") = false.
Variable en : renv.
Variable var : str -> option R.
Hypothesis var_ok : forall x, var x = rvar en (norm L x).

Lemma scaled_value e v a b p q : good e -> at_level 1 e -> proper_names e -> integer_literal a p -> integer_literal b q -> (0 < q)%Z ->
  means var (rj en) e v ->
  text_value L en (show S (scaled e a b)) = Some (v * if int_arith L then IZR (p / q) else IZR p / IZR q)%R.
Proof.
  intros Ge Le Pe Ha Hb Hq M. destruct (scaled_good e a b p q Ge Le Pe Ha Hb) as (G & W & P). unfold text_value.
  assert (V0 : valued e) by (eapply means_valued; eassumption).
  assert (V : valued (scaled e a b)).
  { unfold scaled. cbn [valued]. split; [exact V0|]. split; [exact (proj2 (literal_good a p Ha)) | exact (proj2 (literal_good b q Hb))]. }
  assert (X : lexes L (show S (scaled e a b) ++ []) (toks L S opt clt (scaled e a b) ++ [])).
  { eapply lexes_show; try eassumption; [apply stop_nil | apply lexes_nil]. }
  rewrite !app_nil_r in X.
  rewrite (lexes_tokens L _ _ X). cbn [obind]. erewrite parse_show; [|eassumption..]. cbn [obind].
  unfold scaled. cbn [tree].
  change (xbin (s_ "*") ?x (xbin (s_ "/") ?y ?z)) with (XMul x (XDiv y z)). cbn [xeval].
  assert (TV : xeval L en (tree L S opt e) = Some v) by (eapply tree_value; eassumption). rewrite TV. cbn [obind].
  assert (Q : forall c z, integer_literal c z -> lit_q L S (RLit c None) = Qmake z 1).
  { intros c z [D H]. unfold lit_q. cbn [show show_ex]. rewrite app_nil_r.
    assert (DV : read_literal (exp_letter L) c = Some (Qmake z 1)) by (eapply digits_value; eassumption). rewrite DV. reflexivity. }
  rewrite (Q a p Ha), (Q b q Hb). cbn [x_int Qden]. rewrite !Q2R_int. rewrite Pos.eqb_refl. cbn [andb]. rewrite andb_true_r.
  pose proof (IZR_lt _ _ Hq). destruct (int_arith L).
  - rewrite iquot_value; [reflexivity | exact (literal_nonneg a p Ha) | exact Hq].
  - rewrite rdiv_ok by lra. reflexivity.
Qed.
End Lang.

(* The integer quotient is the real one exactly when b divides a. *)
Lemma quot_exact p q : (0 < q)%Z -> (IZR (p / q) = IZR p / IZR q)%R <-> (q | p)%Z.
Proof.
  intros Q. pose proof (IZR_lt _ _ Q) as Q'. split.
  - intros H. exists (p / q)%Z. apply eq_IZR. rewrite mult_IZR, H. field. lra.
  - intros [k ->]. rewrite Z.div_mul by lia. rewrite mult_IZR. field. lra.
Qed.

(* For every expression e of value v and integer literals a, b, b not 0: the
   text written for numba from e*(a/b) has the value v*(a/b), the text written
   for Fortran v times the integer part of a/b.  They are equal exactly when v
   is 0 or b divides a. *)
Theorem C87_exactly_when : forall e v a b p q en_n en_f var J, good e -> at_level 1 e -> proper_names e -> means var J e v ->
  integer_literal a p -> integer_literal b q -> (0 < q)%Z ->
  (forall x u, var x = Some u -> rvar en_n x = Some u /\ rvar en_f (lower x) = Some u) ->
  (forall k u, J k = Some u -> rj en_n k = Some u /\ rj en_f k = Some u) ->
  let t := show kpp e ++ s_ "*(" ++ a ++ s_ "/" ++ b ++ s_ ")" in
  exists x y, text_value numba_lang en_n (convert_numba t) = Some x /\ text_value fortran_lang en_f (convert_fortran t) = Some y /\
    (x = v * (IZR p / IZR q) /\ y = v * IZR (p / q))%R /\ (x = y <-> v = 0%R \/ (q | p)%Z).
Proof.
  intros e v a b p q en_n en_f var J G L P M Ha Hb Hq HV HJ t.
  assert (Mono : forall var' J', (forall x u, var x = Some u -> var' x = Some u) -> (forall k u, J k = Some u -> J' k = Some u) ->
     means var' J' e v).
  { intros var' J' H1 H2. clear - M H1 H2. induction M; try (econstructor; eauto; fail). }
  assert (T : t = show kpp (scaled e a b)).
  { unfold t, scaled. cbn [show show_ex]. rewrite !app_nil_r, <- !app_assoc. reflexivity. }
  destruct (scaled_good e a b p q G L P Ha Hb) as (Gs & _ & _).
  rewrite T, (convert_numba_show _ Gs), (convert_fortran_show _ Gs).
  exists (v * (IZR p / IZR q))%R, (v * IZR (p / q))%R. split; [|split; [|split]].
  - rewrite (scaled_value numba_lang numba "[" "]" KLb KRb) with (var := fun x => rvar en_n x) (v := v) (p := p) (q := q); auto.
    + split; [apply ident_by; reflexivity|]. eexists _, _. split; reflexivity.
    + split; [reflexivity|]. intros c C. unfold kpp_letter. rewrite orb_comm. cbn in C. unfold py_letter in C. rewrite C. reflexivity.
    + apply Mono; intros; [apply (HV _ _ H) | apply (HJ _ _ H)].
  - rewrite (scaled_value fortran_lang fortran_text "(" ")" KLp KRp) with (var := fun x => rvar en_f (lower x)) (v := v) (p := p) (q := q); auto.
    + split; [apply ident_by; reflexivity|]. eexists _, _. split; reflexivity.
    + apply Mono; intros; [apply (HV _ _ H) | apply (HJ _ _ H)].
  - split; reflexivity.
  - split.
    + intros E. destruct (Req_dec v 0) as [->|N]; [left; reflexivity|]. right. apply quot_exact; [exact Hq|].
      apply (Rmult_eq_reg_l v); [symmetry; exact E|exact N].
    + intros [->|D]; [rewrite !Rmult_0_l; reflexivity|]. f_equal. symmetry. apply quot_exact; assumption.
Qed.

(* From the mechanism file: if reaction k has the rate e_k*(a_k/b_k), the numba
   evaluate_rates returns v_k*a_k/b_k and the Fortran one v_k times the integer
   part of a_k/b_k. *)
Theorem C87_rates : forall m text e v p q ttime RO2 H2O T, written m text -> (0 < T)%R -> (0 <= H2O)%R ->
  (forall k r, nth_error m k = Some r -> exists a b, rtext r = show kpp (e k) ++ s_ "*(" ++ a ++ s_ "/" ++ b ++ s_ ")" /\
     integer_literal a (p k) /\ integer_literal b (q k) /\ (0 < q k)%Z /\
     good (e k) /\ at_level 1 (e k) /\ proper_names (e k) /\ means (mcm_var RO2 H2O T) (mcm_J ttime) (e k) (v k)) ->
  let N := List.length m in
  exists st en_n en_f, extract_mechanism text = Ok (Z.of_nat N, st) /\
    numba_run ttime RO2 H2O T = Some en_n /\ fortran_run ttime RO2 H2O T = Some en_f /\
    let pn := gen_rates_python (convert_dict convert_numba (p_rate st)) in
    let pf := convert_dict convert_fortran (p_rate st) in
    (forall a, returned N (run (cell 0 N) (text_value numba_lang en_n) pn a) =
       Some (map (fun k => v k * (IZR (p k) / IZR (q k)))%R (seq 0 N))) /\
    (forall a, returned N (run (cell 1 N) (text_value fortran_lang en_f) (gen_rates_fortran None pf) a) =
       Some (map (fun k => v k * IZR (p k / q k))%R (seq 0 N))).
Proof.
  intros m text e v p q t r w T Wr HT HW HM N. destruct (C04_written m text Wr) as (st & St & Rt).
  destruct (mcm_env t r w T HT HW) as (en & ef & En & Ef & HV & HJ). exists st, en, ef.
  split; [exact St|]. split; [exact En|]. split; [exact Ef|]. cbv zeta.
  assert (K : forall k K, dget k (p_rate st) = Some K ->
     text_value numba_lang en (convert_numba K) = Some (v k * (IZR (p k) / IZR (q k)))%R /\
     text_value fortran_lang ef (convert_fortran K) = Some (v k * IZR (p k / q k))%R).
  { intros k K H. rewrite Rt in H. destruct (nth_error m k) as [rx|] eqn:Rk; [|discriminate]. injection H as <-.
    destruct (HM k rx Rk) as (a & b & E & Ha & Hb & Hq & G & W & P & M).
    destruct (C87_exactly_when (e k) (v k) a b (p k) (q k) en ef _ _ G W P M Ha Hb Hq HV HJ) as (x & y & X & Y & [-> ->] & _).
    cbv zeta in X, Y. rewrite <- E in X, Y. split; assumption. }
  destruct (C30_values text (Z.of_nat N) st convert_numba (text_value numba_lang en) _ St (fun k x H => proj1 (K k x H))) as (A & _).
  destruct (C30_values text (Z.of_nat N) st convert_fortran (text_value fortran_lang ef) _ St (fun k x H => proj2 (K k x H))) as (_ & B & _).
  rewrite Nat2Z.id in A, B. auto.
Qed.

(* A reaction with the rate 1.0D-5*TEMP*(1/2): at every temperature the numba
   module has a positive coefficient and the Fortran module 0. *)
Definition half_text : str := s_ "1.0D-5*TEMP*(1/2)".
Definition half_factor : rexpr := RBin (s_ "*") (RLit (s_ "1.0") (Some (true, s_ "-", s_ "5"))) (RVar (s_ "TEMP")).
Definition half_words : list (list str * list str * str) := [([s_ "O3"], [s_ "O2"], half_text)].
Lemma half_factor_ok : good half_factor /\ at_level 1 half_factor /\ proper_names half_factor /\
  forall t r w T, means (mcm_var r w T) (mcm_J t) half_factor (Q2R (1 # 100000) * T).
Proof.
  split.
  { assert (K : safe_name (s_ "TEMP")) by (apply safe_name_by; try reflexivity; discriminate).
    cbn [half_factor good]. unfold digits, mantissa, good_exponent, digits.
    repeat match goal with |- safe_name _ => assumption | |- _ /\ _ => split end; try discriminate;
      try (cbn; tauto); try (repeat (constructor; [first [reflexivity | left; reflexivity | right; reflexivity]|]); constructor). }
  split. { unfold half_factor. cbn [at_level In]. intuition lia. }
  split. { unfold half_factor. cbn. repeat split; reflexivity. }
  intros t r w T. unfold half_factor. apply m_mul; [|apply m_var; reflexivity].
  replace (Q2R (1 # 100000)) with (Q2R (10 # 1000000)) by (apply Qeq_eqR; reflexivity). apply m_lit. vm_compute. reflexivity.
Qed.
Theorem C87_refuted : exists m text st, written m text /\ extract_mechanism text = Ok (1%Z, st) /\
  forall ttime RO2 H2O T, (0 < T)%R -> (0 <= H2O)%R -> exists en_n en_f x,
    numba_run ttime RO2 H2O T = Some en_n /\ fortran_run ttime RO2 H2O T = Some en_f /\ (0 < x)%R /\
    (forall a, returned 1 (run (cell 0 1) (text_value numba_lang en_n) (gen_rates_python (convert_dict convert_numba (p_rate st))) a) = Some [x]) /\
    (forall a, returned 1 (run (cell 1 1) (text_value fortran_lang en_f) (gen_rates_fortran None (convert_dict convert_fortran (p_rate st))) a) = Some [0%R]).
Proof.
  assert (W : written (map ParseShow.bare half_words) (ParseShow.show half_words)) by (apply ParseShow.bare_written; [discriminate | reflexivity]).
  destruct (C04_written _ _ W) as (st & St & _). exists (map ParseShow.bare half_words), (ParseShow.show half_words), st.
  split; [exact W|]. split; [exact St|]. intros t r w T HT HW.
  destruct half_factor_ok as (G & L & P & M).
  destruct (C87_rates _ _ (fun _ => half_factor) (fun _ => Q2R (1 # 100000) * T)%R (fun _ => 1%Z) (fun _ => 2%Z) t r w T W HT HW) as (st' & en & ef & St' & En & Ef & A & B).
  - intros [|[|k]] rx H; [|discriminate..]. injection H as <-. exists (s_ "1"), (s_ "2"). split; [vm_compute; reflexivity|].
    split; [split; [split; [discriminate | repeat constructor] | reflexivity]|].
    split; [split; [split; [discriminate | repeat constructor] | reflexivity]|].
    split; [lia|]. split; [exact G|]. split; [exact L|]. split; [exact P|]. apply M.
  - rewrite St in St'. assert (st' = st) by congruence. subst st'. exists en, ef, (Q2R (1 # 100000) * T * (1 / 2))%R.
    split; [exact En|]. split; [exact Ef|]. split.
    + assert (0 < Q2R (1 # 100000))%R by (unfold Q2R; cbn [Qnum Qden]; lra). apply Rmult_lt_0_compat; [apply Rmult_lt_0_compat; assumption | lra].
    + split; [exact A|]. intros a. refine (eq_trans (B a) _). cbn [List.length map half_words seq]. f_equal. f_equal. change (1 / 2)%Z with 0%Z. lra.
Qed.
(* The hypotheses of C87_exactly_when and C87_rates are met, also with a value
   that both modules share: 6/3. *)
Example C87_hypotheses : integer_literal (s_ "6") 6 /\ integer_literal (s_ "3") 3 /\ (3 | 6)%Z /\ ~ (2 | 1)%Z.
Proof.
  split; [split; [split; [discriminate | repeat constructor] | reflexivity]|].
  split; [split; [split; [discriminate | repeat constructor] | reflexivity]|].
  split; [exists 2%Z; reflexivity|]. intros [k H]. lia.
Qed.

(* EXP of an integer literal: Fortran's EXP is not defined for it. *)
Theorem C87_exp : forall a p, integer_literal a p ->
  let t := s_ "EXP(" ++ a ++ s_ ")" in
  (forall en, text_value numba_lang en (convert_numba t) = Some (exp (IZR p))) /\
  (forall en, text_value fortran_lang en (convert_fortran t) = None).
Proof.
  intros a p Ha t. assert (T : t = show kpp (RExp (RLit a None))).
  { unfold t. cbn [show show_ex]. rewrite !app_nil_r. reflexivity. }
  destruct (literal_good a p Ha) as [G V]. assert (Ge : good (RExp (RLit a None))) by exact G.
  rewrite T, (convert_numba_show _ Ge), (convert_fortran_show _ Ge).
  assert (IN : Forall (fun c => is_ident_char c = true) (exp_name numba) /\ exists c x', exp_name numba = c :: x' /\ is_digit c = false).
  { split; [apply ident_by; reflexivity|]. eexists _, _. split; reflexivity. }
  assert (IF : Forall (fun c => is_ident_char c = true) (exp_name fortran_text) /\ exists c x', exp_name fortran_text = c :: x' /\ is_digit c = false).
  { split; [apply ident_by; reflexivity|]. eexists _, _. split; reflexivity. }
  assert (LN : exp_letter numba_lang "E"%char = true /\ forall c, exp_letter numba_lang c = true -> kpp_letter c = true).
  { split; [reflexivity|]. intros c C. unfold kpp_letter. rewrite orb_comm. cbn in C. unfold py_letter in C. rewrite C. reflexivity. }
  assert (LF : exp_letter fortran_lang "E"%char = true /\ forall c, exp_letter fortran_lang c = true -> kpp_letter c = true) by auto.
  assert (Q : forall L S, exp_letter L "E"%char = true /\ (forall c, exp_letter L c = true -> kpp_letter c = true) ->
     lit_q L S (RLit a None) = Qmake p 1).
  { intros L S LE. destruct Ha as [D H]. unfold lit_q. cbn [show show_ex]. rewrite app_nil_r.
    assert (DV : read_literal (exp_letter L) a = Some (Qmake p 1)) by (eapply digits_value; eassumption). rewrite DV. reflexivity. }
  split; intros en; unfold text_value.
  - assert (X : lexes numba_lang (show numba (RExp (RLit a None)) ++ []) (toks numba_lang numba KLb KRb (RExp (RLit a None)) ++ [])).
    { eapply (lexes_show numba_lang numba "[" "]"); auto; try (exact I); [apply stop_nil | apply lexes_nil]. }
    rewrite !app_nil_r in X. rewrite (lexes_tokens _ _ _ X). cbn [obind].
    erewrite (parse_show numba_lang numba "[" "]" KLb KRb); auto; try (exact I). cbn [obind tree]. rewrite (Q _ _ LN).
    cbn [xeval]. unfold refused. cbn -[exp IZR]. rewrite Q2R_int. reflexivity.
  - assert (X : lexes fortran_lang (show fortran_text (RExp (RLit a None)) ++ []) (toks fortran_lang fortran_text KLp KRp (RExp (RLit a None)) ++ [])).
    { eapply (lexes_show fortran_lang fortran_text "(" ")"); auto; try (exact I); [apply stop_nil | apply lexes_nil]. }
    rewrite !app_nil_r in X. rewrite (lexes_tokens _ _ _ X). cbn [obind].
    erewrite (parse_show fortran_lang fortran_text "(" ")" KLp KRp); auto; try (exact I). cbn [obind tree]. rewrite (Q _ _ LF).
    cbn [xeval]. unfold refused. cbn -[exp IZR]. reflexivity.
Qed.

Print Assumptions C87_exactly_when.
Print Assumptions C87_rates.
Print Assumptions C87_refuted.
Print Assumptions C87_exp.
