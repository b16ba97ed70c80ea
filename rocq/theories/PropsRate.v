(* C26-C30: rate texts and rate files. *)
From Coq Require Import List Bool Arith Lia Ascii String ZArith QArith Reals.
From Verif Require Import Base PyStr PyDict ModelParse SpecMech ParseStruct ParseTables ParseWritten PropsParse
  ModelLang ModelGen ModelRhs LangFacts GenReact ModelOmp OmpFacts PropsOmp
  ModelRate ModelRateFile RateText RateBrackets SpecRate RateExpr RateNames.
Import ListNotations.
Import Coq.Lists.List.
Open Scope nat_scope.
Open Scope list_scope.

(* ------------------------------------------------------------------ *)
(* C26 *)
Lemma jpass_jtext s t : jtext s t -> forall p, (p = true -> hd_error s <> Some "("%char) ->
  jpass false p s = t /\ jopen false p s = false.
Proof.
  induction 1 as [|k s t H1 H2 _ IH|c s t Hc _ IH]; intros p Hp.
  - auto.
  - cbn [s_ list_ascii_of_string app jpass jopen]. rewrite andb_false_r. cbn [andb Ascii.eqb Bool.eqb].
    assert (G : forall k p, ~ In "("%char k -> ~ In ")"%char k ->
       jpass true p (k ++ ")"%char :: s) = k ++ "]"%char :: t /\ jopen true p (k ++ ")"%char :: s) = false).
    { clear - IH. destruct (IH false ltac:(discriminate)) as [I1 I2]. induction k as [|c k IHk]; intros p H1 H2; cbn [app jpass jopen].
      - rewrite andb_false_r. cbn [andb Ascii.eqb Bool.eqb]. rewrite I1, I2. auto.
      - destruct (Ascii.eqb_spec c "("); [subst; exfalso; apply H1; left; reflexivity|]. rewrite andb_false_r.
        destruct (Ascii.eqb_spec c ")"); [subst; exfalso; apply H2; left; reflexivity|]. cbn [andb].
        destruct (IHk (Ascii.eqb c "J")) as [E1 E2]; [intros G; apply H1; right; exact G | intros G; apply H2; right; exact G|].
        rewrite E1, E2. auto. }
    destruct (G k false H1 H2) as [G1 G2]. rewrite G1, G2. auto.
  - cbn [jpass jopen]. assert (E : p && Ascii.eqb c "(" = false).
    { destruct p; [|reflexivity]. cbn [andb]. destruct (Ascii.eqb_spec c "("); [|reflexivity].
      subst. exfalso. apply (Hp eq_refl). reflexivity. }
    rewrite E. cbn [andb]. destruct (IH (Ascii.eqb c "J")) as [G1 G2].
    + intros Hj Hs. apply Ascii.eqb_eq in Hj. apply Hc. auto.
    + rewrite G1, G2. auto.
Qed.

(* Texts in which the argument of every J has no bracket: exactly the brackets
   of the J's change. *)
Theorem C26_partial : forall rate_full t, jtext (conv_map map_full (conv_math math_numba rate_full)) t ->
  convert_numba rate_full = t.
Proof.
  intros f t H. unfold convert_numba. rewrite photolysis_is_jbrackets. unfold jbrackets.
  destruct (jpass_jtext _ _ H false ltac:(discriminate)) as [H1 H2]. rewrite H2. exact H1.
Qed.

(* Every text: the length is kept, and a character changes only if it is the
   bracket after a J, the first closing bracket after some J(, or the last
   character while some J( has no closing bracket after it. *)
Theorem C26_exact : forall rate_full i c c',
  let t := conv_map map_full (conv_math math_numba rate_full) in
  List.length (convert_numba rate_full) = List.length t /\
  (nth_error t i = Some c -> nth_error (convert_numba rate_full) i = Some c' -> c' <> c ->
   (c = "("%char /\ c' = "["%char /\ 0 < i /\ nth_error t (i - 1) = Some "J"%char) \/
   (c = ")"%char /\ c' = "]"%char /\ open_before t i) \/
   (i = List.length t - 1 /\ c' = "]"%char /\ open_before t (List.length t))).
Proof.
  intros f i c c' t. unfold convert_numba. fold t. split; [apply photolysis_length|].
  intros H H' Hne.
  assert (D : ~ open_before t (List.length t) \/ open_before t (List.length t)).
  { destruct (jpass_nth t _ 0 false eq_refl) as [_ H2].
    { split; [discriminate | intros G; destruct (open_before_0 t G)]. }
    cbn [prevJ skipn Nat.max] in H2. destruct (jopen false false t); [right; apply H2; reflexivity | left; intros G; apply H2 in G; discriminate]. }
  assert (J : jchar t i c' -> (c = "("%char /\ c' = "["%char /\ 0 < i /\ nth_error t (i - 1) = Some "J"%char) \/
   (c = ")"%char /\ c' = "]"%char /\ open_before t i)).
  { intros (d & Hd & [(E1 & E2 & E3)|[(E1 & E2 & E3)|(_ & _ & E3)]]); rewrite H in Hd; injection Hd as <-.
    - right. auto.
    - left. split; [exact E1|]. split; [exact E3|]. apply prevJ_at in E2; [|congruence]. split; [apply E2|]. apply E2.
    - congruence. }
  destruct D as [D|D].
  - destruct (J (photolysis_jchar t i c' (or_introl D) H')); auto.
  - destruct (Nat.eq_dec i (List.length t - 1)) as [->|Hi].
    + right; right. split; [reflexivity|]. split; [|exact D]. rewrite (photolysis_last t D) in H'. congruence.
    + destruct (J (photolysis_jchar t i c' (or_intror Hi) H')); auto.
Qed.

(* A bracket inside the argument takes the closing bracket. *)
Theorem C26_refuted : convert_numba (s_ "J((4))*2") = s_ "J[(4])*2" /\ convert_numba (s_ "J(4") = s_ "J[]".
Proof. split; reflexivity. Qed.

Example C26_hypotheses : exists t, jtext (conv_map map_full (conv_math math_numba (s_ "J(4)+(2*J(12))"))) t /\
  t = s_ "J[4]+(2*J[12])".
Proof.
  eexists; split; [|reflexivity]. vm_compute conv_map.
  apply (jt_phot ["4"]%char); [cbn; intuition discriminate | cbn; intuition discriminate|].
  do 4 (apply jt_char; [cbn; intuition discriminate|]).
  apply (jt_phot ["1"; "2"]%char); [cbn; intuition discriminate | cbn; intuition discriminate|].
  apply jt_char; [cbn; intuition discriminate|]. constructor.
Qed.

(* ------------------------------------------------------------------ *)
(* Whole expressions: the converted text is the same expression in the target
   language. *)
Theorem C27_expressions : forall e, good e ->
  convert_numba (show kpp e) = show numba e /\ convert_fortran (show kpp e) = show fortran_text e.
Proof. intros e He. split; [apply convert_numba_show, He | apply convert_fortran_show, He]. Qed.

(* 2.8D-12*EXP(285/TEMP)*J(4)*(TEMP/300)**(-2.6D1) *)
Definition ex_rate : rexpr :=
  RBin (s_ "*") (RBin (s_ "*") (RLit (s_ "2.8") (Some (true, s_ "-", s_ "12"))) (RExp (RBin (s_ "/") (RLit (s_ "285") None) (RVar (s_ "TEMP")))))
    (RBin (s_ "*") (RPhot (s_ "4"))
      (RBin (s_ "**") (RParen (RBin (s_ "/") (RVar (s_ "KMT01")) (RLit (s_ "300") None))) (RParen (RNeg (RLit (s_ "2.6") (Some (true, [], s_ "1"))))))).
Lemma not_contains_by w t : find_sub w t = None -> ~ contains w t.
Proof. intros H. apply (proj1 (find_sub_None w t)) in H. exact H. Qed.
Lemma no_D_end_by t : Ascii.eqb (last t "x"%char) "D" = false -> no_D_end t.
Proof. intros H y ->. rewrite last_last in H. discriminate. Qed.
Lemma safe_name_by x : x <> [] -> forallb is_ident_char x = true -> find_sub (s_ "EXP") x = None -> find_sub (s_ "dlog") x = None ->
  forallb (fun c => match find_sub ["D"%char; c] x with None => true | _ => false end) ["1"; "2"; "3"; "4"; "5"; "6"; "7"; "8"; "9"]%char = true ->
  Ascii.eqb (last x "x"%char) "D" = false -> safe_name x.
Proof.
  intros H1 H2 H3 H4 H5 H6. split; [exact H1|]. split; [rewrite forallb_forall in H2; apply Forall_forall, H2|].
  split; [apply not_contains_by, H3|]. split; [apply not_contains_by, H4|]. split; [|apply no_D_end_by, H6].
  intros c Hc. rewrite forallb_forall in H5. specialize (H5 c Hc). apply not_contains_by.
  destruct (find_sub ["D"%char; c] x); [discriminate | reflexivity].
Qed.
Example C27_hypotheses : good ex_rate /\
  show kpp ex_rate = s_ "2.8D-12*EXP(285/TEMP)*J(4)*(KMT01/300)**(-2.6D1)" /\
  convert_numba (show kpp ex_rate) = s_ "2.8E-12*numba_exp(285/TEMP)*J[4]*(KMT01/300)**(-2.6E+1)".
Proof.
  split; [|split; reflexivity].
  assert (T : safe_name (s_ "TEMP")) by (apply safe_name_by; try reflexivity; discriminate).
  assert (K : safe_name (s_ "KMT01")) by (apply safe_name_by; try reflexivity; discriminate).
  cbn [ex_rate good]. unfold digits, mantissa, good_exponent, digits.
  repeat match goal with |- safe_name _ => assumption | |- _ /\ _ => split end; try discriminate;
    try (cbn; tauto); try (repeat (constructor; [first [reflexivity | left; reflexivity | right; reflexivity]|]); constructor).
Qed.

(* ------------------------------------------------------------------ *)
(* C27: literals *)
Lemma split_exponent_spec letter s : forall m e, split_exponent letter s = (m, e) ->
  Forall (fun c => letter c = false) m /\
  match e with None => s = m | Some e => exists c, letter c = true /\ s = m ++ c :: e end.
Proof.
  induction s as [|c s IH]; intros m e; cbn [split_exponent].
  - intros H; injection H as <- <-. split; [constructor | reflexivity].
  - destruct (letter c) eqn:El.
    + intros H; injection H as <- <-. split; [constructor|]. exists c. auto.
    + destruct (split_exponent letter s) as [m' e'] eqn:Es. intros H; injection H as <- <-.
      destruct (IH m' e' eq_refl) as [H1 H2]. split; [constructor; assumption|].
      destruct e' as [e'|]; [destruct H2 as (d & H2 & ->); exists d; auto | rewrite H2; reflexivity].
Qed.
Lemma split_exponent_at letter m c e : Forall (fun c => letter c = false) m -> letter c = true ->
  split_exponent letter (m ++ c :: e) = (m, Some e).
Proof.
  induction 1 as [|d m Hd _ IH]; intros Hc; cbn [app split_exponent]; [rewrite Hc; reflexivity|].
  rewrite Hd, IH by exact Hc. reflexivity.
Qed.
Lemma split_exponent_none letter m : Forall (fun c => letter c = false) m -> split_exponent letter m = (m, None).
Proof. induction 1 as [|d m Hd _ IH]; cbn [split_exponent]; [reflexivity|]. rewrite Hd, IH. reflexivity. Qed.

Lemma dec_digits_chars s : forall a z, dec_digits a s = Some z -> Forall (fun c => is_digit c = true) s.
Proof.
  induction s as [|c s IH]; intros a z; cbn [dec_digits]; [constructor|].
  destruct (is_digit c) eqn:E; [|discriminate]. intros H. constructor; [exact E | eapply IH, H].
Qed.

Lemma split1_forms c s : exists a, split1 c s = [a] /\ s = a \/ exists b, split1 c s = [a; b] /\ s = a ++ c :: b.
Proof.
  induction s as [|x s (a & [[E H]|(b & E & H)])]; cbn [split1].
  - exists []. left. auto.
  - destruct (Ascii.eqb_spec x c) as [->|_].
    + exists []. right. exists s. auto.
    + exists (x :: a). left. rewrite E, H. auto.
  - destruct (Ascii.eqb_spec x c) as [->|_].
    + exists []. right. exists s. auto.
    + exists (x :: a). right. exists b. rewrite E, H. auto.
Qed.
Lemma dec_unsigned_mantissa m q : dec_unsigned m = Some q -> mantissa m.
Proof.
  unfold dec_unsigned. destruct (split1_forms "."%char m) as (a & [[E H]|(b & E & H)]); rewrite E.
  - subst a. destruct m as [|c m]; [discriminate|]. destruct (dec_digits 0 (c :: m)) eqn:D; [|discriminate].
    intros _. split; [discriminate|]. eapply Forall_impl; [|eapply dec_digits_chars, D]. cbn; auto.
  - subst m. destruct (a ++ b) as [|c r] eqn:Er; [discriminate|]. destruct (dec_digits 0 (c :: r)) eqn:D; [|discriminate].
    intros _. split; [destruct a; discriminate|]. apply dec_digits_chars in D. rewrite <- Er in D.
    apply Forall_app in D. destruct D as [D1 D2]. apply Forall_app. split; [|constructor; [right; reflexivity|]].
    + eapply Forall_impl; [|exact D1]. cbn; auto.
    + eapply Forall_impl; [|exact D2]. cbn; auto.
Qed.
Lemma exponent_value_form e z : exponent_value e = Some z ->
  exists sg ds, e = sg ++ ds /\ In sg [[]; ["-"%char]; ["+"%char]] /\ digits ds.
Proof.
  destruct e as [|c ds]; cbn [exponent_value]; [discriminate|].
  destruct (Ascii.eqb_spec c "-") as [->|_].
  - destruct ds as [|d ds]; [discriminate|]. destruct (dec_digits 0 (d :: ds)) eqn:D; [|discriminate]. intros _.
    exists ["-"%char], (d :: ds). split; [reflexivity|]. split; [cbn; auto|]. split; [discriminate | eapply dec_digits_chars, D].
  - destruct (Ascii.eqb_spec c "+") as [->|_].
    + destruct ds as [|d ds]; [discriminate|]. intros D.
      exists ["+"%char], (d :: ds). split; [reflexivity|]. split; [cbn; auto|]. split; [discriminate | eapply dec_digits_chars, D].
    + intros D. exists [], (c :: ds). split; [reflexivity|]. split; [cbn; auto|]. split; [discriminate | eapply dec_digits_chars, D].
Qed.
Lemma mantissa_no_letter m : mantissa m -> Forall (fun c => kpp_letter c = false) m /\ Forall (fun c => py_letter c = false) m.
Proof.
  intros [_ H]. split; (eapply Forall_impl; [|exact H]); intros c [Hc| ->]; try reflexivity;
    unfold kpp_letter, py_letter.
  - destruct (Ascii.eqb_spec c "D") as [->|_]; [discriminate|]. destruct (Ascii.eqb_spec c "E") as [->|_]; [discriminate | reflexivity].
  - destruct (Ascii.eqb_spec c "E") as [->|_]; [discriminate | reflexivity].
Qed.

(* A literal is mantissa, letter, sign, digits. *)
Lemma literal_form s v : read_literal kpp_letter s = Some v ->
  exists m ex, s = show kpp (RLit m ex) /\ mantissa m /\
    match ex with
    | None => option_map (fun q => if has_point m then real_literal q else q) (dec_unsigned m) = Some v
    | Some (d, sg, ds) => In sg [[]; ["-"%char]; ["+"%char]] /\ digits ds /\
        exists q z, dec_unsigned m = Some q /\ exponent_value (sg ++ ds) = Some z /\ v = real_literal (q * Qpower (10 # 1) z)
    end.
Proof.
  unfold read_literal. destruct (split_exponent kpp_letter s) as [m e] eqn:E.
  destruct (split_exponent_spec _ _ _ _ E) as [Hm He]. destruct e as [e|].
  - destruct (dec_unsigned m) as [q|] eqn:Eq; [|discriminate]. destruct (exponent_value e) as [z|] eqn:Ez; [|discriminate].
    intros H; injection H as <-. destruct He as (c & Hc & ->).
    destruct (exponent_value_form e z Ez) as (sg & ds & -> & H1 & H2).
    exists m, (Some (Ascii.eqb c "D", sg, ds)). split.
    + cbn [show show_ex exponent kpp]. unfold kpp_exponent. f_equal.
      unfold kpp_letter in Hc. destruct (Ascii.eqb_spec c "D") as [->|_]; [reflexivity|].
      cbn [orb] in Hc. apply Ascii.eqb_eq in Hc. subst c. reflexivity.
    + split; [eapply dec_unsigned_mantissa, Eq|]. split; [exact H1|]. split; [exact H2|]. exists q, z. auto.
  - intros H. exists m, None. split; [cbn [show show_ex]; rewrite app_nil_r; exact He|].
    split; [|exact H]. destruct (dec_unsigned m) as [x|] eqn:Em; [|discriminate]. eapply dec_unsigned_mantissa, Em.
Qed.

Lemma plus_value ds : digits ds -> exponent_value ("+"%char :: ds) = exponent_value ds.
Proof.
  intros [Hn Hd]. destruct ds as [|c ds]; [congruence|]. cbn [exponent_value Ascii.eqb Bool.eqb].
  inversion Hd as [|? ? Hc _]; subst.
  destruct (Ascii.eqb_spec c "-") as [->|_]; [discriminate|]. destruct (Ascii.eqb_spec c "+") as [->|_]; [discriminate | reflexivity].
Qed.

Lemma split_unique (x y : ascii) a r m t : a ++ x :: r = m ++ y :: t -> ~ In x m -> ~ In x t -> x = y /\ r = t.
Proof.
  revert a; induction m as [|c m IH]; intros [|b a] E Hm Ht; cbn [app] in E; injection E as E1 E2.
  - auto.
  - exfalso. apply Ht. rewrite <- E2. apply in_or_app. right. left. reflexivity.
  - exfalso. apply Hm. left. auto.
  - apply (IH a E2); [intros G; apply Hm; right; exact G | exact Ht].
Qed.
Lemma jtext_noJ s : ~ In "J"%char s -> jtext s s.
Proof.
  induction s as [|c s IH]; intros H; constructor.
  - intros [-> _]. apply H. left. reflexivity.
  - apply IH. intros G. apply H. right. exact G.
Qed.
Lemma jbrackets_noJ s : ~ In "J"%char s -> jbrackets s = s.
Proof.
  intros H. unfold jbrackets. destruct (jpass_jtext s s (jtext_noJ s H) false ltac:(discriminate)) as [E1 E2].
  rewrite E2. exact E1.
Qed.
Lemma absent_by w t c : In c w -> ~ In c t -> ~ occurs w t.
Proof. intros Hw Ht (a & b & ->). apply Ht. apply in_or_app. right. apply in_or_app. left. exact Hw. Qed.

(* The text of an unsigned D exponent with leading zero stays. *)
Lemma convert_D0 m ds : mantissa m -> digits ds -> hd_error ds = Some "0"%char ->
  convert_numba (m ++ "D"%char :: ds) = m ++ "D"%char :: ds /\ convert_fortran (m ++ "D"%char :: ds) = m ++ "D"%char :: ds.
Proof.
  intros Hm Hds H0.
  assert (C : forall c, In c (m ++ "D"%char :: ds) -> is_digit c = true \/ c = "."%char \/ c = "D"%char).
  { intros c Hc. apply in_app_or in Hc. destruct Hc as [Hc|[<-|Hc]]; [|auto|].
    - destruct Hm as [_ Hm]. rewrite Forall_forall in Hm. destruct (Hm _ Hc); auto.
    - destruct Hds as [_ Hds]. rewrite Forall_forall in Hds. auto. }
  assert (N : forall c, is_digit c = false -> c <> "."%char -> c <> "D"%char -> ~ In c (m ++ "D"%char :: ds)).
  { intros c H1 H2 H3 Hc. destruct (C c Hc) as [G|[G|G]]; congruence. }
  assert (X : exponents (m ++ "D"%char :: ds) = m ++ "D"%char :: ds).
  { rewrite exponents_app by (apply no_D_end_In, no_D_mantissa, Hm). rewrite exponents_noD by (apply no_D_mantissa, Hm). f_equal.
    destruct ds as [|b ds]; [discriminate|]. injection H0 as ->. unfold exponents. cbn [pass Ascii.eqb Bool.eqb].
    rewrite pass_noD.
    - reflexivity.
    - intros G. destruct Hds as [_ Hds]. inversion Hds as [|? ? _ Hd']; subst. rewrite Forall_forall in Hd'. specialize (Hd' _ G). discriminate. }
  split.
  - rewrite convert_numba_eq, replace_absent, X.
    + apply jbrackets_noJ, N; reflexivity || discriminate.
    + discriminate.
    + apply (absent_by _ _ "X"%char); [cbn; auto | apply N; reflexivity || discriminate].
  - rewrite convert_fortran_eq, replace_absent; [exact X | discriminate|].
    apply (absent_by _ _ "d"%char); [cbn; auto | apply N; reflexivity || discriminate].
Qed.

(* A literal keeps its value in numba Python exactly when it has no
   exponent starting D0; in Fortran it always does. *)
Theorem C27_exactly_when : forall s v, read_literal kpp_letter s = Some v ->
  (read_literal py_letter (convert_numba s) = Some v <-> ~ contains (s_ "D0") s) /\
  read_literal kpp_letter (convert_fortran s) = Some v.
Proof.
  intros s v H. destruct (literal_form s v H) as (m & ex & -> & Hm & Hx).
  destruct (mantissa_no_letter m Hm) as [Lk Lp].
  destruct ex as [[[d sg] ds]|].
  - destruct Hx as (Hsg & Hds & q & z & Hq & Hz & ->).
    assert (D : {d = true /\ sg = [] /\ hd_error ds = Some "0"%char} + {good_exponent (Some (d, sg, ds))}).
    { cbn [good_exponent]. destruct d; [|right; split; [exact Hsg | split; [exact Hds | discriminate]]].
      destruct sg as [|a sg]; [|right; split; [exact Hsg | split; [exact Hds | discriminate]]].
      destruct ds as [|b ds]; [right; split; [exact Hsg | split; [exact Hds | discriminate]]|].
      destruct (Ascii.eqb_spec b "0") as [->|Hb]; [left; auto|].
      right; split; [exact Hsg | split; [exact Hds | cbn; congruence]]. }
    destruct D as [(-> & -> & H0)|G].
    + destruct ds as [|b ds]; [discriminate|]. injection H0 as ->.
      cbn [show show_ex exponent kpp kpp_exponent app].
      unfold kpp_exponent. cbn [app].
      destruct (convert_D0 m ("0"%char :: ds) Hm Hds eq_refl) as [-> ->].
      assert (R : read_literal py_letter (m ++ "D"%char :: "0"%char :: ds) = None).
      { unfold read_literal. rewrite split_exponent_none.
        - destruct (dec_unsigned (m ++ "D"%char :: "0"%char :: ds)) as [x|] eqn:Ex; [|reflexivity].
          apply dec_unsigned_mantissa in Ex. destruct Ex as [_ Ex]. apply Forall_app in Ex. destruct Ex as [_ Ex].
          inversion Ex as [|? ? Ex' _]; subst. destruct Ex'; discriminate.
        - apply Forall_app. split; [exact Lp|]. constructor; [reflexivity|].
          destruct Hds as [_ Hds]. eapply Forall_impl; [|exact Hds]. intros c Hc. unfold py_letter.
          destruct (Ascii.eqb_spec c "E") as [->|_]; [discriminate | reflexivity]. }
      rewrite R. split; [|exact H]. split; [discriminate|]. intros G. exfalso. apply G. exists m, ds. reflexivity.
    + assert (Ge : good (RLit m (Some (d, sg, ds)))) by (split; [exact Hm | exact G]).
      rewrite (convert_numba_show _ Ge), (convert_fortran_show _ Ge).
      cbn [show show_ex exponent numba fortran_text]. unfold e_exponent.
      assert (V : exponent_value ((if d then sign_or_plus sg else sg) ++ ds) = Some z).
      { destruct d; [|exact Hz]. destruct sg as [|a sg]; [|exact Hz]. cbn [sign_or_plus app]. rewrite plus_value by exact Hds. exact Hz. }
      unfold read_literal. rewrite !split_exponent_at by (assumption || reflexivity). rewrite Hq, V.
      split; [|reflexivity]. split; [intros _ (a & b & E)|reflexivity].
      cbn [show show_ex exponent kpp] in E. unfold kpp_exponent in E. symmetry in E. cbn [s_ list_ascii_of_string app] in E.
      apply split_unique in E.
      * destruct E as [E1 E2]. destruct d; [|discriminate]. destruct G as (_ & _ & G). destruct sg as [|c sg].
        -- cbn [app] in E2. apply (G eq_refl eq_refl). rewrite <- E2. reflexivity.
        -- cbn [In] in Hsg. injection E2 as E2 _. destruct Hsg as [Hs|[Hs|[Hs|[]]]]; congruence.
      * intros I. rewrite Forall_forall in Lk. specialize (Lk _ I). discriminate.
      * intros I. apply in_app_or in I. destruct I as [I|I].
        -- cbn [In] in Hsg. destruct Hsg as [Hs|[Hs|[Hs|[]]]]; subst sg; cbn [In] in I; intuition discriminate.
        -- destruct Hds as [_ Hds]. rewrite Forall_forall in Hds. specialize (Hds _ I). discriminate.
  - assert (Ge : good (RLit m None)) by (split; [exact Hm | exact I]).
    rewrite (convert_numba_show _ Ge), (convert_fortran_show _ Ge).
    cbn [show show_ex]. rewrite app_nil_r. unfold read_literal. rewrite !split_exponent_none by assumption.
    split; [|exact Hx]. split; [intros _ (a & b & E)|intros _; exact Hx].
    assert (I : In "D"%char m) by (rewrite E; apply in_or_app; right; left; reflexivity).
    rewrite Forall_forall in Lk. specialize (Lk _ I). discriminate.
Qed.
Theorem C27_refuted : exists s v, read_literal kpp_letter s = Some v /\ read_literal py_letter (convert_numba s) = None.
Proof. exists (s_ "2.5D02"). eexists. split; vm_compute; reflexivity. Qed.
(* A D inside a name is taken for an exponent. *)
Theorem C27_refuted_name : convert_numba (s_ "KD1*O2") = s_ "KE+1*O2" /\ convert_fortran (s_ "KD1*O2") = s_ "KE+1*O2".
Proof. split; reflexivity. Qed.
Example C27_literal : read_literal kpp_letter (s_ "1.44D-13") = Some ((144 # 100) * Qpower (10 # 1) (-13))%Q /\ ~ contains (s_ "D0") (s_ "1.44D-13").
Proof. split; [reflexivity | apply not_contains_by; reflexivity]. Qed.

(* ------------------------------------------------------------------ *)
(* C28 *)

(* Changing single characters into brackets makes no new word. *)
Definition bracketed (t t' : str) : Prop := Forall2 (fun c c' => c' = c \/ In c' (s_ "()[]")) t t'.
Lemma bracketed_refl t : bracketed t t.
Proof. induction t; constructor; auto. Qed.
Lemma bracketed_trans a b c : bracketed a b -> bracketed b c -> bracketed a c.
Proof.
  intros H; revert c; induction H as [|x y a b Hxy H IH]; intros c Hc; inversion Hc as [|? z ? c' Hyz Hc']; subst; constructor.
  - destruct Hyz as [-> | Hz]; auto.
  - apply IH, Hc'.
Qed.
Lemma bracketed_set t i c : In c (s_ "()[]") -> bracketed t (set_nth i c t).
Proof.
  intros Hc. revert i; induction t as [|x t IH]; intros [|i]; cbn [set_nth]; constructor; auto.
  - apply bracketed_refl.
  - apply IH.
Qed.
Lemma bracketed_found t i c : In c (s_ "()[]") -> bracketed t (set_found i c t).
Proof. intros H. destruct i; apply bracketed_set, H. Qed.
Lemma bracketed_square t : bracketed t (map square t).
Proof.
  induction t as [|c t IH]; cbn [map]; constructor; [|exact IH]. unfold square.
  destruct (Ascii.eqb c "("); [right; cbn; auto|]. destruct (Ascii.eqb c ")"); [right; cbn; auto | left; reflexivity].
Qed.
Lemma bracketed_call t w : bracketed t (call_step t w).
Proof.
  unfold call_step. destruct (find_sub w t); [|apply bracketed_refl].
  eapply bracketed_trans; apply bracketed_found; cbn; auto.
Qed.
Lemma bracketed_word t t' w : no_brackets w -> bracketed t t' -> occurs w t' -> occurs w t.
Proof.
  intros Hw H (a & b & ->). apply Forall2_app_inv_r in H as (ta & r & _ & H & ->).
  apply Forall2_app_inv_r in H as (tw & tb & H & _ & ->). exists ta, tb. f_equal. f_equal.
  clear - Hw H. induction H as [|x y tw w Hxy H IH]; [reflexivity|]. f_equal.
  - destruct Hxy as [->|G]; [reflexivity|]. exfalso. apply (Hw y); [left; reflexivity | exact G].
  - apply IH. intros c Hc. apply Hw. right. exact Hc.
Qed.

Lemma chars_differ (a b : str) : forallb (fun c => negb (inb c b)) a = true -> forall c, In c a -> ~ In c b.
Proof. intros H c Ha Hb. rewrite forallb_forall in H. specialize (H c Ha). apply inb_In in Hb. rewrite Hb in H. discriminate. Qed.

(* EXP is renamed everywhere in Python, dlog in Fortran: no text keeps one. *)
Theorem C28_partial : forall t,
  ~ contains (s_ "EXP") (convert_numba t) /\ ~ contains (s_ "EXP") (convert_plain t) /\ ~ contains (s_ "dlog") (convert_fortran t).
Proof.
  intros t. assert (B : no_brackets (s_ "EXP")) by (intros c Hc; revert Hc; apply chars_differ; reflexivity).
  assert (P : forall cs new, (forall c, inb c cs = true -> inb c exponent_chars = true) -> new <> [] ->
     (forall c, In c new -> ~ In c (s_ "EXP")) -> ~ occurs (s_ "EXP") (pass cs plus_of (replace (s_ "EXP") new t))).
  { intros cs new Hcs Hn Hd H. apply pass_occurs in H; try (cbn; intuition discriminate); try assumption.
    - revert H. apply replace_removes; [exact Hn | exact Hd | discriminate].
    - intros _. exists "X"%char, ["P"%char]. split; reflexivity. }
  split; [|split].
  - intros H. rewrite convert_numba_eq in H. apply jbrackets_occurs in H; [|discriminate | exact B].
    revert H. apply P; [auto | discriminate | apply chars_differ; reflexivity].
  - intros H. unfold convert_plain in H. cbn [fold_left] in H.
    apply (bracketed_word (conv_map map_plain (conv_math math_plain t))) in H; [|exact B|].
    + rewrite conv_map_plain in H. revert H. apply P; [|discriminate | apply chars_differ; reflexivity].
      intros c Hc. cbn [inb] in Hc. apply inb_In. cbn [In exponent_chars]. apply inb_In in Hc. cbn [In] in Hc. tauto.
    + eapply bracketed_trans; [apply bracketed_square|]. do 4 (eapply bracketed_trans; [|apply bracketed_call]). apply bracketed_refl.
  - rewrite convert_fortran_eq. intros H. apply pass_occurs in H; try (cbn; intuition discriminate); try assumption; auto.
    + revert H. apply replace_removes; [discriminate | apply chars_differ; reflexivity | discriminate].
Qed.

Lemma disjoint_overlap (old w : str) : (forall c, In c w -> ~ In c old) -> w <> [] ->
  forall a b r, a ++ w ++ b = old ++ r -> List.length old <= List.length a.
Proof.
  intros Hd Hw a b r E. destruct (le_lt_dec (List.length old) (List.length a)) as [|L]; [assumption|]. exfalso.
  destruct w as [|c w]; [congruence|]. apply (Hd c); [left; reflexivity|].
  assert (N : nth_error (old ++ r) (List.length a) = Some c) by (rewrite <- E, nth_error_app2, Nat.sub_diag by lia; reflexivity).
  rewrite nth_error_app1 in N by exact L. apply (nth_error_In _ _ N).
Qed.

(* The other functions are never renamed: whenever a text calls one of them,
   the name is still in the converted text. *)
Theorem C28_never_renamed : forall t w,
  (In w [s_ "dabs"; s_ "dsqrt"; s_ "dlog"; s_ "LOG"] -> contains (w ++ s_ "(") t -> contains w (convert_numba t)) /\
  (In w [s_ "dabs"; s_ "dsqrt"] -> contains w t -> contains w (convert_fortran t)).
Proof.
  intros t w. split.
  - intros Hw H. rewrite convert_numba_eq. apply (occurs_jbrackets w "("%char).
    + cbn [In] in Hw. intros c Hc. repeat (destruct Hw as [<-|Hw]; [revert Hc; apply chars_differ; reflexivity|]). destruct Hw.
    + apply occurs_pass.
      * cbn [In] in Hw. repeat (destruct Hw as [<-|Hw]; [eexists _, _; split; reflexivity|]). destruct Hw.
      * cbn [In] in Hw. repeat (destruct Hw as [<-|Hw]; [cbn; intuition discriminate|]). destruct Hw.
      * apply occurs_replace; [discriminate | | | exact H].
        -- cbn [In] in Hw. intros b. rewrite replace_none; [reflexivity| |discriminate].
           intros x Hx E. injection E as <-. revert Hx.
           repeat (destruct Hw as [<-|Hw]; [cbn; intuition discriminate|]). destruct Hw.
        -- intros a b r E _. revert E. apply disjoint_overlap; [|destruct w; discriminate].
           cbn [In] in Hw. repeat (destruct Hw as [<-|Hw]; [apply chars_differ; reflexivity|]). destruct Hw.
  - intros Hw H. rewrite convert_fortran_eq. apply occurs_pass.
    + cbn [In] in Hw. repeat (destruct Hw as [<-|Hw]; [eexists _, _; split; reflexivity|]). destruct Hw.
    + cbn [In] in Hw. repeat (destruct Hw as [<-|Hw]; [cbn; intuition discriminate|]). destruct Hw.
    + apply occurs_replace; [discriminate | | | exact H].
      * cbn [In] in Hw. intros b.
        destruct Hw as [<-|[<-|[]]]; cbn [s_ list_ascii_of_string app]; repeat (rewrite replace_miss by (intros r; discriminate)); reflexivity.
      * intros a b r E Ha. cbn [s_ list_ascii_of_string app] in E.
        change (List.length (s_ "dlog")) with 4. destruct a as [|a1 [|a2 [|a3 [|a4 a]]]]; cbn [List.length]; try lia; [congruence| | |];
          destruct Hw as [<-|[<-|[]]]; cbn [s_ list_ascii_of_string app] in E; congruence.
Qed.
Theorem C28_refuted : convert_numba (s_ "LOG(2)+dabs(3)") = s_ "LOG(2)+dabs(3)" /\ convert_fortran (s_ "dsqrt(2)") = s_ "dsqrt(2)".
Proof. split; reflexivity. Qed.

(* ------------------------------------------------------------------ *)
(* C29 *)
Definition plain (s : str) : str := map square (exponents_signed s).

Lemma find_sub_at p a b : p <> [] -> (forall i, i < List.length a -> forall r, skipn i (a ++ p ++ b) <> p ++ r) ->
  find_sub p (a ++ p ++ b) = Some (List.length a).
Proof.
  intros Hp H. apply (find_sub_is p _ _ b).
  - rewrite skipn_app, skipn_all, Nat.sub_diag. reflexivity.
  - rewrite app_length. lia.
  - exact H.
Qed.
Lemma in_skipn {A} (x : A) i l : In x (skipn i l) -> In x l.
Proof. intros H. rewrite <- (firstn_skipn i l). apply in_or_app. right. exact H. Qed.
Lemma find_char (c : ascii) m b : ~ In c m -> find_sub [c] (m ++ c :: b) = Some (List.length m).
Proof.
  intros H. apply (find_sub_at [c] m b); [discriminate|]. intros i Hi r E.
  apply H. rewrite skipn_app in E. replace (i - List.length m) with 0 in E by lia. cbn [skipn app] in E.
  destruct (skipn i m) as [|d l] eqn:Es.
  - apply (f_equal (@List.length ascii)) in Es. rewrite skipn_length in Es. cbn in Es. lia.
  - injection E as -> _. apply (in_skipn _ i m). rewrite Es. left. reflexivity.
Qed.
Lemma find_from_char c a m b : ~ In c m -> find_from [c] (a ++ m ++ c :: b) (List.length a) = Some (List.length a + List.length m).
Proof.
  intros H. unfold find_from. rewrite (proj2 (Nat.leb_le _ _)) by (rewrite app_length; lia). rewrite skipn_app, skipn_all, Nat.sub_diag. cbn [skipn app]. rewrite find_char by exact H.
  reflexivity.
Qed.
Lemma set_nth_at {A} (a : list A) x y b : set_nth (List.length a) y (a ++ x :: b) = a ++ y :: b.
Proof. induction a as [|z a IH]; [reflexivity|]. cbn [List.length app set_nth]. rewrite IH. reflexivity. Qed.
Lemma occurs_later (c : ascii) w a t : ~ In c a -> occurs (c :: w) (a ++ t) -> occurs (c :: w) t.
Proof.
  intros H. induction a as [|x a IH]; [auto|]. cbn [app]. rewrite occurs_cons. intros [(b & E)|G].
  - injection E as -> _. exfalso. apply H; left; reflexivity.
  - apply IH; [intros Hd; apply H; right; exact Hd | exact G].
Qed.
Lemma replace_exp new a t : ~ contains (s_ "EXP") a -> replace (s_ "EXP") new (a ++ s_ "EXP" ++ t) = a ++ new ++ replace (s_ "EXP") new t.
Proof.
  induction a as [|x a IH]; intros H.
  - cbn [app]. rewrite replace_hit by discriminate. reflexivity.
  - cbn [app]. rewrite replace_miss.
    + rewrite IH; [reflexivity|]. intros (u & v & ->). apply H. exists (x :: u), v. reflexivity.
    + intros r E. cbn [s_ list_ascii_of_string app] in E. destruct a as [|y [|z a]]; cbn [app] in E; try congruence.
      injection E as -> -> -> _. apply H. exists [], a. reflexivity.
Qed.
Lemma in_pass c cs t : c <> "E"%char -> c <> "+"%char -> In c (pass cs plus_of t) -> In c t.
Proof.
  intros H1 H2. induction t as [|x t IH]; [auto|]. rewrite pass_cons. intros H. apply in_app_or in H.
  destruct H as [H|H]; [|right; apply IH, H]. destruct (Ascii.eqb x "D"); [|destruct H as [<-|[]]; left; reflexivity].
  destruct t as [|d t]; [destruct H as [<-|[]]; left; reflexivity|].
  destruct (inb d cs); [|destruct H as [<-|[]]; left; reflexivity].
  destruct H as [<-|H]; [congruence|]. apply plus_of_chars in H. congruence.
Qed.
Lemma in_plain c t : c <> "E"%char -> c <> "+"%char -> ~ In c (s_ "[]") -> In c (plain t) -> In c t.
Proof.
  intros H1 H2 H3. unfold plain. rewrite in_map_iff. intros (d & <- & Hd). unfold square in *.
  destruct (Ascii.eqb d "("); [exfalso; apply H3; cbn; auto|]. destruct (Ascii.eqb d ")"); [exfalso; apply H3; cbn; auto|].
  apply in_pass in Hd; assumption.
Qed.
Lemma plain_no_open t : ~ In "("%char t -> ~ In "["%char t -> ~ In "["%char (plain t).
Proof.
  intros H1 H2. unfold plain. rewrite in_map_iff. intros (d & E & Hd). unfold square in E.
  destruct (Ascii.eqb d "(") eqn:Q; [apply Ascii.eqb_eq in Q; subst d; apply H1; apply in_pass in Hd; (discriminate || assumption)|].
  destruct (Ascii.eqb d ")"); [discriminate|]. subst d. apply H2. apply in_pass in Hd; (discriminate || assumption).
Qed.
Lemma plain_no_close t : ~ In ")"%char t -> ~ In "]"%char t -> ~ In "]"%char (plain t).
Proof.
  intros H1 H2. unfold plain. rewrite in_map_iff. intros (d & E & Hd). unfold square in E.
  destruct (Ascii.eqb d "("); [discriminate|].
  destruct (Ascii.eqb d ")") eqn:Q; [apply Ascii.eqb_eq in Q; subst d; apply H1; apply in_pass in Hd; (discriminate || assumption)|].
  subst d. apply H2. apply in_pass in Hd; (discriminate || assumption).
Qed.

(* A text with one call of EXP whose argument has no brackets: the call keeps
   its round brackets, all other brackets become square. *)
Theorem C29_partial : forall A X B,
  ~ contains (s_ "EXP") A -> ~ contains (s_ "EXP") (X ++ s_ ")" ++ B) ->
  no_brackets X -> (forall s, In s [A; X; B] -> ~ In "n"%char s) ->
  convert_plain (A ++ s_ "EXP(" ++ X ++ s_ ")" ++ B) = plain A ++ s_ "numpy.exp(" ++ plain X ++ s_ ")" ++ plain B.
Proof.
  intros A X B HA HB HX Hn. unfold convert_plain. rewrite conv_map_plain.
  assert (E : conv_math math_plain (A ++ s_ "EXP(" ++ X ++ s_ ")" ++ B) = A ++ s_ "numpy.exp(" ++ X ++ s_ ")" ++ B).
  { unfold conv_math. cbn [math_plain fold_left fst snd].
    change (s_ "EXP(" ++ X ++ s_ ")" ++ B) with (s_ "EXP" ++ s_ "(" ++ X ++ s_ ")" ++ B).
    rewrite replace_exp by exact HA. f_equal.
    change (s_ "numpy.exp(" ++ X ++ s_ ")" ++ B) with (s_ "numpy.exp" ++ s_ "(" ++ X ++ s_ ")" ++ B). f_equal.
    apply replace_absent; [discriminate|]. intros H. apply (occurs_skip _ (s_ "(")) in H; [|apply chars_differ; reflexivity | discriminate].
    apply HB, H. }
  rewrite E. clear E.
  assert (E : map square (exponents_signed (A ++ s_ "numpy.exp(" ++ X ++ s_ ")" ++ B)) =
              plain A ++ s_ "numpy.exp[" ++ plain X ++ s_ "]" ++ plain B).
  { unfold plain, exponents_signed. change (s_ "numpy.exp(" ++ X ++ s_ ")" ++ B) with ("n"%char :: (s_ "umpy.exp(" ++ X ++ s_ ")" ++ B)).
    rewrite pass_cut by reflexivity. rewrite map_app. f_equal.
    change ("n"%char :: (s_ "umpy.exp(" ++ X ++ s_ ")" ++ B)) with (s_ "numpy.exp(" ++ X ++ s_ ")" ++ B).
    rewrite pass_app by (apply no_D_end_In; cbn; intuition discriminate). rewrite pass_noD by (cbn; intuition discriminate).
    rewrite map_app. f_equal. cbn [s_ list_ascii_of_string app]. rewrite pass_cut by reflexivity. rewrite map_app. f_equal. }
  rewrite E. clear E. set (a := plain A). set (x := plain X). set (b := plain B).
  assert (N : forall s, In s [A; X; B] -> ~ In "n"%char (plain s)).
  { intros s Hs H. apply (Hn s Hs). apply in_plain in H; [exact H | discriminate | discriminate | cbn; intuition discriminate]. }
  assert (Na : ~ In "n"%char a) by (apply N; cbn; auto).
  assert (Nr : ~ In "n"%char (x ++ s_ "]" ++ b)).
  { intros H. apply in_app_or in H as [H|H]; [revert H; apply N; cbn; auto|].
    apply in_app_or in H as [H|H]; [cbn in H; intuition discriminate | revert H; apply N; cbn; auto]. }
  assert (K : forall w, In w [s_ "numpy.abs"; s_ "numpy.sqrt"; s_ "numpy.log"] ->
    call_step (a ++ s_ "numpy.exp[" ++ x ++ s_ "]" ++ b) w = a ++ s_ "numpy.exp[" ++ x ++ s_ "]" ++ b).
  { intros w Hw. unfold call_step. replace (find_sub w _) with (@None nat); [reflexivity|]. symmetry. apply find_sub_None. intros H.
    assert (W : exists w', w = "n"%char :: w') by (cbn [In] in Hw; repeat (destruct Hw as [<-|Hw]; [eexists; reflexivity|]); destruct Hw).
    destruct W as (w' & ->). apply occurs_later in H; [|exact Na].
    change (s_ "numpy.exp[" ++ x ++ s_ "]" ++ b) with ("n"%char :: (s_ "umpy.exp[" ++ (x ++ s_ "]" ++ b))) in H.
    apply occurs_cons in H as [(r & H)|H].
    - cbn [In] in Hw. repeat (destruct Hw as [Hw|Hw]; [injection Hw as <-; discriminate|]). destruct Hw.
    - apply occurs_later in H; [|cbn; intuition discriminate]. destruct H as (u & v & H). apply Nr. rewrite H.
      apply in_or_app. right. left. reflexivity. }
  cbn [fold_left]. rewrite !K by (cbn [In]; auto). unfold call_step.
  assert (F : find_sub (s_ "numpy.exp") (a ++ s_ "numpy.exp[" ++ x ++ s_ "]" ++ b) = Some (List.length a)).
  { apply (find_sub_at (s_ "numpy.exp") a (s_ "[" ++ x ++ s_ "]" ++ b)); [discriminate|].
    intros i Hi r H. apply Na. rewrite skipn_app in H. replace (i - List.length a) with 0 in H by lia. cbn [skipn] in H.
    destruct (skipn i a) as [|d l] eqn:Es.
    - apply (f_equal (@List.length ascii)) in Es. rewrite skipn_length in Es. cbn in Es. lia.
    - injection H as -> _. apply (in_skipn _ i a). rewrite Es. left. reflexivity. }
  rewrite F. clear F.
  set (t := a ++ s_ "numpy.exp[" ++ x ++ s_ "]" ++ b).
  assert (F1 : find_from (s_ "[") t (List.length a) = Some (List.length (a ++ s_ "numpy.exp"))).
  { rewrite app_length. apply (find_from_char "["%char a (s_ "numpy.exp") (x ++ s_ "]" ++ b)). cbn; intuition discriminate. }
  assert (F2 : find_from (s_ "]") t (List.length a) = Some (List.length (a ++ s_ "numpy.exp(" ++ x))).
  { transitivity (Some (List.length a + List.length (s_ "numpy.exp[" ++ x))).
    - replace t with (a ++ (s_ "numpy.exp[" ++ x) ++ "]"%char :: b) by (unfold t; rewrite <- !app_assoc; reflexivity).
      apply find_from_char. intros H. apply in_app_or in H as [H|H]; [cbn in H; intuition discriminate|].
      revert H. apply plain_no_close; intros G; apply (HX _ G); cbn; auto.
    - rewrite !app_length. reflexivity. }
  rewrite F1, F2. cbn [set_found].
  replace t with ((a ++ s_ "numpy.exp") ++ "["%char :: x ++ s_ "]" ++ b) by (unfold t; rewrite <- !app_assoc; reflexivity).
  rewrite set_nth_at.
  replace ((a ++ s_ "numpy.exp") ++ "("%char :: x ++ s_ "]" ++ b) with ((a ++ s_ "numpy.exp(" ++ x) ++ "]"%char :: b)
    by (rewrite <- !app_assoc; reflexivity).
  rewrite set_nth_at, <- !app_assoc. reflexivity.
Qed.
Theorem C29_refuted : convert_plain (s_ "EXP(1)*EXP(2)") = s_ "numpy.exp(1)*numpy.exp[2]" /\
  convert_plain (s_ "(1+2)*3") = s_ "[1+2]*3" /\ convert_plain (s_ "EXP(-(2))") = s_ "numpy.exp(-[2)]".
Proof. repeat split; reflexivity. Qed.
Example C29_example : convert_plain (s_ "J(4)*1.2D-12*EXP(490/TEMP)*O2") = s_ "J[4]*1.2E-12*numpy.exp(490/TEMP)*O2".
Proof.
  transitivity (plain (s_ "J(4)*1.2D-12*") ++ s_ "numpy.exp(" ++ plain (s_ "490/TEMP") ++ s_ ")" ++ plain (s_ "*O2")); [|reflexivity].
  apply (C29_partial (s_ "J(4)*1.2D-12*") (s_ "490/TEMP") (s_ "*O2")).
  - apply not_contains_by; reflexivity.
  - apply not_contains_by; reflexivity.
  - intros c Hc; revert Hc; apply chars_differ; reflexivity.
  - intros s Hs. cbn [In] in Hs. repeat (destruct Hs as [<-|Hs]; [cbn; intuition discriminate|]). destruct Hs.
Qed.

(* ------------------------------------------------------------------ *)
(* C30 *)
Lemma convert_dict_seq f (d : dict nat str) N : dkeys d = seq 0 N ->
  exists t, convert_dict f d = map (fun k => (k, t k)) (seq 0 N) /\
    forall k, k < N -> exists K, dget k d = Some K /\ t k = f K.
Proof.
  intros Hd. exists (fun k => match dget k d with Some K => f K | None => [] end).
  assert (Hnd : NoDup (dkeys d)) by (rewrite Hd; apply seq_NoDup).
  split.
  - rewrite <- Hd. unfold convert_dict, dkeys. rewrite map_map. apply map_ext_in. intros [k K] Hin. cbn [fst snd].
    rewrite (dget_In k K d Hnd Hin). reflexivity.
  - intros k Hk. destruct (dget k d) as [K|] eqn:E; [exists K; auto|]. exfalso.
    apply dget_None in E. apply E. rewrite Hd. apply in_seq. lia.
Qed.

(* For every accepted file: one assignment per equation, in order, with the
   converted text of that equation; at k in Python, at k + 1 in Fortran. *)
Theorem C30_statements : forall text n st f, extract_mechanism text = Ok (n, st) ->
  let d := convert_dict f (p_rate st) in
  exists t, (forall k, k < Z.to_nat n -> exists K, dget k (p_rate st) = Some K /\ t k = f K) /\
    gen_rates_python d = map (fun k => Assign k (t k)) (seq 0 (Z.to_nat n)) /\
    forall omp, assigns (gen_rates_fortran omp d) = map (fun k => (k + 1, t k)) (seq 0 (Z.to_nat n)).
Proof.
  intros text n st f H d. destruct (C03_keys text n st H) as [Hk _].
  destruct (convert_dict_seq f (p_rate st) _ Hk) as (t & Hd & Ht). exists t. split; [exact Ht|]. unfold d. rewrite Hd. split.
  - unfold gen_rates_python. rewrite map_map. reflexivity.
  - intros omp. unfold gen_rates_fortran. rewrite assigns_omp_frame, map_map, flat_map_concat_map, map_map. cbn [fst snd assigns].
    clear. induction (seq 0 (Z.to_nat n)) as [|k l IH]; [reflexivity|]. cbn [map concat app]. rewrite IH. reflexivity.
Qed.

Lemma run_rates {ev : str -> option R} off N t v m0 p : off <= 1 -> assigns p = map (fun k => (k + off, t k)) (seq 0 N) ->
  (forall k, k < N -> ev (t k) = Some (v k)) ->
  returned N (run (cell off N) ev p m0) = Some (map v (seq 0 N)) /\ consistent (cell off N) (assigns p).
Proof.
  intros Ho Hp Hv. rewrite run_is_assigns, Hp.
  assert (Hc : forall k, k < N -> cell off N (k + off) = Some k).
  { intros k Hk. unfold cell. destruct off as [|[|]]; [| |lia]; cbn [Nat.eqb].
    - unfold cell0. rewrite Nat.add_0_r, (proj2 (Nat.ltb_lt _ _) Hk). reflexivity.
    - unfold cell1. replace (k + 1) with (S k) by lia. rewrite (proj2 (Nat.ltb_lt _ _) Hk). reflexivity. }
  assert (Hcon : consistent (cell off N) (map (fun k => (k + off, t k)) (seq 0 N))).
  { apply NoDup_consistent; [|apply cell_inj]. rewrite map_map. cbn [fst].
    apply FinFun.Injective_map_NoDup; [|apply seq_NoDup]. intros x y. lia. }
  split; [|exact Hcon].
  destruct (run_assigns_ok (cell off N) ev (map (fun k => (k + off, t k)) (seq 0 N)) m0) as (m' & Hr & _ & Hw).
  - apply Forall_forall. intros [c e] Hin. apply in_map_iff in Hin as (k & E & Hk). injection E as <- <-.
    apply in_seq in Hk. exists k, (v k). split; [apply Hc; lia | apply Hv; lia].
  - rewrite Hr. cbn [returned]. f_equal. unfold array. apply map_ext_in. intros k Hk. apply in_seq in Hk.
    apply (Hw Hcon (k + off) (t k) k (v k)); [|apply Hc; lia | apply Hv; lia].
    apply in_map_iff. exists k. split; [reflexivity | apply in_seq; lia].
Qed.

(* Running the routine: whatever the texts evaluate to, the result is the
   value of every equation's own text, from every initial array; in Fortran
   also for every division into OpenMP blocks and every interleaving. *)
Theorem C30_values : forall text n st f ev v, extract_mechanism text = Ok (n, st) ->
  (forall k K, dget k (p_rate st) = Some K -> ev (f K) = Some (v k)) ->
  let N := Z.to_nat n in let d := convert_dict f (p_rate st) in
  (forall m0, returned N (run (cell 0 N) ev (gen_rates_python d) m0) = Some (map v (seq 0 N))) /\
  (forall m0, returned N (run (cell 1 N) ev (gen_rates_fortran None d) m0) = Some (map v (seq 0 N))) /\
  (0 < N -> forall breaks, exists bs, omp_program (gen_rates_fortran (Some breaks) d) = Some bs /\
     forall tr m0, execution bs tr -> returned N (run (cell 1 N) ev (as_items tr) m0) = Some (map v (seq 0 N))).
Proof.
  intros text n st f ev v H Hv N d. destruct (C30_statements text n st f H) as (t & Ht & Hp & Hf).
  fold d in Hp, Hf. fold N in Ht, Hp, Hf.
  assert (Hev : forall k, k < N -> ev (t k) = Some (v k)).
  { intros k Hk. destruct (Ht k Hk) as (K & HK & ->). apply Hv, HK. }
  split; [|split].
  - intros m0. apply (run_rates 0 N t); [lia | | exact Hev]. rewrite Hp. clear. induction (seq 0 N) as [|k l IH]; [reflexivity|].
    cbn [map assigns]. rewrite Nat.add_0_r, IH. reflexivity.
  - intros m0. apply (run_rates 1 N t); [lia | apply Hf | exact Hev].
  - intros HN br. unfold gen_rates_fortran. set (ls := map _ d).
    destruct (frame_blocks br ls) as (bs & Hb & Hcat & _).
    + unfold ls. apply Forall_map, Forall_forall. intros p _. repeat constructor.
    + unfold ls. intros G. apply map_eq_nil in G.
      assert (L : List.length (gen_rates_python d) = N) by (rewrite Hp, map_length, seq_length; reflexivity).
      rewrite G in L. cbn in L. lia.
    + exists bs. split; [exact Hb|]. intros tr m0 He.
      destruct (run_rates 1 N t v m0 (gen_rates_fortran None d) (le_n 1) (Hf None) Hev) as [R1 R2].
      rewrite <- R1. apply same_returned, (execution_result _ _ _ bs); [exact He | exact Hcat | exact R2].
Qed.
Example C30_example : exists st,
  extract_mechanism (s_ "{1.} A = B : 1.2D-12*EXP(490/TEMP) ; {2.} B = A : J(4) ;") = Ok (2%Z, st) /\
  gen_rates_python (convert_dict convert_numba (p_rate st)) =
    [Assign 0 (s_ "1.2E-12*numba_exp(490/TEMP)"); Assign 1 (s_ "J[4]")] /\
  gen_rates_fortran None (convert_dict convert_fortran (p_rate st)) =
    [Assign 1 (s_ "1.2E-12*EXP(490/TEMP)"); Assign 2 (s_ "J(4)")].
Proof. eexists. split; [vm_compute; reflexivity|]. split; vm_compute; reflexivity. Qed.

Print Assumptions C26_partial.
Print Assumptions C26_exact.
Print Assumptions C26_refuted.
Print Assumptions C27_expressions.
Print Assumptions C27_exactly_when.
Print Assumptions C27_refuted.
Print Assumptions C27_refuted_name.
Print Assumptions C28_partial.
Print Assumptions C28_never_renamed.
Print Assumptions C28_refuted.
Print Assumptions C29_partial.
Print Assumptions C29_refuted.
Print Assumptions C30_statements.
Print Assumptions C30_values.
