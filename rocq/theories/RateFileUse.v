(* Calls of what was read from the Fortran rate file, and the texts of rate
   expressions in these files. *)
From Coq Require Import List Bool Arith Lia Ascii String ZArith QArith Reals.
From Verif Require Import Base PyStr PyDict SpecRate SpecRateValue SpecSun SpecTroe SpecMcmEnv SpecRateText ModelRate RateExpr RateNames ModelExpr RateParse ModelLang ModelOmp ModelGen ModelRhs ModelGas ModelRateFile ModelRateBody ModelRateRun RateBody
  ModelSource ModelWrite SpecSource SourceRead SourceRun ModelRateText ModelRateWrite ModelRateRead RateTrail RateFileN RateFileF.
Import ListNotations.
Import Coq.Lists.List.
Open Scope nat_scope.
Open Scope list_scope.
Local Arguments eqb : simpl never.

(* ------------------------------------------------------------------ *)
(* Execution depends on the values of the variables only. *)
Definition same_env (a b : renv) : Prop := (forall x, rvar a x = rvar b x) /\ (forall k, rj a k = rj b k).
Definition same_envo (a b : option renv) : Prop := match a, b with Some x, Some y => same_env x y | None, None => True | _, _ => False end.
Lemma xeval_same L a b e : same_env a b -> xeval L a e = xeval L b e.
Proof.
  intros [V J]. assert (O : forall o, obind o (rj a) = obind o (rj b)) by (intros [k|]; [apply J | reflexivity]).
  induction e; cbn [xeval]; rewrite ?IHe, ?IHe1, ?IHe2, ?O, ?V; reflexivity.
Qed.
Lemma run_simple_same L s a b : same_env a b -> same_envo (run_simple L s a) (run_simple L s b).
Proof.
  intros H. destruct s as [x e|k e]; cbn [run_simple]; rewrite (xeval_same L a b e H); destruct (xeval L b e) as [v|]; cbn [obind]; try exact I; destruct H as [V J].
  - split; [intros y; cbn; destruct (eqb y x); [reflexivity | apply V] | exact J].
  - split; [exact V | intros y; cbn; destruct (y =? k); [reflexivity | apply J]].
Qed.
Lemma same_bind (f g : renv -> option renv) a b : same_envo a b -> (forall x y, same_env x y -> same_envo (f x) (g y)) -> same_envo (obind a f) (obind b g).
Proof. destruct a, b; cbn; try tauto. auto. Qed.
Lemma run_simples_same L l : forall a b, same_env a b -> same_envo (run_simples L l a) (run_simples L l b).
Proof. induction l as [|s l IH]; intros a b H; [exact H|]. cbn [run_simples]. apply same_bind; [apply run_simple_same, H | exact IH]. Qed.
Lemma run_stmts_same L l : forall a b, same_env a b -> same_envo (run_stmts L l a) (run_stmts L l b).
Proof.
  induction l as [|s l IH]; intros a b H; [exact H|]. cbn [run_stmts]. apply same_bind; [|exact IH].
  destruct s as [s|x y th el]; [apply run_simple_same, H|]. cbn [run_stmt]. rewrite (xeval_same L a b x H), (xeval_same L a b y H).
  destruct (xeval L b x); cbn [obind]; [|exact I]. destruct (xeval L b y); cbn [obind]; [|exact I]. destruct (Rle_dec r r0); apply run_simples_same, H.
Qed.
Lemma text_value_same L a b t : same_env a b -> text_value L a t = text_value L b t.
Proof. intros H. unfold text_value. destruct (tokens L t); [|reflexivity]. cbn [obind]. destruct (parse_expr l); [|reflexivity]. cbn [obind]. apply xeval_same, H. Qed.

Lemma start_same t r w T : same_env (REnv (by_position (map s_ ["ro2"; "h2o"; "temp"; "ttime"]%string) [r; w; T; t]) (fun _ => None)) (fortran_start t r w T).
Proof.
  split; [|reflexivity]. intros x. cbn [rvar fortran_start by_position map bindings].
  destruct (eqb x (s_ "ro2")) eqn:E1, (eqb x (s_ "h2o")) eqn:E2, (eqb x (s_ "temp")) eqn:E3, (eqb x (s_ "ttime")) eqn:E4; try reflexivity;
    repeat match goal with H : eqb _ _ = true |- _ => apply eqb_eq in H end; subst; discriminate.
Qed.
Lemma run_val_ext {C D E} `{EqB D} (addr : C -> option D) (v w : E -> option R) : (forall e, v e = w e) -> forall p m, run addr v p m = run addr w p m.
Proof.
  intros V. induction p as [|i p IH]; intros m; [reflexivity|]. destruct i as [c e| | | |]; cbn [run]; try apply IH.
  unfold assign. rewrite V. destruct (addr c); [|reflexivity]. destruct (w e); [apply IH | reflexivity].
Qed.
Lemma call_fortran omp d : Forall good_rate d -> Forall (fun p => known rate_names (expr_of fortran_lang (snd p)) = true) d -> fine (write_rates_fortran omp d) ->
  exists rs, read_rates_fortran (write_rates_fortran omp d) = Some rs /\
    fr_name rs = s_ "evaluate_rates" /\ fr_in rs = map s_ ["ro2"; "h2o"; "temp"; "ttime"]%string /\ fr_out rs = s_ "rate_values" /\ fr_size rs = List.length d /\
    forall tr, runs_as omp (fr_rates rs) tr -> exists tr0, runs_as omp (gen_rates_fortran omp d) tr0 /\
      forall ttime RO2 H2O temp a, call_rates_fortran rs tr [RO2; H2O; temp; ttime] a =
        obind (fortran_run ttime RO2 H2O temp) (fun en => returned (List.length d) (run (cell 1 (List.length d)) (text_value fortran_lang en) tr0 a)).
Proof.
  intros G K F. eexists. split; [apply read_rates_f; assumption|]. repeat (split; [reflexivity|]). cbn [fr_rates]. intros tr Ht.
  destruct (runs_as_map _ _ _ _ Ht) as (tr0 & H0 & ->). exists tr0. split; [exact H0|]. intros t r w T a. unfold call_rates_fortran. cbn [fr_array fr_stmts fr_in fr_size].
  change (RLang lower kpp_letter "!" (fun x => eqb x (s_ "j")) fortran_func true) with fortran_lang.
  unfold fortran_run. rewrite fortran_prog_eq. cbn [obind]. generalize fortran_prog as prog. intros prog. pose proof (run_stmts_same fortran_lang prog _ _ (start_same t r w T)) as S.
  destruct (run_stmts fortran_lang prog _) as [en|], (run_stmts fortran_lang prog (fortran_start t r w T)) as [en'|]; try destruct S; [|reflexivity].
  cbn [obind]. f_equal. apply run_map. intros e. rewrite expr_of_value by reflexivity. apply text_value_same. split; assumption.
Qed.

(* ------------------------------------------------------------------ *)
(* Texts of rate expressions *)
Lemma digit_calm c : is_digit c = true -> calm c = true.
Proof. intros H. apply mant_calm, digit_mant, H. Qed.
Lemma show_calm S e : calm_text (exp_name S) -> exponent S = e_exponent -> (forall k, digits k -> calm_text (phot S k)) -> good e -> calm_text (show S e).
Proof.
  intros X E P. induction e as [m ex|x|k|e IH|e IH|o a IHa b IHb|e IH]; cbn [show good]; intros G.
  - destruct G as [M G]. apply calm_app; [eapply Forall_impl; [|exact (mant_forall m M)]; exact mant_calm|]. rewrite E. destruct ex as [[[d sg] ds]|]; [|constructor].
    cbn [show_ex]. destruct G as (Sg & [_ Dg] & _). unfold e_exponent. apply Forall_cons; [reflexivity|]. apply calm_app.
    + destruct d; [unfold sign_or_plus|]; destruct Sg as [<-|[<-|[<-|[]]]]; repeat constructor.
    + eapply Forall_impl; [|exact Dg]. exact digit_calm.
  - destruct G as (_ & F & _). eapply Forall_impl; [|exact F]. exact ident_calm.
  - apply P, G.
  - apply calm_app; [exact X|]. apply Forall_cons; [reflexivity|]. apply calm_app; [apply IH, G | repeat constructor].
  - apply Forall_cons; [reflexivity|]. apply calm_app; [apply IH, G | repeat constructor].
  - destruct G as (O & Ga & Gb). apply calm_app; [apply IHa, Ga|]. apply calm_app; [|apply IHb, Gb].
    destruct O as [<-|[<-|[<-|[<-|[<-|[]]]]]]; repeat constructor.
  - apply Forall_cons; [reflexivity|]. apply IH, G.
Qed.
Lemma numba_calm e : good e -> calm_text (show numba e).
Proof.
  apply show_calm; [repeat constructor | reflexivity|]. intros k [_ F]. change (phot numba k) with (s_ "J[" ++ k ++ s_ "]").
  repeat apply calm_app; try (repeat constructor; fail). eapply Forall_impl; [|exact F]. exact digit_calm.
Qed.
Lemma fortran_calm e : good e -> calm_text (show fortran_text e).
Proof.
  apply show_calm; [repeat constructor | reflexivity|]. intros k [_ F]. change (phot fortran_text k) with (s_ "J(" ++ k ++ s_ ")").
  repeat apply calm_app; try (repeat constructor; fail). eapply Forall_impl; [|exact F]. exact digit_calm.
Qed.
Lemma numba_expr e var J v : good e -> well_formed e -> proper_names e -> means var J e v -> text_expr numba_lang (show numba e) <> None.
Proof.
  intros G W P M. unfold text_expr. rewrite (show_tree numba_lang numba "[" "]" KLb KRb) with (e := e) (var' := var) (J := J) (v := v); auto; try discriminate.
  - split; [apply Forall_forall; intros c; apply forallb_forall; reflexivity|]. eexists _, _. split; reflexivity.
  - split; [reflexivity|]. intros c C. unfold kpp_letter. rewrite orb_comm. cbn in C. unfold py_letter in C. rewrite C. reflexivity.
Qed.
Lemma fortran_expr e var J v : good e -> well_formed e -> proper_names e -> means var J e v ->
  text_expr fortran_lang (show fortran_text e) = Some (tree fortran_lang fortran_text KLp e).
Proof.
  intros G W P M. unfold text_expr. apply (show_tree fortran_lang fortran_text "(" ")" KLp KRp) with (var' := var) (J := J) (v := v); auto.
  split; [apply Forall_forall; intros c; apply forallb_forall; reflexivity|]. eexists _, _. split; reflexivity.
Qed.
Lemma mcm_declared r w T x v : mcm_var r w T x = Some v -> declared rate_names (lower x) = true.
Proof.
  assert (A : forallb (fun n => declared rate_names (lower (s_ n))) (map fst (mcm_names r w T)) = true) by (vm_compute; reflexivity).
  unfold mcm_var. destruct (find _ _) as [[n u]|] eqn:F; [|discriminate]. intros _. apply find_some in F. destruct F as [I E]. cbn [fst] in E. apply eqb_eq in E. subst x.
  rewrite forallb_forall in A. apply A. apply in_map_iff. exists (n, u). auto.
Qed.
Lemma tree_known r w T J e v : means (mcm_var r w T) J e v -> known rate_names (tree fortran_lang fortran_text KLp e) = true.
Proof.
  assert (B : forall o a b, known rate_names a = true -> known rate_names b = true -> known rate_names (xbin o a b) = true).
  { intros o a b Ha Hb. unfold xbin. repeat (destruct (eqb o _)); cbn [known]; rewrite Ha, Hb; reflexivity. }
  induction 1; cbn [tree]; try (apply B; assumption); try assumption; try reflexivity.
  - cbn [known]. eapply mcm_declared. eassumption.
Qed.
(* MCM expressions can be written and read. *)
Lemma mcm_numba t : mcm_text t -> one_line (convert_numba t) /\ text_expr numba_lang (convert_numba t) <> None.
Proof.
  intros (e & r & w & T & tt & v & -> & G & W & P & M). rewrite convert_numba_show by exact G. split; [apply calm_one_line, numba_calm, G|]. eapply numba_expr; eassumption.
Qed.
Lemma mcm_fortran k t : mcm_text t -> good_rate (k, convert_fortran t) /\ known rate_names (expr_of fortran_lang (convert_fortran t)) = true.
Proof.
  intros (e & r & w & T & tt & v & -> & G & W & P & M). rewrite convert_fortran_show by exact G. pose proof (fortran_expr e _ _ _ G W P M) as E. split; [split|].
  - apply fortran_calm, G.
  - cbn [snd]. rewrite E. discriminate.
  - unfold expr_of. rewrite E. eapply tree_known, M.
Qed.
