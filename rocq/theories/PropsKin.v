(* C10-C19: what the generated reactant and dydt functions compute. *)
From Coq Require Import String List Bool Arith Lia Permutation ZArith QArith Reals Qreals Lra.
From Verif Require Import Base PyStr PyDict ModelParse ModelLang ModelGen ModelRhs SpecMech SpecKin
  ParseStruct ParseWritten ParseTables ParseShow LangFacts GenReact GenLossGain GenParsed PropsParse.
Import ListNotations.
Open Scope nat_scope.
Open Scope list_scope.

Definition species_count (st : pstate) : nat := List.length (p_sp2a st).

(* ------------------------------------------------------------------ *)
(* C10 *)

(* For every mechanism file and every state the numba function returns, for
   each equation, one factor per written reactant (light aside), and 0 for an
   equation whose only reactant is light. *)
Theorem C10_exact : forall m text, written m text ->
  exists st prog, extract_mechanism text = Ok (Z.of_nat (List.length m), st) /\
    gen_reactants_numba (List.length m) (p_sp2a st) (p_reac st) (p_loss st) = Ok prog /\
    forall y, List.length y = species_count st -> nonneg y ->
      exists v, reactants_numba prog (List.length m) y = Some v /\ List.length v = List.length m /\
        forall k r, nth_error m k = Some r ->
          nth_error v k = Some (if only_light (lhs r) then 0%R else
            rprod (map (fun s => rpow (conc_of (p_sp2a st) y s) (total s (lhs r))) (names (lhs r)))).
Proof.
  intros m text W. assert (Hc := written_coefs m text W).
  destruct (gen_reactants_numba_ok _ _ _ _ (all_known_interp m)) as (prog & Hg & Ha).
  exists (interp m), prog. split; [apply written_extract, W|]. split; [exact Hg|].
  intros y Hy Hn. unfold species_count in Hy. rewrite sp2a_length in Hy.
  unfold reactants_numba.
  rewrite (products_vec m 0 python zeros prog y); try assumption; auto.
  - eexists. split; [reflexivity|]. split; [apply array_length|].
    intros k r Hr. unfold products. rewrite nth_error_array by (apply nth_error_Some; congruence).
    rewrite Hr. reflexivity.
  - intros i. cbn. rewrite ?Nat.add_0_r. reflexivity.
Qed.

(* So it is the mass-action product when no reactant is written twice. *)
Theorem C10_partial : forall m text, written m text ->
  exists st prog, extract_mechanism text = Ok (Z.of_nat (List.length m), st) /\
    gen_reactants_numba (List.length m) (p_sp2a st) (p_reac st) (p_loss st) = Ok prog /\
    forall y, List.length y = species_count st -> nonneg y ->
      exists v, reactants_numba prog (List.length m) y = Some v /\
        forall k r, nth_error m k = Some r -> names (lhs r) <> [] -> NoDup (names (lhs r)) ->
          nth_error v k = Some (mass_action (conc_of (p_sp2a st) y) (lhs r)).
Proof.
  intros m text W. destruct (C10_exact m text W) as (st & prog & H1 & H2 & H3).
  exists st, prog. split; [exact H1|]. split; [exact H2|]. intros y Hy Hn.
  destruct (H3 y Hy Hn) as (v & Hv & _ & Hk). exists v. split; [exact Hv|].
  intros k r Hr Hne Hnd. rewrite (Hk k r Hr). unfold only_light.
  destruct (names (lhs r)) eqn:E; [congruence|]. rewrite <- E in *.
  fold (written_product (conc_of (p_sp2a st) y) (lhs r)). rewrite written_product_nodup by exact Hnd. reflexivity.
Qed.

(* Writing a reactant twice makes the product different from mass action:
   only distinct reactants are treated correctly in every state. *)
Lemma first_seen_perm l : exists extra, Permutation l (first_seen l ++ extra) /\ (extra = [] -> NoDup l) /\ incl extra l.
Proof.
  assert (G : forall l seen, exists extra, Permutation l (first_seen_from seen l ++ extra) /\
    (extra = [] -> NoDup l) /\ incl extra l).
  { clear l. induction l as [|x l IH]; intros seen; cbn [first_seen_from].
    - exists []. split; [constructor|]. split; [constructor | intros y []].
    - destruct (inb x seen) eqn:E.
      + destruct (IH seen) as (ex & Hp & Hn & Hi). exists (x :: ex).
        split; [|split; [discriminate | intros y [<-|Hy]; [left; reflexivity | right; apply Hi, Hy]]].
        apply Permutation_cons_app, Hp.
      + destruct (IH (x :: seen)) as (ex & Hp & Hn & Hi). exists ex. split; [constructor; exact Hp|].
        split; [|intros y Hy; right; apply Hi, Hy]. intros ->. rewrite app_nil_r in Hp.
        constructor; [|apply Hn; reflexivity]. intros Hx.
        apply (Permutation_in _ Hp) in Hx. clear - Hx.
        assert (G : forall l seen, In x (first_seen_from seen l) -> ~ In x seen).
        { clear. induction l as [|z l IH]; intros seen; cbn [first_seen_from]; [contradiction|].
          destruct (inb z seen) eqn:E; [apply IH|]. intros [->|H]; [apply inb_nIn, E|].
          intros Hs. apply (IH _ H). right; exact Hs. }
        apply (G _ _ Hx). left; reflexivity. }
  apply G.
Qed.

Lemma rprod_perm l l' : Permutation l l' -> rprod l = rprod l'.
Proof.
  induction 1; cbn [rprod]; [reflexivity | rewrite IHPermutation; reflexivity | ring | congruence].
Qed.

Lemma rprod_gt1 l : l <> [] -> (forall x, In x l -> (1 < x)%R) -> (1 < rprod l)%R.
Proof.
  induction l as [|x l IH]; [congruence|]. intros _ H. cbn [rprod].
  assert (Hx : (1 < x)%R) by (apply H; left; reflexivity).
  destruct l as [|z l]; [cbn [rprod]; lra|].
  assert (Hl : (1 < rprod (z :: l))%R) by (apply IH; [discriminate | intros; apply H; right; assumption]).
  assert ((1 * 1 < x * rprod (z :: l))%R) by (apply Rmult_gt_0_lt_compat; lra). lra.
Qed.

Lemma rpow_2_gt1 q : (0 < q)%Q -> (1 < rpow 2 q)%R.
Proof.
  intros Hq. rewrite rpow_pos by (lra || apply Qlt_le_weak, Hq).
  assert (H : (0 < Q2R q)%R).
  { replace 0%R with (Q2R 0) by (unfold Q2R; cbn; field). apply Qlt_Rlt, Hq. }
  rewrite <- (Rpower_O 2) by lra. apply Rpower_lt; lra.
Qed.

Theorem C10_exactly_when : forall m text, written m text ->
  forall st prog, extract_mechanism text = Ok (Z.of_nat (List.length m), st) ->
    gen_reactants_numba (List.length m) (p_sp2a st) (p_reac st) (p_loss st) = Ok prog ->
  forall k r, nth_error m k = Some r -> names (lhs r) <> [] -> positive_terms (lhs r) ->
  ((forall y, List.length y = species_count st -> nonneg y ->
      exists v, reactants_numba prog (List.length m) y = Some v /\
        nth_error v k = Some (mass_action (conc_of (p_sp2a st) y) (lhs r)))
   <-> NoDup (names (lhs r))).
Proof.
  intros m text W st prog Hst Hprog k r Hr Hne Hpos. split.
  - intros H. destruct (C10_exact m text W) as (st' & prog' & H1 & H2 & H3).
    rewrite Hst in H1. injection H1 as <-. rewrite Hprog in H2. injection H2 as <-.
    pose (y := repeat 2%R (species_count st)).
    assert (Hy : List.length y = species_count st) by apply repeat_length.
    assert (Hn : nonneg y) by (apply Forall_forall; intros x Hx; apply repeat_spec in Hx; subst; lra).
    destruct (H y Hy Hn) as (v & Hv & Hvk). destruct (H3 y Hy Hn) as (v' & Hv' & _ & Hvk').
    rewrite Hv in Hv'. injection Hv' as <-. specialize (Hvk' k r Hr). rewrite Hvk in Hvk'.
    unfold only_light in Hvk'. destruct (names (lhs r)) as [|s0 ss] eqn:En; [congruence|]. rewrite <- En in *.
    injection Hvk' as E. unfold mass_action in E.
    destruct (first_seen_perm (names (lhs r))) as (ex & Hp & Hnd & Hincl). apply Hnd.
    destruct ex as [|e0 ex]; [reflexivity|]. exfalso.
    pose (f := fun s => rpow (conc_of (p_sp2a st) y s) (total s (lhs r))). fold f in E.
    rewrite (rprod_perm (map f (names (lhs r))) (map f (first_seen (names (lhs r)) ++ e0 :: ex))) in E
      by (apply Permutation_map, Hp).
    rewrite map_app, rprod_app in E.
    assert (Hf : forall s, In s (names (lhs r)) -> (1 < f s)%R).
    { intros s Hs. unfold f. replace (conc_of (p_sp2a st) y s) with 2%R.
      - apply rpow_2_gt1, total_pos; [exact Hpos | apply In_names in Hs; tauto].
      - assert (Hst' := written_extract m text W). rewrite Hst in Hst'. injection Hst' as ->.
        destruct (known_interp m k r s Hr Hs) as [_ (i & Hi)]. rewrite conc_of_dget, Hi.
        symmetry. apply interp_sp2a in Hi.
        assert (Hlt : i < List.length (species m)) by (apply nth_error_Some; congruence).
        unfold y, species_count. rewrite sp2a_length. apply nth_repeat_lt || idtac.
        rewrite (nth_indep _ 0%R 2%R) by (rewrite repeat_length; exact Hlt). apply nth_repeat. }
    assert (G1 : (1 < rprod (map f (e0 :: ex)))%R).
    { apply rprod_gt1; [discriminate|]. intros x Hx. apply in_map_iff in Hx as (s & <- & Hs). apply Hf, Hincl, Hs. }
    assert (G2 : (0 < rprod (map f (first_seen (names (lhs r)))))%R).
    { assert (G : (1 < rprod (map f (first_seen (names (lhs r)))))%R); [|lra].
      apply rprod_gt1.
      - rewrite En. unfold first_seen; cbn [first_seen_from inb existsb]. discriminate.
      - intros x Hx. apply in_map_iff in Hx as (s & <- & Hs). apply Hf. apply first_seen_In, Hs. }
    assert (G3 : (rprod (map f (first_seen (names (lhs r)))) * 1 <
                  rprod (map f (first_seen (names (lhs r)))) * rprod (map f (e0 :: ex)))%R)
      by (apply Rmult_lt_compat_l; assumption). lra.
  - intros Hnd y Hy Hn. destruct (C10_partial m text W) as (st' & prog' & H1 & H2 & H3).
    rewrite Hst in H1. injection H1 as <-. rewrite Hprog in H2. injection H2 as <-.
    destruct (H3 y Hy Hn) as (v & Hv & Hvk). exists v. split; [exact Hv|]. apply Hvk; assumption.
Qed.

(* The full statement fails: NO + NO = NO2 (a reaction of every MCM file) is
   given the product [NO]^4 instead of [NO]^2. *)
Theorem C10_refuted : exists m text k r st prog y v,
  written m text /\ nth_error m k = Some r /\
  extract_mechanism text = Ok (Z.of_nat (List.length m), st) /\
  gen_reactants_numba (List.length m) (p_sp2a st) (p_reac st) (p_loss st) = Ok prog /\
  List.length y = species_count st /\ nonneg y /\
  reactants_numba prog (List.length m) y = Some v /\
  nth_error v k = Some 16%R /\ mass_action (conc_of (p_sp2a st) y) (lhs r) = 4%R.
Proof.
  destruct (C10_exact ex_mech ex_text ex_written) as (st & prog & H1 & H2 & H3).
  pose (y := repeat 2%R (species_count st)).
  assert (Hy : List.length y = species_count st) by apply repeat_length.
  assert (Hn : nonneg y) by (apply Forall_forall; intros x Hx; apply repeat_spec in Hx; subst; lra).
  destruct (H3 y Hy Hn) as (v & Hv & _ & Hk).
  exists ex_mech, ex_text, 2, (bare ([s_ "NO"; s_ "NO"], [s_ "NO2"], s_ "3.3D-39*EXP(530/TEMP)*O2")), st, prog, y, v.
  assert (Hc : conc_of (p_sp2a st) y (s_ "NO") = 2%R).
  { assert (E : extract_mechanism ex_text = Ok (4%Z, interp ex_mech)) by apply (written_extract _ _ ex_written).
    change (Z.of_nat (List.length ex_mech)) with 4%Z in H1. rewrite E in H1. injection H1 as <-.
    rewrite conc_of_dget. unfold y. reflexivity. }
  split; [apply ex_written|]. split; [reflexivity|]. split; [exact H1|]. split; [exact H2|].
  split; [exact Hy|]. split; [exact Hn|]. split; [exact Hv|].
  assert (Ht : total (s_ "NO") (lhs (bare ([s_ "NO"; s_ "NO"], [s_ "NO2"], s_ "3.3D-39*EXP(530/TEMP)*O2"))) == inject_Z (Z.of_nat 2))
    by reflexivity.
  split.
  - rewrite (Hk 2 _ eq_refl).
    match goal with |- Some (if ?b then _ else rprod (map ?f ?l)) = _ =>
      change b with false; change l with [s_ "NO"; s_ "NO"] end.
    cbv iota. cbn [map rprod]. rewrite Hc, (rpow_nat 2 _ 2 Ht). cbn [pow]. f_equal. lra.
  - unfold mass_action. change (first_seen _) with [s_ "NO"]. cbn [map rprod].
    rewrite Hc, (rpow_nat 2 _ 2 Ht). cbn. lra.
Qed.

(* An equation with no reactant other than light gets the product 0 instead
   of 1, so that its products are never made. *)
Definition lightonly_words : list wrx := [ ([s_ "hv"], [s_ "CO"], s_ "J(11)") ].
Definition lightonly_mech : mech := map bare lightonly_words.
Definition lightonly_text : str := show lightonly_words.
Example lightonly_written : written lightonly_mech lightonly_text.
Proof. apply bare_written; [discriminate | reflexivity]. Qed.

Theorem C10_refuted_light_only : exists m text r st prog y v,
  written m text /\ nth_error m 0 = Some r /\
  extract_mechanism text = Ok (Z.of_nat (List.length m), st) /\
  gen_reactants_numba (List.length m) (p_sp2a st) (p_reac st) (p_loss st) = Ok prog /\
  List.length y = species_count st /\ nonneg y /\
  reactants_numba prog (List.length m) y = Some v /\
  nth_error v 0 = Some 0%R /\ mass_action (conc_of (p_sp2a st) y) (lhs r) = 1%R.
Proof.
  destruct (C10_exact _ _ lightonly_written) as (st & prog & H1 & H2 & H3).
  pose (y := repeat 0%R (species_count st)).
  assert (Hy : List.length y = species_count st) by apply repeat_length.
  assert (Hn : nonneg y) by (apply Forall_forall; intros x Hx; apply repeat_spec in Hx; subst; lra).
  destruct (H3 y Hy Hn) as (v & Hv & _ & Hk).
  exists lightonly_mech, lightonly_text, (bare ([s_ "hv"], [s_ "CO"], s_ "J(11)")), st, prog, y, v.
  repeat (split; [first [apply lightonly_written | reflexivity | assumption]|]).
  split; [exact (Hk 0 _ eq_refl) | reflexivity].
Qed.

(* ------------------------------------------------------------------ *)
(* C11 *)
Theorem C11_fortran_equals_numba : forall m text, written m text ->
  (forall r, In r m -> forall s, In s (names (lhs r)) -> single (total s (lhs r))) ->
  exists st p1, extract_mechanism text = Ok (Z.of_nat (List.length m), st) /\
    gen_reactants_numba (List.length m) (p_sp2a st) (p_reac st) (p_loss st) = Ok p1 /\
    forall omp, exists p2,
      gen_reactants_fortran omp (List.length m) (p_sp2a st) (p_reac st) (p_loss st) = Ok p2 /\
    forall rnd m0 y, is_rounding rnd -> List.length y = species_count st -> nonneg y ->
      exists v1 v2, reactants_numba p1 (List.length m) y = Some v1 /\
        reactants_fortran rnd p2 (List.length m) m0 y = Some v2 /\
        List.length v1 = List.length m /\ List.length v2 = List.length m /\
        forall k r, nth_error m k = Some r ->
          if only_light (lhs r) then nth_error v2 k = Some (m0 k) else nth_error v2 k = nth_error v1 k.
Proof.
  intros m text W Hs. assert (Hc := written_coefs m text W).
  destruct (gen_reactants_numba_ok _ _ _ _ (all_known_interp m)) as (p1 & Hg1 & Ha1).
  exists (interp m), p1. split; [apply written_extract, W|]. split; [exact Hg1|]. intros omp.
  destruct (gen_reactants_fortran_ok omp _ _ _ _ (all_known_interp m)) as (p2 & Hg2 & Ha2).
  exists p2. split; [exact Hg2|].
  intros rnd m0 y Hr Hy Hn. unfold species_count in Hy. rewrite sp2a_length in Hy.
  eexists. eexists. split; [|split].
  - unfold reactants_numba. apply (products_vec m 0 python zeros p1 y); try assumption; auto.
    intros i. cbn. rewrite ?Nat.add_0_r. reflexivity.
  - unfold reactants_fortran. apply (products_vec m 1 (fortran rnd) m0 p2 y); try assumption; auto.
    + intros i. cbn. rewrite Nat.add_comm. reflexivity.
    + intros k r s Hk Hin _ q Hq. cbn [lit fortran]. apply Hr.
      destruct (Hs r (nth_error_In _ _ Hk) s Hin) as (z & e & Hz & He & Hze).
      exists z, e. split; [exact Hz|]. split; [exact He|]. rewrite Hq. exact Hze.
  - split; [apply array_length|]. split; [apply array_length|].
    intros k r Hk. unfold products. rewrite !nth_error_array by (apply nth_error_Some; congruence).
    rewrite Hk. destruct (only_light (lhs r)); reflexivity.
Qed.

Lemma single_nat n : (Z.of_nat n < 2 ^ 24)%Z -> single (inject_Z (Z.of_nat n)).
Proof.
  intros H. exists (Z.of_nat n), 0. split; [lia|]. split; [lia|]. left. cbn [Z.of_nat Z.pow].
  rewrite Z.mul_1_r. reflexivity.
Qed.

Example C11_hypothesis : forall r, In r ex_mech -> forall s, In s (names (lhs r)) -> single (total s (lhs r)).
Proof.
  intros r Hr s Hs.
  assert (G : total s (lhs r) == inject_Z (Z.of_nat 1) \/ total s (lhs r) == inject_Z (Z.of_nat 2)).
  { cbn in Hr. destruct Hr as [<-|[<-|[<-|[<-|[]]]]]; cbn in Hs;
      repeat destruct Hs as [<-|Hs]; try destruct Hs; vm_compute; auto. }
  destruct G as [G|G];
    [destruct (single_nat 1 ltac:(reflexivity)) as (z & e & H1 & H2 & H3)
    |destruct (single_nat 2 ltac:(reflexivity)) as (z & e & H1 & H2 & H3)];
    exists z, e; (split; [exact H1|]); (split; [exact H2|]); rewrite G; exact H3.
Qed.

(* ------------------------------------------------------------------ *)
(* C12 *)
(* coefficient of a table, 0 when there is no entry *)
Definition entry (d : table) (s : str) (k : nat) : R :=
  match dget2 s k d with Some q => Q2R q | None => 0%R end.

Lemma entry_stq d s k : entry d s k = Q2R (stq d k s).
Proof. unfold entry, stq. destruct (dget2 s k d); [reflexivity | unfold Q2R; cbn; field]. Qed.

(* For all tables and all rate vectors. *)
Theorem C12_tables : forall n N sp2a loss gain, lg_wf n N sp2a loss gain ->
  (forall s i, In (s, i) sp2a -> ~ In s excluded -> has_terms loss gain s) ->
  forall r, List.length r = n ->
  exists v, dydt_numba (snd (gen_loss_gain_numba sp2a loss gain)) N r = Some v /\
    forall s i, In (s, i) sp2a ->
      nth_error v i = Some (if inb s excluded then 0%R else
        rsum (map (fun k => (entry gain s k - entry loss s k) * nth k r 0)%R (seq 0 n))).
Proof.
  intros n N sp2a loss gain W Ht r Hr. unfold dydt_numba.
  destruct (run_lg_numba n N sp2a loss gain r zeros W Hr) as (m' & -> & H1 & H2).
  - intros s i Hi Hx. apply (Ht s i Hi). apply inb_nIn, Hx.
  - cbn [returned]. eexists. split; [reflexivity|]. intros s i Hi.
    rewrite nth_error_array by (apply (wf_range _ _ _ _ _ W s i Hi)). f_equal.
    destruct (inb s excluded) eqn:E.
    + rewrite H2; [reflexivity|]. intros s' Hs'.
      rewrite (In_vals_inj sp2a s' s i (wf_vals _ _ _ _ _ W) Hs' Hi). exact E.
    + rewrite (H1 s i Hi E), (table_rate_sum _ _ _ _ _ r s W). apply rsum_ext. intros k _.
      rewrite !entry_stq. reflexivity.
Qed.

(* For every parsed mechanism whose products are tabulated correctly (C06),
   the derivative is the stoichiometric one. *)
Theorem C12_parsed : forall m text, written m text -> Forall products_safe m ->
  exists st, extract_mechanism text = Ok (Z.of_nat (List.length m), st) /\
    forall r, List.length r = List.length m ->
    exists v, dydt_numba (snd (gen_loss_gain_numba (p_sp2a st) (p_loss st) (p_gain st))) (species_count st) r = Some v /\
      forall s i, dget s (p_sp2a st) = Some i ->
        nth_error v i = Some (if inb s bath then 0%R else
          rsum (map (fun rx => net s (fst rx) * snd rx)%R (combine m r))).
Proof.
  intros m text W Hsafe. exists (interp m). split; [apply written_extract, W|].
  intros r Hr. unfold species_count. rewrite sp2a_length, dydt_numba_parsed.
  - eexists. split; [reflexivity|]. intros s i Hi. apply interp_sp2a in Hi.
    rewrite nth_error_map, Hi. cbn [option_map]. f_equal.
    destruct (inb s bath); [reflexivity|]. apply table_rate_net; try assumption.
    eapply species_not_light, nth_error_In, Hi.
  - exact Hr.
  - intros s Hs _. apply safe_has_entry; assumption.
Qed.

Example ex_safe : Forall products_safe ex_mech.
Proof.
  repeat (apply Forall_cons; [left; split;
    [cbn; intros H; repeat destruct H as [H|H]; try discriminate; try destruct H
    |cbn; repeat (constructor; [cbn; intros H; repeat destruct H as [H|H]; try discriminate; try destruct H|]); constructor]|]).
  constructor.
Qed.

(* ------------------------------------------------------------------ *)
(* C13 *)

(* Exactly what the Fortran subroutine computes: coefficients other than 1
   are increased by one. *)
Theorem C13_exact : forall n N sp2a loss gain omp rnd, lg_wf n N sp2a loss gain -> rnd 1%Q == 1 ->
  (forall s i, In (s, i) sp2a -> ~ In s excluded -> has_terms loss gain s) ->
  forall r, List.length r = n ->
  exists v, loss_gain_fortran rnd (gen_loss_gain_fortran omp sp2a loss gain) N r = Some v /\
    forall s i, In (s, i) sp2a ->
      nth_error v i = Some (if inb s excluded then 0%R else
        (rsum (map (fun kq => (if isone (snd kq) then 1 else Q2R (rnd (snd kq + 1)%Q)) * nth (fst kq) r 0) (srow s gain)) -
         rsum (map (fun kq => (if isone (snd kq) then 1 else Q2R (rnd (snd kq + 1)%Q)) * nth (fst kq) r 0) (srow s loss)))%R).
Proof.
  intros n N sp2a loss gain omp rnd W Hrnd Ht r Hr. unfold loss_gain_fortran.
  destruct (run_lg_fortran omp rnd n N sp2a loss gain r zeros W Hr Hrnd) as (m' & -> & H1 & H2).
  - intros s i Hi Hx. apply (Ht s i Hi). apply inb_nIn, Hx.
  - cbn [returned]. eexists. split; [reflexivity|]. intros s i Hi.
    rewrite nth_error_array by (apply (wf_range _ _ _ _ _ W s i Hi)). f_equal.
    destruct (inb s excluded) eqn:E.
    + rewrite H2; [reflexivity|]. intros s' Hs'.
      rewrite (In_vals_inj sp2a s' s i (wf_vals _ _ _ _ _ W) Hs' Hi). exact E.
    + apply (H1 s i Hi E).
Qed.

Theorem C13_partial : forall n N sp2a loss gain omp rnd, lg_wf n N sp2a loss gain -> rnd 1%Q == 1 ->
  (forall s i, In (s, i) sp2a -> ~ In s excluded -> has_terms loss gain s) ->
  (forall s k q, dget2 s k loss = Some q \/ dget2 s k gain = Some q -> q == 1) ->
  forall r, List.length r = n ->
  exists v1 v2, dydt_numba (snd (gen_loss_gain_numba sp2a loss gain)) N r = Some v1 /\
    loss_gain_fortran rnd (gen_loss_gain_fortran omp sp2a loss gain) N r = Some v2 /\
    forall s i, In (s, i) sp2a -> nth_error v2 i = nth_error v1 i.
Proof.
  intros n N sp2a loss gain omp rnd W Hrnd Ht H1 r Hr. unfold loss_gain_fortran, dydt_numba.
  destruct (run_lg_fortran omp rnd n N sp2a loss gain r zeros W Hr Hrnd) as (m2 & -> & H21 & H22).
  { intros s i Hi Hx. apply (Ht s i Hi). apply inb_nIn, Hx. }
  destruct (run_lg_numba n N sp2a loss gain r zeros W Hr) as (m1 & -> & H11 & H12).
  { intros s i Hi Hx. apply (Ht s i Hi). apply inb_nIn, Hx. }
  cbn [returned]. eexists. eexists. split; [reflexivity|]. split; [reflexivity|]. intros s i Hi.
  rewrite !nth_error_array by (apply (wf_range _ _ _ _ _ W s i Hi)). f_equal.
  destruct (inb s excluded) eqn:E.
  - rewrite H22, H12; [reflexivity | |]; intros s' Hs';
      rewrite (In_vals_inj sp2a s' s i (wf_vals _ _ _ _ _ W) Hs' Hi); exact E.
  - rewrite (H21 s i Hi E), (H11 s i Hi E). unfold table_rate.
    assert (G : forall d, (d = loss \/ d = gain) -> map (fun kq => (fcoef rnd (snd kq) * nth (fst kq) r 0)%R) (srow s d) =
                          map (fun kq => (Q2R (snd kq) * nth (fst kq) r 0)%R) (srow s d)).
    { intros d Hd. apply map_ext_in. intros [k q] Hin. cbn [fst snd]. f_equal.
      assert (Hq : q == 1).
      { apply (H1 s k). assert (Hg : dget2 s k d = Some q).
        { unfold dget2, srow, dget_or in *.
          assert (Hnd : NoDup (dkeys (srow s d))) by (destruct Hd as [->| ->]; [apply (wf_loss _ _ _ _ _ W s) | apply (wf_gain _ _ _ _ _ W s)]).
          unfold srow, dget_or in Hnd. destruct (dget s d); [apply dget_In; assumption | destruct Hin]. }
        destruct Hd as [->| ->]; auto. }
      unfold fcoef, isone. rewrite (Qeq_eq_bool _ _ Hq), (Qeq_eqR _ _ Hq). unfold Q2R; cbn. field. }
    rewrite (G loss), (G gain) by auto. reflexivity.
Qed.

(* 2NO = 0.5CO + O3: the loss of NO is tripled instead of doubled. *)
Theorem C13_refuted : exists m text st r v1 v2 i,
  written m text /\ extract_mechanism text = Ok (Z.of_nat (List.length m), st) /\
  dydt_numba (snd (gen_loss_gain_numba (p_sp2a st) (p_loss st) (p_gain st))) (species_count st) r = Some v1 /\
  loss_gain_fortran (fun q => q) (gen_loss_gain_fortran None (p_sp2a st) (p_loss st) (p_gain st)) (species_count st) r = Some v2 /\
  dget (s_ "NO") (p_sp2a st) = Some i /\
  nth_error v1 i = Some (-2)%R /\ nth_error v2 i = Some (-3)%R.
Proof.
  assert (He : forall s, In s (species coef_mech) -> ~ In s bath -> has_entry coef_mech s).
  { intros s Hs _. change (species coef_mech) with [s_ "NO"; s_ "CO"; s_ "O3"] in Hs.
    destruct Hs as [<-|[<-|[<-|[]]]]; eexists 0; eexists; vm_compute; eauto. }
  exists coef_mech, coef_text, (interp coef_mech), [1%R].
  eexists. eexists. exists 0. split; [apply coef_written|]. split; [apply (written_extract _ _ coef_written)|].
  unfold species_count. rewrite sp2a_length.
  split; [apply dydt_numba_parsed; [reflexivity | exact He]|].
  split; [apply loss_gain_fortran_parsed; [reflexivity | reflexivity | exact He]|].
  split; [reflexivity|].
  split.
  - change (species coef_mech) with [s_ "NO"; s_ "CO"; s_ "O3"]. cbn [map nth_error]. f_equal.
    change (inb (s_ "NO") bath) with false. cbv iota. unfold table_rate.
    change (srow (s_ "NO") (p_loss (interp coef_mech))) with [(0, 2%Q)].
    change (srow (s_ "NO") (p_gain (interp coef_mech))) with (@nil (nat * Q)).
    cbn [map rsum fst snd nth]. unfold Q2R; cbn. field.
  - change (species coef_mech) with [s_ "NO"; s_ "CO"; s_ "O3"]. cbn [map nth_error]. f_equal.
    change (inb (s_ "NO") bath) with false. cbv iota. unfold table_rate.
    change (srow (s_ "NO") (p_loss (interp coef_mech))) with [(0, 2%Q)].
    change (srow (s_ "NO") (p_gain (interp coef_mech))) with (@nil (nat * Q)).
    cbn [map rsum fst snd nth]. unfold fcoef; cbn [isone]. change (isone 2) with false. cbv iota. unfold Q2R; cbn. field.
Qed.

(* ------------------------------------------------------------------ *)
(* C14 *)
(* Whatever the tables, if the generated functions return, the entries of the
   bath gases are zero. *)
Theorem C14_numba : forall N sp2a loss gain r v s i,
  NoDup (dvals sp2a) -> dydt_numba (snd (gen_loss_gain_numba sp2a loss gain)) N r = Some v ->
  In s bath -> In (s, i) sp2a -> i < N -> nth_error v i = Some 0%R.
Proof.
  intros N sp2a loss gain r v s i Hnd Hv Hb Hi HN. unfold dydt_numba in Hv.
  rewrite run_is_assigns, gen_lg_numba_assigns in Hv.
  destruct (run_assigns _ _ (lg_assigns_n sp2a loss gain) zeros) as [m'|] eqn:E; [|discriminate].
  injection Hv as <-. rewrite nth_error_array by exact HN. f_equal.
  destruct (run_assigns_ok (cell 0 N) (value python (py_env [] r)) (lg_assigns_n sp2a loss gain) zeros
    (run_assigns_Some _ _ _ _ _ E)) as (m2 & Hm2 & Ho & _).
  rewrite E in Hm2. injection Hm2 as <-. rewrite Ho; [reflexivity|].
  intros c e Hin. unfold lg_assigns_n in Hin. apply in_flat_map in Hin as ([s' i'] & Hs' & Hin).
  cbn [fst snd] in Hin. destruct (inb s' excluded) eqn:Ee; [destruct Hin|]. destruct Hin as [Heq|[]].
  injection Heq as <- _. unfold cell, cell0; cbn [Nat.eqb]. destruct (i' <? N); [|discriminate].
  intros Heq; injection Heq as ->. rewrite (In_vals_inj sp2a s' s i Hnd Hs' Hi) in Ee.
  apply inb_nIn in Ee. apply Ee. unfold bath, excluded in *. cbn [In] in *. tauto.
Qed.

Theorem C14_fortran : forall omp rnd N sp2a loss gain r v s i,
  NoDup (dvals sp2a) -> loss_gain_fortran rnd (gen_loss_gain_fortran omp sp2a loss gain) N r = Some v ->
  In s bath -> In (s, i) sp2a -> i < N -> nth_error v i = Some 0%R.
Proof.
  intros omp rnd N sp2a loss gain r v s i Hnd Hv Hb Hi HN. unfold loss_gain_fortran in Hv.
  rewrite run_is_assigns, gen_lg_fortran_assigns in Hv.
  destruct (run_assigns _ _ (lg_assigns_f sp2a loss gain) zeros) as [m'|] eqn:E; [|discriminate].
  injection Hv as <-. rewrite nth_error_array by exact HN. f_equal.
  destruct (run_assigns_ok (cell 1 N) (value (fortran rnd) (py_env [] r)) (lg_assigns_f sp2a loss gain) zeros
    (run_assigns_Some _ _ _ _ _ E)) as (m2 & Hm2 & Ho & _).
  rewrite E in Hm2. injection Hm2 as <-. rewrite Ho; [reflexivity|].
  intros c e Hin. unfold lg_assigns_f in Hin. apply in_flat_map in Hin as ([s' i'] & Hs' & Hin).
  cbn [fst snd] in Hin. destruct (inb s' excluded) eqn:Ee; [destruct Hin|].
  destruct (dmem s' loss || dmem s' gain); [|destruct Hin]. destruct Hin as [Heq|[]].
  injection Heq as <- _. rewrite Nat.add_comm. unfold cell, cell1; cbn [Nat.eqb Nat.add]. destruct (i' <? N); [|discriminate].
  intros Heq; injection Heq as ->. rewrite (In_vals_inj sp2a s' s i Hnd Hs' Hi) in Ee.
  apply inb_nIn in Ee. apply Ee. unfold bath, excluded in *. cbn [In] in *. tauto.
Qed.

Print Assumptions C10_exact.
Print Assumptions C10_partial.
Print Assumptions C10_exactly_when.
Print Assumptions C10_refuted.
Print Assumptions C10_refuted_light_only.
Print Assumptions C11_fortran_equals_numba.
Print Assumptions C12_tables.
Print Assumptions C12_parsed.
Print Assumptions C13_exact.
Print Assumptions C13_partial.
Print Assumptions C13_refuted.
Print Assumptions C14_numba.
Print Assumptions C14_fortran.
