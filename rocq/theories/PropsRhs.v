(* C14-C19: the bath gases, the saved matrix, and the assembled right-hand
   side of the ODE. *)
From Coq Require Import String List Bool Arith Lia Permutation ZArith QArith Reals Qreals Lra.
From Verif Require Import Base PyStr PyDict ModelParse ModelLang ModelGen ModelRhs SpecMech SpecKin
  ParseStruct ParseWritten ParseTables ParseShow LangFacts GenReact GenLossGain GenParsed GenSparse
  PropsParse PropsKin.
Import ListNotations.
Open Scope nat_scope.
Open Scope list_scope.

(* ------------------------------------------------------------------ *)
(* C14, for parsed mechanisms. *)
Theorem C14_parsed : forall m text st omp rnd r s i, written m text ->
  extract_mechanism text = Ok (Z.of_nat (List.length m), st) ->
  In s bath -> dget s (p_sp2a st) = Some i ->
  (forall v, dydt_numba (snd (gen_loss_gain_numba (p_sp2a st) (p_loss st) (p_gain st))) (species_count st) r = Some v ->
     nth_error v i = Some 0%R) /\
  (forall v, loss_gain_fortran rnd (gen_loss_gain_fortran omp (p_sp2a st) (p_loss st) (p_gain st)) (species_count st) r = Some v ->
     nth_error v i = Some 0%R).
Proof.
  intros m text st omp rnd r s i W Hst Hb Hi.
  assert (E := written_extract m text W). rewrite Hst in E. injection E as ->.
  assert (W' := interp_lg_wf m). unfold species_count. rewrite sp2a_length.
  assert (Hin : In (s, i) (p_sp2a (interp m))) by (apply dget_Some_In, Hi).
  assert (HN := wf_range _ _ _ _ _ W' s i Hin). assert (Hv := wf_vals _ _ _ _ _ W').
  split; intros v H; [eapply C14_numba | eapply C14_fortran]; eassumption.
Qed.

(* A mechanism with a bath gas whose generated functions return. *)
Definition h_words : list wrx :=
  [ ([s_ "HCHO"; s_ "OH"], [s_ "HO2"; s_ "CO"; s_ "H2O"], s_ "5.4D-12")
  ; ([s_ "HO2"; s_ "NO"], [s_ "OH"; s_ "NO2"], s_ "3.45D-12*EXP(270/TEMP)") ].
Definition h_mech : mech := map bare h_words.
Example C14_example : exists v, written h_mech (show h_words) /\ In (s_ "H2O") bath /\
  dget (s_ "H2O") (p_sp2a (interp h_mech)) = Some 4 /\
  dydt_numba (snd (gen_loss_gain_numba (p_sp2a (interp h_mech)) (p_loss (interp h_mech)) (p_gain (interp h_mech))))
    (species_count (interp h_mech)) [1%R; 2%R] = Some v.
Proof.
  eexists. split; [apply bare_written; [discriminate | reflexivity]|]. split; [vm_compute; tauto|].
  split; [reflexivity|]. unfold species_count. rewrite sp2a_length. apply dydt_numba_parsed; [reflexivity|].
  intros s Hs _. apply safe_has_entry; [|exact Hs].
  repeat (apply Forall_cons; [|]); [..|constructor];
    (left; split; [vm_compute; intuition discriminate |
      vm_compute; repeat constructor; cbn; intuition discriminate]).
Qed.

(* ------------------------------------------------------------------ *)
(* C15 *)
(* Row i of the saved matrix times the vector r of n rates. *)
Definition matvec (n : nat) (M : sparse) (r : list R) (i : nat) : R :=
  rsum (map (fun k => Q2R (sp_entry M i k) * nth k r 0)%R (seq 0 n)).

(* What the saved matrix holds: the gain coefficient when there is one, even
   if the species is also consumed in the same equation. *)
Theorem C15_exact : forall n N sp2a loss gain, lg_wf n N sp2a loss gain ->
  forall s i k, In (s, i) sp2a ->
  Q2R (sp_entry (snd (fst (gen_loss_gain_numba sp2a loss gain))) i k) =
    if inb s excluded then 0%R
    else match dget2 s k gain with Some q => Q2R q | None => (- entry loss s k)%R end.
Proof.
  intros n N sp2a loss gain W s i k Hi. unfold gen_loss_gain_numba.
  destruct (sparse_lg sp2a loss gain []) as [[l' g'] M] eqn:E. cbn [fst snd].
  destruct (sparse_lg_entry sp2a loss gain [] l' g' M) as [H1 H2].
  - intros s'. split; [apply (wf_loss _ _ _ _ _ W s') | apply (wf_gain _ _ _ _ _ W s')].
  - apply (wf_vals _ _ _ _ _ W).
  - exact E.
  - assert (Z : forall i k, Q2R (sp_entry [] i k) = 0%R) by (intros; unfold sp_entry, Q2R; cbn; field).
    assert (Ng : forall q, Q2R (-1 * q) = (- Q2R q)%R).
    { intros q. rewrite Q2R_mult. replace (Q2R (-1)) with (-1)%R by (unfold Q2R; cbn; field). ring. }
    destruct (inb s excluded) eqn:Ee.
    + rewrite H2; [apply Z|]. intros s' Hs'.
      rewrite (In_vals_inj sp2a s' s i (wf_vals _ _ _ _ _ W) Hs' Hi). exact Ee.
    + rewrite (Qeq_eqR _ _ (H1 s i k Hi Ee)). unfold entry, dget2, srow, dget_or.
      destruct (dget s gain) as [rg|].
      * destruct (dget k rg); [reflexivity|].
        destruct (dget s loss) as [rl|]; [destruct (dget k rl)|cbn [dget]]; rewrite ?Ng, ?Z; ring.
      * cbn [dget]. destruct (dget s loss) as [rl|]; [destruct (dget k rl)|cbn [dget]]; rewrite ?Ng, ?Z; ring.
Qed.

(* So it agrees with the generated dydt when no species is on both sides of
   an equation. *)
Theorem C15_partial : forall n N sp2a loss gain, lg_wf n N sp2a loss gain ->
  (forall s i, In (s, i) sp2a -> ~ In s excluded -> has_terms loss gain s) ->
  (forall s k, dget2 s k loss = None \/ dget2 s k gain = None) ->
  forall r, List.length r = n ->
  exists v, dydt_numba (snd (gen_loss_gain_numba sp2a loss gain)) N r = Some v /\
    forall s i, In (s, i) sp2a ->
      nth_error v i = Some (matvec n (snd (fst (gen_loss_gain_numba sp2a loss gain))) r i).
Proof.
  intros n N sp2a loss gain W Ht Hd r Hr.
  destruct (C12_tables n N sp2a loss gain W Ht r Hr) as (v & Hv & Hk). exists v. split; [exact Hv|].
  intros s i Hi. rewrite (Hk s i Hi). f_equal. unfold matvec.
  transitivity (rsum (map (fun k => ((if inb s excluded then 0 else entry gain s k - entry loss s k) * nth k r 0)%R) (seq 0 n))).
  - destruct (inb s excluded); [|reflexivity]. symmetry. apply rsum_zero. intros; ring.
  - apply rsum_ext. intros k _. rewrite (C15_exact n N sp2a loss gain W s i k Hi).
    destruct (inb s excluded); [reflexivity|]. unfold entry.
    destruct (Hd s k) as [E|E]; rewrite E; [destruct (dget2 s k gain)|]; ring.
Qed.

(* HO2 + NO = HO2 + NO2: the matrix makes HO2 grow although the equation
   leaves it unchanged. *)
Definition both_words : list wrx := [ ([s_ "HO2"; s_ "NO"], [s_ "HO2"; s_ "NO2"], s_ "KA") ].
Definition both_mech : mech := map bare both_words.
Definition both_text : str := show both_words.
Example both_written : written both_mech both_text.
Proof. apply bare_written; [discriminate | reflexivity]. Qed.

Theorem C15_refuted : exists m text st r v i,
  written m text /\ extract_mechanism text = Ok (Z.of_nat (List.length m), st) /\
  List.length r = List.length m /\ Forall products_safe m /\
  dydt_numba (snd (gen_loss_gain_numba (p_sp2a st) (p_loss st) (p_gain st))) (species_count st) r = Some v /\
  dget (s_ "HO2") (p_sp2a st) = Some i /\ nth_error v i = Some 0%R /\
  matvec (List.length m) (snd (fst (gen_loss_gain_numba (p_sp2a st) (p_loss st) (p_gain st)))) r i = 1%R.
Proof.
  assert (Hsafe : Forall products_safe both_mech).
  { constructor; [|constructor]. left. split; [vm_compute; intuition discriminate |
      vm_compute; repeat constructor; cbn; intuition discriminate]. }
  destruct (C12_parsed both_mech both_text both_written Hsafe) as (st & Hst & H).
  destruct (H [1%R] eq_refl) as (v & Hv & Hk).
  assert (E := written_extract _ _ both_written). rewrite Hst in E. injection E as ->.
  exists both_mech, both_text, (interp both_mech), [1%R], v, 0.
  split; [apply both_written|]. split; [exact Hst|]. split; [reflexivity|]. split; [exact Hsafe|].
  split; [exact Hv|]. split; [reflexivity|]. split.
  - rewrite (Hk (s_ "HO2") 0 eq_refl). change (inb (s_ "HO2") bath) with false. cbv iota.
    f_equal. change (combine both_mech [1%R]) with [(bare (hd ([], [], []) both_words), 1%R)].
    cbn [map rsum fst snd]. unfold net.
    match goal with |- ((Q2R ?a - Q2R ?b) * _ + _)%R = _ => assert (Ea : a == b) by reflexivity;
      rewrite (Qeq_eqR _ _ Ea) end. ring.
  - unfold matvec. cbn [List.length both_mech both_words map seq rsum nth].
    change (sp_entry _ 0 0) with 1%Q. unfold Q2R; cbn. field.
Qed.

(* ------------------------------------------------------------------ *)
(* C16 *)
Definition distinct_reactants (r : reaction) : Prop := names (lhs r) <> [] /\ NoDup (names (lhs r)).

Lemma nth_map2 {A B} (f : A -> B) l k d d' : k < List.length l -> nth k (map f l) d = f (nth k l d').
Proof. intros H. rewrite (nth_indep _ d (f d')) by (rewrite map_length; exact H). apply map_nth. Qed.

Lemma combine_multiply (m : mech) (c : str -> R) (f : reaction -> R) ks v s :
  (forall k r, nth_error m k = Some r -> nth_error v k = Some (f r)) -> List.length v = List.length m ->
  List.length ks = List.length m ->
  rsum (map (fun rx => net s (fst rx) * snd rx)%R (combine m (multiply v ks))) =
  rsum (map (fun rk => net s (fst rk) * (f (fst rk) * snd rk))%R (combine m ks)).
Proof.
  revert ks v; induction m as [|r m IH]; intros [|k ks] [|x v] H Hv Hk; try discriminate; [reflexivity|].
  cbn [multiply combine map fst snd rsum]. fold (multiply v ks). rewrite (IH ks v).
  - assert (E := H 0 r eq_refl). injection E as ->. reflexivity.
  - intros k' r' Hr. exact (H (S k') r' Hr).
  - injection Hv; auto.
  - injection Hk; auto.
Qed.

Lemma multiply_length a b : List.length a = List.length b -> List.length (multiply a b) = List.length b.
Proof. intros H. unfold multiply. rewrite map_length, combine_length, H. apply Nat.min_id. Qed.

Theorem C16_partial : forall m text, written m text ->
  Forall products_safe m -> Forall distinct_reactants m ->
  exists st p1, extract_mechanism text = Ok (Z.of_nat (List.length m), st) /\
    gen_reactants_numba (List.length m) (p_sp2a st) (p_reac st) (p_loss st) = Ok p1 /\
    forall ks y, List.length ks = List.length m -> List.length y = species_count st -> nonneg y ->
      exists v, rhs_numba p1 (snd (gen_loss_gain_numba (p_sp2a st) (p_loss st) (p_gain st)))
                  (List.length m) (species_count st) ks y = Some v /\
        List.length v = species_count st /\
        forall s i, dget s (p_sp2a st) = Some i ->
          nth_error v i = Some (if inb s bath then 0%R else kinetics m ks (conc_of (p_sp2a st) y) s).
Proof.
  intros m text W Hsafe Hd. destruct (C10_exact m text W) as (st & p1 & H1 & H2 & H3).
  exists st, p1. split; [exact H1|]. split; [exact H2|]. intros ks y Hks Hy Hn.
  destruct (H3 y Hy Hn) as (c & Hc & Hcl & Hck). unfold rhs_numba. rewrite Hc.
  destruct (C12_parsed m text W Hsafe) as (st' & H1' & H4). rewrite H1 in H1'. injection H1' as <-.
  destruct (H4 (multiply c ks)) as (v & Hv & Hvk); [rewrite multiply_length; congruence|].
  exists v. split; [exact Hv|]. split.
  { unfold dydt_numba in Hv. destruct (run _ _ _ _); [|discriminate]. injection Hv as <-. apply array_length. }
  intros s i Hi. rewrite (Hvk s i Hi). destruct (inb s bath); [reflexivity|]. f_equal.
  unfold kinetics. rewrite <- (combine_multiply m (conc_of (p_sp2a st) y) (fun r => mass_action (conc_of (p_sp2a st) y) (lhs r)) ks c s);
    [reflexivity | | exact Hcl | exact Hks].
  intros k r Hr. rewrite (Hck k r Hr). rewrite Forall_forall in Hd. destruct (Hd r (nth_error_In _ _ Hr)) as [Hne Hnd].
  unfold only_light. destruct (names (lhs r)) eqn:E; [congruence|]. rewrite <- E in *.
  f_equal. apply written_product_nodup, Hnd.
Qed.

Definition kin_words : list wrx :=
  [ ([s_ "APINENE"; s_ "NO3"], [s_ "NAPINAO2"; s_ "NO2"], s_ "1.2D-12*EXP(490/TEMP)*0.65")
  ; ([s_ "HCHO"; s_ "hv"], [s_ "CO"; s_ "HO2"], s_ "J(11)")
  ; ([s_ "HO2"; s_ "NO"], [s_ "OH"; s_ "NO2"], s_ "3.45D-12*EXP(270/TEMP)") ].
Definition kin_mech : mech := map bare kin_words.
Definition kin_text : str := show kin_words.
Example kin_written : written kin_mech kin_text.
Proof. apply bare_written; [discriminate | reflexivity]. Qed.
Example C16_hypotheses : Forall products_safe kin_mech /\ Forall distinct_reactants kin_mech.
Proof.
  split; (repeat (apply Forall_cons; [|]); [..|constructor]);
    try (left; split; [vm_compute; intuition discriminate |
      vm_compute; repeat constructor; cbn; intuition discriminate]);
    (split; [vm_compute; discriminate | vm_compute; repeat constructor; cbn; intuition discriminate]).
Qed.

(* A repeated reactant makes the right-hand side wrong. *)
Definition nono_words : list wrx := [ ([s_ "NO"; s_ "NO"], [s_ "NO2"], s_ "KA") ].
Definition nono_mech : mech := map bare nono_words.
Theorem C16_refuted : exists m text st p1 ks y v i, written m text /\ Forall products_safe m /\
  extract_mechanism text = Ok (Z.of_nat (List.length m), st) /\
  gen_reactants_numba (List.length m) (p_sp2a st) (p_reac st) (p_loss st) = Ok p1 /\
  List.length ks = List.length m /\ List.length y = species_count st /\ nonneg y /\
  rhs_numba p1 (snd (gen_loss_gain_numba (p_sp2a st) (p_loss st) (p_gain st)))
    (List.length m) (species_count st) ks y = Some v /\
  dget (s_ "NO2") (p_sp2a st) = Some i /\ nth_error v i = Some 16%R /\
  kinetics m ks (conc_of (p_sp2a st) y) (s_ "NO2") = 4%R.
Proof.
  assert (W : written nono_mech (show nono_words)) by (apply bare_written; [discriminate | reflexivity]).
  assert (Hsafe : Forall products_safe nono_mech).
  { constructor; [|constructor]. left. split; [vm_compute; intuition discriminate |
      vm_compute; repeat constructor; cbn; intuition discriminate]. }
  destruct (C10_exact _ _ W) as (st & p1 & H1 & H2 & H3).
  assert (Est : st = interp nono_mech) by (assert (E := written_extract _ _ W); rewrite H1 in E; congruence).
  assert (Hy : List.length [2%R; 0%R] = species_count st) by (rewrite Est; reflexivity).
  assert (Hn : nonneg [2%R; 0%R]) by (repeat constructor; lra).
  destruct (H3 _ Hy Hn) as (c & Hc & Hcl & Hck).
  destruct (C12_parsed _ _ W Hsafe) as (st' & H1' & H4). rewrite H1 in H1'. injection H1' as <-.
  destruct (H4 (multiply c [1%R])) as (v & Hv & Hvk); [rewrite multiply_length; [reflexivity | exact Hcl]|].
  exists nono_mech, (show nono_words), st, p1, [1%R], [2%R; 0%R], v, 1.
  split; [exact W|]. split; [exact Hsafe|]. split; [exact H1|]. split; [exact H2|]. split; [reflexivity|].
  split; [exact Hy|]. split; [exact Hn|].
  split; [unfold rhs_numba; rewrite Hc; exact Hv|].
  assert (Hi : dget (s_ "NO2") (p_sp2a st) = Some 1) by (rewrite Est; reflexivity).
  split; [exact Hi|].
  assert (Hno : conc_of (p_sp2a st) [2%R; 0%R] (s_ "NO") = 2%R) by (rewrite Est; reflexivity).
  pose (rx := bare (hd ([], [], []) nono_words)).
  assert (Ht : total (s_ "NO") (lhs rx) == inject_Z (Z.of_nat 2)) by reflexivity.
  assert (Hnet : net (s_ "NO2") rx = 1%R) by (unfold net, Q2R; cbn; field).
  split.
  - rewrite (Hvk _ _ Hi). change (inb (s_ "NO2") bath) with false. cbv iota. f_equal.
    specialize (Hck 0 rx eq_refl). destruct c as [|x [|x' c]]; try discriminate.
    change (combine nono_mech (multiply [x] [1%R])) with [(rx, (x * 1)%R)]. cbn [map rsum fst snd].
    rewrite Hnet. cbn [nth_error] in Hck.
    apply (f_equal (fun o => match o with Some z => z | None => 0%R end)) in Hck. cbv beta iota in Hck. rewrite Hck.
    match goal with |- context [if ?b then _ else rprod (map ?f ?l)] =>
      change b with false; change l with [s_ "NO"; s_ "NO"] end.
    cbv iota. cbn [map rprod]. rewrite Hno, (rpow_nat 2 _ 2 Ht). cbn [pow]. lra.
  - unfold kinetics. change (combine nono_mech [1%R]) with [(rx, 1%R)]. cbn [map rsum fst snd]. rewrite Hnet.
    unfold mass_action. change (first_seen (names (lhs rx))) with [s_ "NO"]. cbn [map rprod].
    rewrite Hno, (rpow_nat 2 _ 2 Ht). cbn [pow]. lra.
Qed.

(* The Fortran right-hand side, for coefficients equal to 1. *)
Definition unit_coefficients (r : reaction) : Prop := Forall (fun t => fst t == 1) (lhs r ++ rhs r).

Lemma total_unit s ts : Forall (fun t : term => fst t == 1) ts -> NoDup (names ts) -> In s (names ts) -> total s ts == 1.
Proof.
  intros Hu. induction Hu as [|[c n] ts Hc _ IH]; [contradiction|]. rewrite names_cons. cbn [fst] in Hc.
  intros Hnd Hs. cbn [total]. destruct (str_eqb n s) eqn:E.
  - apply str_eqb_eq in E; subst.
    assert (Hs' : s <> light) by (intros ->; rewrite str_eqb_refl in Hs; exact (names_not_light _ Hs)).
    assert (El : str_eqb s light = false) by (apply str_eqb_neq, Hs'). rewrite El in Hnd. cbn [app] in Hnd.
    inversion Hnd as [|? ? Hni _]; subst. rewrite Hc, total_names by assumption. ring.
  - apply IH.
    + destruct (str_eqb n light); [exact Hnd|]. inversion Hnd; assumption.
    + destruct (str_eqb n light); [exact Hs|]. destruct Hs as [Hs|Hs]; [|exact Hs].
      rewrite Hs, str_eqb_refl in E. discriminate.
Qed.

Theorem C16_fortran_partial : forall m text, written m text ->
  Forall unit_coefficients m -> Forall (fun r => NoDup (names (rhs r)) /\ ~ In (last_reactant r) (names (rhs r))) m ->
  Forall distinct_reactants m ->
  exists st, extract_mechanism text = Ok (Z.of_nat (List.length m), st) /\
    forall omp1 omp2, exists p1,
      gen_reactants_fortran omp1 (List.length m) (p_sp2a st) (p_reac st) (p_loss st) = Ok p1 /\
    forall rnd m0 ks y, is_rounding rnd -> List.length ks = List.length m -> List.length y = species_count st -> nonneg y ->
      exists v, rhs_fortran rnd p1 (gen_loss_gain_fortran omp2 (p_sp2a st) (p_loss st) (p_gain st))
                  (List.length m) (species_count st) m0 ks y = Some v /\
        forall s i, dget s (p_sp2a st) = Some i ->
          nth_error v i = Some (if inb s bath then 0%R else kinetics m ks (conc_of (p_sp2a st) y) s).
Proof.
  intros m text W Hu Hp Hd.
  assert (Hsafe : Forall products_safe m).
  { eapply Forall_impl; [|exact Hp]. intros r [H1 H2]. left. auto. }
  assert (Hs1 : forall r, In r m -> forall s, In s (names (lhs r)) -> total s (lhs r) == 1).
  { intros r Hr s Hs. rewrite Forall_forall in Hu, Hd. specialize (Hu r Hr). apply Forall_app in Hu as [Hu _].
    apply total_unit; [exact Hu | apply (Hd r Hr) | exact Hs]. }
  assert (Hsg : single 1%Q) by (apply (single_nat 1); reflexivity).
  destruct (C11_fortran_equals_numba m text W) as (st & p0 & H1 & H2 & H3).
  { intros r Hr s Hs. destruct Hsg as (z & e & Hz & He & Hze). exists z, e. split; [exact Hz|]. split; [exact He|].
    rewrite (Hs1 r Hr s Hs). exact Hze. }
  destruct (C16_partial m text W Hsafe Hd) as (st' & p0' & H1' & H2' & H4).
  rewrite H1 in H1'. injection H1' as <-. rewrite H2 in H2'. injection H2' as <-.
  exists st. split; [exact H1|]. intros omp1 omp2. destruct (H3 omp1) as (p1 & Hp1 & H5).
  exists p1. split; [exact Hp1|]. intros rnd m0 ks y Hr Hks Hy Hn.
  destruct (H5 rnd m0 y Hr Hy Hn) as (c1 & c2 & Hc1 & Hc2 & Hl1 & Hl2 & Hc).
  destruct (H4 ks y Hks Hy Hn) as (v1 & Hv1 & _ & Hk1).
  unfold rhs_numba in Hv1. rewrite Hc1 in Hv1. unfold rhs_fortran. rewrite Hc2.
  assert (Ec : c2 = c1).
  { apply nth_error_eq. intros k. destruct (nth_error m k) as [r|] eqn:Er.
    - specialize (Hc k r Er). rewrite Forall_forall in Hd. destruct (Hd r (nth_error_In _ _ Er)) as [Hne _].
      unfold only_light in Hc. destruct (names (lhs r)); [congruence | exact Hc].
    - apply nth_error_None in Er. rewrite (proj2 (nth_error_None _ _)), (proj2 (nth_error_None _ _)); congruence || lia. }
  subst c2. assert (E := written_extract m text W). rewrite H1 in E. injection E as ->.
  assert (Hlen : List.length (multiply c1 ks) = List.length m) by (rewrite multiply_length; congruence).
  destruct (C13_partial (List.length m) (List.length (species m)) (p_sp2a (interp m)) (p_loss (interp m)) (p_gain (interp m))
              omp2 rnd (interp_lg_wf m) (Hr 1%Q Hsg)) with (r := multiply c1 ks) as (w1 & w2 & Hw1 & Hw2 & Hw).
  - intros s i Hi _. apply has_terms_entry, safe_has_entry; [exact Hsafe|]. apply In_sp2a in Hi. eapply nth_error_In, Hi.
  - intros s k q [Hq|Hq].
    + assert (G := interp_loss m s k). destruct (nth_error m k) as [r|] eqn:Er; [|congruence].
      rewrite Hq in G. destruct G as [Gin Gq]. rewrite Gq. apply Hs1; [eapply nth_error_In, Er | exact Gin].
    + rewrite interp_gain in Hq. destruct (nth_error m k) as [r|] eqn:Er; [|discriminate].
      rewrite Forall_forall in Hsafe. assert (G := gain_safe_ok r s (Hsafe r (nth_error_In _ _ Er))).
      rewrite Hq in G. destruct G as [Gin Gq]. rewrite Gq. rewrite Forall_forall in Hu, Hp.
      assert (Hu' := Hu r (nth_error_In _ _ Er)). apply Forall_app in Hu' as [_ Hu'].
      apply total_unit; [exact Hu' | apply (Hp r (nth_error_In _ _ Er)) | exact Gin].
  - exact Hlen.
  - unfold species_count in *. rewrite sp2a_length in *. rewrite Hv1 in Hw1. injection Hw1 as <-.
    exists w2. split; [exact Hw2|]. intros s i Hi. rewrite (Hw s i) by (apply dget_Some_In, Hi). apply Hk1, Hi.
Qed.

Example C16_fortran_hypotheses : Forall unit_coefficients kin_mech /\
  Forall (fun r => NoDup (names (rhs r)) /\ ~ In (last_reactant r) (names (rhs r))) kin_mech.
Proof.
  split; (repeat (apply Forall_cons; [|]); [..|constructor]);
    try (repeat constructor; reflexivity);
    (split; [vm_compute; repeat constructor; cbn; intuition discriminate | vm_compute; intuition discriminate]).
Qed.

(* ------------------------------------------------------------------ *)
(* C17 *)
(* The rate of change of the total weight of a state vector. *)
Definition total_weight (w : str -> R) (sp2a : dict str nat) (v : list R) : R :=
  rsum (map (fun p => w (fst p) * nth (snd p) v 0)%R sp2a).

Lemma rsum_sp2a m (f : str -> nat -> R) :
  rsum (map (fun p => f (fst p) (snd p)) (p_sp2a (interp m))) =
  rsum (map (fun s => f s (dget_or 0 s (p_sp2a (interp m)))) (species m)).
Proof.
  assert (E : map fst (p_sp2a (interp m)) = species m).
  { destruct (interp_species m) as (_ & Hsp & _ & _). rewrite Hsp. apply map_fst_combine. rewrite seq_length; reflexivity. }
  rewrite <- E, map_map. apply rsum_ext. intros [s i] Hin. cbn [fst snd]. f_equal. unfold dget_or.
  rewrite (proj2 (interp_sp2a m s i)); [reflexivity|]. apply In_sp2a, Hin.
Qed.

Theorem C17_partial : forall m text st w, written m text ->
  extract_mechanism text = Ok (Z.of_nat (List.length m), st) ->
  Forall products_safe m ->
  Forall (fun r => weight w (lhs r) = weight w (rhs r)) m ->
  w light = 0%R -> (forall b, In b bath -> w b = 0%R) ->
  forall r v, List.length r = List.length m ->
  dydt_numba (snd (gen_loss_gain_numba (p_sp2a st) (p_loss st) (p_gain st))) (species_count st) r = Some v ->
  total_weight w (p_sp2a st) v = 0%R.
Proof.
  intros m text st w W Hst Hsafe Hw Hl Hb r v Hr Hv.
  destruct (C12_parsed m text W Hsafe) as (st' & Hst' & H). rewrite Hst in Hst'. injection Hst' as <-.
  destruct (H r Hr) as (v' & Hv' & Hk). rewrite Hv in Hv'. injection Hv' as <-.
  assert (E := written_extract m text W). rewrite Hst in E. injection E as ->.
  destruct (interp_species m) as (_ & _ & _ & Hnd).
  unfold total_weight. rewrite (rsum_sp2a m (fun s i => w s * nth i v 0)%R).
  transitivity (rsum (map (fun s => rsum (map (fun rx => w s * (net s (fst rx) * snd rx))%R (combine m r))) (species m))).
  - apply rsum_ext. intros s Hs. apply In_nth_error in Hs as (i & Hi). assert (Hi' := Hi). apply interp_sp2a in Hi'.
    unfold dget_or. rewrite Hi'. rewrite (nth_error_nth _ _ _ (Hk s i Hi')).
    rewrite rsum_mult. destruct (inb s bath) eqn:Eb; [|reflexivity].
    rewrite (Hb s) by (apply inb_In, Eb). ring.
  - rewrite rsum_swap. apply rsum_zero. intros [rx x] Hin. cbn [fst snd].
    apply in_combine_l in Hin.
    transitivity (x * rsum (map (fun s => w s * net s rx) (species m)))%R.
    + rewrite <- rsum_mult. apply rsum_ext. intros; ring.
    + unfold net.
      transitivity (x * rsum (map (fun s => w s * Q2R (total s (rhs rx)) - w s * Q2R (total s (lhs rx))) (species m)))%R.
      { f_equal. apply rsum_ext. intros; ring. }
      assert (Hli : ~ In light (species m)) by (intros Hx; apply (species_not_light m light Hx); reflexivity).
      assert (Hsp : forall s, In s (names (lhs rx)) \/ In s (names (rhs rx)) -> In s (species m)).
      { intros s Hs. apply species_In. rewrite !In_names in Hs. split; [tauto|]. exists rx. split; [exact Hin|].
        apply in_or_app. tauto. }
      rewrite rsum_minus, !weight_total; auto.
      rewrite Forall_forall in Hw. rewrite (Hw rx Hin). ring.
Qed.

(* Hydrogen atoms in the example mechanism. *)
Definition hydrogens (s : str) : R :=
  if str_eqb s (s_ "HCHO") then 2%R else if str_eqb s (s_ "HO2") then 1%R else
  if str_eqb s (s_ "OH") then 1%R else 0%R.

(* C17 needs the guard on products: with HCHO + hv = CO + HO2 + HO2 hydrogen
   is destroyed. *)
Theorem C17_refuted : exists m text st w r v, written m text /\
  extract_mechanism text = Ok (Z.of_nat (List.length m), st) /\
  Forall (fun r => weight w (lhs r) = weight w (rhs r)) m /\
  w light = 0%R /\ (forall b, In b bath -> w b = 0%R) /\ List.length r = List.length m /\
  dydt_numba (snd (gen_loss_gain_numba (p_sp2a st) (p_loss st) (p_gain st))) (species_count st) r = Some v /\
  total_weight w (p_sp2a st) v = (-1)%R.
Proof.
  exists dup_mech, dup_text, (interp dup_mech), hydrogens, [1%R]. eexists.
  split; [apply dup_written|]. split; [apply (written_extract _ _ dup_written)|].
  split. { constructor; [|constructor]. unfold weight. cbn. unfold Q2R, hydrogens; cbn. field. }
  split; [reflexivity|]. split. { intros b [<-|[<-|[<-|[]]]]; reflexivity. }
  split; [reflexivity|]. split.
  - unfold species_count. rewrite sp2a_length. apply dydt_numba_parsed; [reflexivity|].
    intros s Hs _. change (species dup_mech) with [s_ "HCHO"; s_ "CO"; s_ "HO2"] in Hs.
    destruct Hs as [<-|[<-|[<-|[]]]]; eexists 0; eexists; vm_compute; eauto.
  - unfold total_weight. change (species dup_mech) with [s_ "HCHO"; s_ "CO"; s_ "HO2"].
    change (p_sp2a (interp dup_mech)) with [(s_ "HCHO", 0); (s_ "CO", 1); (s_ "HO2", 2)].
    cbn [map fst snd nth rsum].
    change (inb (s_ "HCHO") bath) with false. change (inb (s_ "CO") bath) with false. change (inb (s_ "HO2") bath) with false.
    cbv iota. unfold table_rate.
    change (srow (s_ "HCHO") (p_loss (interp dup_mech))) with [(0, 1%Q)].
    change (srow (s_ "HCHO") (p_gain (interp dup_mech))) with (@nil (nat * Q)).
    change (srow (s_ "HO2") (p_loss (interp dup_mech))) with (@nil (nat * Q)).
    change (srow (s_ "HO2") (p_gain (interp dup_mech))) with [(0, 1%Q)].
    change (hydrogens (s_ "HCHO")) with 2%R. change (hydrogens (s_ "CO")) with 0%R. change (hydrogens (s_ "HO2")) with 1%R.
    cbn [map rsum fst snd nth]. unfold Q2R; cbn. field.
Qed.

(* A balanced mechanism (nitrogen): the hypotheses of C17 are satisfiable. *)
Definition nitrogens (s : str) : R :=
  if str_eqb s (s_ "NO") then 1%R else if str_eqb s (s_ "NO2") then 1%R else
  if str_eqb s (s_ "NO3") then 1%R else if str_eqb s (s_ "NAPINAO2") then 0%R else 0%R.
Definition n_words : list wrx :=
  [ ([s_ "HO2"; s_ "NO"], [s_ "OH"; s_ "NO2"], s_ "3.45D-12*EXP(270/TEMP)")
  ; ([s_ "NO2"; s_ "O3"], [s_ "NO3"], s_ "1.4D-13*EXP(-2470/TEMP)")
  ; ([s_ "NO3"; s_ "hv"], [s_ "NO"], s_ "J(5)") ].
Definition n_mech : mech := map bare n_words.
Example C17_example : written n_mech (show n_words) /\ Forall products_safe n_mech /\
  Forall (fun r => weight nitrogens (lhs r) = weight nitrogens (rhs r)) n_mech /\
  nitrogens light = 0%R /\ (forall b, In b bath -> nitrogens b = 0%R).
Proof.
  split; [apply bare_written; [discriminate | reflexivity]|]. split.
  { repeat (apply Forall_cons; [|]); [..|constructor];
    (left; split; [vm_compute; intuition discriminate |
      vm_compute; repeat constructor; cbn; intuition discriminate]). }
  split. { repeat (apply Forall_cons; [|]); [..|constructor]; unfold weight; cbn; unfold Q2R, nitrogens; cbn; field. }
  split; [reflexivity|]. intros b [<-|[<-|[<-|[]]]]; reflexivity.
Qed.

(* ------------------------------------------------------------------ *)
(* C18 *)
Lemma nonneg_nth l k : nonneg l -> (0 <= nth k l 0)%R.
Proof.
  intros H. destruct (Nat.lt_ge_cases k (List.length l)) as [Hk|Hk].
  - unfold nonneg in H. rewrite Forall_forall in H. apply H, nth_In, Hk.
  - rewrite nth_overflow by exact Hk. lra.
Qed.

Lemma multiply_nth a b k : List.length a = List.length b -> nth k (multiply a b) 0%R = (nth k a 0 * nth k b 0)%R.
Proof.
  revert b k; induction a as [|x a IH]; intros [|y b] k H; try discriminate.
  - destruct k; cbn; ring.
  - destruct k; cbn [multiply combine map nth fst snd]; [reflexivity|]. apply IH. injection H; auto.
Qed.

Lemma In_srow_dget2 (d : table) s k q : NoDup (dkeys (srow s d)) -> In (k, q) (srow s d) -> dget2 s k d = Some q.
Proof.
  unfold srow, dget_or, dget2. destruct (dget s d) as [row|]; [|contradiction]. intros Hn Hi. apply dget_In; assumption.
Qed.

(* Common part: loss terms of a species at zero vanish, gain terms are not
   negative. *)
Lemma table_rate_boundary (cf : Q -> R) m c ks s :
  coefs_ok m ->
  (forall q, (0 <= q)%Q -> (0 <= cf q)%R) ->
  List.length c = List.length m -> List.length ks = List.length m -> nonneg ks -> nonneg c ->
  (forall k r, nth_error m k = Some r -> In s (names (lhs r)) ->
     nth k c 0%R = 0%R \/ (forall q, q == total s (lhs r) -> cf q = 0%R)) ->
  (0 <= table_rate cf (p_loss (interp m)) (p_gain (interp m)) (multiply c ks) s)%R.
Proof.
  intros Hc Hcf Hcl Hkl Hks Hcn Hz. unfold table_rate.
  assert (W := interp_lg_wf m).
  assert (Hlen : List.length c = List.length ks) by congruence.
  assert (G1 : (0 <= rsum (map (fun kq => cf (snd kq) * nth (fst kq) (multiply c ks) 0) (srow s (p_gain (interp m)))))%R).
  { apply rsum_nonneg. intros x Hx. apply in_map_iff in Hx as ([k q] & <- & Hin). cbn [fst snd].
    apply In_srow_dget2 in Hin; [|apply (wf_gain _ _ _ _ _ W s)].
    rewrite interp_gain in Hin. destruct (nth_error m k) as [r|] eqn:Er; [|discriminate].
    rewrite multiply_nth by exact Hlen. apply Rmult_le_pos.
    - apply Hcf. eapply code_gain_nonneg; [|exact Hin]. unfold coefs_ok in Hc. rewrite Forall_forall in Hc.
      specialize (Hc r (nth_error_In _ _ Er)). apply Forall_app in Hc. tauto.
    - apply Rmult_le_pos; apply nonneg_nth; assumption. }
  assert (G2 : rsum (map (fun kq => cf (snd kq) * nth (fst kq) (multiply c ks) 0)%R (srow s (p_loss (interp m)))) = 0%R).
  { apply rsum_zero. intros [k q] Hin. cbn [fst snd].
    apply In_srow_dget2 in Hin; [|apply (wf_loss _ _ _ _ _ W s)].
    assert (G := interp_loss m s k). destruct (nth_error m k) as [r|] eqn:Er; [|congruence].
    rewrite Hin in G. destruct G as [Gin Gq]. rewrite multiply_nth by exact Hlen.
    destruct (Hz k r Er Gin) as [H|H]; [rewrite H; ring | rewrite (H q Gq); ring]. }
  rewrite G2. lra.
Qed.

Lemma written_product_zero (c : str -> R) ts s : In s (names ts) -> c s = 0%R -> (0 < total s ts)%Q ->
  rprod (map (fun s => rpow (c s) (total s ts)) (names ts)) = 0%R.
Proof.
  intros Hs Hc Ht. apply rprod_zero. apply in_map_iff. exists s. split; [|exact Hs]. rewrite Hc. apply rpow_zero, Ht.
Qed.

Lemma only_light_names s ts : In s (names ts) -> only_light ts = false.
Proof. unfold only_light. destruct (names ts); [contradiction | reflexivity]. Qed.

(* Every mechanism, whether or not its gains are recorded correctly. *)
Theorem C18_numba : forall m text st p1 ks y v s i, written m text ->
  extract_mechanism text = Ok (Z.of_nat (List.length m), st) ->
  gen_reactants_numba (List.length m) (p_sp2a st) (p_reac st) (p_loss st) = Ok p1 ->
  List.length ks = List.length m -> List.length y = species_count st -> nonneg ks -> nonneg y ->
  rhs_numba p1 (snd (gen_loss_gain_numba (p_sp2a st) (p_loss st) (p_gain st)))
    (List.length m) (species_count st) ks y = Some v ->
  dget s (p_sp2a st) = Some i -> nth i y 0%R = 0%R -> (0 <= nth i v 0)%R.
Proof.
  intros m text st p1 ks y v s i W Hst Hp1 Hks Hy Hkn Hn Hv Hi Hz.
  destruct (C10_exact m text W) as (st' & p1' & H1 & H2 & H3).
  rewrite Hst in H1. injection H1 as <-. rewrite Hp1 in H2. injection H2 as <-.
  destruct (H3 y Hy Hn) as (c & Hc & Hcl & Hck). unfold rhs_numba in Hv. rewrite Hc in Hv.
  assert (E := written_extract m text W). rewrite Hst in E. injection E as ->.
  unfold species_count in *. rewrite sp2a_length in *.
  assert (Hin : In (s, i) (p_sp2a (interp m))) by (apply dget_Some_In, Hi).
  assert (Hlen : List.length (multiply c ks) = List.length m) by (rewrite multiply_length; congruence).
  destruct (inb s excluded) eqn:Ee.
  - assert (Hb : In s bath).
    { rewrite excluded_bath in Ee; [apply inb_In, Ee|]. apply interp_sp2a in Hi. eapply species_not_light, nth_error_In, Hi. }
    assert (W' := interp_lg_wf m).
    rewrite (nth_error_nth v i 0%R (x := 0%R)); [lra|].
    eapply C14_numba; [apply (wf_vals _ _ _ _ _ W') | exact Hv | exact Hb | exact Hin | apply (wf_range _ _ _ _ _ W' s i Hin)].
  - destruct (ran_lg_numba _ _ _ _ _ _ _ (interp_lg_wf m) Hlen Hv) as [_ H].
    rewrite (nth_error_nth v i 0%R (H s i Hin Ee)).
    assert (Hco := written_coefs m text W).
    assert (Hcs : conc_of (p_sp2a (interp m)) y s = 0%R) by (rewrite conc_of_dget, Hi; exact Hz).
    apply table_rate_boundary; try assumption.
    + intros q Hq. replace 0%R with (Q2R 0) by (unfold Q2R; cbn; field). apply Qle_Rle, Hq.
    + apply Forall_forall. intros x Hx. apply In_nth_error in Hx as (k & Hk).
      assert (Hlt : k < List.length m) by (rewrite <- Hcl; apply nth_error_Some; congruence).
      destruct (nth_error m k) as [r|] eqn:Er; [|apply nth_error_None in Er; lia].
      rewrite (Hck k r Er) in Hk. injection Hk as <-. destruct (only_light (lhs r)); [lra|].
      apply rprod_nonneg. intros x Hx. apply in_map_iff in Hx as (s' & <- & _). apply rpow_nonneg.
      apply conc_of_nonneg, Hn.
    + intros k r Er Hs. destruct (Qlt_le_dec 0 (total s (lhs r))) as [Hp|Hp].
      * left. rewrite (nth_error_nth c k 0%R (Hck k r Er)). rewrite (only_light_names s) by exact Hs.
        apply (written_product_zero _ _ s); assumption.
      * right. intros q Hq. assert (Hge := total_nonneg' s (lhs r)).
        assert (Hz0 : total s (lhs r) == 0).
        { apply Qle_antisym; [exact Hp|]. apply Hge. unfold coefs_ok in Hco. rewrite Forall_forall in Hco.
          specialize (Hco r (nth_error_In _ _ Er)). apply Forall_app in Hco. tauto. }
        rewrite Hz0 in Hq. rewrite (Qeq_eqR _ _ Hq). unfold Q2R; cbn. field.
Qed.

Theorem C18_fortran : forall m text st omp1 omp2 rnd p1 m0 ks y v s i, written m text ->
  extract_mechanism text = Ok (Z.of_nat (List.length m), st) ->
  gen_reactants_fortran omp1 (List.length m) (p_sp2a st) (p_reac st) (p_loss st) = Ok p1 ->
  Forall (fun r => positive_terms (lhs r)) m ->
  (forall r, In r m -> forall s, In s (names (lhs r)) -> single (total s (lhs r))) ->
  is_rounding rnd -> (forall q, (0 <= q)%Q -> (0 <= rnd q)%Q) -> (forall k, 0 <= m0 k)%R ->
  List.length ks = List.length m -> List.length y = species_count st -> nonneg ks -> nonneg y ->
  rhs_fortran rnd p1 (gen_loss_gain_fortran omp2 (p_sp2a st) (p_loss st) (p_gain st))
    (List.length m) (species_count st) m0 ks y = Some v ->
  dget s (p_sp2a st) = Some i -> nth i y 0%R = 0%R -> (0 <= nth i v 0)%R.
Proof.
  intros m text st omp1 omp2 rnd p1 m0 ks y v s i W Hst Hp1 Hpos Hsg Hr Hrn Hm0 Hks Hy Hkn Hn Hv Hi Hz.
  destruct (C10_exact m text W) as (st' & p0 & H1 & H2 & H3).
  rewrite Hst in H1. injection H1 as <-.
  destruct (H3 y Hy Hn) as (c1 & Hc1 & Hcl1 & Hck1).
  destruct (C11_fortran_equals_numba m text W Hsg) as (st' & p0' & H1' & H2' & H4).
  rewrite Hst in H1'. injection H1' as <-. rewrite H2 in H2'. injection H2' as <-.
  destruct (H4 omp1) as (p1' & Hp1' & H5). rewrite Hp1 in Hp1'. injection Hp1' as <-.
  destruct (H5 rnd m0 y Hr Hy Hn) as (c1' & c & Hc1' & Hc & _ & Hcl & Hck).
  rewrite Hc1 in Hc1'. injection Hc1' as <-.
  unfold rhs_fortran in Hv. rewrite Hc in Hv.
  assert (Hone : rnd 1%Q == 1) by (apply Hr, (single_nat 1); reflexivity).
  assert (E := written_extract m text W). rewrite Hst in E. injection E as ->.
  unfold species_count in *. rewrite sp2a_length in *.
  assert (Hin : In (s, i) (p_sp2a (interp m))) by (apply dget_Some_In, Hi).
  assert (Hlen : List.length (multiply c ks) = List.length m) by (rewrite multiply_length; congruence).
  destruct (inb s excluded) eqn:Ee.
  - assert (Hb : In s bath).
    { rewrite excluded_bath in Ee; [apply inb_In, Ee|]. apply interp_sp2a in Hi. eapply species_not_light, nth_error_In, Hi. }
    assert (W' := interp_lg_wf m).
    rewrite (nth_error_nth v i 0%R (x := 0%R)); [lra|].
    eapply C14_fortran; [apply (wf_vals _ _ _ _ _ W') | exact Hv | exact Hb | exact Hin | apply (wf_range _ _ _ _ _ W' s i Hin)].
  - assert (H := ran_lg_fortran _ _ _ _ _ _ _ _ _ (interp_lg_wf m) Hlen Hone Hv s i Hin Ee).
    rewrite (nth_error_nth v i 0%R H).
    assert (Hco := written_coefs m text W).
    assert (Hcs : conc_of (p_sp2a (interp m)) y s = 0%R) by (rewrite conc_of_dget, Hi; exact Hz).
    apply table_rate_boundary; try assumption.
    + intros q Hq. unfold fcoef. destruct (isone q); [lra|].
      replace 0%R with (Q2R 0) by (unfold Q2R; cbn; field). apply Qle_Rle, Hrn.
      apply (Qplus_le_compat 0 q 0 1); [exact Hq | discriminate].
    + apply Forall_forall. intros x Hx. apply In_nth_error in Hx as (k & Hk).
      assert (Hlt : k < List.length m) by (rewrite <- Hcl; apply nth_error_Some; congruence).
      destruct (nth_error m k) as [r|] eqn:Er; [|apply nth_error_None in Er; lia].
      specialize (Hck k r Er). specialize (Hck1 k r Er). destruct (only_light (lhs r)).
      * rewrite Hck in Hk. injection Hk as <-. apply Hm0.
      * rewrite Hck, Hck1 in Hk. injection Hk as <-.
        apply rprod_nonneg. intros x Hx. apply in_map_iff in Hx as (s' & <- & _). apply rpow_nonneg.
        apply conc_of_nonneg, Hn.
    + intros k r Er Hs. left. specialize (Hck k r Er). specialize (Hck1 k r Er).
      rewrite (only_light_names s) in Hck, Hck1 by exact Hs.
      rewrite (nth_error_nth c k 0%R (eq_trans Hck Hck1)).
      apply (written_product_zero _ _ s); [exact Hs | exact Hcs|].
      rewrite Forall_forall in Hpos. apply total_pos; [apply Hpos; eapply nth_error_In, Er | apply In_names in Hs; tauto].
Qed.

(* ------------------------------------------------------------------ *)
(* C19 *)
(* Every assignment of a generated module has an expression on its right. *)
Definition complete (prog : list (item nat)) : Prop :=
  forall c e, In (Assign c e) prog -> exists x, p_expr e = Some x.

Lemma In_assigns {C} (prog : list (item C)) c e : In (Assign c e) prog <-> In (c, e) (assigns prog).
Proof.
  induction prog as [|[c' e'| | | |] prog IH]; cbn [assigns In]; [reflexivity|..];
    rewrite ?IH; split; intros H; try tauto; destruct H as [H|H]; try discriminate; auto;
    left; congruence.
Qed.

Lemma value_parses L env e x : value L env e = Some x -> exists p, p_expr e = Some p.
Proof. unfold value. destruct (p_expr e); [eauto | discriminate]. Qed.

Theorem C19_exactly_when : forall m text st, written m text ->
  extract_mechanism text = Ok (Z.of_nat (List.length m), st) ->
  (complete (snd (gen_loss_gain_numba (p_sp2a st) (p_loss st) (p_gain st))) <->
   forall s, dmem s (p_sp2a st) = true -> ~ In s bath ->
     exists r, In r m /\ (In s (names (lhs r)) \/ recorded_product r s)).
Proof.
  intros m text st W Hst. assert (E := written_extract m text W). rewrite Hst in E. injection E as ->.
  assert (W' := interp_lg_wf m).
  pose (r := repeat 0%R (List.length m)).
  assert (Hr : List.length r = List.length m) by apply repeat_length.
  split.
  - intros Hc s Hs Hb. apply has_entry_spec, has_terms_entry.
    unfold dmem in Hs. destruct (dget s (p_sp2a (interp m))) as [i|] eqn:Ei; [|discriminate].
    assert (Hin : In (s, i) (p_sp2a (interp m))) by (apply dget_Some_In, Ei).
    assert (Hx : inb s excluded = false).
    { rewrite excluded_bath; [apply inb_nIn, Hb|]. apply interp_sp2a in Ei. eapply species_not_light, nth_error_In, Ei. }
    destruct (Hc i (losses_numba true (srow s (p_loss (interp m))) ++ gains_numba (srow s (p_gain (interp m))))) as (x & Hp).
    + apply In_assigns. rewrite gen_lg_numba_assigns. unfold lg_assigns_n. apply in_flat_map.
      exists (s, i). split; [exact Hin|]. cbn [fst snd]. rewrite Hx. left; reflexivity.
    + unfold has_terms. destruct (srow s (p_loss (interp m))); [|left; discriminate].
      destruct (srow s (p_gain (interp m))); [discriminate Hp | right; discriminate].
  - intros H c e Hin. apply In_assigns in Hin. rewrite gen_lg_numba_assigns in Hin.
    destruct (run_lg_numba _ _ _ _ _ r zeros W' Hr) as (m' & E & _).
    + intros s i Hi Hx. apply has_terms_entry, has_entry_spec, H.
      * apply In_sp2a, interp_sp2a in Hi. unfold dmem. rewrite Hi. reflexivity.
      * apply inb_nIn. rewrite <- excluded_bath; [exact Hx|]. apply In_sp2a in Hi. eapply species_not_light, nth_error_In, Hi.
    + rewrite run_is_assigns, gen_lg_numba_assigns in E. apply run_assigns_Some in E. rewrite Forall_forall in E.
      destruct (E (c, e) Hin) as (d & x & _ & Hx). eapply value_parses, Hx.
Qed.

(* The same for the Fortran subroutine. *)
Theorem C19_exactly_when_fortran : forall m text st omp, written m text ->
  extract_mechanism text = Ok (Z.of_nat (List.length m), st) ->
  (complete (gen_loss_gain_fortran omp (p_sp2a st) (p_loss st) (p_gain st)) <->
   forall s, dmem s (p_sp2a st) = true -> ~ In s bath ->
     exists r, In r m /\ (In s (names (lhs r)) \/ recorded_product r s)).
Proof.
  intros m text st omp W Hst. assert (E := written_extract m text W). rewrite Hst in E. injection E as ->.
  assert (W' := interp_lg_wf m).
  pose (r := repeat 0%R (List.length m)).
  assert (Hr : List.length r = List.length m) by apply repeat_length.
  split.
  - intros Hc s Hs Hb. apply has_entry_spec, has_terms_entry.
    unfold dmem in Hs. destruct (dget s (p_sp2a (interp m))) as [i|] eqn:Ei; [|discriminate].
    assert (Hin : In (s, i) (p_sp2a (interp m))) by (apply dget_Some_In, Ei).
    assert (Hsp : In s (species m)) by (apply interp_sp2a in Ei; eapply nth_error_In, Ei).
    assert (Hx : inb s excluded = false).
    { rewrite excluded_bath; [apply inb_nIn, Hb|]. eapply species_not_light, Hsp. }
    destruct (Hc (i + 1) (fst (losses_fortran 0 true (srow s (p_loss (interp m)))) ++
                   gains_fortran (snd (losses_fortran 0 true (srow s (p_loss (interp m))))) (srow s (p_gain (interp m))))) as (x & Hp).
    + apply In_assigns. rewrite gen_lg_fortran_assigns. unfold lg_assigns_f. apply in_flat_map.
      exists (s, i). split; [exact Hin|]. cbn [fst snd]. rewrite Hx, (interp_dmem m s Hsp). left; reflexivity.
    + unfold has_terms. destruct (srow s (p_loss (interp m))); [|left; discriminate].
      destruct (srow s (p_gain (interp m))); [discriminate Hp | right; discriminate].
  - intros H c e Hin. apply In_assigns in Hin. rewrite gen_lg_fortran_assigns in Hin.
    destruct (run_lg_fortran omp (fun q => q) _ _ _ _ _ r zeros W' Hr (Qeq_refl 1)) as (m' & E & _).
    + intros s i Hi Hx. apply has_terms_entry, has_entry_spec, H.
      * apply In_sp2a, interp_sp2a in Hi. unfold dmem. rewrite Hi. reflexivity.
      * apply inb_nIn. rewrite <- excluded_bath; [exact Hx|]. apply In_sp2a in Hi. eapply species_not_light, nth_error_In, Hi.
    + rewrite run_is_assigns, gen_lg_fortran_assigns in E. apply run_assigns_Some in E. rewrite Forall_forall in E.
      destruct (E (c, e) Hin) as (d & x & _ & Hx). eapply value_parses, Hx.
Qed.

Theorem C19_partial : forall m text st omp, written m text ->
  extract_mechanism text = Ok (Z.of_nat (List.length m), st) -> Forall products_safe m ->
  complete (snd (gen_loss_gain_numba (p_sp2a st) (p_loss st) (p_gain st))) /\
  complete (gen_loss_gain_fortran omp (p_sp2a st) (p_loss st) (p_gain st)).
Proof.
  intros m text st omp W Hst Hsafe. assert (E := written_extract m text W).
  assert (E' := E). rewrite Hst in E. injection E as ->. assert (W' := interp_lg_wf m).
  pose (r := repeat 0%R (List.length m)).
  assert (Hr : List.length r = List.length m) by apply repeat_length.
  assert (Ht : forall s i, In (s, i) (p_sp2a (interp m)) -> inb s excluded = false ->
    has_terms (p_loss (interp m)) (p_gain (interp m)) s).
  { intros s i Hi _. apply has_terms_entry, safe_has_entry; [exact Hsafe|]. apply In_sp2a in Hi. eapply nth_error_In, Hi. }
  split; intros c e Hin; apply In_assigns in Hin.
  - destruct (run_lg_numba _ _ _ _ _ r zeros W' Hr Ht) as (m' & E & _).
    rewrite run_is_assigns in E. apply run_assigns_Some in E. rewrite Forall_forall in E.
    destruct (E (c, e) Hin) as (d & x & _ & Hx). eapply value_parses, Hx.
  - destruct (run_lg_fortran omp (fun q => q) _ _ _ _ _ r zeros W' Hr (Qeq_refl 1) Ht) as (m' & E & _).
    rewrite run_is_assigns in E. apply run_assigns_Some in E. rewrite Forall_forall in E.
    destruct (E (c, e) Hin) as (d & x & _ & Hx). eapply value_parses, Hx.
Qed.

(* ACO3 + HO2 = HO2 + CO + HCHO + OH as only equation: the line for CO has
   nothing on its right-hand side. *)
Theorem C19_refuted : exists m text st, written m text /\
  extract_mechanism text = Ok (Z.of_nat (List.length m), st) /\
  ~ complete (snd (gen_loss_gain_numba (p_sp2a st) (p_loss st) (p_gain st))) /\
  In (Assign 2 []) (snd (gen_loss_gain_numba (p_sp2a st) (p_loss st) (p_gain st))).
Proof.
  exists drop_mech, drop_text, (interp drop_mech).
  split; [apply drop_written|]. split; [apply (written_extract _ _ drop_written)|].
  assert (H : In (Assign 2 []) (snd (gen_loss_gain_numba (p_sp2a (interp drop_mech)) (p_loss (interp drop_mech)) (p_gain (interp drop_mech)))))
    by (vm_compute; tauto).
  split; [|exact H]. intros Hc. destruct (Hc _ _ H) as (x & Hx). discriminate.
Qed.

Print Assumptions C14_parsed.
Print Assumptions C15_exact.
Print Assumptions C15_partial.
Print Assumptions C15_refuted.
Print Assumptions C16_partial.
Print Assumptions C16_refuted.
Print Assumptions C16_fortran_partial.
Print Assumptions C17_partial.
Print Assumptions C17_refuted.
Print Assumptions C18_numba.
Print Assumptions C18_fortran.
Print Assumptions C19_exactly_when.
Print Assumptions C19_exactly_when_fortran.
Print Assumptions C19_partial.
Print Assumptions C19_refuted.
