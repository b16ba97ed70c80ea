(* The generated Jacobian for the tables of a parsed mechanism, and the
   derivative of the right-hand side. *)
From Coq Require Import String List Bool Arith Lia Permutation ZArith QArith Reals Qreals Lra.
From Verif Require Import Base PyStr PyDict ModelParse ModelLang ModelGen ModelRhs SpecMech SpecKin
  ParseStruct ParseWritten ParseTables LangFacts GenReact GenLossGain GenParsed GenSparse GenJac.
Import ListNotations.
Import Coq.Lists.List.
Open Scope nat_scope.
Open Scope list_scope.

(* ------------------------------------------------------------------ *)
(* What the code writes for d(c^q)/dc. *)
Definition slope_written (q : Q) (c : R) : R :=
  if Qeq_bool q 1 then 1%R else if Qeq_bool q 2 then (2 * c)%R
  else if Qle_bool q 2 then 1%R else (Q2R q * rpow c (q - 1))%R.

Lemma Qeq_bool_proper q q' p : q == q' -> Qeq_bool q p = Qeq_bool q' p.
Proof.
  intros H. destruct (Qeq_bool q' p) eqn:E.
  - apply Qeq_bool_iff in E. apply Qeq_bool_iff. rewrite H. exact E.
  - apply not_true_iff_false. intros E'. apply Qeq_bool_iff in E'. rewrite H in E'.
    apply Qeq_bool_iff in E'. congruence.
Qed.
Lemma Qle_bool_proper q q' p : q == q' -> Qle_bool q p = Qle_bool q' p.
Proof.
  intros H. destruct (Qle_bool q' p) eqn:E.
  - apply Qle_bool_iff in E. apply Qle_bool_iff. rewrite H. exact E.
  - apply not_true_iff_false. intros E'. apply Qle_bool_iff in E'. rewrite H in E'.
    apply Qle_bool_iff in E'. congruence.
Qed.

Lemma jd_slope q q' c : q == q' -> jd q c = slope_written q' c.
Proof.
  intros H. unfold jd, slope_written, isone.
  rewrite (Qeq_bool_proper _ _ 1 H), (Qeq_bool_proper _ _ 2 H), (Qle_bool_proper _ _ 2 H).
  destruct (Qeq_bool q' 1); [reflexivity|]. destruct (Qeq_bool q' 2) eqn:E.
  - apply Qeq_bool_iff in E. rewrite E in H. rewrite (Qeq_eqR _ _ H). unfold Q2R; cbn. lra.
  - destruct (Qle_bool q' 2); [reflexivity|]. rewrite (Qeq_eqR _ _ H), (rpow_proper c (q - 1) (q' - 1)); [reflexivity|].
    rewrite H. reflexivity.
Qed.

(* Product with the factor of x replaced by a slope. *)
Definition slope_product (slope : Q -> R -> R) (c : str -> R) (ts : list term) (x : str) : R :=
  rprod (map (fun s => if str_eqb s x then slope (total x ts) (c x) else rpow (c s) (total s ts))
    (first_seen (names ts))).

(* 1 if the gain table has an entry for s and this reaction. *)
Definition made (r : reaction) (s : str) : R :=
  match code_gain (last_reactant r) (rhs r) s with Some _ => 1 | None => 0 end%R.
Definition used (r : reaction) (s : str) : R := if inb s (names (lhs r)) then 1%R else 0%R.

Definition jac_entry (m : mech) (ks : list R) (c : str -> R) (s x : str) : R :=
  rsum (map (fun rk => (made (fst rk) s - used (fst rk) s) *
    (if inb x (names (lhs (fst rk))) then slope_product slope_written c (lhs (fst rk)) x * snd rk else 0))%R (combine m ks)).

(* ------------------------------------------------------------------ *)
Lemma rsum_perm l l' : Permutation l l' -> rsum l = rsum l'.
Proof. induction 1; cbn [rsum]; [reflexivity | rewrite IHPermutation; reflexivity | ring | congruence]. Qed.

Lemma rsum_filter {A} (p : A -> bool) (f : A -> R) l :
  rsum (map f (filter p l)) = rsum (map (fun a => if p a then f a else 0%R) l).
Proof.
  induction l as [|a l IH]; cbn [filter map rsum]; [reflexivity|].
  destruct (p a); cbn [map rsum]; rewrite IH; ring.
Qed.

Lemma rsum_keys (l : list nat) (f : nat -> R) n : NoDup l -> (forall k, In k l -> k < n) ->
  rsum (map f l) = rsum (map (fun k => if inb k l then f k else 0%R) (seq 0 n)).
Proof.
  intros Hnd Hl. rewrite <- rsum_filter. apply rsum_perm, Permutation_map.
  apply NoDup_Permutation; [exact Hnd | apply NoDup_filter, seq_NoDup|].
  intros k. rewrite filter_In, in_seq. split.
  - intros H. split; [specialize (Hl k H); lia | apply inb_In, H].
  - intros [_ H]. apply inb_In, H.
Qed.

Lemma reac_empty m k : nth_error m k = None -> reactants_of (p_reac (interp m)) k = [].
Proof.
  intros H. unfold reactants_of, row_of, dget_or. rewrite interp_reac, H. reflexivity.
Qed.

Lemma known_all m : forall k x, In x (reactants_of (p_reac (interp m)) k) ->
  known (p_sp2a (interp m)) (p_loss (interp m)) k x /\ x <> hv.
Proof.
  intros k x Hx. destruct (nth_error m k) as [r|] eqn:E.
  - rewrite (reactants_of_interp m k r E) in Hx. split; [eapply known_interp; eassumption|].
    intros ->. exact (names_not_light _ Hx).
  - rewrite reac_empty in Hx by exact E. destruct Hx.
Qed.

Section Parsed.
Variable m : mech.
Let sp2a := p_sp2a (interp m).
Let rt := p_reac (interp m).
Let loss := p_loss (interp m).
Let gain := p_gain (interp m).

Lemma dmem_srow (d : table) s k : inb k (dkeys (srow s d)) = match dget2 s k d with Some _ => true | None => false end.
Proof.
  destruct (dget2 s k d) as [q|] eqn:E.
  - apply inb_In, In_dkeys_srow. eauto.
  - apply inb_nIn. intros H. apply In_dkeys_srow in H as (q & H). congruence.
Qed.

Lemma jprod_parsed k r c x : nth_error m k = Some r -> In x (names (lhs r)) ->
  jprod rt loss c k x = slope_product slope_written c (lhs r) x.
Proof.
  intros Hr Hx. unfold jprod, slope_product, rt. rewrite (reactants_of_interp m k r Hr).
  f_equal. apply map_ext_in. intros s Hs. assert (Hs0 := proj1 (proj2 (first_seen_spec _) s) Hs). clear Hs; rename Hs0 into Hs. unfold jv, loss.
  assert (Hq : forall s, In s (names (lhs r)) -> stq (p_loss (interp m)) k s == total s (lhs r)).
  { intros s' Hs'. rewrite (stq_interp m k r s' Hr). apply inb_In in Hs'. rewrite Hs'. reflexivity. }
  change (eqb s x) with (str_eqb s x). destruct (str_eqb s x).
  - apply jd_slope, Hq, Hx.
  - apply rpow_proper, Hq, Hs.
Qed.

Lemma jac_val_parsed env c s x : List.length (env AR) = List.length m ->
  jac_val rt loss gain env c s x = jac_entry m (env AR) c s x.
Proof.
  intros Hn. unfold jac_val, jsum, jac_entry.
  assert (W := interp_lg_wf m).
  assert (G : forall d : table, (forall s, NoDup (dkeys (srow s d)) /\ forall k, In k (dkeys (srow s d)) -> k < List.length m) ->
    rsum (map (fun k => jprod rt loss c k x * nth k (env AR) 0)%R
      (filter (fun k => inb x (reactants_of rt k)) (dkeys (srow s d)))) =
    rsum (map (fun k => (match dget2 s k d with Some _ => 1 | None => 0 end *
      (if inb x (names (lhs (nth k m (Rx [] [] [])))) then
         slope_product slope_written c (lhs (nth k m (Rx [] [] []))) x * nth k (env AR) 0 else 0))%R) (seq 0 (List.length m)))).
  { intros d Hd. rewrite rsum_filter. rewrite (rsum_keys (dkeys (srow s d)) _ (List.length m)) by apply Hd.
    apply rsum_ext. intros k Hk. apply in_seq in Hk.
    destruct (nth_error m k) as [r|] eqn:E; [|apply nth_error_None in E; lia].
    rewrite (nth_error_nth m k _ E). rewrite dmem_srow. unfold rt. rewrite (reactants_of_interp m k r E).
    destruct (inb x (names (lhs r))) eqn:Ex.
    - apply inb_In in Ex. fold rt. rewrite (jprod_parsed k r c x E Ex). destruct (dget2 s k d); ring.
    - destruct (dget2 s k d); ring. }
  rewrite (G gain) by apply (wf_gain _ _ _ _ _ W). rewrite (G loss) by apply (wf_loss _ _ _ _ _ W).
  rewrite <- rsum_minus.
  rewrite <- (rsum_seq_combine (fun rx k => (made rx s - used rx s) *
    (if inb x (names (lhs rx)) then slope_product slope_written c (lhs rx) x * k else 0))%R m (env AR) (Rx [] [] [])) by exact Hn.
  apply rsum_ext. intros k Hk. apply in_seq in Hk.
  destruct (nth_error m k) as [r|] eqn:E; [|apply nth_error_None in E; lia].
  rewrite (nth_error_nth m k _ E). unfold gain, loss. rewrite interp_gain, E. unfold made, used.
  assert (HL := interp_loss m s k). rewrite E in HL.
  destruct (code_gain (last_reactant r) (rhs r) s); destruct (dget2 s k (p_loss (interp m))); cbn [entry_ok] in HL.
  - destruct HL as [HL _]. apply inb_In in HL. rewrite HL. ring.
  - apply inb_nIn in HL. rewrite HL. ring.
  - destruct HL as [HL _]. apply inb_In in HL. rewrite HL. ring.
  - apply inb_nIn in HL. rewrite HL. ring.
Qed.

(* Literals the Jacobian prints. *)
Definition literals_kept (L : lang) : Prop :=
  lit L 1 == 1 /\ forall r s q, In r m -> In s (names (lhs r)) -> q == total s (lhs r) ->
    (~ q == 1 -> lit L q == q) /\ (~ q <= 2 -> lit L (q - 1) == q - 1)%Q.

(* Powers the Jacobian computes. *)
Definition jac_powers (c : str -> R) : Prop :=
  forall r s, In r m -> In s (names (lhs r)) ->
    pow_ok (c s) (total s (lhs r)) /\ (~ total s (lhs r) <= 2 -> pow_ok (c s) (total s (lhs r) - 1))%Q.

Lemma jac_parsed off L ord conts prog y ks : off = 0 \/ off = 1 -> (forall i, loc L (i + off) = Some i) ->
  is_set_order ord -> literals_kept L ->
  List.length y = List.length (species m) -> List.length ks = List.length m ->
  jac_powers (conc_of sp2a y) ->
  assigns prog = jac_assigns off sp2a rt loss gain ord conts ->
  exists J, run (cell2 off (List.length (species m))) (value L (py_env y ks)) prog zeros = Some J /\
    (forall s i x j, nth_error (species m) i = Some s -> nth_error (species m) j = Some x ->
       J (i, j) = if inb s bath then 0%R else jac_entry m ks (conc_of sp2a y) s x) /\
    (forall i j, List.length (species m) <= i \/ List.length (species m) <= j -> J (i, j) = 0%R).
Proof.
  intros Hoff Hloc Ho [Hl1 Hl] Hy Hk Hpw Hp.
  assert (W := interp_lg_wf m).
  assert (HR : reactant_ok sp2a rt loss L (py_env y ks) (List.length m) (conc_of sp2a y)).
  { intros k x Hx. destruct (nth_error m k) as [r|] eqn:E.
    2:{ unfold rt in Hx. rewrite reac_empty in Hx by exact E. destruct Hx. }
    unfold rt in Hx. rewrite (reactants_of_interp m k r E) in Hx.
    assert (Hr := nth_error_In _ _ E).
    assert (Hq : stq loss k x == total x (lhs r)).
    { unfold loss. rewrite (stq_interp m k r x E). apply inb_In in Hx. rewrite Hx. reflexivity. }
    destruct (known_interp m k r x E Hx) as [_ (i & Hi)].
    destruct (Hpw r x Hr Hx) as [Hp1 Hp2]. destruct (Hl r x (stq loss k x) Hr Hx Hq) as [Hq1 Hq2].
    split; [apply nth_error_Some; congruence|]. split; [|split; [|split]].
    - unfold ix, dget_or, sp2a. rewrite Hi. cbn [py_env]. apply conc_of_at; assumption.
    - eapply pow_ok_proper; [symmetry; exact Hq | exact Hp1].
    - intros H1. apply Hq1. intros H. apply Qeq_eq_bool in H. unfold isone in H1. congruence.
    - intros H1. assert (Hn : (~ stq loss k x <= 2)%Q).
      { intros H. apply Qle_bool_iff in H. congruence. }
      split; [|apply Hq2, Hn]. eapply pow_ok_proper; [|apply Hp2; rewrite <- Hq; exact Hn].
      rewrite Hq. reflexivity. }
  destruct (run_jac off sp2a rt loss gain ord conts Ho (known_all m) L (py_env y ks) (List.length m) (conc_of sp2a y)
              Hloc Hk Hl1 HR (List.length (species m)) Hoff (wf_keys _ _ _ _ _ W) (wf_vals _ _ _ _ _ W) (wf_range _ _ _ _ _ W)
              prog zeros Hp) as (J & H1 & H2 & H3).
  exists J. split; [exact H1|]. split.
  - intros s i x j Hi Hj.
    assert (Hs := species_not_light m s (nth_error_In _ _ Hi)).
    assert (Hi' := proj2 (In_sp2a m s i) Hi). assert (Hj' := proj2 (In_sp2a m x j) Hj).
    rewrite <- (excluded_bath s Hs). destruct (inb s excluded) eqn:E.
    + rewrite H3; [reflexivity|]. intros s' x' Hs' _ Hx. 
      assert (s' = s) by (eapply In_vals_inj; [apply (wf_vals _ _ _ _ _ W) | exact Hs' | exact Hi']). congruence.
    + destruct (in_dec (@eqb_dec str EqB_str) x (cols rt loss gain ord s)) as [Hx|Hx].
      * rewrite (H2 s i x j Hi' E Hx Hj'). apply (jac_val_parsed (py_env y ks)). exact Hk.
      * rewrite H3.
        -- assert (G := jac_val_not_col rt loss gain ord Ho (py_env y ks) (conc_of sp2a y) s x Hx).
           rewrite jac_val_parsed in G by exact Hk. symmetry. exact G.
        -- intros s' x' Hs' Hx' _. 
           assert (s' = s) by (eapply In_vals_inj; [apply (wf_vals _ _ _ _ _ W) | exact Hs' | exact Hi']).
           assert (x' = x) by (eapply In_vals_inj; [apply (wf_vals _ _ _ _ _ W) | exact Hx' | exact Hj']).
           congruence.
  - intros i j Hij. rewrite H3; [reflexivity|]. intros s x Hs Hx _ _.
    assert (A := wf_range _ _ _ _ _ W s i Hs). assert (B := wf_range _ _ _ _ _ W x j Hx). lia.
Qed.
End Parsed.
