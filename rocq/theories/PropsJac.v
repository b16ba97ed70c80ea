(* C20-C23: the generated Jacobian. *)
From Coq Require Import String List Bool Arith Lia Permutation ZArith QArith Reals Qreals Lra.
From Verif Require Import Base PyStr PyDict ModelParse ModelLang ModelGen ModelRhs SpecMech SpecKin
  ParseStruct ParseWritten ParseTables ParseShow LangFacts GenReact GenLossGain GenParsed GenSparse GenJac GenJacParsed
  PropsParse PropsKin PropsRhs JacDeriv.
Import ListNotations.
Import Coq.Lists.List.
Open Scope nat_scope.
Open Scope list_scope.

(* States for which every power that the generated code computes exists:
   concentrations are not negative, or all reactant coefficients are natural
   numbers. *)
Definition natural_reactants (m : mech) : Prop :=
  forall r x, In r m -> In x (names (lhs r)) -> exists n, total x (lhs r) == inject_Z (Z.of_nat n).
Definition state_ok (m : mech) (y : list R) : Prop := nonneg y \/ natural_reactants m.

Lemma state_powers m sp2a y : coefs_ok m -> state_ok m y -> jac_powers m (conc_of sp2a y).
Proof.
  intros Hco Hst r x Hr Hx.
  assert (H0 : (0 <= total x (lhs r))%Q).
  { apply In_nth_error in Hr as (k & Hk). apply total_nonneg', (coefs_nth m k r Hco Hk). }
  destruct Hst as [Hn|Hn].
  - assert (Hc := conc_of_nonneg sp2a y x Hn). split; [apply pow_ok_nonneg; assumption|].
    intros H2. apply pow_ok_nonneg; [exact Hc|]. apply Qnot_le_lt in H2.
    unfold Qle, Qlt, Qminus, Qplus in *; cbn in *. nia.
  - destruct (Hn r x Hr Hx) as (n & En). split; [eapply pow_ok_nat, En|]. intros H2. rewrite En in H2.
    destruct n as [|n]; [exfalso; apply H2; discriminate|].
    apply (pow_ok_nat _ _ n). rewrite En, Nat2Z.inj_succ. unfold Qeq, inject_Z; cbn. lia.
Qed.

Lemma python_literals m : literals_kept m python.
Proof. split; [reflexivity | intros; split; reflexivity]. Qed.

Lemma jac_numba_parsed m ord prog y ks : coefs_ok m -> is_set_order ord ->
  gen_jacobian_numba ord (p_sp2a (interp m)) (p_reac (interp m)) (p_loss (interp m)) (p_gain (interp m)) = Ok prog ->
  List.length y = List.length (species m) -> List.length ks = List.length m -> state_ok m y ->
  exists J, jacobian_numba prog (List.length (species m)) y ks = Some J /\
    (forall s i x j, nth_error (species m) i = Some s -> nth_error (species m) j = Some x ->
       J (i, j) = if inb s bath then 0%R else jac_entry m ks (conc_of (p_sp2a (interp m)) y) s x) /\
    (forall i j, List.length (species m) <= i \/ List.length (species m) <= j -> J (i, j) = 0%R).
Proof.
  intros Hco Ho Hg Hy Hk Hst.
  destruct (gen_jacobian_numba_ok ord _ _ _ (p_gain (interp m)) Ho (known_all m)) as (p & Hp & Ha).
  rewrite Hg in Hp. injection Hp as <-.
  assert (Hloc : forall i, loc python (i + 0) = Some i) by (intros i; cbn [loc python]; rewrite Nat.add_0_r; reflexivity).
  apply (jac_parsed m 0 python ord false prog y ks (or_introl eq_refl) Hloc Ho (python_literals m) Hy Hk); [|exact Ha].
  apply state_powers; assumption.
Qed.

(* ------------------------------------------------------------------ *)
(* C20 *)

(* Value of every entry, for every mechanism: a sum over the reactions in
   which s is used or recorded as made and x is a reactant, of the rate
   coefficient times the product of the other concentrations times what the
   code writes for d(c^q)/dc: 1 for q = 1 and for every other q < 2, 2c for
   q = 2 and q c^(q-1) above.  The coefficient of s itself does not enter. *)
Theorem C20_exact : forall m text ord, written m text -> is_set_order ord ->
  exists st prog, extract_mechanism text = Ok (Z.of_nat (List.length m), st) /\
    gen_jacobian_numba ord (p_sp2a st) (p_reac st) (p_loss st) (p_gain st) = Ok prog /\
    forall ks y, List.length ks = List.length m -> List.length y = species_count st -> state_ok m y ->
      exists J, jacobian_numba prog (species_count st) y ks = Some J /\
        forall s i x j, dget s (p_sp2a st) = Some i -> dget x (p_sp2a st) = Some j ->
          J (i, j) = if inb s bath then 0%R else
            rsum (map (fun rk => let '(r, k) := rk in
              (made r s - used r s) *
              (if inb x (names (lhs r)) then slope_product slope_written (conc_of (p_sp2a st) y) (lhs r) x * k else 0))%R
              (combine m ks)).
Proof.
  intros m text ord W Ho. assert (Hco := written_coefs m text W).
  destruct (gen_jacobian_numba_ok ord _ _ _ (p_gain (interp m)) Ho (known_all m)) as (p & Hp & Ha).
  exists (interp m), p. split; [apply written_extract, W|]. split; [exact Hp|].
  intros ks y Hk Hy Hst. unfold species_count in *. rewrite sp2a_length in *.
  destruct (jac_numba_parsed m ord p y ks Hco Ho Hp Hy Hk Hst) as (J & H1 & H2 & _).
  exists J. split; [exact H1|]. intros s i x j Hi Hj. apply interp_sp2a in Hi, Hj.
  rewrite (H2 s i x j Hi Hj). destruct (inb s bath); [reflexivity|]. unfold jac_entry.
  apply rsum_ext. intros [r k] _. reflexivity.
Qed.

(* The reactions of which row s of the Jacobian is a derivative. *)
Definition once (s : str) (ts : list term) : R := if inb s (names ts) then 1%R else 0%R.
Definition jac_ok (s : str) (r : reaction) : Prop :=
  names (lhs r) = [] \/
  (net s r = once s (rhs r) - once s (lhs r))%R /\
  (net s r = 0%R \/ forall x, In x (names (lhs r)) -> total x (lhs r) == 1 \/ (2 <= total x (lhs r))%Q).

Lemma made_once r s : products_safe r -> made r s = once s (rhs r).
Proof.
  intros H. unfold made, once. assert (G := gain_safe_ok r s H).
  destruct (code_gain (last_reactant r) (rhs r) s); cbn [entry_ok] in G.
  - destruct G as [G _]. apply inb_In in G. rewrite G. reflexivity.
  - apply inb_nIn in G. rewrite G. reflexivity.
Qed.

Lemma slope_same q c : q == 1 \/ (2 <= q)%Q -> slope_written q c = slope_true q c.
Proof.
  intros H. unfold slope_written, slope_true. destruct (Qeq_bool q 1) eqn:E1.
  - apply Qeq_bool_iff in E1. rewrite (Qeq_eqR _ _ E1), (rpow_nat c (q - 1) 0).
    + unfold Q2R; cbn. field.
    + rewrite E1. reflexivity.
  - destruct (Qeq_bool q 2) eqn:E2.
    + apply Qeq_bool_iff in E2. rewrite (Qeq_eqR _ _ E2), (rpow_nat c (q - 1) 1); [|rewrite E2; reflexivity].
      unfold Q2R; cbn. field.
    + destruct (Qle_bool q 2) eqn:E3; [|reflexivity]. exfalso. apply Qle_bool_iff in E3.
      destruct H as [H|H]; [apply Qeq_eq_bool in H; congruence|].
      assert (q == 2) by (apply Qle_antisym; assumption). apply Qeq_eq_bool in H0. congruence.
Qed.

Lemma slope_product_ext sl sl' c ts x : sl (total x ts) (c x) = sl' (total x ts) (c x) ->
  slope_product sl c ts x = slope_product sl' c ts x.
Proof.
  intros H. unfold slope_product. f_equal. apply map_ext. intros s. rewrite H. reflexivity.
Qed.

Lemma jac_entry_true m ks c s x : Forall products_safe m -> Forall (jac_ok s) m ->
  jac_entry m ks c s x = true_entry m ks c s x.
Proof.
  intros Hsafe Hok. unfold jac_entry, true_entry. apply rsum_ext. intros [r k] Hin. cbn [fst snd].
  apply in_combine_l in Hin. rewrite Forall_forall in Hsafe, Hok.
  rewrite (made_once r s (Hsafe r Hin)). change (used r s) with (once s (lhs r)).
  destruct (inb x (names (lhs r))) eqn:Ex; [|ring]. apply inb_In in Ex.
  destruct (Hok r Hin) as [He|[Hn Hs]]; [rewrite He in Ex; destruct Ex|].
  rewrite <- Hn. destruct Hs as [Hs|Hs]; [rewrite Hs; ring|].
  rewrite (slope_product_ext slope_written slope_true c (lhs r) x); [ring|]. apply slope_same, Hs, Ex.
Qed.

(* For mechanisms without repeated reactants whose product tables are right,
   each row of a species whose coefficient is 1 wherever it appears (and
   whose reactions have reactant coefficients 1 or at least 2) is the
   gradient of that component of dydt.  Missing from the full claim: other
   coefficients, repeated reactants. *)
Theorem C20_partial : forall m text ord, written m text -> is_set_order ord ->
  Forall products_safe m -> Forall (fun r => NoDup (names (lhs r))) m ->
  exists st p1 pj, extract_mechanism text = Ok (Z.of_nat (List.length m), st) /\
    gen_reactants_numba (List.length m) (p_sp2a st) (p_reac st) (p_loss st) = Ok p1 /\
    gen_jacobian_numba ord (p_sp2a st) (p_reac st) (p_loss st) (p_gain st) = Ok pj /\
    forall ks y, List.length ks = List.length m -> List.length y = species_count st ->
      (Forall (fun a => 0 < a)%R y \/ natural_reactants m) ->
      exists J, jacobian_numba pj (species_count st) y ks = Some J /\
        forall s i x j, dget s (p_sp2a st) = Some i -> dget x (p_sp2a st) = Some j ->
          In s bath \/ Forall (jac_ok s) m ->
          derivable_pt_lim (fun t => component i (rhs_numba p1
              (snd (gen_loss_gain_numba (p_sp2a st) (p_loss st) (p_gain st)))
              (List.length m) (species_count st) ks (set_nth j t y)))
            (nth j y 0%R) (J (i, j)).
Proof.
  intros m text ord W Ho Hsafe Hnd. assert (Hco := written_coefs m text W).
  destruct (gen_jacobian_numba_ok ord _ _ _ (p_gain (interp m)) Ho (known_all m)) as (pj & Hp & _).
  destruct (gen_reactants_numba_ok _ _ _ _ (all_known_interp m)) as (p1 & Hg & _).
  exists (interp m), p1, pj. split; [apply written_extract, W|]. split; [exact Hg|]. split; [exact Hp|].
  intros ks y Hk Hy Hst. unfold species_count in *. rewrite sp2a_length in *.
  assert (Hst' : state_ok m y).
  { destruct Hst as [H|H]; [left; eapply Forall_impl; [|exact H]; intros a Ha; cbv beta in *; lra | right; exact H]. }
  destruct (jac_numba_parsed m ord pj y ks Hco Ho Hp Hy Hk Hst') as (J & H1 & H2 & _).
  exists J. split; [exact H1|]. intros s i x j Hi Hj Hs. apply interp_sp2a in Hi, Hj.
  rewrite (H2 s i x j Hi Hj).
  assert (D : derivable_pt_lim (fun t => component i (rhs_numba p1
      (snd (gen_loss_gain_numba (p_sp2a (interp m)) (p_loss (interp m)) (p_gain (interp m))))
      (List.length m) (List.length (species m)) ks (set_nth j t y))) (nth j y 0%R)
    (if inb s bath then 0%R else true_entry m ks (conc_of (p_sp2a (interp m)) y) s x)).
  { apply rhs_deriv; auto. intros r s' Hr Hs'. destruct Hst as [H|H]; [left | right; apply (H r s' Hr Hs')].
    assert (Hsp : In s' (species m)).
    { apply species_In. apply In_names in Hs' as [Hs1 Hs2]. split; [exact Hs1|]. exists r. split; [exact Hr|].
      rewrite in_app_iff. left. exact Hs2. }
    apply In_nth_error in Hsp as (i' & Hi'). rewrite conc_of_dget. rewrite (proj2 (interp_sp2a m s' i') Hi').
    rewrite Forall_forall in H. apply H, nth_In. rewrite Hy. apply nth_error_Some. congruence. }
  destruct (inb s bath) eqn:E; [exact D|]. rewrite jac_entry_true; [exact D | exact Hsafe|].
  destruct Hs as [Hs|Hs]; [apply inb_In in Hs; congruence | exact Hs].
Qed.

(* And the condition is exact: on positive states the row is the gradient for
   all rate coefficients only if every reaction satisfies it. *)
Lemma rsum_seq_unit (f : nat -> R) k a n : a <= k < a + n ->
  rsum (map (fun i => f i * (if i =? k then 1 else 0))%R (seq a n)) = f k.
Proof.
  revert a; induction n as [|n IH]; intros a H; [lia|]. cbn [seq map rsum].
  destruct (Nat.eqb_spec a k) as [->|Hne].
  - rewrite rsum_zero; [ring|]. intros i Hi. apply in_seq in Hi. destruct (Nat.eqb_spec i k); [lia | ring].
  - rewrite IH by lia. ring.
Qed.

Definition unit_rates (k n : nat) : list R := map (fun i => if i =? k then 1%R else 0%R) (seq 0 n).

Lemma rsum_unit (m : mech) (F : reaction -> R) k r : nth_error m k = Some r ->
  rsum (map (fun rk => F (fst rk) * snd rk)%R (combine m (unit_rates k (List.length m)))) = F r.
Proof.
  intros Hr. rewrite <- (rsum_seq_combine (fun r x => F r * x)%R m _ (Rx [] [] [])).
  - assert (Hk : k < List.length m) by (apply nth_error_Some; congruence).
    rewrite <- (nth_error_nth m k (Rx [] [] []) Hr).
    rewrite <- (rsum_seq_unit (fun i => F (nth i m (Rx [] [] []))) k 0 (List.length m)) by lia.
    apply rsum_ext. intros i Hi. apply in_seq in Hi. f_equal. unfold unit_rates.
    rewrite (nth_map2 _ _ i 0%R 0) by (rewrite seq_length; lia). rewrite seq_nth by lia. reflexivity.
  - unfold unit_rates. rewrite map_length, seq_length. reflexivity.
Qed.

Lemma rprod_one_factor (l : list str) x v : NoDup l -> In x l ->
  rprod (map (fun s => if str_eqb s x then v else 1%R) l) = v.
Proof.
  induction l as [|a l IH]; [contradiction|]. intros Hnd Hin. inversion Hnd as [|? ? Ha Hnd']; subst.
  cbn [map rprod]. destruct (str_eqb a x) eqn:E.
  - apply str_eqb_eq in E; subst.
    assert (G : rprod (map (fun s => if str_eqb s x then v else 1%R) l) = 1%R).
    { clear - Ha. induction l as [|b l IH]; cbn [map rprod]; [reflexivity|].
      assert (Eb : str_eqb b x = false) by (apply str_eqb_neq; intros ->; apply Ha; left; reflexivity).
      rewrite Eb, IH; [ring|]. intros H; apply Ha; right; exact H. }
    rewrite G. ring.
  - destruct Hin as [->|Hin]; [rewrite str_eqb_refl in E; discriminate|]. rewrite (IH Hnd' Hin). ring.
Qed.

Lemma nth_repeat_lt (a d : R) n k : k < n -> nth k (repeat a n) d = a.
Proof. revert k; induction n as [|n IH]; intros [|k] H; cbn; try lia; [reflexivity | apply IH; lia]. Qed.

Lemma rpow_1 q : rpow 1 q = 1%R.
Proof. rewrite rpow_pos_any by lra. unfold Rpower. rewrite ln_1, Rmult_0_r. apply exp_0. Qed.

Lemma slope_product_at sl ts x c0 (c : str -> R) : In x (names ts) -> c x = c0 ->
  (forall s, In s (names ts) -> s <> x -> c s = 1%R) -> slope_product sl c ts x = sl (total x ts) c0.
Proof.
  intros Hx H0 H1. unfold slope_product.
  rewrite <- (rprod_one_factor (first_seen (names ts)) x (sl (total x ts) c0)).
  - f_equal. apply map_ext_in. intros s Hs. destruct (str_eqb s x) eqn:E; [rewrite H0; reflexivity|].
    rewrite H1; [apply rpow_1 | apply (proj2 (first_seen_spec _)), Hs | apply str_eqb_neq, E].
  - apply first_seen_spec.
  - apply (proj2 (first_seen_spec _)), Hx.
Qed.

Lemma slope_true_1 q : slope_true q 1 = Q2R q.
Proof. unfold slope_true. rewrite rpow_1. ring. Qed.

Lemma slope_exact (D n : R) q : (0 < q)%Q ->
  (forall c, (0 < c)%R -> (D * slope_written q c = n * slope_true q c)%R) ->
  (D = n /\ (n = 0%R \/ (q == 1 \/ (2 <= q)%Q))).
Proof.
  intros Hq H. assert (Hq' : (0 < Q2R q)%R).
  { replace 0%R with (Q2R 0) by (unfold Q2R; cbn; field). apply Qreals.Qlt_Rlt, Hq. }
  destruct (Qeq_dec q 1) as [E1|E1]; [|destruct (Qlt_le_dec q 2) as [E2|E2]].
  - split; [|auto]. specialize (H 1%R Rlt_0_1). rewrite slope_same in H by auto. rewrite slope_true_1 in H. nra.
  - assert (Hw : forall c, slope_written q c = 1%R).
    { intros c. unfold slope_written.
      assert (A : Qeq_bool q 1 = false) by (apply not_true_iff_false; intros A; apply Qeq_bool_iff in A; contradiction).
      assert (B : Qeq_bool q 2 = false).
      { apply not_true_iff_false; intros B; apply Qeq_bool_iff in B. rewrite B in E2. discriminate. }
      rewrite A, B. assert (C : Qle_bool q 2 = true) by (apply Qle_bool_iff, Qlt_le_weak, E2). rewrite C. reflexivity. }
    assert (H1 := H 1%R Rlt_0_1). assert (H2 := H 2%R ltac:(lra)). rewrite Hw in H1, H2.
    rewrite slope_true_1 in H1. unfold slope_true in H2. rewrite rpow_pos_any in H2 by lra.
    assert (Hne : Rpower 2 (Q2R (q - 1)) <> 1%R).
    { intros E. unfold Rpower in E. rewrite <- exp_0 in E. apply exp_inv in E.
      apply Rmult_integral in E as [E|E].
      - apply E1. rewrite Q2R_minus in E. apply eqR_Qeq. lra.
      - apply (f_equal exp) in E. rewrite exp_ln, exp_0 in E by lra. lra. }
    assert (Hz : n = 0%R).
    { assert (G : (n * Q2R q * (Rpower 2 (Q2R (q - 1)) - 1) = 0)%R) by lra.
      apply Rmult_integral in G as [G|G]; [|lra]. apply Rmult_integral in G as [G|G]; [exact G | lra]. }
    split; [|auto]. rewrite Hz in *. lra.
  - split; [|auto]. specialize (H 1%R Rlt_0_1). rewrite slope_same in H by auto. rewrite slope_true_1 in H. nra.
Qed.

Theorem C20_exactly_when : forall m text ord, written m text -> is_set_order ord ->
  Forall products_safe m -> Forall (fun r => NoDup (names (lhs r))) m ->
  (forall r x, In r m -> In x (names (lhs r)) -> (0 < total x (lhs r))%Q) ->
  exists st p1 pj, extract_mechanism text = Ok (Z.of_nat (List.length m), st) /\
    gen_reactants_numba (List.length m) (p_sp2a st) (p_reac st) (p_loss st) = Ok p1 /\
    gen_jacobian_numba ord (p_sp2a st) (p_reac st) (p_loss st) (p_gain st) = Ok pj /\
    forall s i, dget s (p_sp2a st) = Some i -> ~ In s bath ->
      (Forall (jac_ok s) m <->
       forall ks y x j J, List.length ks = List.length m -> List.length y = species_count st ->
         Forall (fun a => 0 < a)%R y -> dget x (p_sp2a st) = Some j ->
         jacobian_numba pj (species_count st) y ks = Some J ->
         derivable_pt_lim (fun t => component i (rhs_numba p1
              (snd (gen_loss_gain_numba (p_sp2a st) (p_loss st) (p_gain st)))
              (List.length m) (species_count st) ks (set_nth j t y)))
            (nth j y 0%R) (J (i, j))).
Proof.
  intros m text ord W Ho Hsafe Hnd Hpos.
  destruct (C20_partial m text ord W Ho Hsafe Hnd) as (st & p1 & pj & H1 & H2 & H3 & H4).
  exists st, p1, pj. split; [exact H1|]. split; [exact H2|]. split; [exact H3|].
  intros s i Hi Hb. split.
  - intros Hok ks y x j J Hk Hy Hp Hj HJ. destruct (H4 ks y Hk Hy (or_introl Hp)) as (J' & HJ' & G).
    rewrite HJ in HJ'. injection HJ' as <-. apply (G s i x j); auto.
  - intros Hall. assert (Hco := written_coefs m text W).
    assert (E := written_extract m text W). rewrite H1 in E. injection E as ->.
    unfold species_count in *. rewrite sp2a_length in *. apply interp_sp2a in Hi.
    assert (Eb : inb s bath = false) by (apply inb_nIn, Hb).
    apply Forall_forall. intros r Hr. unfold jac_ok.
    destruct (names (lhs r)) as [|x0 ns] eqn:En; [left; reflexivity|right]. rewrite <- En.
    assert (Key : forall x, In x (names (lhs r)) ->
      (once s (rhs r) - once s (lhs r) = net s r)%R /\
      (net s r = 0%R \/ (total x (lhs r) == 1 \/ (2 <= total x (lhs r))%Q))).
    { intros x Hx. apply slope_exact; [apply (Hpos r x Hr Hx)|]. intros c0 Hc0.
      apply In_nth_error in Hr as (k & Hk).
      assert (Hsp : In x (species m)).
      { apply species_In. apply In_names in Hx as [Hx1 Hx2]. split; [exact Hx1|]. exists r.
        split; [eapply nth_error_In, Hk | rewrite in_app_iff; left; exact Hx2]. }
      apply In_nth_error in Hsp as (j & Hj).
      set (y := set_nth j c0 (repeat 1%R (List.length (species m)))).
      assert (Hy : List.length y = List.length (species m)) by (unfold y; rewrite set_nth_length, repeat_length; reflexivity).
      assert (Hyp : Forall (fun a => 0 < a)%R y).
      { apply Forall_forall. intros a Ha. apply In_nth with (d := 0%R) in Ha as (i0 & Hi0 & <-).
        unfold y. rewrite nth_set_nth.
        - destruct (i0 =? j); [exact Hc0|]. rewrite Hy in Hi0.
          rewrite nth_repeat_lt by exact Hi0. lra.
        - rewrite repeat_length. apply nth_error_Some; congruence. }
      assert (Hst : state_ok m y) by (left; eapply Forall_impl; [|exact Hyp]; intros a Ha; cbv beta in *; lra).
      assert (Hks : List.length (unit_rates k (List.length m)) = List.length m).
      { unfold unit_rates. rewrite map_length, seq_length. reflexivity. }
      destruct (jac_numba_parsed m ord pj y (unit_rates k (List.length m)) Hco Ho H3 Hy Hks Hst) as (J & HJ & HJ2 & _).
      assert (D1 := Hall _ y x j J Hks Hy Hyp (proj2 (interp_sp2a m x j) Hj) HJ).
      assert (Hconc : forall s', In s' (species m) -> conc_of (p_sp2a (interp m)) y s' = if str_eqb s' x then c0 else 1%R).
      { intros s' Hs'. unfold y. rewrite (conc_of_set m _ j c0 x s'); [|apply repeat_length | exact Hj].
        destruct (str_eqb s' x); [reflexivity|]. apply In_nth_error in Hs' as (i' & Hi').
        rewrite conc_of_dget, (proj2 (interp_sp2a m s' i') Hi'). apply nth_repeat_lt, nth_error_Some. congruence. }
      assert (Hspec : forall r' s', In r' m -> In s' (names (lhs r')) -> In s' (species m)).
      { intros r' s' Hr' Hs'. apply species_In. apply In_names in Hs' as [A B]. split; [exact A|]. exists r'.
        split; [exact Hr' | rewrite in_app_iff; left; exact B]. }
      assert (D2 := rhs_deriv m p1 (unit_rates k (List.length m)) y s i x j Hco Hsafe Hnd H2 Hks Hy).
      specialize (D2 ltac:(intros r' s' Hr' Hs'; left; rewrite (Hconc s' (Hspec r' s' Hr' Hs')); destruct (str_eqb s' x); lra) Hi Hj).
      rewrite (HJ2 s i x j Hi Hj) in D1. rewrite Eb in D1, D2.
      assert (EJ := uniqueness_limite _ _ _ _ D1 D2).
      assert (Hx' := proj2 (inb_In x (names (lhs r))) Hx).
      assert (Hr' := nth_error_In _ _ Hk).
      assert (L1 : jac_entry m (unit_rates k (List.length m)) (conc_of (p_sp2a (interp m)) y) s x =
        ((once s (rhs r) - once s (lhs r)) * slope_written (total x (lhs r)) c0)%R).
      { unfold jac_entry. rewrite (rsum_ext _ (fun rk => ((made (fst rk) s - used (fst rk) s) *
          (if inb x (names (lhs (fst rk))) then slope_product slope_written (conc_of (p_sp2a (interp m)) y) (lhs (fst rk)) x else 0)) * snd rk)%R).
        - rewrite (rsum_unit m (fun r => (made r s - used r s) * (if inb x (names (lhs r)) then
            slope_product slope_written (conc_of (p_sp2a (interp m)) y) (lhs r) x else 0))%R k r Hk).
          rewrite Hx'. rewrite Forall_forall in Hsafe. rewrite (made_once r s (Hsafe r Hr')).
          change (used r s) with (once s (lhs r)). f_equal. apply slope_product_at; [exact Hx| |].
          + rewrite (Hconc x (Hspec r x Hr' Hx)), str_eqb_refl. reflexivity.
          + intros s' Hs' Hne. rewrite (Hconc s' (Hspec r s' Hr' Hs')).
            apply str_eqb_neq in Hne. rewrite Hne. reflexivity.
        - intros [r1 k1] _. cbn [fst snd]. destruct (inb x (names (lhs r1))); ring. }
      assert (L2 : true_entry m (unit_rates k (List.length m)) (conc_of (p_sp2a (interp m)) y) s x =
        (net s r * slope_true (total x (lhs r)) c0)%R).
      { unfold true_entry. rewrite (rsum_ext _ (fun rk => (net s (fst rk) *
          (if inb x (names (lhs (fst rk))) then slope_product slope_true (conc_of (p_sp2a (interp m)) y) (lhs (fst rk)) x else 0)) * snd rk)%R).
        - rewrite (rsum_unit m (fun r => net s r * (if inb x (names (lhs r)) then
            slope_product slope_true (conc_of (p_sp2a (interp m)) y) (lhs r) x else 0))%R k r Hk).
          rewrite Hx'. f_equal. apply slope_product_at; [exact Hx| |].
          + rewrite (Hconc x (Hspec r x Hr' Hx)), str_eqb_refl. reflexivity.
          + intros s' Hs' Hne. rewrite (Hconc s' (Hspec r s' Hr' Hs')).
            apply str_eqb_neq in Hne. rewrite Hne. reflexivity.
        - intros [r1 k1] _. cbn [fst snd]. ring. }
      rewrite L1, L2 in EJ. exact EJ. }
    split; [symmetry; apply (Key x0); rewrite En; left; reflexivity|].
    destruct (Req_EM_T (net s r) 0) as [Hz|Hz]; [left; exact Hz | right].
    intros x Hx. destruct (Key x Hx) as [_ [A|A]]; [contradiction | exact A].
Qed.

(* 2 NO = 0.5 CO + O3 with rate coefficient 1 at concentrations 1: the code
   writes -2 for d(dNO/dt)/dNO, the derivative of its own dydt is -4. *)
Theorem C20_refuted : exists m text st p1 pj ks y i J, written m text /\ Forall products_safe m /\
  Forall (fun r => NoDup (names (lhs r))) m /\
  extract_mechanism text = Ok (Z.of_nat (List.length m), st) /\
  gen_reactants_numba (List.length m) (p_sp2a st) (p_reac st) (p_loss st) = Ok p1 /\
  (forall ord, is_set_order ord -> exists pj', gen_jacobian_numba ord (p_sp2a st) (p_reac st) (p_loss st) (p_gain st) = Ok pj' /\
     exists J', jacobian_numba pj' (species_count st) y ks = Some J' /\ J' (i, i) = J (i, i)) /\
  jacobian_numba pj (species_count st) y ks = Some J /\
  dget (s_ "NO") (p_sp2a st) = Some i /\ J (i, i) = (-2)%R /\
  derivable_pt_lim (fun t => component i (rhs_numba p1
      (snd (gen_loss_gain_numba (p_sp2a st) (p_loss st) (p_gain st)))
      (List.length m) (species_count st) ks (set_nth i t y))) (nth i y 0%R) (-4)%R.
Proof.
  assert (Hsafe : Forall products_safe coef_mech).
  { constructor; [|constructor]. left. split; [vm_compute; intuition discriminate |
      vm_compute; repeat constructor; cbn; intuition discriminate]. }
  assert (Hnd : Forall (fun r => NoDup (names (lhs r))) coef_mech).
  { constructor; [|constructor]. vm_compute. repeat constructor; cbn; intuition. }
  assert (Hco := written_coefs _ _ coef_written).
  destruct (gen_reactants_numba_ok _ _ _ _ (all_known_interp coef_mech)) as (p1 & Hg & _).
  set (y := [1%R; 1%R; 1%R]). set (ks := [1%R]).
  assert (Hst : state_ok coef_mech y) by (left; repeat constructor; lra).
  assert (HJ : forall ord, is_set_order ord -> exists pj', gen_jacobian_numba ord (p_sp2a (interp coef_mech)) (p_reac (interp coef_mech))
      (p_loss (interp coef_mech)) (p_gain (interp coef_mech)) = Ok pj' /\
     exists J', jacobian_numba pj' (List.length (species coef_mech)) y ks = Some J' /\ J' (0, 0) = (-2)%R).
  { intros ord Ho. destruct (gen_jacobian_numba_ok ord _ _ _ (p_gain (interp coef_mech)) Ho (known_all coef_mech)) as (pj & Hp & _).
    exists pj. split; [exact Hp|].
    destruct (jac_numba_parsed coef_mech ord pj y ks Hco Ho Hp eq_refl eq_refl Hst) as (J & H1 & H2 & _).
    exists J. split; [exact H1|]. rewrite (H2 (s_ "NO") 0 (s_ "NO") 0) by reflexivity.
    change (inb (s_ "NO") bath) with false. cbv iota. unfold jac_entry.
    change (combine coef_mech ks) with [(Rx [(2%Q, s_ "NO")] [(5 # 10, s_ "CO"); (1%Q, s_ "O3")]%Q (s_ "KA"), 1%R)].
    cbn [map rsum fst snd].
    match goal with |- context [inb ?a ?l] => change (inb a l) with true end. cbv iota.
    match goal with |- context [made ?a ?b] => change (made a b) with 0%R; change (used a b) with 1%R end.
    unfold slope_product. match goal with |- context [first_seen ?l] => change (first_seen l) with [s_ "NO"] end.
    cbn [map rprod]. change (str_eqb (s_ "NO") (s_ "NO")) with true. cbv iota.
    match goal with |- context [slope_written ?q ?c] => change c with 1%R; change (slope_written q 1) with (2 * 1)%R end. lra. }
  assert (Ho : is_set_order (fun _ l => first_seen l)) by (intros site l; apply first_seen_spec).
  destruct (HJ _ Ho) as (pj & Hp & J & H1 & H2).
  exists coef_mech, coef_text, (interp coef_mech), p1, pj, ks, y, 0, J.
  split; [exact coef_written|]. split; [exact Hsafe|]. split; [exact Hnd|].
  split; [apply written_extract, coef_written|]. split; [exact Hg|].
  unfold species_count. rewrite sp2a_length.
  split; [intros ord Hord; destruct (HJ ord Hord) as (pj' & A & J' & B & C); exists pj'; split; [exact A|]; exists J'; split; [exact B | congruence]|].
  split; [exact H1|]. split; [reflexivity|]. split; [exact H2|].
  assert (D := rhs_deriv coef_mech p1 ks y (s_ "NO") 0 (s_ "NO") 0 Hco Hsafe Hnd Hg eq_refl eq_refl).
  specialize (D ltac:(intros r s' Hr Hs'; left; destruct Hr as [<-|[]]; destruct Hs' as [<-|[]]; vm_compute; lra) eq_refl eq_refl).
  change (inb (s_ "NO") bath) with false in D. cbv iota in D.
  assert (E : true_entry coef_mech ks (conc_of (p_sp2a (interp coef_mech)) y) (s_ "NO") (s_ "NO") = (-4)%R).
  { unfold true_entry.
    change (combine coef_mech ks) with [(Rx [(2%Q, s_ "NO")] [(5 # 10, s_ "CO"); (1%Q, s_ "O3")]%Q (s_ "KA"), 1%R)].
    cbn [map rsum fst snd].
    match goal with |- context [inb ?a ?l] => change (inb a l) with true end. cbv iota.
    unfold slope_product. match goal with |- context [first_seen ?l] => change (first_seen l) with [s_ "NO"] end.
    cbn [map rprod]. change (str_eqb (s_ "NO") (s_ "NO")) with true. cbv iota.
    match goal with |- context [slope_true ?q ?c] => change c with 1%R end. rewrite slope_true_1.
    unfold net, Q2R; cbn. field. }
  rewrite E in D. exact D.
Qed.

(* The guard of C20_partial holds for every row of a mechanism with unit
   coefficients. *)
Example C20_hypotheses : Forall products_safe kin_mech /\ Forall (fun r => NoDup (names (lhs r))) kin_mech /\
  natural_reactants kin_mech /\ Forall (jac_ok (s_ "NO2")) kin_mech /\ Forall (jac_ok (s_ "HO2")) kin_mech.
Proof.
  split; [apply C16_hypotheses|]. split; [eapply Forall_impl; [|apply C16_hypotheses]; intros r [_ H]; exact H|].
  split.
  { intros r x Hr Hx. exists 1.
    repeat (destruct Hr as [<-|Hr]; [repeat (destruct Hx as [<-|Hx]; [reflexivity|]); destruct Hx|]). destruct Hr. }
  split; (repeat (apply Forall_cons; [|]); [..|constructor]);
    (right; split; [unfold net, once, Q2R; cbn; lra |
     right; intros x Hx; left; repeat (destruct Hx as [<-|Hx]; [reflexivity|]); destruct Hx]).
Qed.

(* ------------------------------------------------------------------ *)
(* C21 *)
Definition written_cells {C} (p : list (item C)) : list C :=
  flat_map (fun it => match it with Assign c _ => [c] | _ => [] end) p.

Lemma written_cells_assigns {C} (p : list (item C)) : written_cells p = map fst (assigns p).
Proof. induction p as [|[c e| | | |] p IH]; cbn; auto. f_equal. exact IH. Qed.

(* x is a reactant of a reaction that consumes s or whose product s the
   parser has recorded. *)
Definition linked (m : mech) (s x : str) : Prop :=
  exists r, In r m /\ In x (names (lhs r)) /\ (In s (names (lhs r)) \/ recorded_product r s).

Lemma cols_linked m ord s x : is_set_order ord ->
  In x (cols (p_reac (interp m)) (p_loss (interp m)) (p_gain (interp m)) ord s) <-> linked m s x.
Proof.
  intros Ho. rewrite cols_In by exact Ho. unfold linked. split.
  - intros (k & Hk & Hx). destruct (nth_error m k) as [r|] eqn:E; [|rewrite reac_empty in Hx by exact E; destruct Hx].
    rewrite (reactants_of_interp m k r E) in Hx. exists r. split; [eapply nth_error_In, E|]. split; [exact Hx|].
    destruct Hk as [Hk|Hk]; apply In_dkeys_srow in Hk as (q & Hq).
    + left. assert (G := interp_loss m s k). rewrite E, Hq in G. apply G.
    + right. rewrite interp_gain, E in Hq. apply code_gain_recorded. eauto.
  - intros (r & Hr & Hx & Hs). apply In_nth_error in Hr as (k & Hk). exists k.
    rewrite (reactants_of_interp m k r Hk). split; [|exact Hx]. destruct Hs as [Hs|Hs].
    + left. apply In_dkeys_srow. assert (G := interp_loss m s k). rewrite Hk in G.
      destruct (dget2 s k (p_loss (interp m))); [eauto|]. contradiction.
    + right. apply In_dkeys_srow. rewrite interp_gain, Hk. apply code_gain_recorded, Hs.
Qed.

Theorem C21_sparsity : forall m text ord, written m text -> is_set_order ord ->
  exists st prog, extract_mechanism text = Ok (Z.of_nat (List.length m), st) /\
    gen_jacobian_numba ord (p_sp2a st) (p_reac st) (p_loss st) (p_gain st) = Ok prog /\
    NoDup (written_cells prog) /\
    (forall i j, In (i, j) (written_cells prog) <->
       exists s x, dget s (p_sp2a st) = Some i /\ dget x (p_sp2a st) = Some j /\ ~ In s bath /\ linked m s x) /\
    (forall ks y J i j, jacobian_numba prog (species_count st) y ks = Some J ->
       ~ In (i, j) (written_cells prog) -> J (i, j) = 0%R).
Proof.
  intros m text ord W Ho.
  destruct (gen_jacobian_numba_ok ord _ _ _ (p_gain (interp m)) Ho (known_all m)) as (p & Hp & Ha).
  exists (interp m), p. split; [apply written_extract, W|]. split; [exact Hp|].
  assert (Wf := interp_lg_wf m).
  assert (Hc : forall i j, In (i, j) (written_cells p) <->
       exists s x, dget s (p_sp2a (interp m)) = Some i /\ dget x (p_sp2a (interp m)) = Some j /\ ~ In s bath /\ linked m s x).
  { intros i j. rewrite written_cells_assigns, Ha. rewrite in_map_iff. split.
    - intros ([c e] & Hce & Hin). cbn [fst] in Hce. subst c.
      apply In_jac_assigns in Hin as (s & i' & x & Hs & He & Hx & Heq & _). injection Heq as -> ->.
      exists s, x. rewrite !Nat.add_0_r. apply In_sp2a in Hs.
      split; [apply interp_sp2a, Hs|].
      assert (Hxi := cols_ix (p_sp2a (interp m)) _ _ _ ord Ho (known_all m) _ _ Hx).
      split; [apply interp_sp2a, In_sp2a, Hxi|].
      split; [rewrite excluded_bath in He by (eapply species_not_light, nth_error_In, Hs); apply inb_nIn, He|].
      apply (cols_linked m ord s x Ho), Hx.
    - intros (s & x & Hs & Hx & Hb & Hl).
      exists ((i, j), pr_terms (entry_terms 0 (p_sp2a (interp m)) (p_reac (interp m)) (p_loss (interp m)) (p_gain (interp m)) ord false s x)).
      split; [reflexivity|]. apply In_jac_assigns. exists s, i, x.
      split; [apply dget_Some_In, Hs|]. apply interp_sp2a in Hs.
      split; [rewrite excluded_bath by (eapply species_not_light, nth_error_In, Hs); apply inb_nIn, Hb|].
      split; [apply (cols_linked m ord s x Ho), Hl|]. split; [|reflexivity].
      unfold ix, dget_or. rewrite Hx, !Nat.add_0_r. reflexivity. }
  split; [|split; [exact Hc|]].
  - rewrite written_cells_assigns, Ha.
    exact (jac_cells_NoDup 0 _ _ _ _ _ _ Ho (known_all m) (fun _ => []) 0 eq_refl (or_introl eq_refl) (wf_vals _ _ _ _ _ Wf)).
  - intros ks y J i j HJ Hn. unfold jacobian_numba in HJ. rewrite run_is_assigns in HJ.
    assert (Hf := run_assigns_Some _ _ _ _ _ HJ).
    destruct (run_assigns_ok (cell2 0 (species_count (interp m))) (value python (py_env y ks)) (assigns p) zeros Hf) as (m' & H1 & H2 & _).
    rewrite HJ in H1. injection H1 as <-. rewrite H2; [reflexivity|].
    intros [a b] e Hin Hcell. apply Hn. rewrite written_cells_assigns. apply in_map_iff. exists ((a, b), e).
    split; [|exact Hin]. cbn [fst]. unfold cell2, cell, cell0 in Hcell. cbn [Nat.eqb fst snd] in Hcell.
    destruct (a <? species_count (interp m)); [|discriminate]. destruct (b <? species_count (interp m)); [|discriminate].
    injection Hcell as -> ->. reflexivity.
Qed.

(* ------------------------------------------------------------------ *)
(* C22 *)
Theorem C22_order_independent : forall m text ord1 ord2, written m text -> is_set_order ord1 -> is_set_order ord2 ->
  exists st p1 p2, extract_mechanism text = Ok (Z.of_nat (List.length m), st) /\
    gen_jacobian_numba ord1 (p_sp2a st) (p_reac st) (p_loss st) (p_gain st) = Ok p1 /\
    gen_jacobian_numba ord2 (p_sp2a st) (p_reac st) (p_loss st) (p_gain st) = Ok p2 /\
    forall ks y, List.length ks = List.length m -> List.length y = species_count st -> state_ok m y ->
      exists J1 J2, jacobian_numba p1 (species_count st) y ks = Some J1 /\
        jacobian_numba p2 (species_count st) y ks = Some J2 /\ forall i j, J1 (i, j) = J2 (i, j).
Proof.
  intros m text ord1 ord2 W Ho1 Ho2. assert (Hco := written_coefs m text W).
  destruct (gen_jacobian_numba_ok ord1 _ _ _ (p_gain (interp m)) Ho1 (known_all m)) as (p1 & Hp1 & _).
  destruct (gen_jacobian_numba_ok ord2 _ _ _ (p_gain (interp m)) Ho2 (known_all m)) as (p2 & Hp2 & _).
  exists (interp m), p1, p2. split; [apply written_extract, W|]. split; [exact Hp1|]. split; [exact Hp2|].
  intros ks y Hk Hy Hst. unfold species_count in *. rewrite sp2a_length in *.
  destruct (jac_numba_parsed m ord1 p1 y ks Hco Ho1 Hp1 Hy Hk Hst) as (J1 & H1 & H2 & H3).
  destruct (jac_numba_parsed m ord2 p2 y ks Hco Ho2 Hp2 Hy Hk Hst) as (J2 & G1 & G2 & G3).
  exists J1, J2. split; [exact H1|]. split; [exact G1|]. intros i j.
  destruct (nth_error (species m) i) as [s|] eqn:Ei.
  - destruct (nth_error (species m) j) as [x|] eqn:Ej.
    + rewrite (H2 s i x j Ei Ej), (G2 s i x j Ei Ej). reflexivity.
    + apply nth_error_None in Ej. rewrite H3, G3 by auto. reflexivity.
  - apply nth_error_None in Ei. rewrite H3, G3 by auto. reflexivity.
Qed.

(* ------------------------------------------------------------------ *)
(* C23 *)
Definition jac_singles (m : mech) : Prop := forall r s, In r m -> In s (names (lhs r)) ->
  single (total s (lhs r)) /\ ((2 < total s (lhs r))%Q -> single (total s (lhs r) - 1)).

Lemma single_proper q q' : q == q' -> single q -> single q'.
Proof.
  intros H (z & e & H1 & H2 & H3). exists z, e. split; [exact H1|]. split; [exact H2|]. rewrite <- H. exact H3.
Qed.

Lemma fortran_literals m rnd : is_rounding rnd -> jac_singles m -> literals_kept m (fortran rnd).
Proof.
  intros Hr Hs. split; [apply Hr, (single_nat 1); reflexivity|]. intros r s q Hin Hx Hq.
  destruct (Hs r s Hin Hx) as [H1 H2]. cbn [lit fortran]. split.
  - intros _. apply Hr. eapply single_proper; [symmetry; exact Hq | exact H1].
  - intros Hn. apply Hr. apply (single_proper (total s (lhs r) - 1)%Q).
    + rewrite Hq. reflexivity.
    + apply H2. apply Qnot_le_lt. rewrite <- Hq. exact Hn.
Qed.

Theorem C23_fortran_equals_numba : forall m text ord1 ord2 omp, written m text ->
  is_set_order ord1 -> is_set_order ord2 -> jac_singles m ->
  exists st p1 p2, extract_mechanism text = Ok (Z.of_nat (List.length m), st) /\
    gen_jacobian_numba ord1 (p_sp2a st) (p_reac st) (p_loss st) (p_gain st) = Ok p1 /\
    gen_jacobian_fortran ord2 omp (p_sp2a st) (p_reac st) (p_loss st) (p_gain st) = Ok p2 /\
    forall rnd ks y, is_rounding rnd -> List.length ks = List.length m -> List.length y = species_count st -> state_ok m y ->
      exists J1 J2, jacobian_numba p1 (species_count st) y ks = Some J1 /\
        jacobian_fortran rnd p2 (species_count st) y ks = Some J2 /\ forall i j, J1 (i, j) = J2 (i, j).
Proof.
  intros m text ord1 ord2 omp W Ho1 Ho2 Hs. assert (Hco := written_coefs m text W).
  destruct (gen_jacobian_numba_ok ord1 _ _ _ (p_gain (interp m)) Ho1 (known_all m)) as (p1 & Hp1 & _).
  destruct (gen_jacobian_fortran_ok ord2 omp _ _ _ (p_gain (interp m)) Ho2 (known_all m)) as (p2 & Hp2 & Ha2).
  exists (interp m), p1, p2. split; [apply written_extract, W|]. split; [exact Hp1|]. split; [exact Hp2|].
  intros rnd ks y Hr Hk Hy Hst. unfold species_count in *. rewrite sp2a_length in *.
  destruct (jac_numba_parsed m ord1 p1 y ks Hco Ho1 Hp1 Hy Hk Hst) as (J1 & H1 & H2 & H3).
  assert (Hloc : forall i, loc (fortran rnd) (i + 1) = Some i) by (intros i; rewrite Nat.add_1_r; reflexivity).
  destruct (jac_parsed m 1 (fortran rnd) ord2 true p2 y ks (or_intror eq_refl) Hloc Ho2 (fortran_literals m rnd Hr Hs) Hy Hk
              (state_powers m _ y Hco Hst) Ha2) as (J2 & G1 & G2 & G3).
  exists J1, J2. split; [exact H1|]. split; [exact G1|]. intros i j.
  destruct (nth_error (species m) i) as [s|] eqn:Ei.
  - destruct (nth_error (species m) j) as [x|] eqn:Ej.
    + rewrite (H2 s i x j Ei Ej), (G2 s i x j Ei Ej). reflexivity.
    + apply nth_error_None in Ej. rewrite H3, G3 by auto. reflexivity.
  - apply nth_error_None in Ei. rewrite H3, G3 by auto. reflexivity.
Qed.

Example C23_hypotheses : jac_singles coef_mech /\ jac_singles kin_mech /\
  is_set_order (fun _ l => first_seen l) /\ is_set_order (fun _ l => rev (first_seen l)) /\ is_rounding (fun q => q).
Proof.
  assert (S1 := single_nat 1 ltac:(reflexivity)). assert (S2 := single_nat 2 ltac:(reflexivity)).
  split; [|split; [|split; [|split]]].
  - intros r x Hr Hx. repeat (destruct Hr as [<-|Hr]; [|]); [..|destruct Hr];
      (repeat (destruct Hx as [<-|Hx]; [|]); [..|destruct Hx]);
      (split; [first [eapply single_proper; [|exact S1]; reflexivity | eapply single_proper; [|exact S2]; reflexivity] | intros H; vm_compute in H; discriminate]).
  - intros r x Hr Hx. repeat (destruct Hr as [<-|Hr]; [|]); [..|destruct Hr];
      (repeat (destruct Hx as [<-|Hx]; [|]); [..|destruct Hx]);
      (split; [first [eapply single_proper; [|exact S1]; reflexivity | eapply single_proper; [|exact S2]; reflexivity] | intros H; vm_compute in H; discriminate]).
  - intros site l; apply first_seen_spec.
  - intros site l; split; [apply NoDup_rev, first_seen_spec | intros x; rewrite <- in_rev; apply first_seen_spec].
  - intros q _. reflexivity.
Qed.

Print Assumptions C20_exact.
Print Assumptions C20_partial.
Print Assumptions C20_exactly_when.
Print Assumptions C20_refuted.
Print Assumptions C21_sparsity.
Print Assumptions C22_order_independent.
Print Assumptions C23_fortran_equals_numba.
