(* Derivatives of mass-action expressions and of the generated right-hand
   side with respect to one concentration. *)
From Coq Require Import String List Bool Arith Lia Permutation ZArith QArith Reals Qreals Lra.
From Verif Require Import Base PyStr PyDict ModelParse ModelLang ModelGen ModelRhs SpecMech SpecKin
  ParseStruct ParseWritten ParseTables LangFacts GenReact GenLossGain GenParsed GenSparse GenJac GenJacParsed
  PropsKin PropsRhs.
Import ListNotations.
Import Coq.Lists.List.
Open Scope nat_scope.
Open Scope list_scope.

(* The state vector with component j replaced. *)
Fixpoint set_nth (j : nat) (t : R) (y : list R) : list R :=
  match y, j with
  | [], _ => []
  | _ :: y', 0 => t :: y'
  | a :: y', S j' => a :: set_nth j' t y'
  end.

Lemma set_nth_length j t y : List.length (set_nth j t y) = List.length y.
Proof. revert j; induction y as [|a y IH]; intros [|j]; cbn; auto. Qed.
Lemma nth_set_nth j t y i d : j < List.length y -> nth i (set_nth j t y) d = if i =? j then t else nth i y d.
Proof.
  revert j i; induction y as [|a y IH]; intros j i H; [cbn in H; lia|].
  destruct j, i; cbn [set_nth nth Nat.eqb]; try reflexivity. apply IH. cbn in H; lia.
Qed.
Lemma set_nth_same j y : set_nth j (nth j y 0%R) y = y.
Proof. revert j; induction y as [|a y IH]; intros [|j]; cbn; auto. f_equal. apply IH. Qed.

Lemma conc_of_set m y j t x s : List.length y = List.length (species m) -> nth_error (species m) j = Some x ->
  conc_of (p_sp2a (interp m)) (set_nth j t y) s = if str_eqb s x then t else conc_of (p_sp2a (interp m)) y s.
Proof.
  intros Hy Hj. rewrite !conc_of_dget.
  assert (Hjl : j < List.length y) by (rewrite Hy; apply nth_error_Some; congruence).
  destruct (dget s (p_sp2a (interp m))) as [i|] eqn:E.
  - apply interp_sp2a in E. rewrite nth_set_nth by exact Hjl.
    destruct (Nat.eqb_spec i j) as [->|Hne].
    + assert (s = x) by congruence. subst. rewrite str_eqb_refl. reflexivity.
    + destruct (str_eqb s x) eqn:Es; [|reflexivity]. apply str_eqb_eq in Es; subst. exfalso. apply Hne.
      assert (Hnd := proj2 (proj2 (proj2 (interp_species m)))).
      apply (proj1 (NoDup_nth_error _) Hnd); [apply nth_error_Some; congruence | congruence].
  - destruct (str_eqb s x) eqn:Es; [|reflexivity]. apply str_eqb_eq in Es; subst.
    exfalso. apply interp_sp2a in Hj. congruence.
Qed.

(* ------------------------------------------------------------------ *)
Lemma deriv_ext_loc f g x l : (exists d, 0 < d /\ forall t, Rabs (t - x) < d -> f t = g t)%R ->
  derivable_pt_lim f x l -> derivable_pt_lim g x l.
Proof.
  intros (d & Hd & H) Hf eps He. destruct (Hf eps He) as (del & Hdel).
  assert (Hm : (0 < Rmin del d)%R) by (apply Rmin_glb_lt; [apply cond_pos | exact Hd]).
  exists (mkposreal _ Hm). cbn [pos]. intros h Hh Hlt.
  rewrite <- !H.
  - apply Hdel; [exact Hh|]. eapply Rlt_le_trans; [exact Hlt | apply Rmin_l].
  - rewrite Rminus_diag_eq by reflexivity. rewrite Rabs_R0. exact Hd.
  - replace (x + h - x)%R with h by ring. eapply Rlt_le_trans; [exact Hlt | apply Rmin_r].
Qed.

(* The power c^q is differentiable at c. *)
Definition smooth (c : R) (q : Q) : Prop := (0 < c)%R \/ exists n, q == inject_Z (Z.of_nat n).
Definition slope_true (q : Q) (c : R) : R := (Q2R q * rpow c (q - 1))%R.

Lemma rpow_pos_any c q : (0 < c)%R -> rpow c q = Rpower c (Q2R q).
Proof.
  intros Hc. unfold rpow. destruct (as_nat q) as [n|] eqn:E.
  - apply as_nat_spec in E. rewrite (Qeq_eqR _ _ E), Q2R_inject, <- INR_IZR_INZ, Rpower_pow by exact Hc. reflexivity.
  - destruct (Rlt_dec 0 c); [reflexivity | contradiction].
Qed.

Lemma rpow_deriv c q : smooth c q -> derivable_pt_lim (fun t => rpow t q) c (slope_true q c).
Proof.
  intros [Hc|(n & Hn)]; unfold slope_true.
  - rewrite rpow_pos_any by exact Hc. rewrite Q2R_minus. replace (Q2R 1) with 1%R by (unfold Q2R; cbn; field).
    eapply deriv_ext_loc; [|apply derivable_pt_lim_power, Hc].
    exists c. split; [exact Hc|]. intros t Ht. apply Rabs_def2 in Ht. symmetry. apply rpow_pos_any. lra.
  - eapply deriv_ext_loc; [|].
    { exists 1%R. split; [lra|]. intros t _. symmetry. apply rpow_nat, Hn. }
    rewrite (Qeq_eqR _ _ Hn), Q2R_inject, <- INR_IZR_INZ.
    destruct n as [|n].
    + cbn [INR]. rewrite Rmult_0_l. apply derivable_pt_lim_const.
    + rewrite (rpow_nat c (q - 1) n).
      * apply (derivable_pt_lim_pow c (S n)).
      * rewrite Hn, Nat2Z.inj_succ. unfold Qeq, inject_Z; cbn. lia.
Qed.

Lemma rprod_deriv (c : str -> R) (q : str -> Q) x l : NoDup l -> smooth (c x) (q x) ->
  derivable_pt_lim (fun t => rprod (map (fun s => rpow (if str_eqb s x then t else c s) (q s)) l)) (c x)
    (if inb x l then rprod (map (fun s => if str_eqb s x then slope_true (q x) (c x) else rpow (c s) (q s)) l) else 0%R).
Proof.
  intros Hnd Hs. induction Hnd as [|a l Ha Hnd IH]; cbn [map rprod inb existsb].
  - apply derivable_pt_lim_const.
  - fold (inb x l) in *.
    assert (Hconst : ~ In x l -> forall t, map (fun s => rpow (if str_eqb s x then t else c s) (q s)) l =
                                            map (fun s => if str_eqb s x then slope_true (q x) (c x) else rpow (c s) (q s)) l).
    { intros Hx t. apply map_ext_in. intros s Hin. destruct (str_eqb s x) eqn:E; [|reflexivity].
      apply str_eqb_eq in E; subst; contradiction. }
    change (eqb x a) with (str_eqb x a). destruct (str_eqb a x) eqn:E.
    + apply str_eqb_eq in E; subst a. rewrite str_eqb_refl. cbn [orb].
      set (P := rprod (map (fun s => if str_eqb s x then slope_true (q x) (c x) else rpow (c s) (q s)) l)).
      eapply deriv_ext_loc; [exists 1%R; split; [lra|]; intros t _; rewrite (Hconst Ha t); fold P; apply Rmult_comm|].
      rewrite (Rmult_comm _ P). apply (derivable_pt_lim_scal (fun t => rpow t (q x)) P). apply rpow_deriv, Hs.
    + assert (E2 : str_eqb x a = false) by (apply str_eqb_neq; apply str_eqb_neq in E; congruence).
      rewrite E2. cbn [orb].
      assert (G : derivable_pt_lim (fun t => rpow (c a) (q a) * rprod (map (fun s => rpow (if str_eqb s x then t else c s) (q s)) l))%R (c x)
        (rpow (c a) (q a) * (if inb x l then rprod (map (fun s => if str_eqb s x then slope_true (q x) (c x) else rpow (c s) (q s)) l) else 0))%R).
      { apply (derivable_pt_lim_scal (fun t => rprod (map (fun s => rpow (if str_eqb s x then t else c s) (q s)) l)) (rpow (c a) (q a))), IH. }
      destruct (inb x l); [exact G|]. rewrite Rmult_0_r in G. exact G.
Qed.

Lemma mass_action_deriv (c : str -> R) ts x : (In x (names ts) -> smooth (c x) (total x ts)) ->
  derivable_pt_lim (fun t => mass_action (fun s => if str_eqb s x then t else c s) ts) (c x)
    (if inb x (names ts) then slope_product slope_true c ts x else 0%R).
Proof.
  intros Hs. unfold mass_action, slope_product.
  assert (Hin : inb x (first_seen (names ts)) = inb x (names ts)).
  { destruct (inb x (names ts)) eqn:E; [apply inb_In, (proj2 (first_seen_spec _)), inb_In, E|].
    apply inb_nIn. apply inb_nIn in E. intros H. apply E, (proj2 (first_seen_spec _)), H. }
  destruct (inb x (names ts)) eqn:E.
  - apply inb_In in E.
    assert (D := rprod_deriv c (fun s => total s ts) x (first_seen (names ts)) (proj1 (first_seen_spec _)) (Hs E)).
    rewrite Hin in D. exact D.
  - eapply deriv_ext_loc; [|apply (derivable_pt_lim_const (rprod (map (fun s => rpow (c s) (total s ts)) (first_seen (names ts)))))].
    exists 1%R. split; [lra|]. intros t _. unfold fct_cte. f_equal. apply map_ext_in. intros s H.
    destruct (str_eqb s x) eqn:Es; [|reflexivity]. apply str_eqb_eq in Es; subst. apply inb_nIn in Hin. contradiction.
Qed.

Lemma rsum_deriv {A} (F : A -> R -> R) (D : A -> R) l x : (forall a, In a l -> derivable_pt_lim (F a) x (D a)) ->
  derivable_pt_lim (fun t => rsum (map (fun a => F a t) l)) x (rsum (map D l)).
Proof.
  induction l as [|a l IH]; intros H; cbn [map rsum]; [apply derivable_pt_lim_const|].
  apply (derivable_pt_lim_plus (F a) (fun t => rsum (map (fun a => F a t) l))); [apply H; left; reflexivity|].
  apply IH. intros; apply H; right; assumption.
Qed.

(* ------------------------------------------------------------------ *)
(* The right-hand side of a mechanism in which no reactant is repeated. *)
Definition code_kinetics (m : mech) (ks : list R) (c : str -> R) (s : str) : R :=
  rsum (map (fun rk => net s (fst rk) *
    ((if only_light (lhs (fst rk)) then 0 else mass_action c (lhs (fst rk))) * snd rk))%R (combine m ks)).

Lemma rhs_numba_parsed m p1 ks y : coefs_ok m -> Forall products_safe m -> Forall (fun r => NoDup (names (lhs r))) m ->
  gen_reactants_numba (List.length m) (p_sp2a (interp m)) (p_reac (interp m)) (p_loss (interp m)) = Ok p1 ->
  List.length ks = List.length m -> List.length y = List.length (species m) ->
  powers_ok m (conc_of (p_sp2a (interp m)) y) ->
  rhs_numba p1 (snd (gen_loss_gain_numba (p_sp2a (interp m)) (p_loss (interp m)) (p_gain (interp m))))
    (List.length m) (List.length (species m)) ks y =
  Some (map (fun s => if inb s bath then 0%R else code_kinetics m ks (conc_of (p_sp2a (interp m)) y) s) (species m)).
Proof.
  intros Hco Hsafe Hnd Hg Hks Hy Hpw.
  destruct (gen_reactants_numba_ok _ _ _ _ (all_known_interp m)) as (prog & Hg' & Ha).
  rewrite Hg in Hg'. injection Hg' as <-.
  unfold rhs_numba, reactants_numba. rewrite (products_vec_gen m 0 python zeros p1 y); auto.
  - rewrite dydt_numba_parsed.
    + f_equal. apply map_ext_in. intros s Hs. destruct (inb s bath); [reflexivity|].
      rewrite table_rate_net; [| exact Hsafe | eapply species_not_light, Hs|].
      * unfold net_rate, code_kinetics.
        apply (combine_multiply m (conc_of (p_sp2a (interp m)) y)
          (fun r => if only_light (lhs r) then 0 else mass_action (conc_of (p_sp2a (interp m)) y) (lhs r))%R); [|apply array_length | exact Hks].
        intros k r Hr. unfold products. rewrite nth_error_array by (apply nth_error_Some; congruence).
        rewrite Hr. rewrite Forall_forall in Hnd. rewrite written_product_nodup by (apply Hnd; eapply nth_error_In, Hr).
        reflexivity.
      * rewrite multiply_length; [exact Hks|]. unfold products. rewrite array_length. symmetry. exact Hks.
    + rewrite multiply_length; [exact Hks|]. unfold products. rewrite array_length. symmetry. exact Hks.
    + intros s Hs _. apply safe_has_entry; assumption.
  - intros i. cbn. rewrite ?Nat.add_0_r. reflexivity.
Qed.

(* Its derivative. *)
Definition true_entry (m : mech) (ks : list R) (c : str -> R) (s x : str) : R :=
  rsum (map (fun rk => net s (fst rk) *
    ((if inb x (names (lhs (fst rk))) then slope_product slope_true c (lhs (fst rk)) x else 0) * snd rk))%R (combine m ks)).

Lemma only_light_notin ts x : only_light ts = true -> inb x (names ts) = false.
Proof. unfold only_light. destruct (names ts); [reflexivity | discriminate]. Qed.

Lemma code_kinetics_deriv m ks c s x :
  (forall r, In r m -> In x (names (lhs r)) -> smooth (c x) (total x (lhs r))) ->
  derivable_pt_lim (fun t => code_kinetics m ks (fun s' => if str_eqb s' x then t else c s') s) (c x)
    (true_entry m ks c s x).
Proof.
  intros Hs. unfold code_kinetics, true_entry.
  apply (rsum_deriv (fun rk t => net s (fst rk) *
    ((if only_light (lhs (fst rk)) then 0 else mass_action (fun s' => if str_eqb s' x then t else c s') (lhs (fst rk))) * snd rk))%R).
  intros [r k] Hin. cbn [fst snd]. apply in_combine_l in Hin.
  eapply deriv_ext_loc with (f := fun t => ((net s r * k) * (if only_light (lhs r) then 0 else mass_action (fun s' => if str_eqb s' x then t else c s') (lhs r)))%R);
    [exists 1%R; split; [lra|]; intros; ring|].
  rewrite (Rmult_comm (if inb x (names (lhs r)) then _ else _) k), <- Rmult_assoc.
  apply derivable_pt_lim_scal. destruct (only_light (lhs r)) eqn:E.
  - rewrite (only_light_notin _ x E). apply derivable_pt_lim_const.
  - apply mass_action_deriv. apply Hs, Hin.
Qed.

Definition component (i : nat) (o : option (list R)) : R := match o with Some v => nth i v 0%R | None => 0%R end.

Lemma smooth_pow c q : (0 <= q)%Q -> smooth c q -> pow_ok c q.
Proof. intros Hq [Hc|(n & Hn)]; [apply pow_ok_nonneg; [lra | exact Hq] | eapply pow_ok_nat, Hn]. Qed.

(* All powers stay defined for small changes of one concentration. *)
Lemma code_kinetics_ext m ks c c' s : (forall x, c x = c' x) -> code_kinetics m ks c s = code_kinetics m ks c' s.
Proof.
  intros H. unfold code_kinetics. apply rsum_ext. intros [r k] _. cbn [fst snd].
  assert (E : mass_action c (lhs r) = mass_action c' (lhs r)).
  { unfold mass_action. f_equal. apply map_ext. intros a. rewrite H. reflexivity. }
  rewrite E. reflexivity.
Qed.

Lemma rhs_deriv m p1 ks y s i x j : coefs_ok m -> Forall products_safe m -> Forall (fun r => NoDup (names (lhs r))) m ->
  gen_reactants_numba (List.length m) (p_sp2a (interp m)) (p_reac (interp m)) (p_loss (interp m)) = Ok p1 ->
  List.length ks = List.length m -> List.length y = List.length (species m) ->
  (forall r s', In r m -> In s' (names (lhs r)) -> smooth (conc_of (p_sp2a (interp m)) y s') (total s' (lhs r))) ->
  nth_error (species m) i = Some s -> nth_error (species m) j = Some x ->
  derivable_pt_lim (fun t => component i (rhs_numba p1
      (snd (gen_loss_gain_numba (p_sp2a (interp m)) (p_loss (interp m)) (p_gain (interp m))))
      (List.length m) (List.length (species m)) ks (set_nth j t y))) (nth j y 0%R)
    (if inb s bath then 0%R else true_entry m ks (conc_of (p_sp2a (interp m)) y) s x).
Proof.
  intros Hco Hsafe Hnd Hg Hks Hy Hsm Hi Hj.
  set (c := conc_of (p_sp2a (interp m)) y).
  assert (Hcx : nth j y 0%R = c x).
  { unfold c. rewrite conc_of_dget. apply interp_sp2a in Hj. rewrite Hj. reflexivity. }
  rewrite Hcx.
  (* neighbourhood in which powers are defined *)
  assert (Hd : exists d, (0 < d)%R /\ forall t, (Rabs (t - c x) < d)%R ->
    powers_ok m (conc_of (p_sp2a (interp m)) (set_nth j t y))).
  { destruct (Rlt_dec 0 (c x)) as [Hpos|Hneg].
    - exists (c x). split; [exact Hpos|]. intros t Ht r s' Hr Hs'. rewrite (conc_of_set m y j t x s' Hy Hj).
      assert (H0 : (0 <= total s' (lhs r))%Q).
      { apply In_nth_error in Hr as (k & Hk). apply total_nonneg', (coefs_nth m k r Hco Hk). }
      destruct (str_eqb s' x); [apply pow_ok_nonneg; [apply Rabs_def2 in Ht; lra | exact H0]|].
      apply smooth_pow; [exact H0 | apply Hsm; assumption].
    - exists 1%R. split; [lra|]. intros t _ r s' Hr Hs'. rewrite (conc_of_set m y j t x s' Hy Hj).
      assert (H0 : (0 <= total s' (lhs r))%Q).
      { apply In_nth_error in Hr as (k & Hk). apply total_nonneg', (coefs_nth m k r Hco Hk). }
      destruct (str_eqb s' x) eqn:E; [|apply smooth_pow; [exact H0 | apply Hsm; assumption]].
      apply str_eqb_eq in E; subst. destruct (Hsm r x Hr Hs') as [H|(n & Hn)]; [contradiction | eapply pow_ok_nat, Hn]. }
  destruct Hd as (d & Hd & Hp).
  eapply deriv_ext_loc with (f := fun t => if inb s bath then 0%R else code_kinetics m ks (fun s' => if str_eqb s' x then t else c s') s).
  - exists d. split; [exact Hd|]. intros t Ht.
    rewrite (rhs_numba_parsed m p1 ks (set_nth j t y)); auto; [|rewrite set_nth_length; exact Hy].
    cbn [component].
    rewrite (nth_error_nth _ i 0%R (map_nth_error _ _ _ Hi)).
    destruct (inb s bath); [reflexivity|]. apply code_kinetics_ext. intros s'. unfold c.
    rewrite (conc_of_set m y j t x s' Hy Hj). reflexivity.
  - destruct (inb s bath); [apply derivable_pt_lim_const|].
    apply code_kinetics_deriv. intros r Hr Hx. apply Hsm; assumption.
Qed.
