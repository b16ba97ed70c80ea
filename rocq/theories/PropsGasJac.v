(* C70: the Jacobian the gas-phase driver gives to the solver, from the text of
   the mechanism on, against the derivative of the right-hand side it gives. *)
From Coq Require Import String List Bool Arith Lia ZArith QArith Reals Lra.
From Verif Require Import Base PyStr PyDict ModelParse SpecMech ParseStruct ParseTables ParseWritten ParseShow PropsParse
  ModelLang ModelGen ModelRhs SpecKin LangFacts GenReact GenLossGain GenParsed PropsKin PropsRhs GenJac GenJacParsed JacDeriv PropsJac
  ModelExpr ModelRate ModelRateFile SpecRate RateExpr PropsRate ModelRateBody ModelRateRun RateSym
  SpecRateValue SpecMcmEnv PropsRateValue ModelRo2 SpecRo2 PropsRo2 ModelGas SpecGas PropsGas ModelGasJac.
Import ListNotations.
Import Coq.Lists.List.
Open Scope nat_scope.
Open Scope list_scope.
Local Arguments eqb : simpl never.

(* The total changes with one concentration if that is a peroxy radical. *)
Lemma peroxy_total_set sp (c : str -> R) x z : NoDup sp -> In x sp ->
  peroxy_total sp (fun s => if str_eqb s x then z else c s) = (peroxy_total sp c + (if is_peroxy x then z - c x else 0))%R.
Proof.
  unfold peroxy_total. induction sp as [|a sp IH]; [contradiction|]. intros Hnd Hin. inversion Hnd as [|? ? Ha Hnd']; subst. cbn [map rsum].
  destruct Hin as [->|Hin].
  - rewrite str_eqb_refl.
    assert (E : rsum (map (fun s => if is_peroxy s then if str_eqb s x then z else c s else 0%R) sp) = rsum (map (fun s => if is_peroxy s then c s else 0%R) sp)).
    { apply rsum_ext. intros s Hs. destruct (str_eqb s x) eqn:Ex; [|reflexivity]. apply str_eqb_eq in Ex. subst s. contradiction. }
    rewrite E. destruct (is_peroxy x); ring.
  - assert (Ex : str_eqb a x = false) by (apply str_eqb_neq; intros ->; contradiction). rewrite Ex, (IH Hnd' Hin). ring.
Qed.

Lemma kinetics_seq m (v : nat -> R) c s :
  kinetics m (map v (seq 0 (List.length m))) c s =
  rsum (map (fun rk => net s (fst rk) * (mass_action c (lhs (fst rk)) * v (snd rk)))%R (combine m (seq 0 (List.length m)))).
Proof.
  unfold kinetics. generalize (seq 0 (List.length m)). induction m as [|r m IH]; intros [|k l]; cbn [map combine rsum fst snd]; try reflexivity. rewrite IH. reflexivity.
Qed.
Lemma true_entry_seq m (v : nat -> R) c s x :
  true_entry m (map v (seq 0 (List.length m))) c s x =
  rsum (map (fun rk => net s (fst rk) * ((if inb x (names (lhs (fst rk))) then slope_product slope_true c (lhs (fst rk)) x else 0) * v (snd rk)))%R (combine m (seq 0 (List.length m)))).
Proof.
  unfold true_entry. generalize (seq 0 (List.length m)). induction m as [|r m IH]; intros [|k l]; cbn [map combine rsum fst snd]; try reflexivity. rewrite IH. reflexivity.
Qed.
Lemma mass_action_ext c c' ts : (forall x, c x = c' x) -> mass_action c ts = mass_action c' ts.
Proof. intros H. unfold mass_action. f_equal. apply map_ext. intros a. rewrite H. reflexivity. Qed.

(* Total derivative of the mass-action expression whose rates depend on z too. *)
Lemma kinetics_total_deriv m (v : R -> nat -> R) (dv : nat -> R) c s x :
  (forall r, In r m -> In x (names (lhs r)) -> smooth (c x) (total x (lhs r))) ->
  (forall k, k < List.length m -> derivable_pt_lim (fun z => v z k) (c x) (dv k)) ->
  derivable_pt_lim (fun z => kinetics m (map (v z) (seq 0 (List.length m))) (fun s' => if str_eqb s' x then z else c s') s) (c x)
    (true_entry m (map (v (c x)) (seq 0 (List.length m))) c s x + kinetics m (map dv (seq 0 (List.length m))) c s)%R.
Proof.
  intros Hs Hv. rewrite true_entry_seq, kinetics_seq.
  replace (rsum _ + rsum _)%R with
    (rsum (map (fun rk => net s (fst rk) * ((if inb x (names (lhs (fst rk))) then slope_product slope_true c (lhs (fst rk)) x else 0) * v (c x) (snd rk) +
       mass_action c (lhs (fst rk)) * dv (snd rk)))%R (combine m (seq 0 (List.length m))))).
  2:{ induction (combine m (seq 0 (List.length m))) as [|a l IH]; cbn [map rsum]; [ring|]. rewrite IH. ring. }
  eapply deriv_ext_loc.
  { exists 1%R. split; [lra|]. intros z _. symmetry. apply kinetics_seq. }
  apply (rsum_deriv (fun rk z => net s (fst rk) * (mass_action (fun s' => if str_eqb s' x then z else c s') (lhs (fst rk)) * v z (snd rk)))%R).
  intros [r k] Hin. cbn [fst snd]. assert (Hr := in_combine_l _ _ _ _ Hin). assert (Hk := in_combine_r _ _ _ _ Hin). apply in_seq in Hk.
  apply derivable_pt_lim_scal with (f := fun z => (mass_action (fun s' => if str_eqb s' x then z else c s') (lhs r) * v z k)%R).
  assert (E : mass_action c (lhs r) = mass_action (fun s' => if str_eqb s' x then c x else c s') (lhs r)).
  { apply mass_action_ext. intros s'. destruct (str_eqb s' x) eqn:E; [apply str_eqb_eq in E; subst; reflexivity | reflexivity]. }
  rewrite E. apply (derivable_pt_lim_mult (fun z => mass_action (fun s' => if str_eqb s' x then z else c s') (lhs r)) (fun z => v z k)); [|apply Hv; lia].
  apply mass_action_deriv. intros Hx. apply Hs; assumption.
Qed.

Theorem C70_exact : forall m text e ord, written m text -> is_set_order ord ->
  Forall products_safe m -> Forall distinct_reactants m -> peroxy_clean (first_seen (reading_order m)) ->
  exists st, extract_mechanism text = Ok (Z.of_nat (List.length m), st) /\
  forall start_time t H2O T y v dv d, (0 < T)%R -> (0 <= H2O)%R -> (0 < d)%R ->
    let sp := first_seen (reading_order m) in let c := conc_of (p_sp2a st) y in let ro := peroxy_total sp c in
    List.length y = List.length sp -> Forall (fun a => 0 < a)%R y ->
    (forall r, (Rabs (r - ro) < d)%R -> coefficients m e (start_time + t) r H2O T (v r)) ->
    (forall k, k < List.length m -> derivable_pt_lim (fun r => v r k) ro (dv k)) ->
    exists J, gas_jac_numba ord st (List.length m) start_time t H2O T y = Some J /\
      forall i s j x, nth_error sp i = Some s -> nth_error sp j = Some x -> In s bath \/ Forall (jac_ok s) m ->
        derivable_pt_lim (fun z => component i (gas_dydt_numba st (List.length m) start_time t H2O T (set_nth j z y))) (nth j y 0%R)
          (J (i, j) + (if is_peroxy x && negb (inb s bath) then kinetics m (map dv (seq 0 (List.length m))) c s else 0))%R.
Proof.
  intros m text e ord W Ho Hsafe Hd P.
  destruct (C59_partial m text e W Hsafe Hd P) as (st & E & HR). exists st. split; [exact E|].
  assert (Est : st = interp m) by (assert (X := written_extract _ _ W); rewrite E in X; congruence). subst st.
  intros t0 t H2O T y v dv d HT HH Hdd sp c ro Hy Hpos HC Hdv.
  assert (Hco := written_coefs m text W).
  assert (HC0 : coefficients m e (t0 + t) ro H2O T (v ro)) by (apply HC; replace (ro - ro)%R with 0%R by ring; rewrite Rabs_R0; exact Hdd).
  destruct (gen_jacobian_numba_ok ord _ _ _ (p_gain (interp m)) Ho (known_all m)) as (pj & Hp & _).
  assert (Hst : state_ok m y) by (left; eapply Forall_impl; [|exact Hpos]; intros a Ha; cbv beta in *; lra).
  destruct (jac_numba_parsed m ord pj y (map (v ro) (seq 0 (List.length m))) Hco Ho Hp Hy ltac:(rewrite map_length, seq_length; reflexivity) Hst) as (J & H1 & H2 & _).
  exists J. split.
  { unfold gas_jac_numba. destruct P as (P1 & P2 & P3 & P4). rewrite (C33_partial m text (interp m) W E P1 P2 P3 P4 y Hy). fold c. fold sp. fold ro. rewrite Hp.
    destruct (C58_partial m text e (v ro) (t0 + t) ro H2O T W HT HH HC0) as (st' & en & ef & E' & En & _ & Hr & _).
    rewrite E in E'. injection E' as <-. rewrite En. cbn [obind]. rewrite Hr. cbn [obind]. rewrite Hy. exact H1. }
  intros i s j x Hi Hj Hs.
  assert (Hcx : nth j y 0%R = c x) by (unfold c; rewrite conc_of_dget; rewrite (proj2 (interp_sp2a m x j) Hj); reflexivity).
  assert (Hcset : forall z s', conc_of (p_sp2a (interp m)) (set_nth j z y) s' = if str_eqb s' x then z else c s') by (intros z s'; unfold c; apply conc_of_set; assumption).
  assert (Px : (0 < c x)%R) by (rewrite <- Hcx; apply (proj1 (Forall_forall _ _) Hpos), nth_In; rewrite Hy; apply nth_error_Some; congruence).
  assert (NDsp : NoDup sp) by apply first_seen_NoDup. assert (Hinx : In x sp) by (apply nth_error_In in Hj; exact Hj).
  set (rz := fun z => (ro + (if is_peroxy x then z - c x else 0))%R).
  assert (Hrz : forall z, peroxy_total sp (conc_of (p_sp2a (interp m)) (set_nth j z y)) = rz z).
  { intros z. unfold rz, ro. rewrite <- (peroxy_total_set sp c x z NDsp Hinx). unfold peroxy_total. apply rsum_ext. intros s' _. rewrite Hcset. reflexivity. }
  assert (Drz : derivable_pt_lim rz (c x) (if is_peroxy x then 1 else 0)%R).
  { unfold rz. destruct (is_peroxy x).
    - assert (X : derivable_pt_lim (fun z => ro + (z - c x))%R (c x) (0 + (1 - 0))%R).
      { apply (derivable_pt_lim_plus (fun _ => ro) (fun z => z - c x)%R); [apply derivable_pt_lim_const|].
        apply (derivable_pt_lim_minus (fun z : R => z) (fun _ : R => c x)); [apply derivable_pt_lim_id | apply derivable_pt_lim_const]. }
      replace (0 + (1 - 0))%R with 1%R in X by ring. exact X.
    - apply derivable_pt_lim_const. }
  assert (R0 : rz (c x) = ro) by (unfold rz; destruct (is_peroxy x); ring).
  rewrite Hcx.
  eapply deriv_ext_loc with (f := fun z => if inb s bath then 0%R else kinetics m (map (v (rz z)) (seq 0 (List.length m))) (fun s' => if str_eqb s' x then z else c s') s).
  { exists (Rmin d (c x)). split; [apply Rmin_glb_lt; assumption|]. intros z Hz.
    assert (Z1 : (Rabs (z - c x) < d)%R) by (eapply Rlt_le_trans; [exact Hz | apply Rmin_l]).
    assert (Z2 : (Rabs (z - c x) < c x)%R) by (eapply Rlt_le_trans; [exact Hz | apply Rmin_r]). apply Rabs_def2 in Z2.
    destruct (HR t0 t H2O T (set_nth j z y) (v (rz z)) HT HH) as (dy & Hdy & Ldy & Vdy).
    - rewrite set_nth_length. exact Hy.
    - apply Forall_forall. intros a Ha. apply In_nth with (d := 0%R) in Ha as (k & Hk & <-). rewrite set_nth_length in Hk.
      rewrite nth_set_nth by (rewrite Hy; apply nth_error_Some; congruence). destruct (k =? j); [lra|]. left. apply (proj1 (Forall_forall _ _) Hpos), nth_In, Hk.
    - fold sp. rewrite Hrz. apply HC. unfold rz. destruct (is_peroxy x); [replace (ro + (z - c x) - ro)%R with (z - c x)%R by ring; exact Z1|].
      replace (ro + 0 - ro)%R with 0%R by ring. rewrite Rabs_R0. exact Hdd.
    - rewrite Hdy. cbn [component]. rewrite (nth_error_nth _ _ 0%R (Vdy i s Hi)). unfold expected. destruct (inb s bath); [reflexivity|].
      rewrite !kinetics_seq. apply rsum_ext. intros [r k] _. cbn [fst snd]. rewrite (mass_action_ext _ _ _ (Hcset z)). reflexivity. }
  rewrite (H2 s i x j Hi Hj).
  destruct (inb s bath) eqn:Eb. { cbn [negb]. rewrite andb_false_r. replace (0 + 0)%R with 0%R by ring. apply derivable_pt_lim_const. }
  cbn [negb]. rewrite andb_true_r. rewrite jac_entry_true; [|exact Hsafe | destruct Hs as [Hs|Hs]; [apply inb_In in Hs; congruence | exact Hs]].
  assert (D := kinetics_total_deriv m (fun z => v (rz z)) (fun k => (if is_peroxy x then 1 else 0) * dv k)%R c s x).
  cbv beta in D. rewrite R0 in D.
  replace (if is_peroxy x then kinetics m (map dv (seq 0 (List.length m))) c s else 0)%R with
    (kinetics m (map (fun k => (if is_peroxy x then 1 else 0) * dv k)%R (seq 0 (List.length m))) c s).
  2:{ rewrite !kinetics_seq. destruct (is_peroxy x); [apply rsum_ext; intros rk _; ring | apply rsum_zero; intros rk _; ring]. }
  apply D.
  - intros r Hr Hx. left. exact Px.
  - intros k Hk. rewrite Rmult_comm. apply (derivable_pt_lim_comp rz (fun r => v r k)); [exact Drz | rewrite R0; apply Hdv, Hk].
Qed.

(* No rate expression of the mechanism reads RO2. *)
Fixpoint mentions (x : str) (e : rexpr) : Prop :=
  match e with
  | RLit _ _ | RPhot _ => False
  | RVar y => y = x
  | RExp e | RParen e | RNeg e => mentions x e
  | RBin _ a b => mentions x a \/ mentions x b
  end.

Lemma mcm_var_other r r' H2O T x : x <> s_ "RO2" -> mcm_var r H2O T x = mcm_var r' H2O T x.
Proof.
  intros Hx. unfold mcm_var, mcm_names. cbn [app find fst].
  assert (E : eqb x (s_ "RO2") = false) by (apply str_eqb_neq, Hx). rewrite E.
  destruct (eqb x (s_ "TEMP")); [reflexivity|]. destruct (eqb x (s_ "H2O")); reflexivity.
Qed.
Lemma means_other r r' H2O T ttime e v : ~ mentions (s_ "RO2") e ->
  means (mcm_var r H2O T) (mcm_J ttime) e v -> means (mcm_var r' H2O T) (mcm_J ttime) e v.
Proof.
  intros Hn H. revert Hn. induction H; cbn [mentions]; intros Hn; try (econstructor; solve [eauto]).
  apply m_var. rewrite <- H. apply mcm_var_other. intros ->. apply Hn. reflexivity.
Qed.

(* Where no rate depends on RO2, the function given as the Jacobian is the
   derivative of the one given as the right-hand side (rows as in C20). *)
Theorem C70_partial : forall m text e ord, written m text -> is_set_order ord ->
  Forall products_safe m -> Forall distinct_reactants m -> peroxy_clean (first_seen (reading_order m)) ->
  (forall k, k < List.length m -> ~ mentions (s_ "RO2") (e k)) ->
  exists st, extract_mechanism text = Ok (Z.of_nat (List.length m), st) /\
  forall start_time t H2O T y v, (0 < T)%R -> (0 <= H2O)%R ->
    let sp := first_seen (reading_order m) in
    List.length y = List.length sp -> Forall (fun a => 0 < a)%R y ->
    coefficients m e (start_time + t) (peroxy_total sp (conc_of (p_sp2a st) y)) H2O T v ->
    exists J, gas_jac_numba ord st (List.length m) start_time t H2O T y = Some J /\
      forall i s j x, nth_error sp i = Some s -> nth_error sp j = Some x -> In s bath \/ Forall (jac_ok s) m ->
        derivable_pt_lim (fun z => component i (gas_dydt_numba st (List.length m) start_time t H2O T (set_nth j z y))) (nth j y 0%R) (J (i, j)).
Proof.
  intros m text e ord W Ho Hs Hd P Hm. destruct (C70_exact m text e ord W Ho Hs Hd P) as (st & E & H). exists st. split; [exact E|].
  intros t0 t H2O T y v HT HH sp Hy Hp HC.
  destruct (H t0 t H2O T y (fun _ => v) (fun _ => 0%R) 1%R HT HH Rlt_0_1 Hy Hp) as (J & HJ & D).
  - intros r _ k rx Hk. destruct (HC k rx Hk) as (A1 & A2 & A3 & A4 & A5). repeat (split; [assumption|]).
    eapply means_other; [|exact A5]. apply Hm. apply nth_error_Some. congruence.
  - intros k _. apply derivable_pt_lim_const.
  - exists J. split; [exact HJ|]. intros i s j x Hi Hj Hok. assert (D1 := D i s j x Hi Hj Hok).
    replace (J (i, j) + _)%R with (J (i, j)) in D1; [exact D1|].
    assert (Z : kinetics m (map (fun _ => 0%R) (seq 0 (List.length m))) (conc_of (p_sp2a st) y) s = 0%R).
    { rewrite (kinetics_seq m (fun _ => 0%R)). apply rsum_zero. intros rk _. ring. }
    destruct (is_peroxy x && negb (inb s bath)); [rewrite Z|]; ring.
Qed.

(* C70 fails as soon as a rate depends on RO2: in the mechanism of
   C59_hypotheses (CH3O2 = CH3O : 1.82D-13*RO2) the entry of CH3O2 for itself
   is too small by 1.82e-13 [CH3O2], the concentration being free. *)
Definition gas_v (ttime T r : R) (k : nat) : R :=
  match k with
  | 0 => (2.3e-12 * exp (360 / T))%R
  | 1 => match mcm_J ttime 11 with Some j => j | None => 0%R end
  | _ => (1.82e-13 * r)%R
  end.
Lemma lit_value var J mt ex q v : read_literal kpp_letter (show kpp (RLit mt ex)) = Some q -> Q2R q = v -> means var J (RLit mt ex) v.
Proof. intros H <-. apply m_lit, H. Qed.
Lemma gas_coefficients ttime r H2O T : (0 < T)%R -> coefficients gas_mech gas_expr ttime r H2O T (gas_v ttime T r).
Proof.
  intros HT k rx Hk. destruct C59_hypotheses as (_ & _ & _ & _ & _ & _ & Co). destruct (Co ttime r H2O T HT) as (v & Hv).
  destruct (Hv k rx Hk) as (A1 & A2 & A3 & A4 & _). repeat (split; [assumption|]).
  destruct k as [|[|[|k]]]; [| | | destruct k; discriminate]; cbn [gas_expr gas_v].
  - apply m_mul; [eapply lit_value; [vm_compute; reflexivity | unfold Q2R; cbn; lra]|]. apply m_exp; [|reflexivity].
    apply m_div; [eapply lit_value; [vm_compute; reflexivity | unfold Q2R; cbn; lra] | apply (m_var _ _ _ T); reflexivity | lra | reflexivity].
  - destruct (mcm_J ttime 11) as [j|] eqn:J; [|vm_compute in J; discriminate]. eapply (m_phot _ _ (s_ "11") 11); [reflexivity|exact J].
  - apply m_mul; [eapply lit_value; [vm_compute; reflexivity | unfold Q2R; cbn; lra] | apply (m_var _ _ _ r); reflexivity].
Qed.

Definition gas_sp : list str := [s_ "CH3O2"; s_ "NO"; s_ "CH3O"; s_ "NO2"; s_ "HCHO"; s_ "CO"; s_ "HO2"].
Lemma gas_sp_ok : first_seen (reading_order gas_mech) = gas_sp.
Proof. vm_compute. reflexivity. Qed.
Lemma gas_jac_ok : Forall (jac_ok (s_ "CH3O2")) gas_mech.
Proof.
  repeat (apply Forall_cons; [right; split;
    [unfold net, once; vm_compute total; vm_compute inb; unfold Q2R; cbn; lra
    | right; intros x Hx; vm_compute in Hx; repeat (destruct Hx as [<-|Hx]; [left; vm_compute; reflexivity|]); destruct Hx]|]). constructor.
Qed.

Theorem C70_refuted : forall ord start_time t H2O T y, is_set_order ord -> (0 < T)%R -> (0 <= H2O)%R ->
  List.length y = 7 -> Forall (fun a => 0 < a)%R y ->
  written gas_mech (ParseShow.show gas_words) /\
  exists st J, extract_mechanism (ParseShow.show gas_words) = Ok (3%Z, st) /\ dget (s_ "CH3O2") (p_sp2a st) = Some 0 /\
    gas_jac_numba ord st 3 start_time t H2O T y = Some J /\
    derivable_pt_lim (fun z => component 0 (gas_dydt_numba st 3 start_time t H2O T (set_nth 0 z y))) (nth 0 y 0%R)
      (J (0%nat, 0%nat) - 1.82e-13 * nth 0 y 0)%R.
Proof.
  intros ord t0 t H2O T y Ho HT HH Hy Hp. destruct C59_hypotheses as (W & P & D & _ & _ & PC & _). split; [exact W|].
  destruct (C70_exact gas_mech _ gas_expr ord W Ho P D PC) as (st & E & H). rewrite gas_sp_ok in H.
  assert (Est : st = interp gas_mech) by (assert (X := written_extract _ _ W); congruence).
  destruct (H t0 t H2O T y (gas_v (t0 + t) T) (fun k => match k with 0 | 1 => 0 | _ => 1.82e-13 end)%R 1%R HT HH Rlt_0_1 Hy Hp) as (J & HJ & HD).
  - intros r _. apply gas_coefficients, HT.
  - intros k Hk. change (List.length gas_mech) with 3 in Hk. destruct k as [|[|[|k]]]; [| | |lia]; cbn [gas_v]; try apply derivable_pt_lim_const.
    assert (X : derivable_pt_lim (fun r => 1.82e-13 * r)%R (peroxy_total gas_sp (conc_of (p_sp2a st) y)) (1.82e-13 * 1)%R) by (apply (derivable_pt_lim_scal (fun r => r)), derivable_pt_lim_id).
    rewrite Rmult_1_r in X. exact X.
  - exists st, J. split; [exact E|]. split; [rewrite Est; vm_compute; reflexivity|]. split; [exact HJ|].
    assert (D0 := HD 0 (s_ "CH3O2") 0 (s_ "CH3O2") eq_refl eq_refl (or_intror gas_jac_ok)).
    replace (is_peroxy (s_ "CH3O2") && negb (inb (s_ "CH3O2") bath)) with true in D0 by (vm_compute; reflexivity).
    replace (J (0%nat, 0%nat) - 1.82e-13 * nth 0 y 0)%R with
      (J (0%nat, 0%nat) + kinetics gas_mech (map (fun k => match k with 0 | 1 => 0 | _ => 1.82e-13 end)%R (seq 0 (List.length gas_mech))) (conc_of (p_sp2a st) y) (s_ "CH3O2"))%R; [exact D0|].
    unfold Rminus. f_equal. rewrite (kinetics_seq gas_mech (fun k => match k with 0 | 1 => 0 | _ => 1.82e-13 end)%R).
    change (List.length gas_mech) with 3. set (w0 := ([s_ "CH3O2"; s_ "NO"], [s_ "CH3O"; s_ "NO2"], s_ "2.3D-12*EXP(360/TEMP)")).
    set (w1 := ([s_ "HCHO"; s_ "hv"], [s_ "CO"; s_ "HO2"], s_ "J(11)")). set (w2 := ([s_ "CH3O2"], [s_ "CH3O"], s_ "1.82D-13*RO2")).
    change gas_mech with [bare w0; bare w1; bare w2]. cbn [seq combine map rsum fst snd].
    assert (N : net (s_ "CH3O2") (bare w2) = (-1)%R) by (unfold net, Q2R; cbn; lra).
    assert (M : mass_action (conc_of (p_sp2a st) y) (lhs (bare w2)) = nth 0 y 0%R).
    { unfold mass_action. replace (first_seen (names (lhs (bare w2)))) with [s_ "CH3O2"] by (vm_compute; reflexivity). cbn [map rprod].
      rewrite (rpow_nat _ _ 1) by (vm_compute; reflexivity). rewrite Est, conc_of_dget.
      replace (dget (s_ "CH3O2") (p_sp2a (interp gas_mech))) with (Some 0) by (vm_compute; reflexivity). ring. }
    rewrite N, M. ring.
Qed.

(* The hypotheses of C70_partial hold for a mechanism without RO2 in a rate. *)
Definition jac_words : list wrx :=
  [ ([s_ "CH3O2"; s_ "NO"], [s_ "CH3O"; s_ "NO2"], s_ "2.3D-12*EXP(360/TEMP)"); ([s_ "HCHO"; s_ "hv"], [s_ "CO"; s_ "HO2"], s_ "J(11)") ].
Example C70_hypotheses : written (map bare jac_words) (ParseShow.show jac_words) /\
  Forall products_safe (map bare jac_words) /\ Forall distinct_reactants (map bare jac_words) /\
  peroxy_clean (first_seen (reading_order (map bare jac_words))) /\
  (forall k, k < 2 -> ~ mentions (s_ "RO2") (gas_expr k)) /\ Forall (jac_ok (s_ "CH3O2")) (map bare jac_words) /\
  forall ttime RO2 H2O T, (0 < T)%R -> coefficients (map bare jac_words) gas_expr ttime RO2 H2O T (gas_v ttime T RO2).
Proof.
  destruct C59_hypotheses as (_ & P & D & _). split; [apply bare_written; [discriminate | reflexivity]|].
  assert (E : gas_mech = map bare jac_words ++ [bare ([s_ "CH3O2"], [s_ "CH3O"], s_ "1.82D-13*RO2")]) by reflexivity.
  split; [rewrite E in P; apply Forall_app in P; apply P|]. split; [rewrite E in D; apply Forall_app in D; apply D|].
  split. { split; [exists (s_ "CH3O2"); split; [vm_compute; tauto | vm_compute; reflexivity]|]. vm_compute; intuition discriminate. }
  split. { intros [|[|k]] Hk; [| |lia]; cbn [gas_expr mentions]; intuition discriminate. }
  split; [assert (J := gas_jac_ok); rewrite E in J; apply Forall_app in J; apply J|].
  intros t r w T HT k rx Hk. assert (Hk' : nth_error gas_mech k = Some rx) by (rewrite E, nth_error_app1; [exact Hk | apply nth_error_Some; congruence]).
  exact (gas_coefficients t r w T HT k rx Hk').
Qed.

Print Assumptions C70_exact. Print Assumptions C70_partial. Print Assumptions C70_refuted.
