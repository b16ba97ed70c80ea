(* C54: the saved matrix of reactant coefficients. *)
From Coq Require Import String List Bool Arith Lia Permutation ZArith QArith Reals Qreals Lra.
From Verif Require Import Base PyStr PyDict ModelParse ModelLang ModelGen ModelRhs SpecMech SpecKin
  ParseStruct ParseWritten ParseTables ParseShow PropsParse LangFacts GenReact GenLossGain GenParsed GenSparse PropsKin PropsRhs GenJac GenJacParsed.
Import ListNotations.
Import Coq.Lists.List.
Open Scope nat_scope.
Open Scope list_scope.
Local Arguments eqb : simpl never.

Definition put sp2a (loss : table) (eq : nat) (m : sparse) (r : str) : sparse := dset (eq, ix sp2a r) (stq loss eq r) m.

Lemma row_fold sp2a loss eq row m :
  (forall r, In r (filter (fun r => negb (eqb r hv)) (map snd row)) -> known sp2a loss eq r) ->
  foldM (sparse_react_step sp2a loss eq) row m = Ok (fold_left (put sp2a loss eq) (filter (fun r => negb (eqb r hv)) (map snd row)) m).
Proof.
  revert m; induction row as [|[j r] row IH]; intros m H; [reflexivity|].
  cbn [foldM]. unfold sparse_react_step at 1. cbn [map snd filter] in *. destruct (eqb r hv) eqn:E; cbn [negb] in *.
  - cbn [bind]. apply IH, H.
  - destruct (H r (or_introl eq_refl)) as [[q Hq] [i Hi]]. rewrite Hq, Hi. cbn [key bind fold_left].
    rewrite IH by (intros; apply H; right; assumption). unfold put at 3, ix, dget_or, stq. rewrite Hq, Hi. reflexivity.
Qed.

Lemma put_fold sp2a loss eq l m k i : (forall r, In r l -> dget r sp2a <> None) ->
  (forall s s' i, dget s sp2a = Some i -> dget s' sp2a = Some i -> s = s') ->
  sp_entry (fold_left (put sp2a loss eq) l m) k i =
  match find (fun r => (ix sp2a r =? i)) l with
  | Some r => if k =? eq then stq loss eq r else sp_entry m k i
  | None => sp_entry m k i
  end.
Proof.
  intros Hd Hinj. revert m; induction l as [|r l IH]; intros m; [reflexivity|].
  cbn [fold_left find]. rewrite IH by (intros; apply Hd; right; assumption).
  assert (Ep : sp_entry (put sp2a loss eq m r) k i = if (k =? eq) && (i =? ix sp2a r) then stq loss eq r else sp_entry m k i).
  { unfold sp_entry, put, dget_or. rewrite dget_dset, eqb_pair. destruct (_ && _); reflexivity. }
  rewrite Ep, (Nat.eqb_sym i). destruct (ix sp2a r =? i) eqn:Er.
  - rewrite andb_true_r. destruct (find _ l) as [r'|] eqn:F.
    + destruct (k =? eq); [|reflexivity]. apply find_some in F as [Hr' F]. apply Nat.eqb_eq in F, Er.
      f_equal. assert (A := Hd r (or_introl eq_refl)). assert (B := Hd r' (or_intror Hr')).
      unfold ix, dget_or in *. destruct (dget r sp2a) as [a|] eqn:Ea; [|congruence]. destruct (dget r' sp2a) as [b|] eqn:Eb; [|congruence].
      apply (Hinj r' r i); congruence.
    + reflexivity.
  - rewrite andb_false_r. reflexivity.
Qed.

Lemma sparse_fold sp2a (rt : rtable) loss ks m :
  (forall k r, In k ks -> In r (real_reactants rt k) -> known sp2a loss k r) ->
  foldM (fun m eq => foldM (sparse_react_step sp2a loss eq) (row_of eq rt) m) ks m =
  Ok (fold_left (fun m eq => fold_left (put sp2a loss eq) (real_reactants rt eq) m) ks m).
Proof.
  revert m; induction ks as [|k ks IH]; intros m H; [reflexivity|]. cbn [foldM fold_left].
  rewrite row_fold by (intros r Hr; apply (H k r); [left; reflexivity | exact Hr]). cbn [bind].
  apply IH. intros; apply H; [right|]; assumption.
Qed.

Lemma sparse_entry sp2a (rt : rtable) loss ks m k i :
  (forall k r, In k ks -> In r (real_reactants rt k) -> known sp2a loss k r) ->
  (forall s s' i, dget s sp2a = Some i -> dget s' sp2a = Some i -> s = s') -> NoDup ks ->
  sp_entry (fold_left (fun m eq => fold_left (put sp2a loss eq) (real_reactants rt eq) m) ks m) k i =
  if inb k ks then match find (fun r => ix sp2a r =? i) (real_reactants rt k) with
                   | Some r => stq loss k r | None => sp_entry m k i end
  else sp_entry m k i.
Proof.
  intros H Hinj. revert m; induction ks as [|k0 ks IH]; intros m Hnd; [reflexivity|]. cbn [fold_left].
  inversion Hnd as [|? ? Hni Hnd']; subst. rewrite IH; [|intros; apply H; [right|]; assumption | exact Hnd'].
  assert (E : sp_entry (fold_left (put sp2a loss k0) (real_reactants rt k0) m) k i =
              match find (fun r => ix sp2a r =? i) (real_reactants rt k0) with
              | Some r => if k =? k0 then stq loss k0 r else sp_entry m k i | None => sp_entry m k i end).
  { apply put_fold; [|exact Hinj]. intros r Hr. destruct (H k0 r (or_introl eq_refl) Hr) as [_ [j Hj]]. congruence. }
  destruct (Nat.eq_dec k k0) as [->|Hk].
  - assert (E1 : inb k0 ks = false) by (apply inb_nIn; exact Hni). assert (E2 : inb k0 (k0 :: ks) = true) by (apply inb_In; left; reflexivity).
    rewrite E1, E2, E, Nat.eqb_refl. reflexivity.
  - assert (E3 : inb k (k0 :: ks) = inb k ks).
    { destruct (inb k ks) eqn:X; [apply inb_In; right; apply inb_In, X | apply inb_nIn; intros [->|Y]; [congruence | apply inb_nIn in X; contradiction]]. }
    apply Nat.eqb_neq in Hk. rewrite E3, E, Hk. destruct (find _ (real_reactants rt k0)); reflexivity.
Qed.

Lemma put_keys sp2a loss eq l m k i : In (k, i) (dkeys (fold_left (put sp2a loss eq) l m)) ->
  In (k, i) (dkeys m) \/ (k = eq /\ exists r, In r l /\ i = ix sp2a r).
Proof.
  revert m; induction l as [|r l IH]; intros m; [left; assumption|]. cbn [fold_left]. intros H.
  apply IH in H as [H|(-> & r' & Hr & ->)]; [|right; split; [reflexivity|]; exists r'; split; [right; assumption | reflexivity]].
  unfold put in H. apply dmem_In in H. unfold dmem in H. rewrite dget_dset, eqb_pair in H.
  destruct ((k =? eq) && (i =? ix sp2a r)) eqn:E.
  - right. apply andb_true_iff in E as [E1 E2]. apply Nat.eqb_eq in E1, E2. subst. split; [reflexivity|]. exists r. split; [left|]; reflexivity.
  - left. apply dmem_In. exact H.
Qed.

Theorem C54_matrix : forall m text, written m text ->
  let sp := first_seen (reading_order m) in
  exists st M, extract_mechanism text = Ok (Z.of_nat (List.length m), st) /\
    sparse_reactants (List.length m) (p_sp2a st) (p_reac st) (p_loss st) = Ok M /\
    (forall k r i s, nth_error m k = Some r -> nth_error sp i = Some s -> sp_entry M k i == total s (lhs r)) /\
    (forall k i, In (k, i) (dkeys M) -> k < List.length m /\ i < List.length sp).
Proof.
  intros m text W sp. exists (interp m). eexists. split; [apply written_extract, W|].
  assert (K : forall k r, In k (seq 0 (List.length m)) -> In r (real_reactants (p_reac (interp m)) k) ->
                known (p_sp2a (interp m)) (p_loss (interp m)) k r).
  { intros k r Hk. apply in_seq in Hk. apply all_known_interp. lia. }
  assert (Inj : forall s s' i, dget s (p_sp2a (interp m)) = Some i -> dget s' (p_sp2a (interp m)) = Some i -> s = s').
  { intros s s' i A B. apply interp_sp2a in A, B. congruence. }
  split; [apply sparse_fold, K|]. split.
  - intros k r i s Hr Hi. rewrite sparse_entry; [|exact K | exact Inj | apply seq_NoDup].
    assert (Hk : inb k (seq 0 (List.length m)) = true).
    { apply inb_In, in_seq. assert (k < List.length m) by (apply nth_error_Some; congruence). lia. }
    rewrite Hk, (real_reactants_interp m k r Hr).
    assert (Hs : dget s (p_sp2a (interp m)) = Some i) by (apply interp_sp2a; exact Hi).
    assert (Hl : s <> light).
    { apply nth_error_In in Hi. apply (species_In m) in Hi. apply Hi. }
    rewrite <- (stq_loss_total m k r s Hr Hl).
    destruct (find _ (names (lhs r))) as [x|] eqn:F.
    + apply find_some in F as [Hx F]. apply Nat.eqb_eq in F. destruct (known_interp m k r x Hr Hx) as [_ [j Hj]].
      unfold ix, dget_or in F. rewrite Hj in F. subst j. rewrite (Inj x s i Hj Hs). reflexivity.
    + cbn. rewrite (stq_interp m k r s Hr). destruct (inb s (names (lhs r))) eqn:E; [|reflexivity].
      exfalso. apply inb_In in E. apply (find_none _ _ F) in E. cbv beta in E. unfold ix, dget_or in E. rewrite Hs, Nat.eqb_refl in E. discriminate.
  - intros k i.
    assert (G : forall ks (M : sparse), (forall k, In k ks -> k < List.length m) -> (In (k, i) (dkeys M) -> k < List.length m /\ i < List.length sp) ->
      In (k, i) (dkeys (fold_left (fun m0 eq => fold_left (put (p_sp2a (interp m)) (p_loss (interp m)) eq) (real_reactants (p_reac (interp m)) eq) m0) ks M)) ->
      k < List.length m /\ i < List.length sp).
    { induction ks as [|k0 ks IH]; intros M Hks HM; [exact HM|]. cbn [fold_left]. apply IH; [intros; apply Hks; right; assumption|].
      intros X. apply put_keys in X as [X|(-> & r & Hr & ->)]; [apply HM, X|].
      assert (Hk : k0 < List.length m) by (apply Hks; left; reflexivity). split; [exact Hk|].
      destruct (all_known_interp m k0 r Hk Hr) as [_ [j Hj]]. unfold ix, dget_or. rewrite Hj.
      apply interp_sp2a in Hj. apply nth_error_Some. unfold sp, species in *. congruence. }
    apply (G (seq 0 (List.length m)) []); [intros k' Hk'; apply in_seq in Hk'; lia | intros []].
Qed.

(* The sparse route sketched beside dydt_func (ODE_solver.py:125-127):
   exp(M @ log(y)) is the mass-action product of every equation, repeated
   reactants included. *)
Lemma rpow_Rpower x q : (0 < x)%R -> (0 <= q)%Q -> rpow x q = Rpower x (Q2R q).
Proof.
  intros Hx Hq. unfold rpow. destruct (as_nat q) as [n|] eqn:E.
  - apply as_nat_spec in E. rewrite (Qeq_eqR _ _ E). unfold Q2R, inject_Z. cbn [Qnum Qden]. rewrite Rinv_1, Rmult_1_r, <- INR_IZR_INZ.
    symmetry. apply Rpower_pow, Hx.
  - destruct (Rlt_dec 0 x); [reflexivity | contradiction].
Qed.

Lemma rsum_support (f : str -> R) l L : NoDup l -> NoDup L -> incl l L -> (forall s, In s L -> ~ In s l -> f s = 0%R) ->
  rsum (map f L) = rsum (map f l).
Proof.
  intros Hl HL Hi Hf.
  assert (P : Permutation l (filter (fun s => inb s l) L)).
  { apply NoDup_Permutation; [exact Hl | apply NoDup_filter, HL |]. intros s. rewrite filter_In, inb_In. split; [intros H; split; [apply Hi, H | exact H] | intros [_ H]; exact H]. }
  rewrite (rsum_perm _ _ (Permutation_map f P)). clear P HL Hi Hl. induction L as [|s L IH]; [reflexivity|].
  cbn [map rsum filter]. destruct (inb s l) eqn:E; cbn [map rsum]; [rewrite IH; [reflexivity | intros; apply Hf; [right|]; assumption]|].
  apply inb_nIn in E. rewrite (Hf s (or_introl eq_refl) E), IH by (intros; apply Hf; [right|]; assumption). ring.
Qed.

Lemma nth_error_eq {A} (l l' : list A) : (forall i, nth_error l i = nth_error l' i) -> l = l'.
Proof.
  revert l'; induction l as [|a l IH]; intros [|b l'] H; [reflexivity | discriminate (H 0) | discriminate (H 0) |].
  f_equal; [injection (H 0) as ->; reflexivity | apply IH; intros i; apply (H (S i))].
Qed.

Lemma exp_rsum {A} (f : A -> R) l : exp (rsum (map f l)) = rprod (map (fun a => exp (f a)) l).
Proof. induction l as [|a l IH]; cbn [map rsum rprod]; [apply exp_0 | rewrite exp_plus, IH; reflexivity]. Qed.

Theorem C54_product : forall m text st M y, written m text ->
  extract_mechanism text = Ok (Z.of_nat (List.length m), st) ->
  sparse_reactants (List.length m) (p_sp2a st) (p_reac st) (p_loss st) = Ok M ->
  List.length y = List.length (first_seen (reading_order m)) -> Forall (Rlt 0) y ->
  forall k r, nth_error m k = Some r ->
    exp (rsum (map (fun i => Q2R (sp_entry M k i) * ln (nth i y 0))%R (seq 0 (List.length y)))) =
    mass_action (conc_of (p_sp2a st) y) (lhs r).
Proof.
  intros m text st M y W E HM Hy Hp k r Hr.
  destruct (C54_matrix m text W) as (st' & M' & E' & HM' & Hv & _). rewrite E in E'. injection E' as <-. rewrite HM in HM'. injection HM' as <-.
  assert (Est : st = interp m) by (assert (X := written_extract _ _ W); rewrite E in X; congruence).
  set (sp := first_seen (reading_order m)) in *. set (c := conc_of (p_sp2a st) y).
  assert (Hc : forall i s, nth_error sp i = Some s -> nth i y 0%R = c s).
  { intros i s Hi. unfold c. rewrite conc_of_dget, Est. rewrite (proj2 (interp_sp2a m s i) Hi). reflexivity. }
  rewrite Hy.
  assert (Es : rsum (map (fun i => Q2R (sp_entry M k i) * ln (nth i y 0))%R (seq 0 (List.length sp))) =
               rsum (map (fun s => Q2R (total s (lhs r)) * ln (c s))%R sp)).
  { f_equal. apply nth_error_eq. intros i. rewrite !nth_error_map.
    destruct (nth_error sp i) as [s|] eqn:Ei.
    - assert (Hi : i < List.length sp) by (apply nth_error_Some; congruence).
      rewrite (nth_error_nth' (seq 0 (List.length sp)) 0) by (rewrite seq_length; exact Hi). rewrite seq_nth by exact Hi. cbn [Nat.add].
      cbn [option_map]. rewrite (Hc i s Ei), (Qeq_eqR _ _ (Hv k r i s Hr Ei)). reflexivity.
    - apply nth_error_None in Ei. assert (X : nth_error (seq 0 (List.length sp)) i = None) by (apply nth_error_None; rewrite seq_length; exact Ei). rewrite X. reflexivity. }
  rewrite Es. assert (Hcf := written_coefs m text W). destruct (coefs_nth m k r Hcf Hr) as [Hl _].
  rewrite (rsum_support _ (first_seen (names (lhs r))) sp).
  - rewrite exp_rsum. unfold mass_action. f_equal. apply map_ext_in. intros s Hs. rewrite rpow_Rpower; [reflexivity | | apply total_nonneg', Hl].
    assert (Hin : In s sp).
    { apply (species_In m). apply first_seen_In, In_names in Hs. destruct Hs as [Hn Hs]. split; [exact Hn|].
      exists r. split; [eapply nth_error_In, Hr|]. apply in_or_app. left. exact Hs. }
    apply In_nth_error in Hin as [i Hi]. rewrite <- (Hc i s Hi). rewrite Forall_forall in Hp. apply Hp, nth_In.
    rewrite Hy. apply nth_error_Some. congruence.
  - apply first_seen_NoDup.
  - apply first_seen_NoDup.
  - intros s Hs. apply (species_In m). apply first_seen_In, In_names in Hs. destruct Hs as [Hn Hs]. split; [exact Hn|].
    exists r. split; [eapply nth_error_In, Hr|]. apply in_or_app. left. exact Hs.
  - intros s Hs Hn. rewrite total_names.
    + unfold Q2R. cbn. ring.
    + apply (species_In m) in Hs. apply Hs.
    + intros X. apply Hn, first_seen_In, X.
Qed.

(* NO + NO: the matrix holds 2, and the sparse route gives the square. *)
Example C54_example : exists st M, extract_mechanism (ParseShow.show nono_words) = Ok (1%Z, st) /\
  sparse_reactants 1 (p_sp2a st) (p_reac st) (p_loss st) = Ok M /\ sp_entry M 0 0 == 2 /\ sp_entry M 0 1 == 0 /\
  exp (Q2R (sp_entry M 0 0) * ln 3 + (Q2R (sp_entry M 0 1) * ln 1 + 0)) = 9%R.
Proof.
  assert (W : written nono_mech (ParseShow.show nono_words)) by (apply bare_written; [discriminate | reflexivity]).
  destruct (C54_matrix _ _ W) as (st & M & H1 & H2 & H3 & _). exists st, M. split; [exact H1|]. split; [exact H2|].
  pose (rx := bare (hd ([], [], []) nono_words)).
  split; [rewrite (H3 0 rx 0 (s_ "NO")) by reflexivity; reflexivity|].
  split; [rewrite (H3 0 rx 1 (s_ "NO2")) by reflexivity; reflexivity|].
  assert (Hy : Forall (Rlt 0) [3%R; 1%R]) by (repeat constructor; lra).
  assert (P := C54_product _ _ st M [3%R; 1%R] W H1 H2 eq_refl Hy 0 rx eq_refl).
  cbn [List.length seq map rsum nth] in P. rewrite P.
  assert (Est : st = interp nono_mech) by (assert (X := written_extract _ _ W); rewrite H1 in X; congruence).
  unfold mass_action. change (first_seen (names (lhs rx))) with [s_ "NO"]. cbn [map rprod].
  assert (C : conc_of (p_sp2a st) [3%R; 1%R] (s_ "NO") = 3%R) by (rewrite Est; reflexivity). rewrite C.
  unfold rpow. assert (A : as_nat (total (s_ "NO") (lhs rx)) = Some 2) by reflexivity. rewrite A. ring.
Qed.

Print Assumptions C54_matrix.
Print Assumptions C54_product.
