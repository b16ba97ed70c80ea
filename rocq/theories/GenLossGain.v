(* The generated dydt. *)
From Coq Require Import List Bool Arith Lia ZArith QArith Reals Qreals Lra.
From Verif Require Import Base PyStr PyDict ModelParse ModelLang ModelGen ModelRhs SpecMech SpecKin
  ParseStruct ParseTables LangFacts GenReact.
Import ListNotations.
Open Scope nat_scope.
Open Scope list_scope.

(* ------------------------------------------------------------------ *)
(* Sums over rows. *)
Definition qor (k : nat) (row : dict nat Q) : Q := dget_or 0%Q k row.

Lemma rsum_pick (f : nat -> R) k x n a : k < n -> f (a + k)%nat = 0%R ->
  rsum (map (fun j => if j =? a + k then x else f j) (seq a n)) = (x + rsum (map f (seq a n)))%R.
Proof.
  revert k a; induction n as [|n IH]; intros k a Hk Hf; [lia|].
  cbn [seq map rsum]. destruct k as [|k].
  - rewrite Nat.add_0_r in *. rewrite Nat.eqb_refl, Hf.
    replace (map (fun j => if j =? a then x else f j) (seq (S a) n)) with (map f (seq (S a) n)); [ring|].
    apply map_ext_in. intros j Hj. apply in_seq in Hj. destruct (Nat.eqb_spec j a); [lia | reflexivity].
  - destruct (Nat.eqb_spec a (a + S k)); [lia|].
    replace (a + S k) with (S a + k) in * by lia. rewrite IH by (lia || assumption). ring.
Qed.

Lemma rsum_row (row : dict nat Q) (rv : nat -> R) n :
  NoDup (dkeys row) -> (forall k, In k (dkeys row) -> k < n) ->
  rsum (map (fun kq => Q2R (snd kq) * rv (fst kq))%R row) =
  rsum (map (fun k => Q2R (qor k row) * rv k)%R (seq 0 n)).
Proof.
  induction row as [|[k q] row IH]; intros Hnd Hk.
  - symmetry. apply rsum_zero. intros k _. unfold qor, dget_or; cbn [dget].
    replace (Q2R 0) with 0%R by (unfold Q2R; cbn; field). ring.
  - cbn [map rsum fst snd]. inversion Hnd as [|? ? Hni Hnd']; subst.
    rewrite IH; [|exact Hnd' | intros; apply Hk; right; assumption].
    rewrite <- (rsum_pick (fun j => Q2R (qor j row) * rv j)%R k).
    + apply rsum_ext. intros j _. unfold qor, dget_or. cbn [dget Nat.add].
      change (eqb j k) with (j =? k). destruct (Nat.eqb_spec j k); [subst|]; reflexivity.
    + apply Hk. left; reflexivity.
    + cbn [Nat.add]. unfold qor, dget_or. apply dget_None in Hni. rewrite Hni.
      replace (Q2R 0) with 0%R by (unfold Q2R; cbn; field). ring.
Qed.

Lemma stq_srow d k s : stq d k s = qor k (srow s d).
Proof.
  unfold stq, qor, srow, dget2, dget_or. destruct (dget s d); [|reflexivity].
  destruct (dget k d0); reflexivity.
Qed.

(* ------------------------------------------------------------------ *)
(* Terms. *)
Definition coef (q : Q) : list factor := if isone q then [] else [(ANum q, None)].
Definition coef_f (q : Q) : list factor := if isone q then [] else [(ANum (q + 1)%Q, None)].
Definition rf (off k : nat) : factor := (ARef AR (k + off), None).

Definition lterm (off : nat) (cf : Q -> list factor) (c first : bool) (kq : nat * Q) : sterm :=
  let '(k, q) := kq in
  if first then (c, (true, ((ANum 1, None), rf off k :: cf q))) else (c, (true, (rf off k, cf q))).
Definition gterm (off : nat) (cf : Q -> list factor) (c : bool) (kq : nat * Q) : sterm :=
  let '(k, q) := kq in (c, (false, (rf off k, cf q))).

Fixpoint lterms_n (first : bool) (row : dict nat Q) : list sterm :=
  match row with [] => [] | kq :: row' => lterm 0 coef false first kq :: lterms_n false row' end.
Definition gterms_n (row : dict nat Q) : list sterm := map (gterm 0 coef false) row.

Lemma pr_rate off k q : pr_fac (rf off k) ++ pr_facs (coef q) = rate_toks off k q.
Proof. unfold coef, rate_toks. destruct (isone q); reflexivity. Qed.
Lemma pr_rate_f k q : pr_fac (rf 1 k) ++ pr_facs (coef_f q) = rate_toks_f k q.
Proof. unfold coef_f, rate_toks_f. destruct (isone q); reflexivity. Qed.

Lemma losses_numba_terms first row : losses_numba first row = pr_terms (lterms_n first row).
Proof.
  revert first; induction row as [|[k q] row IH]; intros first; [reflexivity|].
  cbn [losses_numba lterms_n]. unfold pr_terms; cbn [flat_map]. fold (pr_terms (lterms_n false row)).
  rewrite IH, <- (pr_rate 0 k q). destruct first; cbn [lterm pr_term app]; rewrite <- !app_assoc; reflexivity.
Qed.

Lemma gains_numba_terms row : gains_numba row = pr_terms (gterms_n row).
Proof.
  induction row as [|[k q] row IH]; [reflexivity|].
  cbn [gains_numba gterms_n map]. unfold pr_terms; cbn [flat_map]. fold (pr_terms (gterms_n row)).
  rewrite IH, <- (pr_rate 0 k q). cbn [gterm pr_term app]. rewrite <- !app_assoc. reflexivity.
Qed.

(* Fortran: with continuation flags. *)
Fixpoint lterms_f (flag : nat) (first : bool) (row : dict nat Q) : list sterm * nat :=
  match row with
  | [] => ([], flag)
  | kq :: row' =>
      let fl := if 4 <? flag then 0 else flag in
      let '(ts, fl2) := lterms_f (S fl) false row' in
      (lterm 1 coef_f (4 <? flag) first kq :: ts, fl2)
  end.
Fixpoint gterms_f (flag : nat) (row : dict nat Q) : list sterm :=
  match row with
  | [] => []
  | kq :: row' => gterm 1 coef_f (4 <? flag) kq :: gterms_f (S (if 4 <? flag then 0 else flag)) row'
  end.

Lemma losses_fortran_terms flag first row :
  losses_fortran flag first row = (pr_terms (fst (lterms_f flag first row)), snd (lterms_f flag first row)).
Proof.
  revert flag first; induction row as [|[k q] row IH]; intros flag first; [reflexivity|].
  cbn [losses_fortran lterms_f]. unfold cont.
  assert (E : (if 4 <? flag then ([TCont], 0) else ([], flag)) =
              ((if 4 <? flag then [TCont] else []), (if 4 <? flag then 0 else flag))) by (destruct (4 <? flag); reflexivity).
  rewrite E. rewrite IH. destruct (lterms_f (S (if 4 <? flag then 0 else flag)) false row) as [ts fl]; cbn [fst snd].
  f_equal. unfold pr_terms; cbn [flat_map]. rewrite <- (pr_rate_f k q).
  destruct first; cbn [lterm pr_term app]; rewrite <- !app_assoc; cbn [app]; rewrite <- ?app_assoc; reflexivity.
Qed.

Lemma gains_fortran_terms flag row : gains_fortran flag row = pr_terms (gterms_f flag row).
Proof.
  revert flag; induction row as [|[k q] row IH]; intros flag; [reflexivity|].
  cbn [gains_fortran gterms_f]. unfold cont.
  assert (E : (if 4 <? flag then ([TCont], 0) else ([], flag)) =
              ((if 4 <? flag then [TCont] else []), (if 4 <? flag then 0 else flag))) by (destruct (4 <? flag); reflexivity).
  rewrite E, IH. unfold pr_terms; cbn [flat_map]. rewrite <- (pr_rate_f k q).
  cbn [gterm pr_term app]. rewrite <- !app_assoc. cbn [app]. rewrite <- ?app_assoc. reflexivity.
Qed.

(* ------------------------------------------------------------------ *)
(* Values. *)
Section Val.
Variable L : lang.
Variable off : nat.
Hypothesis Hloc : forall i, loc L (i + off) = Some i.
Hypothesis Hone : lit L 1%Q == 1.
Variable env : arr -> list R.
Variable n : nat.
Hypothesis Hn : List.length (env AR) = n.
Let rv (k : nat) : R := nth k (env AR) 0%R.

(* cf q evaluates to v *)
Definition cf_value (cf : Q -> list factor) (q : Q) (v : R) : Prop :=
  e_factors L env (cf q) = Some v.

Lemma rf_value k : k < n -> e_factor L env (rf off k) = Some (rv k).
Proof.
  intros Hk. unfold rf, e_factor, e_atom. rewrite Hloc.
  rewrite (nth_error_nth' (env AR) 0%R) by lia. reflexivity.
Qed.

Lemma one_value : e_factor L env (ANum 1, None) = Some 1%R.
Proof. unfold e_factor, e_atom. rewrite (Qeq_eqR _ _ Hone). f_equal. unfold Q2R; cbn. field. Qed.

Lemma lterm_value cf c first k q v : k < n -> cf_value cf q v ->
  e_term L env (un (lterm off cf c first (k, q))) = Some (- (v * rv k))%R.
Proof.
  intros Hk Hv. unfold cf_value in Hv.
  destruct first; cbn [lterm un e_term e_factors]; rewrite (rf_value k Hk), Hv.
  - rewrite one_value. cbn [omap2]. f_equal. ring.
  - cbn [omap2]. f_equal. ring.
Qed.

Lemma gterm_value cf c k q v : k < n -> cf_value cf q v ->
  e_term L env (un (gterm off cf c (k, q))) = Some (v * rv k)%R.
Proof.
  intros Hk Hv. unfold cf_value in Hv. cbn [gterm un e_term e_factors].
  rewrite (rf_value k Hk), Hv. cbn [omap2]. f_equal. ring.
Qed.
End Val.

Section Rows.
Variable env : arr -> list R.
Variable n : nat.
Hypothesis Hn : List.length (env AR) = n.
Let rv (k : nat) : R := nth k (env AR) 0%R.

Lemma coef_value q : cf_value python env coef q (Q2R q).
Proof.
  unfold cf_value, coef. destruct (isone q) eqn:E.
  - apply Qeq_bool_eq in E. cbn [e_factors]. rewrite (Qeq_eqR _ _ E). f_equal. unfold Q2R; cbn. field.
  - cbn. f_equal. ring.
Qed.

(* what the Fortran text multiplies by *)
Definition fcoef (rnd : Q -> Q) (q : Q) : R := if isone q then 1%R else Q2R (rnd (q + 1)%Q).

Lemma coef_f_value rnd q : cf_value (fortran rnd) env coef_f q (fcoef rnd q).
Proof.
  unfold cf_value, coef_f, fcoef. destruct (isone q); [reflexivity|].
  cbn. f_equal. ring.
Qed.

Lemma lterms_n_value first row : (forall k, In k (dkeys row) -> k < n) ->
  Forall2 (fun t x => e_term python env (un t) = Some x) (lterms_n first row)
    (map (fun kq => - (Q2R (snd kq) * rv (fst kq)))%R row).
Proof.
  revert first; induction row as [|[k q] row IH]; intros first H; cbn [lterms_n map fst snd]; constructor.
  - apply (lterm_value python 0) with (n := n); try assumption.
    + intros i. rewrite Nat.add_0_r. reflexivity.
    + reflexivity.
    + apply H. left; reflexivity.
    + apply coef_value.
  - apply IH. intros; apply H; right; assumption.
Qed.

Lemma gterms_n_value row : (forall k, In k (dkeys row) -> k < n) ->
  Forall2 (fun t x => e_term python env (un t) = Some x) (gterms_n row)
    (map (fun kq => Q2R (snd kq) * rv (fst kq))%R row).
Proof.
  induction row as [|[k q] row IH]; intros H; cbn [gterms_n map fst snd]; constructor.
  - apply (gterm_value python 0) with (n := n); try assumption.
    + intros i. rewrite Nat.add_0_r. reflexivity.
    + apply H. left; reflexivity.
    + apply coef_value.
  - apply IH. intros; apply H; right; assumption.
Qed.

Lemma lterms_f_value rnd flag first row : rnd 1%Q == 1 -> (forall k, In k (dkeys row) -> k < n) ->
  Forall2 (fun t x => e_term (fortran rnd) env (un t) = Some x) (fst (lterms_f flag first row))
    (map (fun kq => - (fcoef rnd (snd kq) * rv (fst kq)))%R row).
Proof.
  intros Hr. revert flag first; induction row as [|[k q] row IH]; intros flag first H; [constructor|].
  cbn [lterms_f map fst snd]. specialize (IH (S (if 4 <? flag then 0 else flag)) false).
  destruct (lterms_f (S (if 4 <? flag then 0 else flag)) false row) as [ts fl]. cbn [fst] in *. constructor.
  - apply (lterm_value (fortran rnd) 1) with (n := n); try assumption.
    + intros i. cbn. rewrite Nat.add_comm. reflexivity.
    + apply H. left; reflexivity.
    + apply coef_f_value.
  - apply IH. intros; apply H; right; assumption.
Qed.

Lemma gterms_f_value rnd flag row : (forall k, In k (dkeys row) -> k < n) ->
  Forall2 (fun t x => e_term (fortran rnd) env (un t) = Some x) (gterms_f flag row)
    (map (fun kq => fcoef rnd (snd kq) * rv (fst kq))%R row).
Proof.
  revert flag; induction row as [|[k q] row IH]; intros flag H; cbn [gterms_f map fst snd]; constructor.
  - apply (gterm_value (fortran rnd) 1) with (n := n); try assumption.
    + intros i. cbn. rewrite Nat.add_comm. reflexivity.
    + apply H. left; reflexivity.
    + apply coef_f_value.
  - apply IH. intros; apply H; right; assumption.
Qed.

Lemma lg_value_numba lr gr : (lr <> [] \/ gr <> []) ->
  (forall k, In k (dkeys lr) \/ In k (dkeys gr) -> k < n) ->
  value python env (losses_numba true lr ++ gains_numba gr) =
  Some (rsum (map (fun kq => Q2R (snd kq) * rv (fst kq))%R gr) -
        rsum (map (fun kq => Q2R (snd kq) * rv (fst kq))%R lr))%R.
Proof.
  intros Hne Hk. rewrite losses_numba_terms, gains_numba_terms.
  unfold pr_terms. rewrite <- flat_map_app. fold (pr_terms (lterms_n true lr ++ gterms_n gr)).
  rewrite (value_terms python env _
    (map (fun kq => - (Q2R (snd kq) * rv (fst kq)))%R lr ++ map (fun kq => Q2R (snd kq) * rv (fst kq))%R gr)).
  - f_equal. rewrite rsum_app.
    assert (E : rsum (map (fun kq => - (Q2R (snd kq) * rv (fst kq)))%R lr) =
                (- rsum (map (fun kq => (Q2R (snd kq) * rv (fst kq)))%R lr))%R).
    { clear. induction lr as [|a lr IH]; cbn [map rsum]; [ring | rewrite IH; ring]. }
    rewrite E. ring.
  - destruct lr as [|[k q] lr], gr as [|[k' q'] gr]; destruct Hne; try congruence; discriminate.
  - destruct lr as [|[k q] lr]; [destruct gr as [|[k q] gr]|]; exact I.
  - apply Forall2_app; [apply lterms_n_value | apply gterms_n_value]; intros; apply Hk; auto.
Qed.

Lemma lg_value_fortran rnd lr gr : rnd 1%Q == 1 -> (lr <> [] \/ gr <> []) ->
  (forall k, In k (dkeys lr) \/ In k (dkeys gr) -> k < n) ->
  value (fortran rnd) env (fst (losses_fortran 0 true lr) ++ gains_fortran (snd (losses_fortran 0 true lr)) gr) =
  Some (rsum (map (fun kq => fcoef rnd (snd kq) * rv (fst kq))%R gr) -
        rsum (map (fun kq => fcoef rnd (snd kq) * rv (fst kq))%R lr))%R.
Proof.
  intros Hr Hne Hk. rewrite losses_fortran_terms, gains_fortran_terms. cbn [fst snd].
  unfold pr_terms. rewrite <- flat_map_app.
  fold (pr_terms (fst (lterms_f 0 true lr) ++ gterms_f (snd (lterms_f 0 true lr)) gr)).
  rewrite (value_terms (fortran rnd) env _
    (map (fun kq => - (fcoef rnd (snd kq) * rv (fst kq)))%R lr ++ map (fun kq => fcoef rnd (snd kq) * rv (fst kq))%R gr)).
  - f_equal. rewrite rsum_app.
    assert (E : rsum (map (fun kq => - (fcoef rnd (snd kq) * rv (fst kq)))%R lr) =
                (- rsum (map (fun kq => (fcoef rnd (snd kq) * rv (fst kq)))%R lr))%R).
    { clear. induction lr as [|a lr IH]; cbn [map rsum]; [ring | rewrite IH; ring]. }
    rewrite E. ring.
  - destruct lr as [|[k q] lr].
    + destruct gr as [|[k' q'] gr]; destruct Hne; try congruence; discriminate.
    + cbn [lterms_f]. destruct (lterms_f _ false lr). discriminate.
  - destruct lr as [|[k q] lr].
    + destruct gr as [|[k q] gr]; exact I.
    + cbn [lterms_f]. destruct (lterms_f _ false lr). exact I.
  - apply Forall2_app; [apply lterms_f_value | apply gterms_f_value]; try assumption; intros; apply Hk; auto.
Qed.
End Rows.

(* ------------------------------------------------------------------ *)
(* The first pass only inserts empty rows. *)
Lemma srow_dtouch s s' (d : table) : srow s (dtouch ([] : dict nat Q) s' d) = srow s d.
Proof.
  unfold dtouch, dmem. destruct (dget s' d) eqn:E; [reflexivity|].
  unfold srow, dget_or. rewrite dget_dset. destruct (eqb s s') eqn:E2; [|reflexivity].
  apply eqb_eq in E2; subst. rewrite E. reflexivity.
Qed.

Lemma dmem_dtouch {K V} `{EqB K} (k k' : K) (v0 : V) d :
  dmem k (dtouch v0 k' d) = eqb k k' || dmem k d.
Proof.
  unfold dtouch, dmem. destruct (dget k' d) eqn:E.
  - destruct (eqb k k') eqn:E2; [|reflexivity]. apply eqb_eq in E2; subst. rewrite E. reflexivity.
  - rewrite dget_dset. destruct (eqb k k'); reflexivity.
Qed.

Lemma sparse_lg_tables sp loss gain m l' g' m' : sparse_lg sp loss gain m = (l', g', m') ->
  (forall s, srow s l' = srow s loss) /\ (forall s, srow s g' = srow s gain) /\
  (forall s, dmem s loss = true -> dmem s l' = true) /\
  (forall s i, In (s, i) sp -> inb s excluded = false -> dmem s l' = true).
Proof.
  revert loss gain m; induction sp as [|[s i] sp IH]; intros loss gain m; cbn [sparse_lg].
  - intros H; injection H as <- <- <-. repeat split; auto; intros ? ? [].
  - destruct (inb s excluded) eqn:E; intros H; apply IH in H as (H1 & H2 & H3 & H4).
    + repeat split; auto. intros s' i' [Heq|Hin] He; [injection Heq as <- <-; congruence | eauto].
    + split; [intros; rewrite H1; apply srow_dtouch|]. split; [intros; rewrite H2; apply srow_dtouch|].
      split.
      * intros s' Hs'. apply H3. rewrite dmem_dtouch, Hs'. apply orb_true_r.
      * intros s' i' [Heq|Hin] He; [|eauto]. injection Heq as <- <-. apply H3.
        rewrite dmem_dtouch, eqb_refl. reflexivity.
Qed.

(* ------------------------------------------------------------------ *)
(* Whole programs. *)

(* Well-formed inputs: species numbered injectively below N, no duplicate
   keys, equations below n. *)
Record lg_wf (n N : nat) (sp2a : dict str nat) (loss gain : table) : Prop := {
  wf_keys : NoDup (dkeys sp2a);
  wf_vals : NoDup (dvals sp2a);
  wf_range : forall s i, In (s, i) sp2a -> i < N;
  wf_loss : forall s, NoDup (dkeys (srow s loss)) /\ forall k, In k (dkeys (srow s loss)) -> k < n;
  wf_gain : forall s, NoDup (dkeys (srow s gain)) /\ forall k, In k (dkeys (srow s gain)) -> k < n }.

Definition lg_assigns_n sp2a (loss gain : table) : list (nat * list tok) :=
  flat_map (fun p => if inb (fst p) excluded then []
    else [(snd p, losses_numba true (srow (fst p) loss) ++ gains_numba (srow (fst p) gain))]) sp2a.

Lemma gen_lg_numba_assigns sp2a loss gain :
  assigns (snd (gen_loss_gain_numba sp2a loss gain)) = lg_assigns_n sp2a loss gain.
Proof.
  unfold gen_loss_gain_numba. destruct (sparse_lg sp2a loss gain []) as [[l' g'] m'] eqn:E.
  cbn [snd]. apply sparse_lg_tables in E as (H1 & H2 & _ & H4).
  rewrite flat_map_concat_map, assigns_concat. unfold lg_assigns_n.
  rewrite !flat_map_concat_map, map_map. f_equal. apply map_ext_in. intros [s i] Hin. cbn [fst snd lg_line_numba].
  destruct (inb s excluded) eqn:Ee; [reflexivity|]. rewrite (H4 s i Hin Ee). cbn [orb assigns].
  rewrite H1, H2. reflexivity.
Qed.

Definition lg_assigns_f sp2a (loss gain : table) : list (nat * list tok) :=
  flat_map (fun p => if inb (fst p) excluded then []
    else if dmem (fst p) loss || dmem (fst p) gain then
      [(snd p + 1, fst (losses_fortran 0 true (srow (fst p) loss)) ++
                   gains_fortran (snd (losses_fortran 0 true (srow (fst p) loss))) (srow (fst p) gain))]
    else []) sp2a.

Lemma gen_lg_fortran_assigns omp sp2a loss gain :
  assigns (gen_loss_gain_fortran omp sp2a loss gain) = lg_assigns_f sp2a loss gain.
Proof.
  unfold gen_loss_gain_fortran. rewrite assigns_omp_frame. unfold lg_assigns_f.
  rewrite !flat_map_concat_map, map_map. f_equal. apply map_ext. intros [s i]. cbn [fst snd lg_line_fortran].
  destruct (inb s excluded); [reflexivity|]. destruct (dmem s loss || dmem s gain); [|reflexivity].
  destruct (losses_fortran 0 true (srow s loss)) as [l f]. reflexivity.
Qed.

Lemma In_vals_inj (d : dict str nat) s s' i : NoDup (dvals d) -> In (s, i) d -> In (s', i) d -> s = s'.
Proof.
  induction d as [|[a b] d IH]; [contradiction|]. cbn [dvals map snd]. intros Hnd.
  inversion Hnd as [|? ? Hni Hnd']; subst. intros [H1|H1] [H2|H2].
  - congruence.
  - injection H1 as -> ->. exfalso. apply Hni. change i with (snd (s', i)). apply in_map, H2.
  - injection H2 as -> ->. exfalso. apply Hni. change i with (snd (s, i)). apply in_map, H1.
  - apply IH; assumption.
Qed.

(* Value of the derivative according to the tables. *)
Definition table_rate (cf : Q -> R) (loss gain : table) (r : list R) (s : str) : R :=
  (rsum (map (fun kq => cf (snd kq) * nth (fst kq) r 0) (srow s gain)) -
   rsum (map (fun kq => cf (snd kq) * nth (fst kq) r 0) (srow s loss)))%R.

Definition has_terms (loss gain : table) (s : str) : Prop := srow s loss <> [] \/ srow s gain <> [].

Lemma run_lg_numba n N sp2a loss gain r m0 : lg_wf n N sp2a loss gain -> List.length r = n ->
  (forall s i, In (s, i) sp2a -> inb s excluded = false -> has_terms loss gain s) ->
  exists m', run (cell 0 N) (value python (py_env [] r)) (snd (gen_loss_gain_numba sp2a loss gain)) m0 = Some m' /\
    (forall s i, In (s, i) sp2a -> inb s excluded = false -> m' i = table_rate Q2R loss gain r s) /\
    (forall i, (forall s, In (s, i) sp2a -> inb s excluded = true) -> m' i = m0 i).
Proof.
  intros W Hr Ht. rewrite run_is_assigns, gen_lg_numba_assigns.
  assert (Hin : forall c e, In (c, e) (lg_assigns_n sp2a loss gain) <->
    exists s, In (s, c) sp2a /\ inb s excluded = false /\
      e = losses_numba true (srow s loss) ++ gains_numba (srow s gain)).
  { intros c e. unfold lg_assigns_n. rewrite in_flat_map. split.
    - intros ([s i] & H1 & H2). cbn [fst snd] in H2. destruct (inb s excluded) eqn:E; [destruct H2|].
      destruct H2 as [H2|[]]. injection H2 as <- <-. exists s. auto.
    - intros (s & H1 & H2 & ->). exists (s, c). split; [exact H1|]. cbn [fst snd]. rewrite H2. left; reflexivity. }
  assert (Hval : forall s i, In (s, i) sp2a -> inb s excluded = false ->
    value python (py_env [] r) (losses_numba true (srow s loss) ++ gains_numba (srow s gain)) =
    Some (table_rate Q2R loss gain r s)).
  { intros s i H1 H2. apply (lg_value_numba (py_env [] r) n Hr); [apply (Ht s i H1 H2)|].
    intros k [Hk|Hk]; [apply (wf_loss _ _ _ _ _ W s), Hk | apply (wf_gain _ _ _ _ _ W s), Hk]. }
  assert (Hcell : forall s i, In (s, i) sp2a -> cell 0 N i = Some i).
  { intros s i H. rewrite <- (Nat.add_0_r i) at 1. apply cell_ok; [auto | apply (wf_range _ _ _ _ _ W s i H)]. }
  destruct (run_assigns_ok (cell 0 N) (value python (py_env [] r)) (lg_assigns_n sp2a loss gain) m0) as (m' & H1 & H2 & H3).
  - apply Forall_forall. intros [c e] H. apply Hin in H as (s & Hs & He & ->).
    exists c. eexists. split; [apply (Hcell s), Hs | apply (Hval s c Hs He)].
  - exists m'. split; [exact H1|]. split.
    + intros s i Hs He. apply (H3) with (c := i) (e := losses_numba true (srow s loss) ++ gains_numba (srow s gain)).
      * intros c1 e1 c2 e2 d Hi1 Hi2 Hd1 Hd2. apply Hin in Hi1 as (s1 & Hs1 & He1 & ->).
        apply Hin in Hi2 as (s2 & Hs2 & He2 & ->).
        rewrite (Hcell s1 _ Hs1) in Hd1. rewrite (Hcell s2 _ Hs2) in Hd2.
        assert (c1 = c2) by congruence. subst.
        rewrite (In_vals_inj sp2a s1 s2 c2 (wf_vals _ _ _ _ _ W) Hs1 Hs2). reflexivity.
      * apply Hin. exists s. auto.
      * apply (Hcell s), Hs.
      * apply (Hval s i Hs He).
    + intros i Hi. apply H2. intros c e H. apply Hin in H as (s & Hs & He & ->).
      rewrite (Hcell s _ Hs). intros Heq; injection Heq as ->. rewrite (Hi s Hs) in He. discriminate.
Qed.

Lemma has_terms_dmem loss gain s : has_terms loss gain s -> dmem s loss || dmem s gain = true.
Proof.
  unfold has_terms, srow, dget_or, dmem.
  intros [H|H]; [destruct (dget s loss); [reflexivity | congruence]|].
  destruct (dget s gain); [apply orb_true_r | congruence].
Qed.

Lemma run_lg_fortran omp rnd n N sp2a loss gain r m0 : lg_wf n N sp2a loss gain -> List.length r = n ->
  rnd 1%Q == 1 ->
  (forall s i, In (s, i) sp2a -> inb s excluded = false -> has_terms loss gain s) ->
  exists m', run (cell 1 N) (value (fortran rnd) (py_env [] r)) (gen_loss_gain_fortran omp sp2a loss gain) m0 = Some m' /\
    (forall s i, In (s, i) sp2a -> inb s excluded = false -> m' i = table_rate (fcoef rnd) loss gain r s) /\
    (forall i, (forall s, In (s, i) sp2a -> inb s excluded = true) -> m' i = m0 i).
Proof.
  intros W Hr Hrnd Ht. rewrite run_is_assigns, gen_lg_fortran_assigns.
  pose (rhs := fun s => fst (losses_fortran 0 true (srow s loss)) ++
                   gains_fortran (snd (losses_fortran 0 true (srow s loss))) (srow s gain)).
  assert (Hin : forall c e, In (c, e) (lg_assigns_f sp2a loss gain) <->
    exists s i, c = i + 1 /\ In (s, i) sp2a /\ inb s excluded = false /\ e = rhs s).
  { intros c e. unfold lg_assigns_f. rewrite in_flat_map. split.
    - intros ([s i] & H1 & H2). cbn [fst snd] in H2. destruct (inb s excluded) eqn:E; [destruct H2|].
      rewrite (has_terms_dmem _ _ _ (Ht s i H1 E)) in H2.
      destruct H2 as [H2|[]]. injection H2 as <- <-. exists s, i. auto.
    - intros (s & i & -> & H1 & H2 & ->). exists (s, i). split; [exact H1|]. cbn [fst snd]. rewrite H2.
      rewrite (has_terms_dmem _ _ _ (Ht s i H1 H2)). left; reflexivity. }
  assert (Hval : forall s i, In (s, i) sp2a -> inb s excluded = false ->
    value (fortran rnd) (py_env [] r) (rhs s) = Some (table_rate (fcoef rnd) loss gain r s)).
  { intros s i H1 H2. apply (lg_value_fortran (py_env [] r) n Hr rnd); [exact Hrnd | apply (Ht s i H1 H2)|].
    intros k [Hk|Hk]; [apply (wf_loss _ _ _ _ _ W s), Hk | apply (wf_gain _ _ _ _ _ W s), Hk]. }
  assert (Hcell : forall s i, In (s, i) sp2a -> cell 1 N (i + 1) = Some i).
  { intros s i H. apply cell_ok; [auto | apply (wf_range _ _ _ _ _ W s i H)]. }
  destruct (run_assigns_ok (cell 1 N) (value (fortran rnd) (py_env [] r)) (lg_assigns_f sp2a loss gain) m0) as (m' & H1 & H2 & H3).
  - apply Forall_forall. intros [c e] H. apply Hin in H as (s & i & -> & Hs & He & ->).
    exists i. eexists. split; [apply (Hcell s), Hs | apply (Hval s i Hs He)].
  - exists m'. split; [exact H1|]. split.
    + intros s i Hs He. apply (H3) with (c := i + 1) (e := rhs s).
      * intros c1 e1 c2 e2 d Hi1 Hi2 Hd1 Hd2. apply Hin in Hi1 as (s1 & i1 & -> & Hs1 & He1 & ->).
        apply Hin in Hi2 as (s2 & i2 & -> & Hs2 & He2 & ->).
        rewrite (Hcell s1 _ Hs1) in Hd1. rewrite (Hcell s2 _ Hs2) in Hd2.
        assert (i1 = i2) by congruence. subst.
        rewrite (In_vals_inj sp2a s1 s2 i2 (wf_vals _ _ _ _ _ W) Hs1 Hs2). reflexivity.
      * apply Hin. exists s, i. auto.
      * apply (Hcell s), Hs.
      * apply (Hval s i Hs He).
    + intros i Hi. apply H2. intros c e H. apply Hin in H as (s & i' & -> & Hs & He & ->).
      rewrite (Hcell s _ Hs). intros Heq; injection Heq as ->. rewrite (Hi s Hs) in He. discriminate.
Qed.

(* If a species has no term, the generated module is not a valid program. *)
Lemma run_lg_numba_fails n N sp2a loss gain r m0 s i : lg_wf n N sp2a loss gain ->
  In (s, i) sp2a -> inb s excluded = false -> ~ has_terms loss gain s ->
  run (cell 0 N) (value python (py_env [] r)) (snd (gen_loss_gain_numba sp2a loss gain)) m0 = None.
Proof.
  intros W Hs He Hno. rewrite run_is_assigns, gen_lg_numba_assigns.
  destruct (run_assigns _ _ _ _) as [m'|] eqn:E; [|reflexivity]. exfalso.
  apply run_assigns_Some in E. rewrite Forall_forall in E.
  destruct (E (i, losses_numba true (srow s loss) ++ gains_numba (srow s gain))) as (d & x & _ & Hx).
  - unfold lg_assigns_n. rewrite in_flat_map. exists (s, i). split; [exact Hs|]. cbn [fst snd]. rewrite He.
    left; reflexivity.
  - cbn [snd] in Hx. unfold has_terms in Hno.
    destruct (srow s loss) as [|a l]; [|exfalso; apply Hno; left; discriminate].
    destruct (srow s gain) as [|a l]; [discriminate Hx | exfalso; apply Hno; right; discriminate].
Qed.

Lemma table_rate_sum n N sp2a loss gain r s : lg_wf n N sp2a loss gain ->
  table_rate Q2R loss gain r s =
  rsum (map (fun k => (Q2R (stq gain k s) - Q2R (stq loss k s)) * nth k r 0)%R (seq 0 n)).
Proof.
  intros W. unfold table_rate.
  rewrite (rsum_row (srow s gain) (fun k => nth k r 0%R) n), (rsum_row (srow s loss) (fun k => nth k r 0%R) n);
    try apply (wf_loss _ _ _ _ _ W s); try apply (wf_gain _ _ _ _ _ W s).
  rewrite <- rsum_minus. apply rsum_ext. intros k _. rewrite !stq_srow. ring.
Qed.
