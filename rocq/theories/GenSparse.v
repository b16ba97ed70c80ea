(* The saved loss_gain matrix, recorded products, and runs of the generated
   dydt without assumptions on the tables. *)
From Coq Require Import String List Bool Arith Lia Permutation ZArith QArith Reals Qreals Lra.
From Verif Require Import Base PyStr PyDict ModelParse ModelLang ModelGen ModelRhs SpecMech SpecKin
  ParseStruct ParseWritten ParseTables LangFacts GenReact GenLossGain GenParsed.
Import ListNotations.
Open Scope nat_scope.
Open Scope list_scope.

(* ------------------------------------------------------------------ *)
(* The sparse matrix. *)
Definition unsigned (q : Q) : Q := if isone q then 1 else q.
Lemma unsigned_eq q : unsigned q == q.
Proof. unfold unsigned, isone. destruct (Qeq_bool q 1) eqn:E; [apply Qeq_bool_iff in E; symmetry; exact E | reflexivity]. Qed.

Lemma eqb_pair (a b c d : nat) : eqb (a, b) (c, d) = (a =? c) && (b =? d).
Proof. reflexivity. Qed.

Lemma fold_sparse_other i sg row m i' k' : i' <> i ->
  sp_entry (fold_left (sparse_lg_step i sg) row m) i' k' = sp_entry m i' k'.
Proof.
  intros Hne. revert m; induction row as [|[k q] row IH]; intros m; [reflexivity|].
  cbn [fold_left sparse_lg_step]. rewrite IH. unfold sp_entry, dget_or. rewrite dget_dset, eqb_pair.
  apply Nat.eqb_neq in Hne. rewrite Hne. reflexivity.
Qed.

Lemma fold_sparse_this i sg (row : dict nat Q) m k : NoDup (dkeys row) -> sg == 1 \/ sg == -1 # 1 ->
  sp_entry (fold_left (sparse_lg_step i sg) row m) i k ==
  match dget k row with Some q => (sg * q)%Q | None => sp_entry m i k end.
Proof.
  intros Hnd Hsg. revert m; induction row as [|[k' q] row IH]; intros m; [reflexivity|].
  inversion Hnd as [|? ? Hni Hnd']; subst. cbn [fold_left sparse_lg_step dget].
  rewrite (IH Hnd').
  destruct (eqb k k') eqn:E.
  - apply eqb_eq in E; subst. destruct (dget k' row) as [q'|] eqn:E2.
    + exfalso. apply Hni. apply dmem_In. unfold dmem. rewrite E2. reflexivity.
    + unfold sp_entry, dget_or. rewrite dget_dset, eqb_pair, !Nat.eqb_refl. cbn [andb].
      unfold isone. destruct (Qeq_bool q 1) eqn:E3; [|reflexivity].
      apply Qeq_bool_iff in E3. rewrite E3. ring.
  - destruct (dget k row); [reflexivity|].
    unfold sp_entry, dget_or. rewrite dget_dset, eqb_pair. 
    change (eqb k k') with (k =? k') in E. rewrite E, andb_false_r. reflexivity.
Qed.

Lemma sparse_lg_entry sp loss gain m l' g' m' :
  (forall s, NoDup (dkeys (srow s loss)) /\ NoDup (dkeys (srow s gain))) -> NoDup (dvals sp) ->
  sparse_lg sp loss gain m = (l', g', m') ->
  (forall s i k, In (s, i) sp -> inb s excluded = false ->
     sp_entry m' i k == match dget k (srow s gain) with
                       | Some q => q
                       | None => match dget k (srow s loss) with Some q => (-1 * q)%Q | None => sp_entry m i k end
                       end) /\
  (forall i k, (forall s, In (s, i) sp -> inb s excluded = true) -> sp_entry m' i k = sp_entry m i k).
Proof.
  revert loss gain m; induction sp as [|[s i] sp IH]; intros loss gain m Hnd Hv; cbn [sparse_lg].
  - intros H; injection H as <- <- <-. split; [intros ? ? ? [] | reflexivity].
  - cbn [dvals map snd] in Hv. inversion Hv as [|? ? Hni Hv']; subst.
    destruct (inb s excluded) eqn:Ee; intros H.
    + apply IH in H as [H1 H2]; try assumption. split.
      * intros s' i' k [Heq|Hin] He; [injection Heq as <- <-; congruence | eauto].
      * intros i' k Hi. apply H2. intros s' Hs'. apply Hi. right; exact Hs'.
    + apply IH in H as [H1 H2]; [|intros s'; rewrite !srow_dtouch; apply Hnd | exact Hv']. split.
      * intros s' i' k [Heq|Hin] He.
        -- injection Heq as <- <-. rewrite H2.
           ++ rewrite fold_sparse_this; [|rewrite srow_dtouch; apply Hnd | left; reflexivity].
              rewrite srow_dtouch. destruct (dget k (srow s gain)); [ring|].
              rewrite fold_sparse_this; [|rewrite srow_dtouch; apply Hnd | right; reflexivity].
              rewrite srow_dtouch. reflexivity.
           ++ intros s' Hs'. exfalso. apply Hni. change i with (snd (s', i)). apply in_map, Hs'.
        -- rewrite (H1 s' i' k Hin He). rewrite !srow_dtouch.
           destruct (dget k (srow s' gain)); [reflexivity|]. destruct (dget k (srow s' loss)); [reflexivity|].
           rewrite !fold_sparse_other; [reflexivity | |]; intros ->; apply Hni; change i with (snd (s', i)); apply in_map, Hin.
      * intros i' k Hi. rewrite H2 by (intros s' Hs'; apply Hi; right; exact Hs').
        assert (Hne : i' <> i) by (intros ->; specialize (Hi s (or_introl eq_refl)); congruence).
        rewrite !fold_sparse_other by exact Hne. reflexivity.
Qed.

(* ------------------------------------------------------------------ *)
(* Which products are recorded. *)
Definition recorded_product (r : reaction) (s : str) : Prop :=
  exists pre c post, rhs r = pre ++ (c, s) :: post /\ s <> light /\ ~ In (last_reactant r) (names pre).

Lemma recent_Some s ts : s <> light -> (exists q, recent s ts = Some q) <-> In s (names ts).
Proof.
  intros Hs. destruct (recent s ts) as [q|] eqn:E.
  - split; [intros _|eauto].
    destruct (in_dec (@eqb_dec str EqB_str) s (names ts)) as [H|H]; [exact H|].
    apply recent_None in H. congruence.
  - apply recent_None in E. split; [intros (q & H); discriminate | contradiction].
Qed.

Lemma code_gain_recorded r s : (exists q, code_gain (last_reactant r) (rhs r) s = Some q) <-> recorded_product r s.
Proof.
  destruct (str_eqb s light) eqn:El.
  { apply str_eqb_eq in El; subst. split.
    - intros (q & H). exfalso. revert q H.
      assert (G : forall ts f, f light = None -> fold_left (gstep (last_reactant r)) ts f light = None).
      { induction ts as [|[c n] ts IH]; intros f Hf; cbn [fold_left]; [exact Hf|]. apply IH.
        unfold gstep. destruct (str_eqb n light) eqn:En; [exact Hf|].
        assert (E2 : str_eqb light n = false) by (apply str_eqb_neq; apply str_eqb_neq in En; congruence).
        destruct (f (last_reactant r)); rewrite ?E2; try exact Hf.
        destruct (f n); [rewrite E2|]; exact Hf. }
      intros q H. unfold code_gain in H. rewrite G in H by reflexivity. discriminate.
    - intros (pre & c & post & _ & H & _). congruence. }
  apply str_eqb_neq in El.
  destruct (code_gain_spec (last_reactant r) (rhs r) s El) as [[Hn Hc]|(pre & c & post & E & Hp & Hl & H)].
  - rewrite Hc, recent_Some by exact El. split.
    + intros H. destruct (names_split_first s (rhs r) H) as (pre & c & post & E & _).
      exists pre, c, post. split; [exact E|]. split; [exact El|]. intros Hx. apply Hn. rewrite E, names_app.
      apply in_or_app; left; exact Hx.
    + intros (pre & c & post & E & _ & _). rewrite E. apply In_names. split; [exact El|].
      rewrite map_app. apply in_or_app; right; left; reflexivity.
  - assert (Hin : (exists q, code_gain (last_reactant r) (rhs r) s = Some q) <->
                  In s (names (pre ++ [(c, last_reactant r)]))).
    { rewrite <- recent_Some by exact El.
      destruct (code_gain (last_reactant r) (rhs r) s) as [q|] eqn:Eg.
      - destruct H as (v & Hv & _). split; eauto.
      - rewrite H. split; intros (q & Hq); discriminate. }
    rewrite Hin. split.
    + intros Hs. destruct (names_split_first s _ Hs) as (a & c' & b & E' & _).
      exists a, c', (b ++ post). rewrite E. split.
      * change ((c, last_reactant r) :: post) with ([(c, last_reactant r)] ++ post).
        rewrite app_assoc, E', <- app_assoc. reflexivity.
      * split; [exact El|].
        destruct b as [|b0 b] using rev_ind.
        -- apply app_inj_tail in E' as [<- _]. exact Hp.
        -- clear IHb. rewrite app_comm_cons, app_assoc in E'. apply app_inj_tail in E' as [-> _].
           intros Hx. apply Hp. rewrite names_app. apply in_or_app; left; exact Hx.
    + intros (a & c' & b & E' & _ & Ha). rewrite E in E'.
      rewrite names_app, in_app_iff.
      assert (G : forall a pre, pre ++ (c, last_reactant r) :: post = a ++ (c', s) :: b ->
                  ~ In (last_reactant r) (names a) -> In s (names pre) \/ s = last_reactant r).
      { clear - El Hl. induction a as [|x a IH]; intros [|z pre] E Ha; cbn [app] in E.
        - injection E as -> -> _. auto.
        - injection E as -> _. left. apply In_names. split; [exact El | left; reflexivity].
        - injection E as <- E. exfalso. apply Ha. apply In_names. split; [exact Hl | left; reflexivity].
        - injection E as <- E. destruct (IH pre E) as [H|H].
          + intros Hx. apply Ha. apply In_names in Hx. apply In_names. split; [tauto | right; tauto].
          + left. apply In_names in H. apply In_names. split; [tauto | right; tauto].
          + auto. }
      destruct (G a pre E' Ha) as [H'|H']; [left; exact H'|]. right. apply In_names. split; [exact El|].
      left. cbn. congruence.
Qed.

Lemma has_entry_spec m s : has_entry m s <->
  exists r, In r m /\ (In s (names (lhs r)) \/ recorded_product r s).
Proof.
  unfold has_entry. split.
  - intros (k & q & [H|H]).
    + assert (G := interp_loss m s k). destruct (nth_error m k) as [r|] eqn:E; [|congruence].
      exists r. split; [eapply nth_error_In, E|]. left. rewrite H in G. apply G.
    + rewrite interp_gain in H. destruct (nth_error m k) as [r|] eqn:E; [|discriminate].
      exists r. split; [eapply nth_error_In, E|]. right. apply code_gain_recorded. eauto.
  - intros (r & Hr & H). apply In_nth_error in Hr as (k & Hk). destruct H as [H|H].
    + assert (G := interp_loss m s k). rewrite Hk in G.
      destruct (dget2 s k (p_loss (interp m))) as [q|] eqn:E; [exists k, q; auto | contradiction].
    + apply code_gain_recorded in H as (q & Hq). exists k, q. right. rewrite interp_gain, Hk. exact Hq.
Qed.

(* Recorded coefficients are not negative. *)
Lemma code_gain_nonneg lst ts s q : Forall (fun t : term => 0 <= fst t)%Q ts ->
  code_gain lst ts s = Some q -> (0 <= q)%Q.
Proof.
  assert (G : forall ts f, Forall (fun t : term => 0 <= fst t)%Q ts ->
    (forall s q, f s = Some q -> (0 <= q)%Q) ->
    forall s q, fold_left (gstep lst) ts f s = Some q -> (0 <= q)%Q).
  { clear. induction ts as [|[c n] ts IH]; intros f Hc Hf s q; cbn [fold_left]; [apply Hf|].
    inversion Hc as [|? ? Hc0 Hc']; subst. cbn [fst] in Hc0. apply IH; [exact Hc'|].
    intros s' q'. unfold gstep. destruct (str_eqb n light); [apply Hf|].
    destruct (f lst).
    - destruct (f n) as [v|] eqn:Ev; [|apply Hf]. destruct (str_eqb s' n); [|apply Hf].
      intros H; injection H as <-. apply Hf in Ev.
      apply (Qplus_le_compat 0 _ 0 _); assumption.
    - destruct (str_eqb s' n); [intros H; injection H as <-; exact Hc0 | apply Hf]. }
  intros Hc. apply G; [exact Hc | discriminate].
Qed.

(* ------------------------------------------------------------------ *)
(* Runs that return, from cleared output. *)
Lemma has_terms_dec loss gain s : has_terms loss gain s \/ ~ has_terms loss gain s.
Proof.
  unfold has_terms. destruct (srow s loss); [|left; left; discriminate].
  destruct (srow s gain); [right; intuition | left; right; discriminate].
Qed.

Lemma ran_lg_numba n N sp2a loss gain r v : lg_wf n N sp2a loss gain -> List.length r = n ->
  dydt_numba (snd (gen_loss_gain_numba sp2a loss gain)) N r = Some v ->
  (forall s i, In (s, i) sp2a -> inb s excluded = false -> has_terms loss gain s) /\
  forall s i, In (s, i) sp2a -> inb s excluded = false -> nth_error v i = Some (table_rate Q2R loss gain r s).
Proof.
  intros W Hr H. unfold dydt_numba in H.
  assert (Ht : forall s i, In (s, i) sp2a -> inb s excluded = false -> has_terms loss gain s).
  { intros s i Hi He. destruct (has_terms_dec loss gain s) as [Ht|Ht]; [exact Ht|].
    rewrite (run_lg_numba_fails n N sp2a loss gain r zeros s i W Hi He Ht) in H. discriminate. }
  split; [exact Ht|].
  destruct (run_lg_numba n N sp2a loss gain r zeros W Hr Ht) as (m' & E & H1 & _).
  rewrite E in H. injection H as <-. intros s i Hi He.
  rewrite nth_error_array by (apply (wf_range _ _ _ _ _ W s i Hi)). f_equal. apply H1; assumption.
Qed.

Lemma ran_lg_fortran omp rnd n N sp2a loss gain r v : lg_wf n N sp2a loss gain -> List.length r = n ->
  rnd 1%Q == 1 ->
  loss_gain_fortran rnd (gen_loss_gain_fortran omp sp2a loss gain) N r = Some v ->
  forall s i, In (s, i) sp2a -> inb s excluded = false -> nth_error v i = Some (table_rate (fcoef rnd) loss gain r s).
Proof.
  intros W Hr Hrnd H. unfold loss_gain_fortran in H. rewrite run_is_assigns, gen_lg_fortran_assigns in H.
  destruct (run_assigns _ _ (lg_assigns_f sp2a loss gain) zeros) as [m'|] eqn:E; [|discriminate].
  injection H as <-. intros s i Hi He.
  rewrite nth_error_array by (apply (wf_range _ _ _ _ _ W s i Hi)). f_equal.
  destruct (run_assigns_ok (cell 1 N) (value (fortran rnd) (py_env [] r)) (lg_assigns_f sp2a loss gain) zeros
    (run_assigns_Some _ _ _ _ _ E)) as (m2 & Hm2 & Ho & Hw).
  rewrite E in Hm2. injection Hm2 as <-.
  pose (rhs := fun s => fst (losses_fortran 0 true (srow s loss)) ++
                   gains_fortran (snd (losses_fortran 0 true (srow s loss))) (srow s gain)).
  assert (Hin : forall c e, In (c, e) (lg_assigns_f sp2a loss gain) ->
    exists s i, c = i + 1 /\ In (s, i) sp2a /\ inb s excluded = false /\ e = rhs s /\ dmem s loss || dmem s gain = true).
  { intros c e. unfold lg_assigns_f. rewrite in_flat_map.
    intros ([s' i'] & H1 & H2). cbn [fst snd] in H2. destruct (inb s' excluded) eqn:E'; [destruct H2|].
    destruct (dmem s' loss || dmem s' gain) eqn:Em; [|destruct H2].
    destruct H2 as [H2|[]]. injection H2 as <- <-. exists s', i'. auto. }
  assert (Hcell : forall s i, In (s, i) sp2a -> cell 1 N (i + 1) = Some i).
  { intros s' i' H. apply cell_ok; [auto | apply (wf_range _ _ _ _ _ W s' i' H)]. }
  destruct (dmem s loss || dmem s gain) eqn:Em.
  - assert (Hmem : In (i + 1, rhs s) (lg_assigns_f sp2a loss gain)).
    { unfold lg_assigns_f. apply in_flat_map. exists (s, i). split; [exact Hi|]. cbn [fst snd]. rewrite He, Em. left; reflexivity. }
    assert (Hok := run_assigns_Some _ _ _ _ _ E). rewrite Forall_forall in Hok.
    destruct (Hok _ Hmem) as (d & x & _ & Hx). cbn [snd] in Hx.
    assert (Ht : has_terms loss gain s).
    { unfold has_terms. unfold rhs in Hx. destruct (srow s loss); [|left; discriminate].
      destruct (srow s gain); [discriminate Hx | right; discriminate]. }
    apply Hw with (c := i + 1) (e := rhs s); [| exact Hmem | apply (Hcell s), Hi |].
    + intros c1 e1 c2 e2 d' Hi1 Hi2 Hd1 Hd2. apply Hin in Hi1 as (s1 & i1 & -> & Hs1 & He1 & -> & _).
      apply Hin in Hi2 as (s2 & i2 & -> & Hs2 & He2 & -> & _).
      rewrite (Hcell s1 _ Hs1) in Hd1. rewrite (Hcell s2 _ Hs2) in Hd2.
      assert (i1 = i2) by congruence. subst.
      rewrite (In_vals_inj sp2a s1 s2 i2 (wf_vals _ _ _ _ _ W) Hs1 Hs2). reflexivity.
    + apply (lg_value_fortran (py_env [] r) n Hr rnd); [exact Hrnd | exact Ht|].
      intros k [Hk|Hk]; [apply (wf_loss _ _ _ _ _ W s), Hk | apply (wf_gain _ _ _ _ _ W s), Hk].
  - rewrite Ho.
    + unfold table_rate, srow, dget_or, dmem in *. destruct (dget s loss), (dget s gain); try discriminate.
      cbn [map rsum]. unfold zeros. ring.
    + intros c e H. apply Hin in H as (s' & i' & -> & Hs' & _ & _ & Em').
      rewrite (Hcell s' _ Hs'). intros Heq; injection Heq as ->.
      rewrite (In_vals_inj sp2a s' s i (wf_vals _ _ _ _ _ W) Hs' Hi) in Em'. congruence.
Qed.

(* Sum of weights over the species. *)
Lemma rsum_one (w : str -> R) (f : str -> R) l s : NoDup l -> In s l ->
  rsum (map (fun x => w x * (if eqb s x then f x else 0))%R l) = (w s * f s)%R.
Proof.
  induction l as [|a l IH]; [contradiction|]. intros Hnd Hs. inversion Hnd as [|? ? Hni Hnd']; subst.
  cbn [map rsum]. destruct (eqb s a) eqn:E.
  - apply eqb_eq in E; subst.
    assert (Z : rsum (map (fun x => (w x * (if eqb a x then f x else 0))%R) l) = 0%R).
    { apply rsum_zero. intros x Hx. destruct (eqb a x) eqn:E2; [|ring]. apply eqb_eq in E2; subst. contradiction. }
    rewrite Z. ring.
  - destruct Hs as [->|Hs]; [rewrite eqb_refl in E; discriminate|]. rewrite IH by assumption. ring.
Qed.

Lemma weight_total w l ts : NoDup l -> (forall s, In s (names ts) -> In s l) -> w light = 0%R ->
  ~ In light l ->
  rsum (map (fun s => w s * Q2R (total s ts))%R l) = weight w ts.
Proof.
  intros Hnd Hin Hw Hl. induction ts as [|[c n] ts IH].
  - unfold weight. cbn [map rsum total]. apply rsum_zero. intros s _. unfold Q2R; cbn. field.
  - unfold weight in *. cbn [map rsum fst snd].
    assert (Hin' : forall s, In s (names ts) -> In s l).
    { intros s Hs. apply Hin. apply In_names in Hs. apply In_names. split; [tauto | right; tauto]. }
    rewrite <- (IH Hin').
    transitivity (rsum (map (fun s => w s * (if eqb n s then Q2R c else 0) + w s * Q2R (total s ts))%R l)).
    + apply rsum_ext. intros s _. cbn [total]. change (eqb n s) with (str_eqb n s).
      destruct (str_eqb n s); [rewrite Q2R_plus|]; ring.
    + rewrite rsum_plus. f_equal. destruct (str_eqb n light) eqn:En.
      * apply str_eqb_eq in En; subst. rewrite Hw, Rmult_0_r. apply rsum_zero. intros s Hs.
        destruct (eqb light s) eqn:E; [|ring]. apply eqb_eq in E; subst. contradiction.
      * apply str_eqb_neq in En. rewrite (rsum_one w (fun _ => Q2R c) l n Hnd); [ring|].
        apply Hin. apply In_names. split; [exact En | left; reflexivity].
Qed.

(* Every product has a (possibly empty) row in the gain table. *)
Lemma dmem_dset {K V} `{EqB K} (k k' : K) (v : V) d : dmem k (dset k' v d) = eqb k k' || dmem k d.
Proof. unfold dmem. rewrite dget_dset. destruct (eqb k k'); reflexivity. Qed.

Lemma add_gain_mem lst nm eq c g s : dmem s g = true \/ s = nm -> dmem s (add_gain lst nm eq c g) = true.
Proof.
  intros H. unfold add_gain. destruct (dmem eq _).
  - destruct (dget eq _); unfold dset2; rewrite ?dmem_dset, ?dmem_dtouch;
      (destruct H as [->| ->]; [rewrite !orb_true_r | rewrite eqb_refl]; reflexivity).
  - unfold dset2; rewrite ?dmem_dset, ?dmem_dtouch;
      (destruct H as [->| ->]; [rewrite !orb_true_r | rewrite eqb_refl]; reflexivity).
Qed.

Lemma proc_products_mem eq lst ts st s : dmem s (p_gain st) = true \/ In s (names ts) ->
  dmem s (p_gain (proc_products eq lst ts st)) = true.
Proof.
  unfold proc_products. revert st; induction ts as [|[c nm] ts IH]; intros st H; cbn [fold_left].
  - destruct H as [H|[]]; exact H.
  - apply IH. destruct (proc_product_fields eq lst c nm st) as (_ & _ & _ & _ & ->).
    rewrite names_cons in H. destruct (str_eqb nm light); [exact H|].
    destruct H as [H|[H|H]]; [left; apply add_gain_mem; auto | left; apply add_gain_mem; auto | right; exact H].
Qed.

Lemma proc_from_mem k m st s : dmem s (p_gain st) = true \/ (exists r, In r m /\ In s (names (rhs r))) ->
  dmem s (p_gain (proc_from k m st)) = true.
Proof.
  revert k st; induction m as [|r m IH]; intros k st H; cbn [proc_from].
  - destruct H as [H|(r & [] & _)]. exact H.
  - apply IH. unfold proc_reaction.
    destruct (proc_reactants_frame k 0 (lhs r) (set_rate k (rtext r) st)) as (_ & Hg).
    destruct H as [H|(r' & [<-|Hr] & Hs)].
    + left. apply proc_products_mem. left. rewrite Hg. exact H.
    + left. apply proc_products_mem. right. exact Hs.
    + right. exists r'. auto.
Qed.

Lemma interp_dmem m s : In s (species m) -> dmem s (p_loss (interp m)) || dmem s (p_gain (interp m)) = true.
Proof.
  intros H. apply species_In in H as (Hl & r & Hr & Hin). rewrite in_app_iff in Hin. destruct Hin as [Hin|Hin].
  - apply has_terms_dmem, has_terms_entry, has_entry_spec. exists r. split; [exact Hr|]. left. apply In_names. auto.
  - apply orb_true_iff. right. apply proc_from_mem. right. exists r. split; [exact Hr|]. apply In_names. auto.
Qed.
