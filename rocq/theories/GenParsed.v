(* The generated functions for the tables of a parsed mechanism. *)
From Coq Require Import String List Bool Arith Lia Permutation ZArith QArith Reals Qreals Lra.
From Verif Require Import Base PyStr PyDict ModelParse ModelLang ModelGen ModelRhs SpecMech SpecKin
  ParseStruct ParseWritten ParseTables LangFacts GenReact GenLossGain.
Import ListNotations.
Open Scope nat_scope.
Open Scope list_scope.

(* ------------------------------------------------------------------ *)
(* Coefficients of a written mechanism are not negative. *)
Lemma digits_nonneg s v : digits s v -> (0 <= v)%Z.
Proof. induction 1; lia. Qed.
Lemma numeral_nonneg s q : numeral s q -> (0 <= q)%Q.
Proof.
  induction 1 as [s v H|a b v H]; apply digits_nonneg in H; unfold Qle; cbn; lia.
Qed.
Lemma term_word_nonneg t w : term_word t w -> (0 <= fst t)%Q.
Proof. induction 1 as [|num c nm H]; cbn [fst]; [discriminate | eapply numeral_nonneg, H]. Qed.
Lemma side_nonneg ts s : side_written ts s -> Forall (fun t : term => 0 <= fst t)%Q ts.
Proof.
  induction 1 as [t s (b1 & w & b2 & _ & _ & _ & H) | t s1 ts s2 (b1 & w & b2 & _ & _ & _ & H) _ IH];
    constructor; try (eapply term_word_nonneg, H); [constructor | exact IH].
Qed.
Lemma reaction_nonneg r s : reaction_written r s -> Forall (fun t : term => 0 <= fst t)%Q (lhs r ++ rhs r).
Proof.
  intros (l & p & k & _ & Hl & Hp & _). apply Forall_app. split; [eapply side_nonneg, Hl|].
  destruct Hp as [Hp|[-> _]]; [eapply side_nonneg, Hp | constructor].
Qed.
Lemma written_coefs m text : written m text -> coefs_ok m.
Proof.
  intros (intro & s & _ & _ & H). unfold coefs_ok.
  assert (G : forall n m s, records n m s -> Forall (fun r => Forall (fun t : term => 0 <= fst t)%Q (lhs r ++ rhs r)) m).
  { clear. induction 1; constructor; try (eapply reaction_nonneg; eassumption); [constructor | assumption]. }
  eapply G, H.
Qed.

Lemma coefs_nth m k r : coefs_ok m -> nth_error m k = Some r ->
  Forall (fun t : term => 0 <= fst t)%Q (lhs r) /\ Forall (fun t : term => 0 <= fst t)%Q (rhs r).
Proof.
  intros H Hr. apply nth_error_In in Hr. unfold coefs_ok in H. rewrite Forall_forall in H.
  apply Forall_app, (H r Hr).
Qed.

(* ------------------------------------------------------------------ *)
(* Concentrations. *)
Lemma find_dget s (d : dict str nat) : 
  match find (fun p => str_eqb (fst p) s) d with Some p => Some (snd p) | None => None end = dget s d.
Proof.
  induction d as [|[a i] d IH]; cbn [find dget fst]; [reflexivity|].
  change (eqb s a) with (str_eqb s a).
  destruct (str_eqb a s) eqn:E.
  - apply str_eqb_eq in E; subst. rewrite str_eqb_refl. reflexivity.
  - assert (E2 : str_eqb s a = false) by (apply str_eqb_neq; apply str_eqb_neq in E; congruence).
    rewrite E2. exact IH.
Qed.

Lemma conc_of_dget sp2a y s : conc_of sp2a y s = match dget s sp2a with Some i => nth i y 0%R | None => 0%R end.
Proof. unfold conc_of. rewrite <- find_dget. destruct (find _ sp2a); reflexivity. Qed.

Lemma conc_of_nonneg sp2a y s : nonneg y -> (0 <= conc_of sp2a y s)%R.
Proof.
  intros H. rewrite conc_of_dget. destruct (dget s sp2a) as [i|]; [|lra].
  destruct (Nat.lt_ge_cases i (List.length y)) as [Hi|Hi].
  - unfold nonneg in H. rewrite Forall_forall in H. apply H, nth_In, Hi.
  - rewrite nth_overflow by exact Hi. lra.
Qed.

Lemma sp2a_length m : List.length (p_sp2a (interp m)) = List.length (species m).
Proof.
  destruct (interp_species m) as (_ & -> & _). rewrite combine_length, seq_length. lia.
Qed.

Lemma conc_of_at m y s i : List.length y = List.length (species m) -> dget s (p_sp2a (interp m)) = Some i ->
  nth_error y i = Some (conc_of (p_sp2a (interp m)) y s).
Proof.
  intros Hy Hi. rewrite conc_of_dget, Hi. apply interp_sp2a in Hi.
  apply nth_error_nth'. rewrite Hy. apply nth_error_Some. congruence.
Qed.

Lemma first_seen_from_nodup l seen : NoDup l -> (forall x, In x l -> ~ In x seen) -> first_seen_from seen l = l.
Proof.
  revert seen; induction l as [|x l IH]; intros seen Hnd H; [reflexivity|].
  cbn [first_seen_from]. destruct (inb x seen) eqn:E; [apply inb_In in E; exfalso; apply (H x); [left; reflexivity | exact E]|].
  inversion Hnd as [|? ? Hni Hnd']; subst. f_equal. apply IH; [exact Hnd'|].
  intros y Hy [<-|Hs]; [contradiction | apply (H y); [right; exact Hy | exact Hs]].
Qed.

Lemma first_seen_nodup l : NoDup l -> first_seen l = l.
Proof. intros H. apply first_seen_from_nodup; [exact H | intros x _ []]. Qed.

(* ------------------------------------------------------------------ *)
(* Reactant products. *)

(* what the generated code computes for a reaction with at least one
   reactant that is not light: one factor per written reactant *)
Definition written_product (c : str -> R) (ts : list term) : R :=
  rprod (map (fun s => rpow (c s) (total s ts)) (names ts)).

Lemma written_product_nodup c ts : NoDup (names ts) -> written_product c ts = mass_action c ts.
Proof. intros H. unfold written_product, mass_action. rewrite first_seen_nodup by exact H. reflexivity. Qed.

Definition only_light (ts : list term) : bool := match names ts with [] => true | _ => false end.

Lemma nth_error_array n (f : nat -> R) k : k < n -> nth_error (array n f) k = Some (f k).
Proof.
  intros H. unfold array. rewrite nth_error_map.
  rewrite (nth_error_nth' (seq 0 n) 0) by (rewrite seq_length; exact H).
  rewrite seq_nth by exact H. reflexivity.
Qed.

Lemma array_length n (f : nat -> R) : List.length (array n f) = n.
Proof. unfold array. rewrite map_length, seq_length. reflexivity. Qed.

Lemma array_ext n (f g : nat -> R) : (forall k, k < n -> f k = g k) -> array n f = array n g.
Proof. intros H. apply map_ext_in. intros k Hk. apply in_seq in Hk. apply H. lia. Qed.

(* the vector of reactant products of a mechanism, given what light-only
   equations are left with *)
Definition products (m : mech) (m0 : nat -> R) (c : str -> R) : list R :=
  array (List.length m) (fun k => match nth_error m k with
    | Some r => if only_light (lhs r) then m0 k else written_product c (lhs r)
    | None => m0 k end).

(* All powers in the reactant products are defined. *)
Definition powers_ok (m : mech) (c : str -> R) : Prop :=
  forall r s, In r m -> In s (names (lhs r)) -> pow_ok (c s) (total s (lhs r)).

Lemma powers_ok_nonneg m sp2a y : coefs_ok m -> nonneg y -> powers_ok m (conc_of sp2a y).
Proof.
  intros Hc Hn r s Hr Hs. apply pow_ok_nonneg; [apply conc_of_nonneg, Hn|].
  apply In_nth_error in Hr as (k & Hk). apply total_nonneg', (coefs_nth m k r Hc Hk).
Qed.

Lemma products_vec_gen m off (L : lang) m0 prog y : off = 0 \/ off = 1 -> (forall i, loc L (i + off) = Some i) ->
  List.length y = List.length (species m) -> powers_ok m (conc_of (p_sp2a (interp m)) y) ->
  (forall k r s, nth_error m k = Some r -> In s (names (lhs r)) -> ~ total s (lhs r) == 1 ->
     forall q, q == total s (lhs r) -> lit L q == q) ->
  assigns prog = react_assigns off (List.length m) (p_sp2a (interp m)) (p_loss (interp m)) (p_reac (interp m)) ->
  returned (List.length m) (run (cell off (List.length m)) (value L (py_env y [])) prog m0) =
  Some (products m m0 (conc_of (p_sp2a (interp m)) y)).
Proof.
  intros Hoff Hloc Hy Hpw Hl Hp.
  destruct (run_reactants L off (py_env y []) (List.length m) _ _ _ (conc_of (p_sp2a (interp m)) y) m0 prog Hoff Hloc Hp)
    as (m' & -> & Hm').
  - intros k s Hk Hs. destruct (nth_error m k) as [r|] eqn:E; [|apply nth_error_None in E; lia].
    rewrite (real_reactants_interp m k r E) in Hs.
    destruct (known_interp m k r s E Hs) as [_ (i & Hi)].
    assert (Hq : stq (p_loss (interp m)) k s == total s (lhs r)).
    { rewrite (stq_interp m k r s E). apply inb_In in Hs. rewrite Hs. reflexivity. }
    split; [|split].
    + unfold ix, dget_or. rewrite Hi. cbn [py_env]. apply conc_of_at; assumption.
    + eapply pow_ok_proper; [symmetry; exact Hq|]. apply Hpw; [eapply nth_error_In, E | exact Hs].
    + intros Hone. apply (Hl k r s E Hs); [|exact Hq]. intros H1. rewrite H1 in Hq.
      apply Qeq_eq_bool in Hq. unfold isone in Hone. congruence.
  - cbn [returned]. f_equal. apply array_ext. intros k Hk. rewrite Hm'.
    destruct (Nat.ltb_spec k (List.length m)); [|lia]. cbn [andb].
    destruct (nth_error m k) as [r|] eqn:E; [|apply nth_error_None in E; lia].
    rewrite (real_reactants_interp m k r E). unfold only_light, written_product.
    destruct (names (lhs r)) as [|s0 ss] eqn:En; cbn [negb]; [reflexivity|].
    rewrite <- En. f_equal. apply map_ext_in. intros s Hs. apply rpow_proper.
    rewrite (stq_interp m k r s E). apply inb_In in Hs. rewrite Hs. reflexivity.
Qed.

Lemma products_vec m off (L : lang) m0 prog y : off = 0 \/ off = 1 -> (forall i, loc L (i + off) = Some i) ->
  coefs_ok m -> List.length y = List.length (species m) -> nonneg y ->
  (forall k r s, nth_error m k = Some r -> In s (names (lhs r)) -> ~ total s (lhs r) == 1 ->
     forall q, q == total s (lhs r) -> lit L q == q) ->
  assigns prog = react_assigns off (List.length m) (p_sp2a (interp m)) (p_loss (interp m)) (p_reac (interp m)) ->
  returned (List.length m) (run (cell off (List.length m)) (value L (py_env y [])) prog m0) =
  Some (products m m0 (conc_of (p_sp2a (interp m)) y)).
Proof. intros. apply (products_vec_gen m off); auto. apply powers_ok_nonneg; assumption. Qed.

(* ------------------------------------------------------------------ *)
(* dydt *)
Lemma In_dkeys_srow (d : table) s k : In k (dkeys (srow s d)) <-> exists q, dget2 s k d = Some q.
Proof.
  rewrite <- dmem_In. unfold dmem, srow, dget_or, dget2. destruct (dget s d) as [row|].
  - destruct (dget k row); split; intros; eauto; try discriminate. destruct H; discriminate.
  - cbn [dget]. split; [discriminate | intros (q & H); discriminate].
Qed.

Lemma interp_lg_wf m : lg_wf (List.length m) (List.length (species m))
  (p_sp2a (interp m)) (p_loss (interp m)) (p_gain (interp m)).
Proof.
  destruct (interp_species m) as (_ & Hsp & _ & Hnd).
  destruct (interp_wf m) as [Wl Wg]. constructor.
  - rewrite Hsp. unfold dkeys. rewrite map_fst_combine by (rewrite seq_length; reflexivity). exact Hnd.
  - rewrite Hsp. unfold dvals. rewrite map_snd_combine by (rewrite seq_length; reflexivity). apply seq_NoDup.
  - intros s i H. rewrite Hsp in H. apply in_combine_r in H. apply in_seq in H. lia.
  - intros s. split; [apply wf2_row, Wl|]. intros k Hk. apply In_dkeys_srow in Hk as (q & Hq).
    assert (H := interp_loss m s k). destruct (nth_error m k) eqn:E; [|congruence].
    apply nth_error_Some. congruence.
  - intros s. split; [apply wf2_row, Wg|]. intros k Hk. apply In_dkeys_srow in Hk as (q & Hq).
    rewrite interp_gain in Hq. destruct (nth_error m k) eqn:E; [|discriminate].
    apply nth_error_Some. congruence.
Qed.

Lemma In_sp2a m s i : In (s, i) (p_sp2a (interp m)) <-> nth_error (species m) i = Some s.
Proof.
  rewrite <- interp_sp2a. split; intros H.
  - apply dget_In; [|exact H]. apply (wf_keys _ _ _ _ _ (interp_lg_wf m)).
  - apply dget_Some_In, H.
Qed.

(* The exact condition for the dydt module to be well formed. *)
Definition has_entry (m : mech) (s : str) : Prop :=
  exists k q, dget2 s k (p_loss (interp m)) = Some q \/ dget2 s k (p_gain (interp m)) = Some q.

Lemma has_terms_entry m s : has_terms (p_loss (interp m)) (p_gain (interp m)) s <-> has_entry m s.
Proof.
  unfold has_terms, has_entry. split.
  - intros [H|H].
    + destruct (srow s (p_loss (interp m))) as [|[k q] row] eqn:E; [congruence|].
      assert (Hk : In k (dkeys (srow s (p_loss (interp m))))) by (rewrite E; left; reflexivity).
      apply In_dkeys_srow in Hk as (q' & Hq). exists k, q'. auto.
    + destruct (srow s (p_gain (interp m))) as [|[k q] row] eqn:E; [congruence|].
      assert (Hk : In k (dkeys (srow s (p_gain (interp m))))) by (rewrite E; left; reflexivity).
      apply In_dkeys_srow in Hk as (q' & Hq). exists k, q'. auto.
  - intros (k & q & [H|H]); [left | right]; intros E.
    + assert (Hk : In k (dkeys (srow s (p_loss (interp m))))) by (apply In_dkeys_srow; eauto).
      rewrite E in Hk. exact Hk.
    + assert (Hk : In k (dkeys (srow s (p_gain (interp m))))) by (apply In_dkeys_srow; eauto).
      rewrite E in Hk. exact Hk.
Qed.

Lemma safe_has_entry m s : Forall products_safe m -> In s (species m) -> has_entry m s.
Proof.
  intros Hsafe Hs. apply species_In in Hs as (Hl & r & Hr & Hin).
  apply In_nth_error in Hr as (k & Hk). rewrite in_app_iff in Hin. destruct Hin as [Hin|Hin].
  - assert (H := interp_loss m s k). rewrite Hk in H. unfold has_entry.
    destruct (dget2 s k (p_loss (interp m))) as [q|] eqn:E.
    + exists k, q. left. exact E.
    + exfalso. apply H. apply In_names. auto.
  - assert (Hg := interp_gain m s k). rewrite Hk in Hg.
    assert (Hok := gain_safe_ok r s). rewrite Forall_forall in Hsafe.
    specialize (Hok (Hsafe r (nth_error_In _ _ Hk))). unfold has_entry.
    destruct (code_gain (last_reactant r) (rhs r) s) as [q|].
    + exists k, q. right. exact Hg.
    + exfalso. apply Hok. apply In_names. auto.
Qed.

Lemma total_names s ts : s <> light -> ~ In s (names ts) -> total s ts = 0%Q.
Proof. intros Hl Hn. apply total_notin. intros H. apply Hn, In_names. auto. Qed.

Lemma stq_loss_total m k r s : nth_error m k = Some r -> s <> light ->
  stq (p_loss (interp m)) k s == total s (lhs r).
Proof.
  intros Hr Hs. rewrite (stq_interp m k r s Hr). destruct (inb s (names (lhs r))) eqn:E; [reflexivity|].
  apply inb_nIn in E. rewrite total_names by assumption. reflexivity.
Qed.

Lemma stq_gain_total m k r s : nth_error m k = Some r -> products_safe r -> s <> light ->
  stq (p_gain (interp m)) k s == total s (rhs r).
Proof.
  intros Hr Hsafe Hs. unfold stq. rewrite interp_gain, Hr. assert (H := gain_safe_ok r s Hsafe).
  destruct (code_gain (last_reactant r) (rhs r) s) as [q|]; cbn [entry_ok] in H; [apply H|].
  rewrite total_names by assumption. reflexivity.
Qed.

Lemma excluded_bath s : s <> light -> inb s excluded = inb s bath.
Proof.
  intros H. unfold excluded, bath, inb. cbn [existsb].
  assert (E : eqb s (s_ "hv") = false) by (apply eqb_neq; exact H). rewrite E.
  destruct (eqb s (s_ "AIR")), (eqb s (s_ "H2O")), (eqb s (s_ "O2")); reflexivity.
Qed.

Lemma species_not_light m s : In s (species m) -> s <> light.
Proof. intros H. apply species_In in H. tauto. Qed.

(* Sums over equation numbers are sums over reactions. *)
Lemma rsum_seq_combine {A} (f : A -> R -> R) (l : list A) (r : list R) d :
  List.length r = List.length l ->
  rsum (map (fun k => f (nth k l d) (nth k r 0%R)) (seq 0 (List.length l))) =
  rsum (map (fun ar => f (fst ar) (snd ar)) (combine l r)).
Proof.
  revert r; induction l as [|a l IH]; intros [|x r] H; try discriminate; [reflexivity|].
  cbn [List.length seq combine map rsum fst snd nth].
  rewrite <- seq_shift, map_map. cbn [nth]. rewrite (IH r) by (injection H; auto). reflexivity.
Qed.

(* Rate of change according to the written reactions. *)
Definition net_rate (m : mech) (r : list R) (s : str) : R :=
  rsum (map (fun rx => net s (fst rx) * snd rx)%R (combine m r)).

Lemma table_rate_net m r s : Forall products_safe m -> s <> light -> List.length r = List.length m ->
  table_rate Q2R (p_loss (interp m)) (p_gain (interp m)) r s = net_rate m r s.
Proof.
  intros Hsafe Hs Hr. rewrite (table_rate_sum _ _ _ _ _ r s (interp_lg_wf m)).
  unfold net_rate. rewrite <- (rsum_seq_combine (fun rx x => net s rx * x)%R m r (Rx [] [] [])) by exact Hr.
  apply rsum_ext. intros k Hk. apply in_seq in Hk.
  destruct (nth_error m k) as [rx|] eqn:E; [|apply nth_error_None in E; lia].
  rewrite (nth_error_nth m k _ E). unfold net.
  rewrite Forall_forall in Hsafe. specialize (Hsafe rx (nth_error_In _ _ E)).
  rewrite (Qeq_eqR _ _ (stq_gain_total m k rx s E Hsafe Hs)).
  rewrite (Qeq_eqR _ _ (stq_loss_total m k rx s E Hs)). reflexivity.
Qed.

(* The vector returned by the generated dydt. *)
Lemma nth_error_eq {A} (l1 l2 : list A) : (forall i, nth_error l1 i = nth_error l2 i) -> l1 = l2.
Proof.
  revert l2; induction l1 as [|a l1 IH]; intros [|b l2] H; try reflexivity.
  - specialize (H 0); discriminate.
  - specialize (H 0); discriminate.
  - assert (E := H 0). injection E as ->. f_equal. apply IH. intros i. exact (H (S i)).
Qed.

Lemma array_species m (f : nat -> R) (g : str -> R) :
  (forall i s, nth_error (species m) i = Some s -> f i = g s) ->
  array (List.length (species m)) f = map g (species m).
Proof.
  intros H. apply nth_error_eq. intros i.
  destruct (Nat.lt_ge_cases i (List.length (species m))) as [Hi|Hi].
  - rewrite nth_error_array by exact Hi. rewrite nth_error_map.
    destruct (nth_error (species m) i) as [s|] eqn:E; [|apply nth_error_None in E; lia].
    cbn [option_map]. f_equal. apply H, E.
  - rewrite (proj2 (nth_error_None _ _)), (proj2 (nth_error_None _ _)); [reflexivity | |]; rewrite ?map_length, ?array_length; exact Hi.
Qed.

Lemma dydt_numba_parsed m r : List.length r = List.length m ->
  (forall s, In s (species m) -> ~ In s bath -> has_entry m s) ->
  dydt_numba (snd (gen_loss_gain_numba (p_sp2a (interp m)) (p_loss (interp m)) (p_gain (interp m))))
    (List.length (species m)) r =
  Some (map (fun s => if inb s bath then 0%R
                      else table_rate Q2R (p_loss (interp m)) (p_gain (interp m)) r s) (species m)).
Proof.
  intros Hr He. unfold dydt_numba.
  destruct (run_lg_numba _ _ _ _ _ r zeros (interp_lg_wf m) Hr) as (m' & -> & H1 & H2).
  - intros s i Hi Hx. apply In_sp2a in Hi. apply nth_error_In in Hi. apply has_terms_entry, He; [exact Hi|].
    rewrite excluded_bath in Hx by (eapply species_not_light, Hi). apply inb_nIn, Hx.
  - cbn [returned]. f_equal. apply array_species. intros i s Hi.
    assert (Hx : inb s excluded = inb s bath) by (apply excluded_bath; eapply species_not_light, nth_error_In, Hi).
    destruct (inb s bath) eqn:E.
    + rewrite H2; [reflexivity|]. intros s' Hs'. apply In_sp2a in Hs'. congruence.
    + apply H1; [apply In_sp2a, Hi | congruence].
Qed.

Lemma loss_gain_fortran_parsed omp rnd m r : List.length r = List.length m -> rnd 1%Q == 1 ->
  (forall s, In s (species m) -> ~ In s bath -> has_entry m s) ->
  loss_gain_fortran rnd (gen_loss_gain_fortran omp (p_sp2a (interp m)) (p_loss (interp m)) (p_gain (interp m)))
    (List.length (species m)) r =
  Some (map (fun s => if inb s bath then 0%R
                      else table_rate (fcoef rnd) (p_loss (interp m)) (p_gain (interp m)) r s) (species m)).
Proof.
  intros Hr H1' He. unfold loss_gain_fortran.
  destruct (run_lg_fortran omp rnd _ _ _ _ _ r zeros (interp_lg_wf m) Hr H1') as (m' & -> & H1 & H2).
  - intros s i Hi Hx. apply In_sp2a in Hi. apply nth_error_In in Hi. apply has_terms_entry, He; [exact Hi|].
    rewrite excluded_bath in Hx by (eapply species_not_light, Hi). apply inb_nIn, Hx.
  - cbn [returned]. f_equal. apply array_species. intros i s Hi.
    assert (Hx : inb s excluded = inb s bath) by (apply excluded_bath; eapply species_not_light, nth_error_In, Hi).
    destruct (inb s bath) eqn:E.
    + rewrite H2; [reflexivity|]. intros s' Hs'. apply In_sp2a in Hs'. congruence.
    + apply H1; [apply In_sp2a, Hi | congruence].
Qed.
