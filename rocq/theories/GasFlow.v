(* The right-hand side of the generated gas-phase code as a function: where it
   is defined, and which weights it lowers. *)
From Coq Require Import String List Bool Arith Lia ZArith QArith Reals Qreals Lra Permutation.
From Flocq Require Import Core BinarySingleNaN.
From Verif Require Import Base PyStr PyDict ModelParse SpecMech ParseStruct ParseTables ParseWritten ParseShow PropsParse
  ModelLang ModelGen ModelRhs SpecKin LangFacts GenReact GenLossGain GenParsed GenSparse PropsKin PropsRhs
  ModelOmp ModelExpr ModelRate ModelRateFile SpecRate RateExpr PropsRate ModelRateBody ModelRateRun RateSym
  SpecRateValue SpecMcmEnv PropsRateValue ModelRo2 SpecRo2 PropsRo2 ModelGas SpecGas PropsGas
  ModelSolver SpecSolver SolverFacts OdeFacts PropsSolver ModelSplit PropsSplit SpecMethod PropsMethod SpecTraj OdeSign OdeClose PropsTraj.
Import ListNotations.
Import Coq.Lists.List.
Open Scope nat_scope.
Open Scope list_scope.
Local Arguments eqb : simpl never.

Lemma products_nonneg m y : nonneg y -> nonneg (products m zeros (conc_of (p_sp2a (interp m)) y)).
Proof.
  intros Hn. apply Forall_forall. intros x Hx. apply In_nth_error in Hx as (k & Hk).
  assert (Hlt : k < List.length m).
  { rewrite <- (array_length (List.length m) (fun k => match nth_error m k with
      | Some r => if only_light (lhs r) then 0%R else written_product (conc_of (p_sp2a (interp m)) y) (lhs r) | None => 0%R end)).
    apply nth_error_Some. unfold products, zeros in Hk. congruence. }
  unfold products in Hk. rewrite nth_error_array in Hk by exact Hlt.
  destruct (nth_error m k) as [r|] eqn:Er; [|apply nth_error_None in Er; lia]. injection Hk as <-.
  destruct (only_light (lhs r)); [unfold zeros; lra|]. apply rprod_nonneg. intros x Hx. apply in_map_iff in Hx as (s' & <- & _). apply rpow_nonneg. apply conc_of_nonneg, Hn.
Qed.

Lemma generated_defined m text st e start_time t H2O T y v : written m text -> whole m -> Forall products_safe m -> peroxy_clean (first_seen (reading_order m)) ->
  extract_mechanism text = Ok (Z.of_nat (List.length m), st) -> (0 < T)%R -> (0 <= H2O)%R ->
  List.length y = List.length (first_seen (reading_order m)) ->
  coefficients m e (start_time + t) (peroxy_total (first_seen (reading_order m)) (conc_of (p_sp2a st) y)) H2O T v ->
  gas_dydt_numba st (List.length m) start_time t H2O T y = Some (generated m (map v (seq 0 (List.length m))) y).
Proof.
  intros W Hw Hs (P1 & P2 & P3 & P4) Hst HT HH Hy HC.
  assert (Est : st = interp m) by (assert (X := written_extract _ _ W); congruence).
  unfold gas_dydt_numba. rewrite (C33_partial m text st W Hst P1 P2 P3 P4 y Hy).
  destruct (gen_reactants_numba_ok _ _ _ _ (all_known_interp m)) as (p1 & Hg & Ha).
  subst st. rewrite Hg.
  destruct (C58_partial m text e v (start_time + t) _ H2O T W HT HH HC) as (st' & en & ef & E' & En & _ & Hr & _).
  rewrite Hst in E'. injection E' as <-. rewrite En. cbn [obind]. rewrite Hr. cbn [obind].
  change (first_seen (reading_order m)) with (species m) in *.
  unfold rhs_numba, reactants_numba.
  rewrite (products_vec_gen m 0 python zeros p1 y); [|left; reflexivity | intros i; cbn; rewrite ?Nat.add_0_r; reflexivity | exact Hy | apply whole_powers, Hw | intros k r s _ _ _ q _; reflexivity | exact Ha].
  rewrite Hy. apply dydt_numba_parsed; [|intros s Hs' _; apply safe_has_entry; assumption].
  assert (L1 : List.length (products m zeros (conc_of (p_sp2a (interp m)) y)) = List.length m) by apply array_length.
  rewrite multiply_length; rewrite map_length, seq_length; [reflexivity | exact L1].
Qed.

(* What no reaction makes more of. *)
Lemma generated_loses m w ks y : Forall products_safe m ->
  Forall (fun r => weight w (rhs r) <= weight w (lhs r))%R m -> w light = 0%R -> (forall b, In b bath -> w b = 0%R) ->
  List.length ks = List.length m -> nonneg ks -> nonneg y -> (amount_of (atoms w (p_sp2a (interp m))) (generated m ks y) <= 0)%R.
Proof.
  intros Hsafe Hw Hl Hb Lk Nk Ny. set (r := multiply (products m zeros (conc_of (p_sp2a (interp m)) y)) ks).
  assert (L1 : List.length (products m zeros (conc_of (p_sp2a (interp m)) y)) = List.length m) by apply array_length.
  assert (Lr : List.length r = List.length m) by (unfold r; rewrite multiply_length; lia).
  assert (Nr : nonneg r).
  { apply Forall_forall. intros x Hx. apply In_nth with (d := 0%R) in Hx as (k & Hk & <-). unfold r. rewrite multiply_nth by lia.
    assert (Np := products_nonneg m y Ny). unfold nonneg in Np, Nk. rewrite Forall_forall in Np, Nk.
    assert (Hk' : k < List.length ks) by lia. apply Rmult_le_pos; [apply Np, nth_In; lia | apply Nk, nth_In; exact Hk']. }
  assert (Hnd := proj2 (proj2 (proj2 (interp_species m)))). unfold amount_of, atoms. rewrite map_map. cbn [fst snd].
  rewrite (rsum_sp2a m (fun s i => w s * nth i (generated m ks y) 0)%R).
  replace (rsum (map (fun s => w s * nth (dget_or 0%nat s (p_sp2a (interp m))) (generated m ks y) 0)%R (species m)))
    with (rsum (map (fun s => rsum (map (fun rx => w s * (net s (fst rx) * snd rx))%R (combine m r))) (species m))).
  - rewrite rsum_swap. apply Rle_trans with (rsum (map (fun _ => 0%R) (combine m r))); [|rewrite rsum_zero; [lra | reflexivity]].
    apply rsum_le. intros [rx x] Hin. cbn [fst snd].
    assert (Px : (0 <= x)%R) by (apply in_combine_r in Hin; unfold nonneg in Nr; rewrite Forall_forall in Nr; apply Nr, Hin).
    apply in_combine_l in Hin.
    replace (rsum (map (fun s => w s * (net s rx * x))%R (species m))) with (x * (weight w (rhs rx) - weight w (lhs rx)))%R.
    { rewrite Forall_forall in Hw. specialize (Hw rx Hin). nra. }
    assert (Hli : ~ In light (species m)) by (intros Hx; apply (species_not_light m light Hx); reflexivity).
    assert (Hsp : forall s, In s (names (lhs rx)) \/ In s (names (rhs rx)) -> In s (species m)).
    { intros s Hs. apply species_In. rewrite !In_names in Hs. split; [tauto|]. exists rx. split; [exact Hin|]. apply in_or_app. tauto. }
    rewrite <- (weight_total w (species m) (rhs rx)), <- (weight_total w (species m) (lhs rx)); auto.
    rewrite <- rsum_minus, <- rsum_mult. apply rsum_ext. intros s _. unfold net. ring.
  - apply rsum_ext. intros s Hs. apply In_nth_error in Hs as (i & Hi). assert (Hi' := Hi). apply interp_sp2a in Hi'.
    unfold dget_or. rewrite Hi'. unfold generated. fold r.
    rewrite (nth_error_nth (map _ (species m)) i 0%R (x := if inb s bath then 0%R else table_rate Q2R (p_loss (interp m)) (p_gain (interp m)) r s)) by (rewrite nth_error_map, Hi; reflexivity).
    destruct (inb s bath) eqn:Eb.
    + rewrite (Hb s) by (apply inb_In, Eb). rewrite rsum_zero; [ring | intros; ring].
    + rewrite table_rate_net; [|exact Hsafe | eapply species_not_light, nth_error_In, Hi | exact Lr]. unfold net_rate. rewrite <- rsum_mult. reflexivity.
Qed.

Lemma generated_bath m ks y i s : nth_error (species m) i = Some s -> In s bath -> nth i (generated m ks y) 0%R = 0%R.
Proof.
  intros Hi Hb. unfold generated. apply nth_error_nth. rewrite nth_error_map, Hi. cbn [option_map]. apply inb_In in Hb. rewrite Hb. reflexivity.
Qed.
Lemma rates_at_length m k start t y : List.length (rates_at m k start t y) = List.length m.
Proof. unfold rates_at. rewrite map_length, seq_length. reflexivity. Qed.
Lemma rates_at_nonneg m k from until start t y : regular_rates (List.length m) k from until -> (from <= start + t <= until)%R -> nonneg y -> nonneg (rates_at m k start t y).
Proof.
  intros HR Ht Ny. apply Forall_forall. intros x Hx. unfold rates_at in Hx. apply in_map_iff in Hx as (r & <- & Hr). apply in_seq in Hr. apply HR; [lia | lra|].
  unfold peroxy_total. apply rsum_nonneg. intros x Hx. apply in_map_iff in Hx as (s & <- & _). destruct (is_peroxy s); [apply conc_of_nonneg, Ny | lra].
Qed.

(* Amounts. *)
Lemma amount_bounds (w : str -> R) m y A : (forall s, (0 <= w s)%R) -> List.length y = List.length (species m) -> nonneg y -> (forall i, (nth i y 0 <= A)%R) ->
  (0 <= amount_of (atoms w (p_sp2a (interp m))) y <= rsum (map (fun p => w (fst p)) (p_sp2a (interp m))) * A)%R.
Proof.
  intros Pw Ly Ny By. unfold amount_of, atoms. rewrite map_map. cbn [fst snd].
  assert (Pn : forall a, (0 <= nth a y 0)%R).
  { intros a. destruct (Nat.lt_ge_cases a (List.length y)) as [La|La]; [unfold nonneg in Ny; rewrite Forall_forall in Ny; apply Ny, nth_In, La | rewrite nth_overflow by exact La; lra]. }
  split.
  - apply rsum_nonneg. intros x Hx. apply in_map_iff in Hx as (p & <- & _). apply Rmult_le_pos; [apply Pw | apply Pn].
  - rewrite Rmult_comm, <- rsum_mult. apply rsum_le. intros p _. rewrite (Rmult_comm A). apply Rmult_le_compat_l; [apply Pw | apply By].
Qed.
Lemma amount_share (w : str -> R) m y i s : (forall s, (0 <= w s)%R) -> nonneg y -> nth_error (species m) i = Some s ->
  (w s * nth i y 0 <= amount_of (atoms w (p_sp2a (interp m))) y)%R.
Proof.
  intros Pw Ny Hi. assert (Hm : In (s, i) (p_sp2a (interp m))) by apply In_sp2a, Hi. unfold amount_of, atoms. rewrite map_map. cbn [fst snd]. revert Hm.
  assert (Pn : forall a, (0 <= nth a y 0)%R).
  { intros a. destruct (Nat.lt_ge_cases a (List.length y)) as [La|La]; [unfold nonneg in Ny; rewrite Forall_forall in Ny; apply Ny, nth_In, La | rewrite nth_overflow by exact La; lra]. }
  generalize (p_sp2a (interp m)) as l. induction l as [|p l IH]; intros Hl'; [contradiction|]. cbn [map rsum]. destruct Hl' as [->|Hl'].
  - cbn [fst snd]. assert (X : (0 <= rsum (map (fun x => w (fst x) * nth (snd x) y 0) l))%R).
    { apply rsum_nonneg. intros x Hx. apply in_map_iff in Hx as (p & <- & _). apply Rmult_le_pos; [apply Pw | apply Pn]. } lra.
  - specialize (IH Hl'). assert (X : (0 <= w (fst p) * nth (snd p) y 0)%R) by (apply Rmult_le_pos; [apply Pw | apply Pn]). lra.
Qed.
(* A bound for all species. *)
Definition ceiling (w : str -> R) (m : mech) (A : R) : R :=
  (A + rsum (map (fun s => if Rlt_dec 0 (w s) then rsum (map (fun p => w (fst p)) (p_sp2a (interp m))) * A / w s else 0) (species m)))%R.
Lemma ceiling_start w m A : (forall s, (0 <= w s)%R) -> (0 <= A)%R -> (A <= ceiling w m A)%R.
Proof.
  intros Pw PA. unfold ceiling. assert (0 <= rsum (map (fun s => if Rlt_dec 0 (w s) then rsum (map (fun p => w (fst p)) (p_sp2a (interp m))) * A / w s else 0) (species m)))%R; [|lra].
  apply rsum_nonneg. intros x Hx. apply in_map_iff in Hx as (s & <- & _). destruct (Rlt_dec 0 (w s)); [|lra].
  apply Rmult_le_pos; [apply Rmult_le_pos; [|exact PA] | left; apply Rinv_0_lt_compat; assumption]. apply rsum_nonneg. intros x Hx. apply in_map_iff in Hx as (p & <- & _). apply Pw.
Qed.
Lemma ceiling_share w m A s : (forall s, (0 <= w s)%R) -> (0 <= A)%R -> In s (species m) -> (0 < w s)%R ->
  (rsum (map (fun p => w (fst p)) (p_sp2a (interp m))) * A / w s <= ceiling w m A)%R.
Proof.
  intros Pw PA Hs Ps. unfold ceiling. set (Q := (rsum (map (fun p => w (fst p)) (p_sp2a (interp m))) * A)%R).
  assert (PQ : (0 <= Q)%R) by (apply Rmult_le_pos; [|exact PA]; apply rsum_nonneg; intros x Hx; apply in_map_iff in Hx as (p & <- & _); apply Pw).
  assert (P : forall s, (0 <= if Rlt_dec 0 (w s) then Q / w s else 0)%R).
  { intros x. destruct (Rlt_dec 0 (w x)); [|lra]. apply Rmult_le_pos; [exact PQ | left; apply Rinv_0_lt_compat; assumption]. }
  enough (Q / w s <= rsum (map (fun s => if Rlt_dec 0 (w s) then Q / w s else 0) (species m)))%R by lra.
  revert Hs. generalize (species m) as l. induction l as [|x l IH]; intros Hl; [contradiction|]. cbn [map rsum].
  assert (X : (0 <= rsum (map (fun s => if Rlt_dec 0 (w s) then Q / w s else 0) l))%R) by (apply rsum_nonneg; intros z Hz; apply in_map_iff in Hz as (p & <- & _); apply P).
  destruct Hl as [->|Hl]; [destruct (Rlt_dec 0 (w s)); [lra | contradiction]|]. specialize (IH Hl). specialize (P x). lra.
Qed.
