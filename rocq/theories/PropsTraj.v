(* C71, C72: exact solutions of the gas-phase equations, as PyBox generates
   them, stay non-negative and keep what the reactions balance. *)
From Coq Require Import String List Bool Arith Lia ZArith QArith Reals Qreals Lra.
From Flocq Require Import Core BinarySingleNaN.
From Verif Require Import Base PyStr PyDict ModelParse SpecMech ParseStruct ParseTables ParseWritten ParseShow PropsParse
  ModelLang ModelGen ModelRhs SpecKin LangFacts GenReact GenLossGain GenParsed GenSparse PropsKin PropsRhs
  ModelExpr ModelRate ModelRateFile SpecRate RateExpr PropsRate ModelRateBody ModelRateRun RateSym
  SpecRateValue SpecMcmEnv PropsRateValue ModelRo2 SpecRo2 PropsRo2 ModelGas SpecGas PropsGas PropsGasJac
  ModelSolver SpecSolver SolverFacts OdeFacts PropsSolver ModelSplit PropsSplit SpecMethod PropsMethod SpecTraj OdeSign.
Import ListNotations.
Import Coq.Lists.List.
Open Scope nat_scope.
Open Scope list_scope.
Local Arguments eqb : simpl never.

Definition whole (m : mech) : Prop := forall r s, In r m -> In s (names (lhs r)) -> exists k, as_nat (total s (lhs r)) = Some k.

Lemma whole_powers m c : whole m -> powers_ok m c.
Proof. intros H r s Hr Hs. destruct (H r s Hr Hs) as [k Hk]. apply as_nat_spec in Hk. eapply pow_ok_nat, Hk. Qed.

Lemma dydt_length prog N r d : dydt_numba prog N r = Some d -> List.length d = N.
Proof.
  unfold dydt_numba. generalize (run (cell 0 N) (value python (py_env [] r)) prog zeros). intros [a|] H; [|discriminate].
  assert (E : array N a = d) by (unfold returned in H; congruence). rewrite <- E. apply array_length.
Qed.

(* The right-hand side of the generated code as a total function. *)
Definition generated (m : mech) (ks : list R) (y : list R) : list R :=
  map (fun s => if inb s bath then 0%R
                else table_rate Q2R (p_loss (interp m)) (p_gain (interp m)) (multiply (products m zeros (conc_of (p_sp2a (interp m)) y)) ks) s) (species m).

Lemma generated_value m text st e start_time t H2O T y v d : written m text -> whole m -> peroxy_clean (first_seen (reading_order m)) ->
  extract_mechanism text = Ok (Z.of_nat (List.length m), st) -> (0 < T)%R -> (0 <= H2O)%R ->
  List.length y = List.length (first_seen (reading_order m)) ->
  coefficients m e (start_time + t) (peroxy_total (first_seen (reading_order m)) (conc_of (p_sp2a st) y)) H2O T v ->
  gas_dydt_numba st (List.length m) start_time t H2O T y = Some d ->
  d = generated m (map v (seq 0 (List.length m))) y.
Proof.
  intros W Hw (P1 & P2 & P3 & P4) Hst HT HH Hy HC H.
  assert (Est : st = interp m) by (assert (X := written_extract _ _ W); congruence).
  unfold gas_dydt_numba in H. rewrite (C33_partial m text st W Hst P1 P2 P3 P4 y Hy) in H.
  destruct (gen_reactants_numba_ok _ _ _ _ (all_known_interp m)) as (p1 & Hg & Ha).
  subst st. rewrite Hg in H.
  destruct (C58_partial m text e v (start_time + t) _ H2O T W HT HH HC) as (st' & en & ef & E' & En & _ & Hr & _).
  rewrite Hst in E'. injection E' as <-. rewrite En in H. cbn [obind] in H. rewrite Hr in H. cbn [obind] in H.
  change (first_seen (reading_order m)) with (species m) in *.
  unfold rhs_numba, reactants_numba in H.
  rewrite (products_vec_gen m 0 python zeros p1 y) in H; [|left; reflexivity | intros i; cbn; rewrite ?Nat.add_0_r; reflexivity | exact Hy | apply whole_powers, Hw | intros k r s _ _ _ q _; reflexivity | exact Ha].
  set (ks := map v (seq 0 (List.length m))) in *. set (c := products m zeros (conc_of (p_sp2a (interp m)) y)) in *.
  assert (Hlen : List.length (multiply c ks) = List.length m).
  { assert (L1 : List.length c = List.length m) by apply array_length. assert (L2 : List.length ks = List.length m) by (unfold ks; rewrite map_length, seq_length; reflexivity).
    rewrite multiply_length; congruence. }
  rewrite Hy in H. destruct (ran_lg_numba _ _ _ _ _ _ _ (interp_lg_wf m) Hlen H) as [_ Hd].
  assert (Ld : List.length d = List.length (species m)) by exact (dydt_length _ _ _ _ H).
  apply nth_ext with (d := 0%R) (d' := 0%R); [rewrite Ld; unfold generated; rewrite map_length; reflexivity|].
  intros i Hi. rewrite Ld in Hi. destruct (nth_error (species m) i) as [s|] eqn:Es; [|apply nth_error_None in Es; lia].
  rewrite (nth_error_nth (generated m ks y) i 0%R (x := if inb s bath then 0%R else table_rate Q2R (p_loss (interp m)) (p_gain (interp m)) (multiply c ks) s))
    by (unfold generated; rewrite nth_error_map, Es; reflexivity).
  assert (Hin : In (s, i) (p_sp2a (interp m))) by (apply In_sp2a, Es).
  assert (W' := interp_lg_wf m).
  destruct (inb s bath) eqn:Eb.
  - apply nth_error_nth. eapply C14_numba; [apply (wf_vals _ _ _ _ _ W') | exact H | apply inb_In, Eb | exact Hin | apply (wf_range _ _ _ _ _ W' s i Hin)].
  - apply nth_error_nth. apply (Hd s i Hin). rewrite excluded_bath; [exact Eb | eapply species_not_light, nth_error_In, Es].
Qed.

Lemma generated_boundary m text ks y i : written m text -> List.length ks = List.length m -> nonneg ks -> nonneg y ->
  List.length y = List.length (species m) -> i < List.length y -> nth i y 0%R = 0%R -> (0 <= nth i (generated m ks y) 0)%R.
Proof.
  intros W Hks Hkn Hn Hy Hi Hz. destruct (nth_error (species m) i) as [s|] eqn:Es; [|apply nth_error_None in Es; lia].
  rewrite (nth_error_nth (generated m ks y) i 0%R (x := if inb s bath then 0%R else table_rate Q2R (p_loss (interp m)) (p_gain (interp m)) (multiply (products m zeros (conc_of (p_sp2a (interp m)) y)) ks) s))
    by (unfold generated; rewrite nth_error_map, Es; reflexivity).
  destruct (inb s bath); [lra|].
  assert (Hco := written_coefs m text W).
  assert (Hcs : conc_of (p_sp2a (interp m)) y s = 0%R) by (rewrite conc_of_dget; rewrite (proj2 (interp_sp2a m s i) Es); exact Hz).
  assert (Hck : forall k r, nth_error m k = Some r -> nth_error (products m zeros (conc_of (p_sp2a (interp m)) y)) k =
     Some (if only_light (lhs r) then 0%R else written_product (conc_of (p_sp2a (interp m)) y) (lhs r))).
  { intros k r Hr. unfold products. rewrite nth_error_array by (apply nth_error_Some; congruence). rewrite Hr. reflexivity. }
  apply table_rate_boundary; try assumption.
  - intros q Hq. replace 0%R with (Q2R 0) by (unfold Q2R; cbn; field). apply Qle_Rle, Hq.
  - unfold products. apply array_length.
  - apply Forall_forall. intros x Hx. apply In_nth_error in Hx as (k & Hk).
    assert (Hlt : k < List.length m) by (rewrite <- (array_length (List.length m) (fun k => match nth_error m k with
    | Some r => if only_light (lhs r) then 0%R else written_product (conc_of (p_sp2a (interp m)) y) (lhs r) | None => 0%R end)); apply nth_error_Some; unfold products, zeros in Hk; congruence).
    destruct (nth_error m k) as [r|] eqn:Er; [|apply nth_error_None in Er; lia].
    rewrite (Hck k r Er) in Hk. injection Hk as <-. destruct (only_light (lhs r)); [lra|].
    apply rprod_nonneg. intros x Hx. apply in_map_iff in Hx as (s' & <- & _). apply rpow_nonneg. apply conc_of_nonneg, Hn.
  - intros k r Er Hs. destruct (Qlt_le_dec 0 (total s (lhs r))) as [Hp|Hp].
    + left. rewrite (nth_error_nth _ k 0%R (Hck k r Er)). rewrite (only_light_names s) by exact Hs.
      apply (written_product_zero _ _ s); assumption.
    + right. intros q Hq. assert (Hge := total_nonneg' s (lhs r)).
      assert (Hz0 : total s (lhs r) == 0).
      { apply Qle_antisym; [exact Hp|]. apply Hge. unfold coefs_ok in Hco. rewrite Forall_forall in Hco.
        specialize (Hco r (nth_error_In _ _ Er)). apply Forall_app in Hco. tauto. }
      rewrite Hz0 in Hq. rewrite (Qeq_eqR _ _ Hq). unfold Q2R; cbn. field.
Qed.

(* ------------------------------------------------------------------ *)
Section Solutions.
Context (m : mech) (text : str) (st : pstate) (W : written m text) (Hst : extract_mechanism text = Ok (Z.of_nat (List.length m), st)).
Let N := List.length (species m).

Lemma products_ulip I k : whole m -> ulip N I (fun _ y => nth k (products m zeros (conc_of (p_sp2a (interp m)) y)) 0%R).
Proof.
  intros Hw. destruct (nth_error m k) as [r|] eqn:Er.
  2:{ apply (ulip_ext N I (fun _ _ => 0%R)); [|apply ulip_const]. intros t y _ _. symmetry. apply nth_overflow. unfold products. rewrite array_length. apply nth_error_None, Er. }
  apply (ulip_ext N I (fun _ y => if only_light (lhs r) then 0%R else written_product (conc_of (p_sp2a (interp m)) y) (lhs r))).
  { intros t y _ _. symmetry. apply nth_error_nth. unfold products. rewrite nth_error_array by (apply nth_error_Some; congruence). rewrite Er. reflexivity. }
  destruct (only_light (lhs r)); [apply ulip_const|]. unfold written_product.
  apply (ulip_rprod N I (fun s _ y => SpecKin.rpow (conc_of (p_sp2a (interp m)) y s) (total s (lhs r)))). intros s Hs.
  destruct (Hw r s (nth_error_In _ _ Er) Hs) as [n En]. unfold SpecKin.rpow. rewrite En. apply ulip_pow.
  apply (ulip_ext N I (fun _ y => match dget s (p_sp2a (interp m)) with Some i => nth i y 0%R | None => 0%R end)).
  { intros t y _ _. symmetry. apply conc_of_dget. }
  destruct (dget s (p_sp2a (interp m))) as [j|] eqn:Ej; [|apply ulip_const]. apply ulip_nth. apply interp_sp2a in Ej. unfold N. apply nth_error_Some. congruence.
Qed.

Lemma peroxy_ulip I : ulip N I (fun _ y => peroxy_total (species m) (conc_of (p_sp2a (interp m)) y)).
Proof.
  unfold peroxy_total. apply (ulip_rsum N I (fun s _ y => if is_peroxy s then conc_of (p_sp2a (interp m)) y s else 0%R)). intros s _.
  destruct (is_peroxy s); [|apply ulip_const].
  apply (ulip_ext N I (fun _ y => match dget s (p_sp2a (interp m)) with Some i => nth i y 0%R | None => 0%R end)).
  { intros t y _ _. symmetry. apply conc_of_dget. }
  destruct (dget s (p_sp2a (interp m))) as [j|] eqn:Ej; [|apply ulip_const]. apply ulip_nth. apply interp_sp2a in Ej. unfold N. apply nth_error_Some. congruence.
Qed.

Context (k : nat -> R -> R -> R) (start_time T : R).
Definition rates_at (t : R) (y : list R) : list R :=
  map (fun r => k r (start_time + t)%R (peroxy_total (species m) (conc_of (p_sp2a (interp m)) y))) (seq 0 (List.length m)).

Lemma rate_ulip r : regular_rates (List.length m) k start_time (start_time + T) -> r < List.length m ->
  ulip N (fun t => 0 <= t <= T)%R (fun t y => k r (start_time + t)%R (peroxy_total (species m) (conc_of (p_sp2a (interp m)) y))).
Proof.
  intros [_ H] Hr M. destruct (peroxy_ulip (fun t => 0 <= t <= T)%R M) as (L1 & P1 & H1). destruct (H L1) as (L2 & P2 & H2).
  exists (L2 + L2 * L1)%R. assert (PP : (0 <= L2 * L1)%R) by (apply Rmult_le_pos; assumption). split; [lra|]. intros t y y' It By By'.
  destruct (H1 t y y' It By By') as [A B]. destruct (H1 t y' y It By' By) as [A' _].
  destruct (H2 r (start_time + t)%R _ _ Hr ltac:(lra) A A') as [C D]. split; [lra|].
  assert (Dn := dist1_nonneg N y y'). apply Rle_trans with (1 := D). apply Rle_trans with (L2 * (L1 * dist1 N y y'))%R; [apply Rmult_le_compat_l; assumption|]. nra.
Qed.

Lemma generated_ulip i : whole m -> regular_rates (List.length m) k start_time (start_time + T) ->
  ulip N (fun t => 0 <= t <= T)%R (fun t y => nth i (generated m (rates_at t y) y) 0%R).
Proof.
  intros Hw HR. destruct (nth_error (species m) i) as [s|] eqn:Es.
  2:{ apply (ulip_ext N _ (fun _ _ => 0%R)); [|apply ulip_const]. intros t y _ _. symmetry. apply nth_overflow. unfold generated. rewrite map_length. apply nth_error_None, Es. }
  apply (ulip_ext N _ (fun t y => if inb s bath then 0%R else table_rate Q2R (p_loss (interp m)) (p_gain (interp m)) (multiply (products m zeros (conc_of (p_sp2a (interp m)) y)) (rates_at t y)) s)).
  { intros t y _ _. symmetry. apply nth_error_nth. unfold generated. rewrite nth_error_map, Es. reflexivity. }
  destruct (inb s bath); [apply ulip_const|]. unfold table_rate.
  assert (G : forall row : list (nat * Q), ulip N (fun t => 0 <= t <= T)%R (fun t y => rsum (map (fun kq => Q2R (snd kq) * nth (fst kq) (multiply (products m zeros (conc_of (p_sp2a (interp m)) y)) (rates_at t y)) 0)%R row))).
  { intros row. apply (ulip_rsum N _ (fun kq t y => Q2R (snd kq) * nth (fst kq) (multiply (products m zeros (conc_of (p_sp2a (interp m)) y)) (rates_at t y)) 0)%R). intros [r q] _. cbn [fst snd].
    apply ulip_mult; [apply ulip_const|].
    apply (ulip_ext N _ (fun t y => nth r (products m zeros (conc_of (p_sp2a (interp m)) y)) 0 * nth r (rates_at t y) 0)%R).
    { intros t y _ _. rewrite multiply_nth; [reflexivity|]. unfold products, rates_at. rewrite array_length, map_length, seq_length. reflexivity. }
    apply ulip_mult; [apply products_ulip, Hw|].
    destruct (Nat.lt_ge_cases r (List.length m)) as [Hr|Hr].
    - apply (ulip_ext N _ (fun t y => k r (start_time + t)%R (peroxy_total (species m) (conc_of (p_sp2a (interp m)) y)))); [|apply rate_ulip; assumption].
      intros t y _ _. symmetry. apply nth_error_nth. unfold rates_at. rewrite nth_error_map, (nth_error_nth' _ 0) by (rewrite seq_length; exact Hr). rewrite seq_nth by exact Hr. reflexivity.
    - apply (ulip_ext N _ (fun _ _ => 0%R)); [|apply ulip_const]. intros t y _ _. symmetry. apply nth_overflow. unfold rates_at. rewrite map_length, seq_length. exact Hr. }
  assert (X := ulip_plus N _ _ _ (G (srow s (p_gain (interp m)))) (ulip_mult N _ _ _ (ulip_const N _ (-1)%R) (G (srow s (p_loss (interp m)))))).
  eapply ulip_ext; [|exact X]. intros t y _ _. cbv beta. ring.
Qed.

(* The species of a mechanism never become negative. *)
Lemma gas_nonneg e H2O temp u : whole m -> peroxy_clean (species m) -> (0 < temp)%R -> (0 <= H2O)%R -> (0 <= T)%R ->
  regular_rates (List.length m) k start_time (start_time + T) ->
  (forall t x, (start_time <= t <= start_time + T)%R -> coefficients m e t x H2O temp (fun r => k r t x)) ->
  List.length (u 0%R) = N ->
  solves (fun t => gas_dydt_numba st (List.length m) start_time t H2O temp) T u -> nonneg (u 0%R) ->
  forall t, (0 <= t <= T)%R -> nonneg (u t).
Proof.
  intros Hw PC HT HH PT HR HC Lu Hs H0.
  assert (Est : st = interp m) by (assert (X := written_extract _ _ W); congruence).
  apply (solution_nonneg (fun t => gas_dydt_numba st (List.length m) start_time t H2O temp) (fun t y => generated m (rates_at t y) y) T u PT Hs).
  - intros t d Ht Lt Ed.
    apply (generated_value m text st e start_time t H2O temp (u t) (fun r => k r (start_time + t)%R (peroxy_total (species m) (conc_of (p_sp2a (interp m)) (u t)))) d W Hw PC Hst HT HH); [rewrite Lt; exact Lu | | exact Ed].
    rewrite Est. apply HC. lra.
  - rewrite Lu. intros i _. apply generated_ulip; assumption.
  - rewrite Lu. intros t y i Ht Ly Ny Hi Hz. apply (generated_boundary m text); try assumption; [unfold rates_at; rewrite map_length, seq_length; reflexivity|].
    apply Forall_forall. intros x Hx. unfold rates_at in Hx. apply in_map_iff in Hx as (r & <- & Hr). apply in_seq in Hr. apply HR; [lia | lra|].
    unfold peroxy_total. apply rsum_nonneg. intros x Hx. apply in_map_iff in Hx as (s & <- & _). destruct (is_peroxy s); [apply conc_of_nonneg, Ny | lra].
  - exact H0.
Qed.
End Solutions.

(* C71.  Solutions of the equations handed to the integrator stay non-negative,
   for every mechanism with whole-number reactant coefficients, also where the
   generated code is not mass action. *)
Theorem C71_partial : forall m text e k, written m text -> whole m -> peroxy_clean (first_seen (reading_order m)) ->
  exists st, extract_mechanism text = Ok (Z.of_nat (List.length m), st) /\
  forall start_time H2O temp T u, (0 < temp)%R -> (0 <= H2O)%R -> (0 <= T)%R ->
    regular_rates (List.length m) k start_time (start_time + T) ->
    (forall t x, (start_time <= t <= start_time + T)%R -> coefficients m e t x H2O temp (fun r => k r t x)) ->
    List.length (u 0%R) = List.length (first_seen (reading_order m)) ->
    solves (fun t => gas_dydt_numba st (List.length m) start_time t H2O temp) T u ->
    nonneg (u 0%R) -> forall t, (0 <= t <= T)%R -> nonneg (u t).
Proof.
  intros m text e k W Hw PC. exists (interp m). split; [apply written_extract, W|]. intros start H2O temp T u HT HH PT HR HC Lu Hs H0.
  exact (gas_nonneg m text (interp m) W (written_extract _ _ W) k start T e H2O temp u Hw PC HT HH PT HR HC Lu Hs H0).
Qed.

Lemma run_invariant {S} (P : S -> Prop) (simulate : solver S) rhs_at jac_at start sim b zr :
  (forall y y1, P y -> simulate (Problem (fun t => rhs_at (fadd start t)) (fun t => jac_at (fadd start t)) y fzero) b = Ok y1 -> P y1) ->
  forall rows total y out ts ys, P y -> (forall o, out = Some o -> P o) ->
  loop simulate rhs_at jac_at start sim b zr rows total y out = Ok (ts, ys) ->
  forall j r, j < List.length ts -> nth_error ys j = Some r -> P r.
Proof.
  intros Hi. induction rows as [|rows IH]; intros total y out ts ys Py Po H j r Hj Hr; cbn [loop] in H; destruct (Bltb total sim).
  - apply bind_Ok in H as (y0 & _ & H). apply bind_Ok in H as (y1 & _ & H). discriminate.
  - injection H as <- _. cbn in Hj. lia.
  - apply bind_Ok in H as (y0 & H0 & H). apply bind_Ok in H as (y1 & H1 & H). apply bind_Ok in H as (rr & H2 & H). injection H as <- <-.
    assert (P0 : P y0) by (destruct (Beqb total fzero); [injection H0 as <-; exact Py | destruct out as [o|]; [injection H0 as <-; apply Po; reflexivity | discriminate]]).
    assert (P1 : P y1) by (apply (Hi y0 y1 P0), H1).
    destruct j as [|j]; [injection Hr as <-; exact P1|]. cbn [List.length nth_error] in Hj, Hr. destruct rr as [ts' ys'].
    apply (IH (fadd total b) y0 (Some y1) ts' ys' P0) with (j := j); [intros o E; injection E as <-; exact P1 | exact H2 | cbn in Hj; lia | exact Hr].
  - injection H as <- _. cbn in Hj. lia.
Qed.

(* C71 for whole runs: with an integrator without error every stored row is
   non-negative, through all batches. *)
Theorem C71_rows_partial : forall m text e k, written m text -> whole m -> peroxy_clean (first_seen (reading_order m)) ->
  exists st, extract_mechanism text = Ok (Z.of_nat (List.length m), st) /\
  forall simulate jac_at start H2O temp conc sim b ts ys, (0 < temp)%R -> (0 <= H2O)%R -> (0 <= B2R b)%R ->
    regular_rates (List.length m) k (B2R start) (B2R start + B2R b) ->
    (forall t x, (B2R start <= t <= B2R start + B2R b)%R -> coefficients m e t x H2O temp (fun r => k r t x)) ->
    error_free (fun clock => gas_dydt_numba st (List.length m) clock 0 H2O temp) (gas_rhs_at st (List.length m) H2O temp) simulate ->
    Forall (fun sc => 0 <= snd sc)%R conc ->
    run_simulation simulate (gas_rhs_at st (List.length m) H2O temp) jac_at start (p_sp st) (p_sp2a st) conc sim b = Ok (ts, ys) ->
    forall j row, j < List.length ts -> nth_error ys j = Some row -> nonneg row.
Proof.
  intros m text e k W Hw PC. exists (interp m). split; [apply written_extract, W|].
  intros simulate jac_at start H2O temp conc sim b ts ys HT HH PB HR HC HE Hc H j row Hj Hrow.
  unfold run_simulation in H. apply bind_Ok in H as (y0 & H0 & H). unfold run_batches in H.
  apply bind_Ok in H as (q & _ & H). apply bind_Ok in H as (n & _ & H). destruct (n <? 0)%Z; [discriminate|].
  assert (LN : List.length (p_sp (interp m)) = List.length (species m)) by (destruct (interp_species m) as (-> & _); rewrite combine_length, seq_length; lia).
  assert (G0 : forall c y r, Forall (fun sc => 0 <= snd sc)%R c -> nonneg y -> foldM (set_initial (p_sp2a (interp m))) c y = Ok r -> List.length r = List.length y /\ nonneg r).
  { induction c as [|x c IH]; intros y r Fc Ny Hr; cbn [foldM] in Hr; [injection Hr as <-; auto|]. inversion Fc as [|? ? Fx Fc']; subst.
    apply bind_Ok in Hr as (y1 & H1 & Hr). unfold set_initial in H1.
    destruct (dget (fst x) (p_sp2a (interp m))) as [i|]; [|discriminate]. destruct (i <? List.length y); [|discriminate]. injection H1 as <-.
    assert (Ns : nonneg (set_nth i (snd x * Cfactor)%R y)); [|destruct (IH _ _ Fc' Ns Hr) as [L1 N1]; split; [rewrite L1; apply set_nth_len | exact N1]].
    apply Forall_forall. intros z Hz. assert (Hz' : In z y \/ z = (snd x * Cfactor)%R).
    { clear -Hz. revert i Hz. induction y as [|a y IH]; intros [|i] Hz; cbn in Hz; try tauto.
      - destruct Hz as [<-|Hz]; [right; reflexivity | left; right; exact Hz].
      - destruct Hz as [<-|Hz]; [left; left; reflexivity|]. destruct (IH i Hz) as [I|I]; [left; right; exact I | right; exact I]. }
    destruct Hz' as [I| ->]; [unfold nonneg in Ny; rewrite Forall_forall in Ny; apply Ny, I|]. apply Rmult_le_pos; [exact Fx | unfold Cfactor; lra]. }
  unfold initial_state in H0. destruct (G0 _ _ _ Hc (proj2 (Forall_forall _ _) (fun x Hx => Req_le _ _ (eq_sym (repeat_spec _ _ _ Hx)))) H0) as [L0 N0].
  rewrite repeat_length, LN in L0.
  refine (proj2 (run_invariant (fun y => List.length y = List.length (species m) /\ nonneg y) simulate _ jac_at start sim b _ _ _ _ _ _ ts ys (conj L0 N0) _ H j row Hj Hrow)); [|discriminate].
  intros y y1 [Ly Ny] Hs. destruct (HE start _ y b y1 Hs) as (u & U0 & U1 & U).
  assert (Lu : List.length (u 0%R) = List.length (species m)) by (rewrite U0; exact Ly).
  split; [rewrite <- U1, (proj1 (proj1 U (B2R b) ltac:(lra))); exact Lu|]. rewrite <- U1.
  refine (gas_nonneg m text (interp m) W (written_extract _ _ W) k (B2R start) (B2R b) e H2O temp u Hw PC HT HH PB HR HC Lu _ _ (B2R b) ltac:(lra)); [|rewrite U0; exact Ny].
  eapply solves_ext; [|exact U]. intros t Ht. cbv beta. unfold gas_dydt_numba. rewrite Rplus_0_r. reflexivity.
Qed.

(* ------------------------------------------------------------------ *)
(* C72: what every reaction balances stays constant along the solution, so no
   species can exceed what the starting material can make. *)
Lemma gas_keeps m text st w start_time t H2O temp z d : written m text ->
  extract_mechanism text = Ok (Z.of_nat (List.length m), st) -> Forall products_safe m ->
  Forall (fun r => weight w (lhs r) = weight w (rhs r)) m -> w light = 0%R -> (forall x, In x bath -> w x = 0%R) ->
  List.length z = species_count st ->
  gas_dydt_numba st (List.length m) start_time t H2O temp z = Some d -> amount_of (atoms w (p_sp2a st)) d = 0%R.
Proof.
  intros W Hst Hs Hw Hl Hb Lz E.
  unfold gas_dydt_numba in E. destruct (RO2_sum _ z) as [RO2|]; [|discriminate]. destruct (gen_reactants_numba _ _ _ _) as [p1|] eqn:G1; [|discriminate].
  destruct (numba_run _ RO2 H2O temp) as [en|]; [|discriminate]. cbn [obind] in E. destruct (returned _ _) as [rates|] eqn:Er in E; [|discriminate]. cbn [obind] in E.
  unfold rhs_numba in E. destruct (reactants_numba p1 _ z) as [c|] eqn:Ec; [|discriminate].
  assert (A := C17_partial m text st w W Hst Hs Hw Hl Hb (multiply c rates) d). unfold amount_of, atoms. rewrite map_map. apply A; [|rewrite <- Lz; exact E].
  unfold multiply. rewrite map_length, combine_length. unfold reactants_numba, returned in Ec, Er.
  destruct (run _ _ p1 zeros); [|discriminate]. injection Ec as <-. destruct (run _ _ _ zeros) in Er; [|discriminate]. injection Er as <-. unfold array. rewrite !map_length, !seq_length. lia.
Qed.

Theorem C72_conserved : forall m text w, written m text -> Forall products_safe m ->
  Forall (fun r => weight w (lhs r) = weight w (rhs r)) m -> w light = 0%R -> (forall x, In x bath -> w x = 0%R) ->
  exists st, extract_mechanism text = Ok (Z.of_nat (List.length m), st) /\
  forall start_time H2O temp T u, (0 <= T)%R -> List.length (u 0%R) = List.length (first_seen (reading_order m)) ->
    solves (fun t => gas_dydt_numba st (List.length m) start_time t H2O temp) T u ->
    forall t, (0 <= t <= T)%R -> amount_of (atoms w (p_sp2a st)) (u t) = amount_of (atoms w (p_sp2a st)) (u 0%R).
Proof.
  intros m text w W Hs Hw Hl Hb. exists (interp m). assert (Hst := written_extract _ _ W). split; [exact Hst|]. intros start H2O temp T u PT Lu U.
  change (first_seen (reading_order m)) with (species m) in Lu.
  apply (solution_conserves _ T u _ PT U).
  - unfold atoms. apply Forall_forall. intros a Ha. apply in_map_iff in Ha as ([s i] & <- & Hin). cbn [snd]. apply In_sp2a in Hin. rewrite Lu. apply nth_error_Some. congruence.
  - intros t d Ht Hd. apply (gas_keeps m text (interp m) w start t H2O temp (u t) d W Hst Hs Hw Hl Hb); [|exact Hd].
    rewrite (proj1 (proj1 U t Ht)), Lu. unfold species_count. symmetry. apply sp2a_length.
Qed.

Theorem C72_bounded_partial : forall m text w e k, written m text -> whole m -> peroxy_clean (first_seen (reading_order m)) -> Forall products_safe m ->
  Forall (fun r => weight w (lhs r) = weight w (rhs r)) m -> w light = 0%R -> (forall x, In x bath -> w x = 0%R) -> (forall s, (0 <= w s)%R) ->
  exists st, extract_mechanism text = Ok (Z.of_nat (List.length m), st) /\
  forall start_time H2O temp T u, (0 < temp)%R -> (0 <= H2O)%R -> (0 <= T)%R ->
    regular_rates (List.length m) k start_time (start_time + T) ->
    (forall t x, (start_time <= t <= start_time + T)%R -> coefficients m e t x H2O temp (fun r => k r t x)) ->
    List.length (u 0%R) = List.length (first_seen (reading_order m)) ->
    solves (fun t => gas_dydt_numba st (List.length m) start_time t H2O temp) T u -> nonneg (u 0%R) ->
    forall t s, (0 <= t <= T)%R -> In s (first_seen (reading_order m)) -> (0 < w s)%R ->
      (0 <= conc_of (p_sp2a st) (u t) s <= amount_of (atoms w (p_sp2a st)) (u 0%R) / w s)%R.
Proof.
  intros m text w e k W Hw PC Hs Hb Hl Hba Hp.
  destruct (C71_partial m text e k W Hw PC) as (st & Hst & H1). destruct (C72_conserved m text w W Hs Hb Hl Hba) as (st' & Hst' & H2).
  rewrite Hst in Hst'. injection Hst' as <-. exists st. split; [exact Hst|]. intros start H2O temp T u HT HH PT HR HC Lu U N0 t s Ht Hin Pw.
  assert (Nt := H1 start H2O temp T u HT HH PT HR HC Lu U N0 t Ht). rewrite <- (H2 start H2O temp T u PT Lu U t Ht).
  assert (Est : st = interp m) by (assert (X := written_extract _ _ W); congruence).
  split; [apply conc_of_nonneg, Nt|].
  change (first_seen (reading_order m)) with (species m) in *. apply In_nth_error in Hin as (i & Hi).
  assert (Hm : In (s, i) (p_sp2a st)) by (rewrite Est; apply In_sp2a, Hi).
  rewrite conc_of_dget. assert (Hd : dget s (p_sp2a st) = Some i) by (rewrite Est; apply interp_sp2a, Hi). rewrite Hd.
  apply Rmult_le_reg_r with (w s); [exact Pw|]. unfold Rdiv. rewrite Rmult_assoc, Rinv_l by lra. rewrite Rmult_1_r, Rmult_comm.
  unfold amount_of, atoms. rewrite map_map. cbn [fst snd].
  assert (G : forall l : list (str * nat), In (s, i) l -> (w s * nth i (u t) 0 <= rsum (map (fun x => w (fst x) * nth (snd x) (u t) 0) l))%R).
  { assert (Pn : forall a, (0 <= nth a (u t) 0)%R).
    { intros a. destruct (Nat.lt_ge_cases a (List.length (u t))) as [La|La]; [unfold nonneg in Nt; rewrite Forall_forall in Nt; apply Nt, nth_In, La | rewrite nth_overflow by exact La; lra]. }
    induction l as [|p l IH]; intros Hl'; [contradiction|]. cbn [map rsum]. destruct Hl' as [->|Hl'].
    - cbn [fst snd]. assert (X : (0 <= rsum (map (fun x => w (fst x) * nth (snd x) (u t) 0) l))%R).
      { apply rsum_nonneg. intros x Hx. apply in_map_iff in Hx as (p & <- & _). apply Rmult_le_pos; [apply Hp | apply Pn]. } lra.
    - specialize (IH Hl'). assert (X : (0 <= w (fst p) * nth (snd p) (u t) 0)%R) by (apply Rmult_le_pos; [apply Hp | apply Pn]). lra. }
  apply G, Hm.
Qed.

(* A case where all hypotheses hold: peroxy radicals react with each other
   (the rate is proportional to RO2), and the solution is known. *)
Definition self_words : list wrx := [ ([s_ "CH3O2"], [s_ "CH3O"], s_ "1.82D-13*RO2") ].
Definition self_mech : mech := map bare self_words.
Definition self_expr (k : nat) : rexpr := gas_expr 2.
Definition self_rate (k : nat) (t x : R) : R := (1.82e-13 * x)%R.
Definition self_solution (a b t : R) : list R := [a / (1 + 1.82e-13 * a * t); b + (a - a / (1 + 1.82e-13 * a * t))]%R.

Lemma self_written : written self_mech (ParseShow.show self_words).
Proof. apply bare_written; [discriminate | reflexivity]. Qed.
Lemma self_species : first_seen (reading_order self_mech) = [s_ "CH3O2"; s_ "CH3O"].
Proof. vm_compute. reflexivity. Qed.
Lemma self_coefficients t x H2O T : (0 < T)%R -> coefficients self_mech self_expr t x H2O T (fun r => self_rate r t x).
Proof.
  intros HT [|k] r Hk; [|destruct k; discriminate]. injection Hk as <-.
  exact (gas_coefficients t x H2O T HT 2 _ eq_refl).
Qed.
Lemma self_rhs st : extract_mechanism (ParseShow.show self_words) = Ok (1%Z, st) ->
  forall start t H2O T a b, (0 < T)%R -> (0 <= H2O)%R -> (0 <= a)%R -> (0 <= b)%R ->
  gas_dydt_numba st 1 start t H2O T [a; b] = Some [- (1.82e-13 * a * a); 1.82e-13 * a * a]%R.
Proof.
  intros E start t H2O T a b HT HH Ha Hb.
  assert (P : Forall products_safe self_mech).
  { apply Forall_cons; [|constructor]. left. split; [vm_compute; intuition discriminate | vm_compute; repeat constructor; cbn; intuition discriminate]. }
  assert (D : Forall distinct_reactants self_mech).
  { apply Forall_cons; [|constructor]. split; [vm_compute; discriminate | vm_compute; repeat constructor; cbn; intuition discriminate]. }
  assert (PC : peroxy_clean (first_seen (reading_order self_mech))).
  { rewrite self_species. split; [exists (s_ "CH3O2"); split; [left; reflexivity | vm_compute; reflexivity]|]. cbn. intuition discriminate. }
  destruct (C59_partial self_mech _ self_expr self_written P D PC) as (st' & E' & H). change (Z.of_nat (List.length self_mech)) with 1%Z in E'. rewrite E in E'. injection E' as <-.
  assert (Est : st = interp self_mech) by (assert (X := written_extract _ _ self_written); change (Z.of_nat (List.length self_mech)) with 1%Z in X; congruence).
  rewrite self_species in H.
  assert (Nn : nonneg [a; b]) by (apply Forall_cons; [exact Ha | apply Forall_cons; [exact Hb | constructor]]).
  destruct (H start t H2O T [a; b] _ HT HH eq_refl Nn (self_coefficients _ _ _ _ HT)) as (dy & Hdy & Ldy & V).
  change (List.length self_mech) with 1 in Hdy. rewrite Hdy. f_equal.
  destruct dy as [|d0 [|d1 [|]]]; try discriminate. assert (V0 := V 0 (s_ "CH3O2") eq_refl). assert (V1 := V 1 (s_ "CH3O") eq_refl).
  assert (I : forall x y : R, Some x = Some y -> x = y) by (intros x y Q; congruence). apply I in V0. apply I in V1. rewrite V0, V1. clear V V0 V1.
  assert (C0 : conc_of (p_sp2a st) [a; b] (s_ "CH3O2") = a) by (rewrite Est, conc_of_dget; replace (dget (s_ "CH3O2") (p_sp2a (interp self_mech))) with (Some 0) by (vm_compute; reflexivity); reflexivity).
  assert (PT : peroxy_total [s_ "CH3O2"; s_ "CH3O"] (conc_of (p_sp2a st) [a; b]) = a).
  { unfold peroxy_total. cbn [map rsum]. replace (is_peroxy (s_ "CH3O2")) with true by (vm_compute; reflexivity). replace (is_peroxy (s_ "CH3O")) with false by (vm_compute; reflexivity). rewrite C0. ring. }
  unfold expected. replace (inb (s_ "CH3O2") bath) with false by (vm_compute; reflexivity). replace (inb (s_ "CH3O") bath) with false by (vm_compute; reflexivity).
  set (w2 := ([s_ "CH3O2"], [s_ "CH3O"], s_ "1.82D-13*RO2")).
  assert (N0 : net (s_ "CH3O2") (bare w2) = (-1)%R) by (unfold net, Q2R; cbn; lra).
  assert (N1 : net (s_ "CH3O") (bare w2) = 1%R) by (unfold net, Q2R; cbn; lra).
  assert (M : mass_action (conc_of (p_sp2a st) [a; b]) (lhs (bare w2)) = a).
  { unfold mass_action. replace (first_seen (names (lhs (bare w2)))) with [s_ "CH3O2"] by (vm_compute; reflexivity). cbn [map rprod].
    rewrite (rpow_nat _ _ 1) by (vm_compute; reflexivity). rewrite C0. ring. }
  assert (K : forall v s, kinetics self_mech (map v (seq 0 (List.length self_mech))) (conc_of (p_sp2a st) [a; b]) s = (net s (bare w2) * (a * v 0%nat))%R).
  { intros v s. change self_mech with [bare w2]. unfold kinetics. change (combine [bare w2] (map v (seq 0 (List.length [bare w2])))) with [(bare w2, v 0)].
    cbn [map rsum fst snd]. rewrite M. ring. }
  rewrite !K, N0, N1. unfold self_rate. cbv beta. rewrite PT. f_equal; [ring | f_equal; ring].
Qed.

Lemma deriv_error (g : R -> R) t l : derivable_pt_lim g t l -> forall eps, (0 < eps)%R -> exists delta, (0 < delta)%R /\
  forall s, (Rabs (s - t) < delta)%R -> (Rabs (g s - g t - l * (s - t)) <= eps * Rabs (s - t))%R.
Proof.
  intros D eps He. destruct (D eps He) as [d Hd]. exists d. split; [apply cond_pos|]. intros s Hs.
  destruct (Req_dec (s - t) 0) as [E0|E0].
  - replace s with t by lra. replace (g t - g t - l * (t - t))%R with 0%R by ring. replace (t - t)%R with 0%R by ring. rewrite Rabs_R0. lra.
  - specialize (Hd (s - t)%R E0 Hs). replace (t + (s - t))%R with s in Hd by ring.
    assert (P : (0 < Rabs (s - t))%R) by (apply Rabs_pos_lt; exact E0).
    replace (g s - g t - l * (s - t))%R with (((g s - g t) / (s - t) - l) * (s - t))%R by (field; exact E0).
    rewrite Rabs_mult. apply Rmult_le_compat_r; lra.
Qed.

Lemma self_everywhere st start H2O temp a b T : extract_mechanism (ParseShow.show self_words) = Ok (1%Z, st) ->
  (0 < temp)%R -> (0 <= H2O)%R -> (0 <= a)%R -> (0 <= b)%R ->
  everywhere (fun t => gas_dydt_numba st 1 start t H2O temp) T (self_solution a b).
Proof.
  intros E HT HH Ha Hb t Ht. split; [reflexivity|].
  set (c := 1.82e-13%R). assert (Pc : (0 < c)%R) by (unfold c; lra).
  assert (Pd : forall t, (0 <= t)%R -> (1 <= 1 + c * a * t)%R) by (intros z Hz; assert (0 <= c * a * z)%R by (apply Rmult_le_pos; [apply Rmult_le_pos; [left; exact Pc | exact Ha] | exact Hz]); lra).
  assert (P1 := Pd t ltac:(lra)).
  assert (Bx : (a / (1 + c * a * t) <= a)%R).
  { apply Rmult_le_reg_r with (1 + c * a * t)%R; [lra|]. unfold Rdiv. rewrite Rmult_assoc, Rinv_l by lra. rewrite Rmult_1_r, <- (Rmult_1_r a) at 1. apply Rmult_le_compat_l; lra. }
  assert (Px : (0 <= a / (1 + c * a * t))%R) by (apply Rmult_le_pos; [exact Ha | left; apply Rinv_0_lt_compat; lra]).
  exists [- (c * (a / (1 + c * a * t)) * (a / (1 + c * a * t))); c * (a / (1 + c * a * t)) * (a / (1 + c * a * t))]%R.
  split; [apply self_rhs; try assumption; fold c; lra|].
  assert (D0 : derivable_pt_lim (fun t => a / (1 + c * a * t))%R t (- (c * (a / (1 + c * a * t)) * (a / (1 + c * a * t))))%R).
  { assert (L : derivable_pt_lim (fun t => 1 + c * a * t)%R t (0 + c * a * 1)%R).
    { apply (derivable_pt_lim_plus (fun _ => 1%R) (fun t => c * a * t)%R); [apply derivable_pt_lim_const | apply (derivable_pt_lim_scal id (c * a)%R), derivable_pt_lim_id]. }
    assert (Q := derivable_pt_lim_div (fun _ => a) (fun t => 1 + c * a * t)%R t 0%R _ (derivable_pt_lim_const a t) L ltac:(lra)).
    replace (- (c * (a / (1 + c * a * t)) * (a / (1 + c * a * t))))%R with ((0 * (1 + c * a * t) - (0 + c * a * 1) * a) / Rsqr (1 + c * a * t))%R; [exact Q|].
    unfold Rsqr. field. lra. }
  assert (D1 : derivable_pt_lim (fun t => b + (a - a / (1 + c * a * t)))%R t (0 + (0 - (- (c * (a / (1 + c * a * t)) * (a / (1 + c * a * t))))))%R).
  { apply (derivable_pt_lim_plus (fun _ => b) (fun t => a - a / (1 + c * a * t))%R); [apply derivable_pt_lim_const|].
    apply (derivable_pt_lim_minus (fun _ => a) (fun t => a / (1 + c * a * t))%R); [apply derivable_pt_lim_const | exact D0]. }
  rewrite Rplus_0_l in D1. unfold Rminus in D1 at 2. rewrite Rplus_0_l, Ropp_involutive in D1.
  intros i Hi eps He. change (List.length (self_solution a b 0%R)) with 2 in Hi. destruct i as [|[|i]]; [| |lia].
  - destruct (deriv_error _ _ _ D0 eps He) as (d & Pd' & Hd). exists d. split; [exact Pd'|]. intros s _ Hs. cbn [self_solution nth]. fold c. exact (Hd s Hs).
  - destruct (deriv_error _ _ _ D1 eps He) as (d & Pd' & Hd). exists d. split; [exact Pd'|]. intros s _ Hs. cbn [self_solution nth]. fold c. exact (Hd s Hs).
Qed.
Lemma self_solves st start H2O temp a b T : extract_mechanism (ParseShow.show self_words) = Ok (1%Z, st) ->
  (0 < temp)%R -> (0 <= H2O)%R -> (0 <= a)%R -> (0 <= b)%R ->
  solves (fun t => gas_dydt_numba st 1 start t H2O temp) T (self_solution a b).
Proof. intros. apply solves_everywhere, self_everywhere; assumption. Qed.

Definition self_solver : solver (list R) := fun pb tf =>
  match pb_y0 pb with
  | [a; b] => if Rle_dec 0 a then if Rle_dec 0 b then Ok (self_solution a b (B2R tf)) else Err ValueError else Err ValueError
  | _ => Err ValueError
  end.

Lemma self_regular from until : regular_rates 1 self_rate from until.
Proof.
  split.
  - intros r t x _ _ Hx. unfold self_rate. apply Rmult_le_pos; lra.
  - intros M. exists (1.82e-13 * (Rabs M + 1))%R. assert (A := Rabs_pos M). split; [apply Rmult_le_pos; lra|]. intros r t x x' _ _ Hx Hx'. unfold self_rate.
    rewrite <- Rmult_minus_distr_l, !Rabs_mult, (Rabs_pos_eq 1.82e-13) by lra. assert (B := Rle_abs M). split.
    + apply Rmult_le_compat_l; lra.
    + assert (C := Rabs_pos (x - x')). apply Rmult_le_compat_r; [exact C|]. lra.
Qed.

Definition methyls (s : str) : R := if inb s [s_ "CH3O2"; s_ "CH3O"] then 1%R else 0%R.

(* 20 ppb of CH3O2, one hour in one batch. *)
Example C71_hypotheses : written self_mech (ParseShow.show self_words) /\ whole self_mech /\ peroxy_clean (first_seen (reading_order self_mech)) /\
  Forall products_safe self_mech /\ Forall (fun r => weight methyls (lhs r) = weight methyls (rhs r)) self_mech /\ methyls light = 0%R /\
  (forall x, In x bath -> methyls x = 0%R) /\ (forall s, (0 <= methyls s)%R) /\
  (forall from until, regular_rates (List.length self_mech) self_rate from until) /\
  (forall t x H2O temp, (0 < temp)%R -> coefficients self_mech self_expr t x H2O temp (fun r => self_rate r t x)) /\
  exists st, extract_mechanism (ParseShow.show self_words) = Ok (1%Z, st) /\
    (forall start H2O temp a b T, (0 < temp)%R -> (0 <= H2O)%R -> (0 <= a)%R -> (0 <= b)%R ->
       solves (fun t => gas_dydt_numba st 1 start t H2O temp) T (self_solution a b)) /\
    (forall H2O temp, (0 < temp)%R -> (0 <= H2O)%R ->
       error_free (fun clock => gas_dydt_numba st 1 clock 0 H2O temp) (gas_rhs_at st 1 H2O temp) self_solver) /\
    (exists ts r, run_simulation self_solver (gas_rhs_at st 1 1e17 298) (fun _ _ => Err ValueError) f43200 (p_sp st) (p_sp2a st)
       [(s_ "CH3O2", 20%R)] f3600 f3600 = Ok (ts, [r]) /\ List.length ts = 1).
Proof.
  split; [apply self_written|].
  split. { intros r s [<-|[]] [<-|[]]. exists 1. vm_compute. reflexivity. }
  split. { rewrite self_species. split; [exists (s_ "CH3O2"); split; [left; reflexivity | vm_compute; reflexivity]|]. cbn. intuition discriminate. }
  split. { apply Forall_cons; [|constructor]. left. split; [vm_compute; intuition discriminate | vm_compute; repeat constructor; cbn; intuition discriminate]. }
  split. { apply Forall_cons; [|constructor]. unfold weight; vm_compute lhs; vm_compute rhs; cbn [map rsum fst snd]; unfold Q2R, methyls; vm_compute inb; reflexivity. }
  split; [reflexivity|]. split; [intros x [<-|[<-|[<-|[]]]]; reflexivity|]. split; [intros s; unfold methyls; destruct (inb _ _); lra|].
  split; [intros from until; apply self_regular|]. split; [intros t x H2O temp HT; apply self_coefficients, HT|].
  exists (interp self_mech). assert (Hst := written_extract _ _ self_written). change (Z.of_nat (List.length self_mech)) with 1%Z in Hst.
  split; [exact Hst|]. split; [intros; apply self_solves; assumption|]. split.
  - intros H2O temp HT HH start jac y0 tf y1 H. unfold self_solver in H. cbn [pb_y0] in H. destruct y0 as [|a [|b [|]]]; try discriminate.
    destruct (Rle_dec 0 a) as [Pa|]; [|discriminate]. destruct (Rle_dec 0 b) as [Pb|]; [|discriminate].
    assert (E : y1 = self_solution a b (B2R tf)) by congruence. exists (self_solution a b).
    split; [unfold self_solution; f_equal; [field | f_equal; field]|]. split; [symmetry; exact E|].
    eapply solves_ext; [|exact (self_solves _ (B2R start) H2O temp a b (B2R tf) Hst HT HH Pa Pb)].
    intros t Ht. cbv beta. unfold gas_dydt_numba. rewrite Rplus_0_r. reflexivity.
  - assert (H0 : initial_state (List.length (p_sp (interp self_mech))) (p_sp2a (interp self_mech)) [(s_ "CH3O2", 20%R)] = Ok [(20 * Cfactor)%R; 0%R]) by (vm_compute; reflexivity).
    unfold run_simulation. rewrite H0. cbn [bind].
    assert (B := f3600_num). destruct (quotient_exact f3600 f3600 3600 1 0 B B ltac:(lia) ltac:(lia)) as [E1 E2].
    unfold run_batches. rewrite E1. cbn [bind]. rewrite E2. cbn [bind]. change (Z.of_nat 1 <? 0)%Z with false. cbv iota. change (Z.to_nat (Z.of_nat 1)) with 1. cbn [loop].
    rewrite (bltb_num fzero f3600 0 3600 0 (fzero_num 0) B). change (0 <? 3600)%Z with true. cbv iota.
    rewrite (beqb_num fzero 0 0 (fzero_num 0)). change (0 =? 0)%Z with true. cbv iota. cbn [bind].
    unfold self_solver at 1. cbn [pb_y0]. destruct (Rle_dec 0 (20 * Cfactor)) as [_|F]; [|exfalso; apply F; unfold Cfactor; lra]. destruct (Rle_dec 0 0) as [_|F]; [|exfalso; lra].
    cbn [bind].
    assert (FA := fadd_exact fzero f3600 0 3600 0 (fzero_num 0) B ltac:(cbn; lia) ltac:(lia) ltac:(cbn [bpow]; rewrite Rmult_1_r; apply small_int_bound; cbn; lia)).
    assert (E3 : Bltb (fadd fzero f3600) f3600 = false) by (rewrite (bltb_num _ _ _ _ _ FA B); reflexivity).
    rewrite E3. cbn [bind fst snd repeat]. eexists _, _. split; reflexivity.
Qed.

Print Assumptions C71_partial. Print Assumptions C71_rows_partial. Print Assumptions C72_conserved. Print Assumptions C72_bounded_partial.
