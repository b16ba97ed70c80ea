(* C84: the equations handed to the integrator determine the result. *)
From Coq Require Import String List Bool Arith Lia ZArith QArith Reals Qreals Lra Permutation.
From Flocq Require Import Core BinarySingleNaN.
From Verif Require Import Base PyStr PyDict ModelParse SpecMech ParseStruct ParseTables ParseWritten ParseShow PropsParse
  ModelLang ModelGen ModelRhs SpecKin LangFacts GenReact GenLossGain GenParsed GenSparse GenJac JacDeriv PropsKin PropsRhs PropsJac
  ModelOmp PropsOmp ModelExpr ModelRate ModelRateFile SpecRate RateExpr PropsRate ModelRateBody ModelRateRun RateSym
  SpecRateValue SpecMcmEnv PropsRateValue ModelRo2 SpecRo2 PropsRo2 ModelGas SpecGas PropsGas ModelGasJac PropsGasJac
  ModelSolver SpecSolver SolverFacts OdeFacts PropsSolver ModelSplit PropsSplit SpecMethod PropsMethod SpecTraj OdeSign OdeClose PropsTraj GasFlow
  PropsAeroChem GasFortran PropsGasF2py SpecSun SpecTroe SpecTame TameFacts PropsTame.
Import ListNotations.
Import Coq.Lists.List.
Open Scope nat_scope.
Open Scope list_scope.
Local Arguments eqb : simpl never.

(* Two solutions agree on [0,T]. *)
Definition same_on (T : R) (u v : R -> list R) : Prop := forall t, (0 <= t <= T)%R -> u t = v t.

Section Unique.
Context (m : mech) (text : str) (e : nat -> rexpr) (W : written m text) (Hw : whole m) (PC : peroxy_clean (first_seen (reading_order m))).
Context (H2O temp : R) (HT : (0 < temp)%R) (HH : (0 <= H2O)%R) (k : nat -> R -> R -> R)
  (Hr : forall from until, regular_rates (List.length m) k from until) (Hc : forall t x, coefficients m e t x H2O temp (fun r => k r t x)).
Let N := List.length (species m).

Lemma numba_follows start T u : List.length (u 0%R) = N ->
  solves (fun t => gas_dydt_numba (interp m) (List.length m) start t H2O temp) T u ->
  follows N (fun t y => generated m (rates_at m k start t y) y) T (fun t => gas_dydt_numba (interp m) (List.length m) start t H2O temp) u.
Proof.
  intros Lu U. refine (conj Lu (conj U _)). intros t d Ht Lt Ed.
  apply (generated_value m text (interp m) e start t H2O temp (u t) (fun r => k r (start + t)%R (peroxy_total (species m) (conc_of (p_sp2a (interp m)) (u t)))) d W Hw PC (written_extract _ _ W) HT HH Lt); [apply Hc | exact Ed].
Qed.
Lemma gas_lipschitz start T i : i < N -> ulip N (fun t => 0 <= t <= T)%R (fun t y => nth i (generated m (rates_at m k start t y) y) 0%R).
Proof. intros _. apply generated_ulip; [exact Hw | apply Hr]. Qed.

Lemma numba_unique start T u v : (0 <= T)%R -> List.length (u 0%R) = N ->
  solves (fun t => gas_dydt_numba (interp m) (List.length m) start t H2O temp) T u ->
  solves (fun t => gas_dydt_numba (interp m) (List.length m) start t H2O temp) T v -> u 0%R = v 0%R -> same_on T u v.
Proof.
  intros PT Lu U V E. assert (Lv : List.length (v 0%R) = N) by (rewrite <- E; exact Lu).
  exact (solution_unique N _ T PT (gas_lipschitz start T) _ _ u v (numba_follows start T u Lu U) (numba_follows start T v Lv V) E).
Qed.

Lemma gas_bounded w A start T u : Forall products_safe m -> Forall (fun r => weight w (rhs r) <= weight w (lhs r))%R m ->
  w light = 0%R -> (forall b, In b bath -> w b = 0%R) -> (forall s, (0 <= w s)%R) -> (forall s, In s (species m) -> ~ In s bath -> (0 < w s)%R) -> (0 <= T)%R ->
  List.length (u 0%R) = N -> solves (fun t => gas_dydt_numba (interp m) (List.length m) start t H2O temp) T u ->
  nonneg (u 0%R) -> Forall (fun x => x <= A)%R (u 0%R) -> (0 <= A)%R ->
  forall t, (0 <= t <= T)%R -> nonneg (u t) /\ forall i, i < N -> (nth i (u t) 0 <= ceiling w m A)%R.
Proof.
  intros Hs Hwt Hl Hb Pw Pp PT Lu U N0 B0 PA t Ht.
  assert (Hst := written_extract _ _ W).
  assert (NN : forall t, (0 <= t <= T)%R -> nonneg (u t)).
  { apply (gas_nonneg m text (interp m) W Hst k start T e H2O temp u Hw PC HT HH PT (Hr _ _)); try assumption. intros; apply Hc. }
  split; [apply NN, Ht|]. intros i Hi.
  assert (B0' : forall a, (nth a (u 0%R) 0 <= A)%R).
  { intros a. destruct (Nat.lt_ge_cases a (List.length (u 0%R))) as [La|La]; [rewrite Forall_forall in B0; apply B0, nth_In, La | rewrite nth_overflow by exact La; exact PA]. }
  assert (V : forall s d, (0 <= s <= T)%R -> gas_dydt_numba (interp m) (List.length m) start s H2O temp (u s) = Some d -> d = generated m (rates_at m k start s (u s)) (u s)).
  { intros s d Hss Ed. apply (generated_value m text (interp m) e start s H2O temp (u s) (fun r => k r (start + s)%R (peroxy_total (species m) (conc_of (p_sp2a (interp m)) (u s)))) d W Hw PC Hst HT HH); [|apply Hc | exact Ed].
    rewrite (proj1 (proj1 U s Hss)). exact Lu. }
  destruct (nth_error (species m) i) as [s|] eqn:Es; [|apply nth_error_None in Es; unfold N in Hi; lia].
  destruct (inb s bath) eqn:Eb.
  - assert (K := solution_conserves _ T u [(1%R, i)] PT U). unfold amount_of in K. cbn [map rsum fst snd] in K.
    assert (K' : (1 * nth i (u t) 0 + 0 = 1 * nth i (u 0) 0 + 0)%R).
    { apply K; [apply Forall_cons; [cbn [snd]; rewrite Lu; exact Hi | apply Forall_nil] | | exact Ht]. intros s' d Hs' Ed. rewrite (V s' d Hs' Ed).
      rewrite (generated_bath m _ _ i s Es); [ring | apply inb_In, Eb]. }
    assert (X := B0' i). assert (Y := ceiling_start w m A Pw PA). lra.
  - assert (Ps : (0 < w s)%R) by (apply Pp; [eapply nth_error_In, Es | apply inb_nIn, Eb]).
    assert (D : (amount_of (atoms w (p_sp2a (interp m))) (u t) <= amount_of (atoms w (p_sp2a (interp m))) (u 0%R))%R).
    { apply (solution_loses _ T u _ PT U); [| |exact Ht].
      - unfold atoms. apply Forall_forall. intros a Ha. apply in_map_iff in Ha as ([x j] & <- & Hin). cbn [snd]. apply In_sp2a in Hin. rewrite Lu. apply nth_error_Some. congruence.
      - intros s' d Hs' Ed. rewrite (V s' d Hs' Ed). apply generated_loses; try assumption; [apply rates_at_length | | apply NN, Hs'].
        apply (rates_at_nonneg m k start (start + T)); [apply Hr | lra | apply NN, Hs']. }
    assert (S1 := amount_share w m (u t) i s Pw (NN t Ht) Es). assert (S2 := amount_bounds w m (u 0%R) A Pw Lu N0 B0').
    assert (S3 := ceiling_share w m A s Pw PA (nth_error_In _ _ Es) Ps).
    apply Rle_trans with (2 := S3). apply Rmult_le_reg_r with (w s); [exact Ps|]. unfold Rdiv. rewrite Rmult_assoc, Rinv_l by lra. lra.
Qed.
End Unique.

(* C84.  At most one solution starts from a given state. *)
Theorem C84_unique_partial : forall m text e, written m text -> whole m -> peroxy_clean (first_seen (reading_order m)) ->
  exists st, extract_mechanism text = Ok (Z.of_nat (List.length m), st) /\
  forall start_time H2O temp T u v, (0 < temp)%R -> (0 <= H2O)%R -> (0 <= T)%R -> tame_rates m e H2O temp ->
    List.length (u 0%R) = List.length (first_seen (reading_order m)) ->
    solves (fun t => gas_dydt_numba st (List.length m) start_time t H2O temp) T u ->
    solves (fun t => gas_dydt_numba st (List.length m) start_time t H2O temp) T v ->
    u 0%R = v 0%R -> same_on T u v.
Proof.
  intros m text e W Hw PC. exists (interp m). split; [apply written_extract, W|]. intros start w temp T u v HT HW PT Ht Lu U V E.
  destruct (C82_regular m e w temp Ht) as (k & Hr & Hc). exact (numba_unique m text e W Hw PC w temp HT HW k Hr Hc start T u v PT Lu U V E).
Qed.

(* The numba and the f2py driver have the same solution, whatever the order in
   which the parallel sections write and whatever the arrays contain before. *)
Theorem C84_drivers_partial : forall m text e ord, written m text -> whole m ->
  Forall unit_coefficients m -> Forall (fun r => NoDup (names (rhs r)) /\ ~ In (last_reactant r) (names (rhs r))) m ->
  Forall distinct_reactants m -> peroxy_clean (first_seen (reading_order m)) ->
  exists st, extract_mechanism text = Ok (Z.of_nat (List.length m), st) /\
  forall o1 o2 o3 o4 calls rnd start_time H2O temp T u v, (forall t y, is_fortran_call ord st (List.length m) o1 o2 o3 o4 (calls t y)) ->
    is_rounding rnd -> (0 < temp)%R -> (0 <= H2O)%R -> (0 <= T)%R -> tame_rates m e H2O temp ->
    List.length (u 0%R) = List.length (first_seen (reading_order m)) ->
    solves (fun t => gas_dydt_numba st (List.length m) start_time t H2O temp) T u ->
    solves (fun t y => f2py_dydt st (List.length m) rnd start_time t H2O temp (calls t y) y) T v ->
    u 0%R = v 0%R -> same_on T u v.
Proof.
  intros m text e ord W Hw Hu Hp Hd PC. exists (interp m). assert (Hst := written_extract _ _ W). split; [exact Hst|].
  intros o1 o2 o3 o4 calls rnd start w temp T u v Hcall Hrnd HT HW PT Ht Lu U V E. assert (FR : fortran_ready m) by (constructor; assumption).
  destruct (C82_regular m e w temp Ht) as (k & Hr & Hc).
  refine (numba_unique m text e W Hw PC w temp HT HW k Hr Hc start T u v PT Lu U _ E).
  eapply solves_ext; [|exact V]. intros t Htt. cbv beta.
  destruct (same_dydt m text _ W FR Hst PC e ord o1 o2 o3 o4 (calls t (v t)) rnd start t w temp (v t) (fun r => k r (start + t)%R (peroxy_total (first_seen (reading_order m)) (conc_of (p_sp2a (interp m)) (v t)))) (Hcall _ _) Hrnd HT HW) as (dy & D1 & D2).
  - rewrite (proj1 (proj1 V t Htt)), <- E. exact Lu.
  - apply Hc.
  - rewrite D1, D2. reflexivity.
Qed.

(* Whole runs: two integrators without error store the same rows. *)
Lemma loop_agree {S} (P : S -> Prop) (sim1 sim2 : solver S) rhs_at jac1 jac2 start sim b zr :
  (forall y y1 y2, P y -> sim1 (Problem (fun t => rhs_at (fadd start t)) (fun t => jac1 (fadd start t)) y fzero) b = Ok y1 ->
     sim2 (Problem (fun t => rhs_at (fadd start t)) (fun t => jac2 (fadd start t)) y fzero) b = Ok y2 -> P y1 /\ y1 = y2) ->
  forall rows total y out r1 r2, P y -> (forall o, out = Some o -> P o) ->
  loop sim1 rhs_at jac1 start sim b zr rows total y out = Ok r1 -> loop sim2 rhs_at jac2 start sim b zr rows total y out = Ok r2 -> r1 = r2.
Proof.
  intros Hi. induction rows as [|rows IH]; intros total y out r1 r2 Py Po H1 H2; cbn [loop] in H1, H2; destruct (Bltb total sim).
  - apply bind_Ok in H1 as (y0 & _ & H1). apply bind_Ok in H1 as (y1 & _ & H1). discriminate.
  - congruence.
  - apply bind_Ok in H1 as (y0 & Q0 & H1). apply bind_Ok in H1 as (y1 & Q1 & H1). apply bind_Ok in H1 as (rr & Q2 & H1).
    apply bind_Ok in H2 as (y0' & Q0' & H2). apply bind_Ok in H2 as (y1' & Q1' & H2). apply bind_Ok in H2 as (rr' & Q2' & H2).
    assert (y0' = y0) by congruence. subst y0'.
    assert (P0 : P y0) by (destruct (Beqb total fzero); [injection Q0 as <-; exact Py | destruct out as [o|]; [injection Q0 as <-; apply Po; reflexivity | discriminate]]).
    destruct (Hi y0 y1 y1' P0 Q1 Q1') as [P1 <-].
    assert (rr = rr') by (apply (IH (fadd total b) y0 (Some y1)); try assumption; intros o Eo; injection Eo as <-; exact P1). congruence.
  - congruence.
Qed.

Lemma set_initial_length d c y r : foldM (set_initial d) c y = Ok r -> List.length r = List.length y.
Proof.
  revert y. induction c as [|x c IH]; intros y Hr; cbn [foldM] in Hr; [injection Hr as <-; reflexivity|].
  apply bind_Ok in Hr as (y1 & H1 & Hr). rewrite (IH y1 Hr). unfold set_initial in H1.
  destruct (dget (fst x) d) as [i|]; [|discriminate]. destruct (i <? List.length y); [|discriminate]. injection H1 as <-. apply set_nth_len.
Qed.

Theorem C84_rows_partial : forall m text e, written m text -> whole m -> peroxy_clean (first_seen (reading_order m)) ->
  exists st, extract_mechanism text = Ok (Z.of_nat (List.length m), st) /\
  forall sim1 sim2 jac1 jac2 start H2O temp conc sim b r1 r2, (0 < temp)%R -> (0 <= H2O)%R -> (0 <= B2R b)%R -> tame_rates m e H2O temp ->
    let equations := fun clock => gas_dydt_numba st (List.length m) clock 0 H2O temp in
    let rhs_at := gas_rhs_at st (List.length m) H2O temp in
    error_free equations rhs_at sim1 -> error_free equations rhs_at sim2 ->
    run_simulation sim1 rhs_at jac1 start (p_sp st) (p_sp2a st) conc sim b = Ok r1 ->
    run_simulation sim2 rhs_at jac2 start (p_sp st) (p_sp2a st) conc sim b = Ok r2 -> r1 = r2.
Proof.
  intros m text e W Hw PC. exists (interp m). split; [apply written_extract, W|].
  intros sim1 sim2 jac1 jac2 start w temp conc sim b r1 r2 HT HW PB Ht equations rhs_at E1 E2 R1 R2.
  destruct (C82_regular m e w temp Ht) as (k & Hr & Hc).
  unfold run_simulation in R1, R2. apply bind_Ok in R1 as (y0 & I1 & R1). apply bind_Ok in R2 as (y0' & I2 & R2). assert (y0' = y0) by congruence. subst y0'.
  unfold run_batches in R1, R2. apply bind_Ok in R1 as (q & Q1 & R1). apply bind_Ok in R1 as (n & N1 & R1).
  apply bind_Ok in R2 as (q' & Q2 & R2). apply bind_Ok in R2 as (n' & N2 & R2). assert (q' = q) by congruence. subst q'. assert (n' = n) by congruence. subst n'.
  destruct (n <? 0)%Z; [discriminate|].
  assert (LN : List.length (p_sp (interp m)) = List.length (species m)) by (destruct (interp_species m) as (-> & _); rewrite combine_length, seq_length; lia).
  assert (L0 : List.length y0 = List.length (species m)) by (unfold initial_state in I1; rewrite (set_initial_length _ _ _ _ I1), repeat_length; exact LN).
  refine (loop_agree (fun y => List.length y = List.length (species m)) sim1 sim2 rhs_at jac1 jac2 start sim b _ _ _ _ y0 None r1 r2 L0 ltac:(discriminate) R1 R2).
  intros y y1 y2 Ly S1 S2. destruct (E1 start _ y b y1 S1) as (u & U0 & U1 & U). destruct (E2 start _ y b y2 S2) as (v & V0 & V1 & V).
  assert (Lu : List.length (u 0%R) = List.length (species m)) by (rewrite U0; exact Ly).
  split; [rewrite <- U1, (proj1 (proj1 U (B2R b) ltac:(lra))); exact Lu|]. rewrite <- U1, <- V1.
  refine (numba_unique m text e W Hw PC w temp HT HW k Hr Hc (B2R start) (B2R b) u v PB Lu _ _ _ (B2R b) ltac:(lra)); [| |congruence].
  - eapply solves_ext; [|exact U]. intros t _. unfold equations, gas_dydt_numba. rewrite Rplus_0_r. reflexivity.
  - eapply solves_ext; [|exact V]. intros t _. unfold equations, gas_dydt_numba. rewrite Rplus_0_r. reflexivity.
Qed.

(* Stability: small changes of the initial concentrations make small changes of
   the solution.  The weight w says that no reaction makes more than it uses
   (mass, or a count of atoms, or odd oxygen), so the solutions stay bounded. *)
Theorem C84_stable_partial : forall m text e w, written m text -> whole m -> peroxy_clean (first_seen (reading_order m)) -> Forall products_safe m ->
  Forall (fun r => weight w (rhs r) <= weight w (lhs r))%R m -> w light = 0%R -> (forall b, In b bath -> w b = 0%R) -> (forall s, (0 <= w s)%R) ->
  (forall s, In s (first_seen (reading_order m)) -> ~ In s bath -> (0 < w s)%R) ->
  exists st, extract_mechanism text = Ok (Z.of_nat (List.length m), st) /\
  forall start_time H2O temp T A, (0 < temp)%R -> (0 <= H2O)%R -> (0 <= T)%R -> (0 <= A)%R -> tame_rates m e H2O temp ->
    exists C, (0 <= C)%R /\ forall u v delta,
      let n := List.length (first_seen (reading_order m)) in
      let good_start := fun x : R -> list R => List.length (x 0%R) = n /\ Forall (fun c => 0 <= c <= A)%R (x 0%R) in
      let solution := solves (fun t => gas_dydt_numba st (List.length m) start_time t H2O temp) T in
      good_start u -> good_start v -> solution u -> solution v ->
      (forall i, i < n -> (Rabs (nth i (u 0%R) 0 - nth i (v 0%R) 0) <= delta)%R) ->
      forall t i, (0 <= t <= T)%R -> i < n -> (Rabs (nth i (u t) 0 - nth i (v t) 0) <= C * delta)%R.
Proof.
  intros m text e w W Hw PC Hs Hwt Hl Hb Pw Pp. exists (interp m). split; [apply written_extract, W|].
  intros start wa temp T A HT HW PT PA Ht. destruct (C82_regular m e wa temp Ht) as (k & Hr & Hc).
  set (n := List.length (first_seen (reading_order m))).
  destruct (solution_close n _ T PT (gas_lipschitz m Hw k Hr start T) (ceiling w m A)) as (C & PC' & HC).
  exists (C * INR n)%R. split; [apply Rmult_le_pos; [exact PC' | apply pos_INR]|].
  intros u v delta n' good_start solution [Lu Gu] [Lv Gv] U V D0 t i Htt Hi. fold n in Lu, Lv, n'. unfold n' in *. clear n'.
  assert (Spl : forall l, Forall (fun c => 0 <= c <= A)%R l -> nonneg l /\ Forall (fun c => c <= A)%R l).
  { intros l F. split; eapply Forall_impl; try exact F; intros a Ha; cbv beta in *; lra. }
  destruct (Spl _ Gu) as [Nu Au]. destruct (Spl _ Gv) as [Nv Av].
  assert (Bu := gas_bounded m text e W Hw PC wa temp HT HW k Hr Hc w A start T u Hs Hwt Hl Hb Pw Pp PT Lu U Nu Au PA).
  assert (Bv := gas_bounded m text e W Hw PC wa temp HT HW k Hr Hc w A start T v Hs Hwt Hl Hb Pw Pp PT Lv V Nv Av PA).
  assert (BB : forall x, (forall s, (0 <= s <= T)%R -> nonneg (x s) /\ forall j, j < List.length (species m) -> (nth j (x s) 0 <= ceiling w m A)%R) -> List.length (x 0%R) = n -> solution x ->
     forall s, (0 <= s <= T)%R -> bounded_by n (ceiling w m A) (x s)).
  { intros x Bx Lx X s Hss. assert (Ls : List.length (x s) = n) by (rewrite (proj1 (proj1 X s Hss)); exact Lx). split; [exact Ls|].
    intros j Hj. destruct (Bx s Hss) as [Nx Mx]. rewrite Rabs_pos_eq; [apply Mx; exact Hj|]. unfold nonneg in Nx. rewrite Forall_forall in Nx. apply Nx, nth_In. rewrite Ls. exact Hj. }
  assert (Cl := HC _ _ u v (numba_follows m text e W Hw PC wa temp HT HW k Hc start T u Lu U) (numba_follows m text e W Hw PC wa temp HT HW k Hc start T v Lv V)
    (BB u Bu Lu U) (BB v Bv Lv V) t Htt).
  assert (I1 : (Rabs (nth i (u t) 0 - nth i (v t) 0) <= dist1 n (u t) (v t))%R).
  { unfold dist1. assert (Hin : In i (seq 0 n)) by (apply in_seq; lia). revert Hin. generalize (seq 0 n) as l. induction l as [|x l IH]; intros Hin; [contradiction|]. cbn [map rsum].
    assert (X : (0 <= rsum (map (fun i => Rabs (nth i (u t) 0 - nth i (v t) 0)) l))%R) by (apply rsum_nonneg; intros z Hz; apply in_map_iff in Hz as (j & <- & _); apply Rabs_pos).
    destruct Hin as [->|Hin]; [lra|]. specialize (IH Hin). assert (Y := Rabs_pos (nth x (u t) 0 - nth x (v t) 0)%R). lra. }
  assert (I2 : (dist1 n (u 0%R) (v 0%R) <= INR n * delta)%R).
  { unfold dist1. assert (X : forall l, (forall j, In j l -> j < n) -> (rsum (map (fun i => Rabs (nth i (u 0) 0 - nth i (v 0) 0)) l) <= INR (List.length l) * delta)%R).
    { induction l as [|x l IH]; intros Hx; [cbn; lra|]. cbn [map rsum List.length]. rewrite S_INR. specialize (IH (fun j Hj => Hx j (or_intror Hj))). assert (Y := D0 x (Hx x (or_introl eq_refl))). lra. }
    rewrite <- (seq_length n 0) at 2. apply X. intros j Hj. apply in_seq in Hj. lia. }
  apply Rle_trans with (1 := I1). apply Rle_trans with (1 := Cl). rewrite Rmult_assoc. apply Rmult_le_compat_l; assumption.
Qed.

(* The weighted total never grows, so no species exceeds what the start can make. *)
Theorem C84_bounded_partial : forall m text e w, written m text -> whole m -> peroxy_clean (first_seen (reading_order m)) -> Forall products_safe m ->
  Forall (fun r => weight w (rhs r) <= weight w (lhs r))%R m -> w light = 0%R -> (forall b, In b bath -> w b = 0%R) -> (forall s, (0 <= w s)%R) ->
  exists st, extract_mechanism text = Ok (Z.of_nat (List.length m), st) /\
  forall start_time H2O temp T u, (0 < temp)%R -> (0 <= H2O)%R -> (0 <= T)%R -> tame_rates m e H2O temp ->
    List.length (u 0%R) = List.length (first_seen (reading_order m)) -> nonneg (u 0%R) ->
    solves (fun t => gas_dydt_numba st (List.length m) start_time t H2O temp) T u ->
    forall t, (0 <= t <= T)%R -> nonneg (u t) /\ (total_weight w (p_sp2a st) (u t) <= total_weight w (p_sp2a st) (u 0%R))%R.
Proof.
  intros m text e w W Hw PC Hs Hwt Hl Hb Pw. exists (interp m). assert (Hst := written_extract _ _ W). split; [exact Hst|].
  intros start wa temp T u HT HW PT Ht Lu Nu U t Htt. destruct (C82_regular m e wa temp Ht) as (k & Hr & Hc).
  assert (NN : forall t, (0 <= t <= T)%R -> nonneg (u t)).
  { apply (gas_nonneg m text (interp m) W Hst k start T e wa temp u Hw PC HT HW PT (Hr _ _)); try assumption. intros; apply Hc. }
  split; [apply NN, Htt|].
  assert (D : (amount_of (atoms w (p_sp2a (interp m))) (u t) <= amount_of (atoms w (p_sp2a (interp m))) (u 0%R))%R).
  { apply (solution_loses _ T u _ PT U); [| |exact Htt].
    - unfold atoms. apply Forall_forall. intros a Ha. apply in_map_iff in Ha as ([x j] & <- & Hin). cbn [snd]. apply In_sp2a in Hin. rewrite Lu. apply nth_error_Some. unfold species in Hin. congruence.
    - intros s d Hs' Ed. destruct (numba_follows m text e W Hw PC wa temp HT HW k Hc start T u Lu U) as (_ & _ & V).
      rewrite (V s d Hs'); [|rewrite (proj1 (proj1 U s Hs')); exact Lu | exact Ed].
      apply generated_loses; try assumption; [apply rates_at_length | | apply NN, Hs'].
      apply (rates_at_nonneg m k start (start + T)); [apply Hr | lra | apply NN, Hs']. }
  unfold amount_of, atoms in D. rewrite !map_map in D. exact D.
Qed.

(* A case: the mechanism of C71_hypotheses.  Both drivers have a solution, and
   an integrator without error exists (C71_hypotheses). *)
Example C84_hypotheses : forall ord, is_set_order ord -> 
  written self_mech (ParseShow.show self_words) /\ whole self_mech /\ peroxy_clean (first_seen (reading_order self_mech)) /\
  Forall unit_coefficients self_mech /\ Forall (fun r => NoDup (names (rhs r)) /\ ~ In (last_reactant r) (names (rhs r))) self_mech /\
  Forall distinct_reactants self_mech /\ Forall products_safe self_mech /\
  Forall (fun r => weight methyls (rhs r) <= weight methyls (lhs r))%R self_mech /\ methyls light = 0%R /\ (forall b, In b bath -> methyls b = 0%R) /\
  (forall s, (0 <= methyls s)%R) /\ (forall s, In s (first_seen (reading_order self_mech)) -> ~ In s bath -> (0 < methyls s)%R) /\
  (forall H2O temp, (0 < temp)%R -> (0 <= H2O)%R -> tame_rates self_mech self_expr H2O temp) /\
  exists st c, extract_mechanism (ParseShow.show self_words) = Ok (1%Z, st) /\ is_fortran_call ord st 1 None None None None c /\
    forall start H2O temp a b T, (0 < temp)%R -> (0 <= H2O)%R -> (0 <= a)%R -> (0 <= b)%R ->
      solves (fun t => gas_dydt_numba st 1 start t H2O temp) T (self_solution a b) /\
      forall rnd, is_rounding rnd -> solves (fun t y => f2py_dydt st 1 rnd start t H2O temp c y) T (self_solution a b).
Proof.
  intros ord Ho. destruct C71_hypotheses as (W & Hw & PC & Hs & Hwt & Hl & Hb & Pw & _ & HC & st & Hst & HS & _).
  assert (UC : Forall unit_coefficients self_mech) by (repeat (apply Forall_cons; [repeat (apply Forall_cons; [vm_compute; reflexivity|]); apply Forall_nil|]); apply Forall_nil).
  assert (UP : Forall (fun r => NoDup (names (rhs r)) /\ ~ In (last_reactant r) (names (rhs r))) self_mech).
  { repeat (apply Forall_cons; [split; [vm_compute; repeat (constructor; [cbn; intuition discriminate|]); constructor | vm_compute; intuition discriminate]|]). apply Forall_nil. }
  assert (UD : Forall distinct_reactants self_mech).
  { apply Forall_cons; [|constructor]. split; [vm_compute; discriminate | vm_compute; repeat constructor; cbn; intuition discriminate]. }
  split; [exact W|]. split; [exact Hw|]. split; [exact PC|]. split; [exact UC|]. split; [exact UP|]. split; [exact UD|]. split; [exact Hs|].
  split. { eapply Forall_impl; [|exact Hwt]. intros r E. cbv beta in *. lra. }
  split; [exact Hl|]. split; [exact Hb|]. split; [exact Pw|].
  split. { intros s Hin _. rewrite self_species in Hin. destruct Hin as [<-|[<-|[]]]; unfold methyls; vm_compute inb; lra. }
  split.
  { intros w T HT HW [|k] rx Hk; [|destruct k; discriminate]. injection Hk as <-.
    destruct (self_coefficients 0 0 w T HT 0 _ eq_refl) as (A1 & A2 & A3 & A4 & _). repeat (split; [assumption|]).
    exact (proj2 (proj2 (proj2 (proj2 (C82_hypotheses w T HT HW 2 _ eq_refl))))). }
  destruct (gen_reactants_fortran_ok None (List.length self_mech) _ _ _ (all_known_interp self_mech)) as (p1 & G1 & _).
  destruct (PropsJac.C23_fortran_equals_numba self_mech _ ord ord None W Ho Ho) as (st' & q1 & q2 & E' & _ & Q2 & _).
  { intros r s Hr Hin. destruct Hr as [<-|[]]; vm_compute in Hin.
    destruct Hin as [<-|[]]; (split; [apply (single_proper 1); [vm_compute; reflexivity | exact single_one] | intros C; exfalso; vm_compute in C; discriminate]). }
  assert (E := written_extract _ _ W). change (Z.of_nat (List.length self_mech)) with 1%Z in E, E'.
  assert (st = interp self_mech) by congruence. assert (st' = interp self_mech) by congruence. subst st st'.
  exists (interp self_mech).
  eexists (FCall _ _ _ _ zeros zeros). split; [exact Hst|].
  match goal with |- ?P /\ ?Q => assert (FC : P) end.
  { split; [exists p1; split; [exact G1 | reflexivity]|]. split; [reflexivity|]. split; [reflexivity|]. exists q2. split; [exact Q2 | reflexivity]. }
  split; [exact FC|]. intros start w temp a b T HT HW Pa Pb. assert (U := HS start w temp a b T HT HW Pa Pb). split; [exact U|]. intros rnd Hrnd.
  eapply solves_ext; [|exact U]. intros t Ht. cbv beta.
  destruct (same_dydt self_mech _ _ W (Build_fortran_ready _ UC UP UD) Hst PC self_expr ord None None None None _ rnd start t w temp (self_solution a b t)
    (fun r => self_rate r (start + t)%R (peroxy_total (first_seen (reading_order self_mech)) (conc_of (p_sp2a (interp self_mech)) (self_solution a b t)))) FC Hrnd HT HW) as (dy & D1 & D2).
  - rewrite self_species. reflexivity.
  - apply HC, HT.
  - exact (eq_trans D1 (eq_sym D2)).
Qed.

Print Assumptions C84_unique_partial. Print Assumptions C84_drivers_partial. Print Assumptions C84_rows_partial.
Print Assumptions C84_stable_partial. Print Assumptions C84_bounded_partial.
