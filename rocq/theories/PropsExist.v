(* C85: the equations handed to the integrator have a solution. *)
From Coq Require Import String List Bool Arith Lia ZArith QArith Reals Qreals Lra.
From Flocq Require Import Core BinarySingleNaN.
From Verif Require Import Base PyStr PyDict ModelParse SpecMech ParseStruct ParseTables ParseWritten ParseShow PropsParse
  ModelLang ModelGen ModelRhs SpecKin LangFacts GenReact GenLossGain GenParsed GenSparse GenJac JacDeriv PropsKin PropsRhs PropsJac
  ModelOmp PropsOmp ModelExpr ModelRate ModelRateFile SpecRate RateExpr PropsRate ModelRateBody ModelRateRun RateSym
  SpecRateValue SpecMcmEnv PropsRateValue ModelRo2 SpecRo2 PropsRo2 ModelGas SpecGas PropsGas ModelGasJac PropsGasJac
  ModelSolver SpecSolver SolverFacts OdeFacts PropsSolver ModelSplit PropsSplit SpecMethod PropsMethod SpecTraj OdeSign OdeClose PropsTraj GasFlow
  PropsAeroChem GasFortran PropsGasF2py SpecSun SpecTroe SpecTame TameFacts PropsTame PropsUnique OdePicard OdeExist SunPieces TameFlow.
Import ListNotations.
Import Coq.Lists.List.
Open Scope nat_scope.
Open Scope list_scope.
Local Arguments eqb : simpl never.

Lemma ceiling_holds w m y0 : (forall s, (0 <= w s)%R) -> (forall s, In s (species m) -> ~ In s bath -> (0 < w s)%R) ->
  List.length y0 = List.length (species m) -> nonneg y0 -> 
  forall A, (0 <= A)%R -> (forall i, (nth i y0 0 <= A)%R) -> forall y, List.length y = List.length (species m) -> nonneg y ->
  (amount_of (atoms w (p_sp2a (interp m))) y <= amount_of (atoms w (p_sp2a (interp m))) y0)%R ->
  (forall i s, nth_error (species m) i = Some s -> In s bath -> (nth i y 0 <= nth i y0 0)%R) ->
  forall i, i < List.length (species m) -> (nth i y 0 <= ceiling w m A)%R.
Proof.
  intros Pw Pp L0 N0 A PA B0 y Ly Ny D HB i Hi.
  destruct (nth_error (species m) i) as [s|] eqn:Es; [|apply nth_error_None in Es; lia].
  destruct (inb s bath) eqn:Eb.
  - assert (X := HB i s Es (proj1 (inb_In _ _) Eb)). assert (Y := B0 i). assert (Z := ceiling_start w m A Pw PA). lra.
  - assert (Ps : (0 < w s)%R) by (apply Pp; [eapply nth_error_In, Es | apply inb_nIn, Eb]).
    assert (S1 := amount_share w m y i s Pw Ny Es). assert (S2 := amount_bounds w m y0 A Pw L0 N0 B0).
    assert (S3 := ceiling_share w m A s Pw PA (nth_error_In _ _ Es) Ps).
    apply Rle_trans with (2 := S3). apply Rmult_le_reg_r with (w s); [exact Ps|]. unfold Rdiv. rewrite Rmult_assoc, Rinv_l by lra. lra.
Qed.

Lemma list_ceiling l : exists A, (0 <= A)%R /\ forall i, (nth i l 0 <= A)%R.
Proof.
  induction l as [|x l (A & PA & HA)]; [exists 0%R; split; [lra|]; intros [|i]; cbn; lra|].
  exists (Rmax x A). split; [apply Rle_trans with A; [exact PA | apply Rmax_r]|]. intros [|i]; cbn [nth]; [apply Rmax_l | apply Rle_trans with (1 := HA i), Rmax_r].
Qed.

Lemma rates_at_ext m k k' start t y : (forall r x, r < List.length m -> k r (start + t)%R x = k' r (start + t)%R x) -> rates_at m k start t y = rates_at m k' start t y.
Proof. intros H. unfold rates_at. apply map_ext_in. intros r Hr. apply in_seq in Hr. apply H. lia. Qed.

Section Exist.
Context (m : mech) (text : str) (e : nat -> rexpr) (w : str -> R) (W : written m text) (Hw : whole m) (PC : peroxy_clean (first_seen (reading_order m)))
  (Hs : Forall products_safe m) (Hwt : Forall (fun r => weight w (rhs r) <= weight w (lhs r))%R m) (Hl : w light = 0%R) (Hb : forall b, In b bath -> w b = 0%R)
  (Pw : forall s, (0 <= w s)%R) (Pp : forall s, In s (first_seen (reading_order m)) -> ~ In s bath -> (0 < w s)%R).
Context (H2O temp : R) (HT : (0 < temp)%R) (HH : (0 <= H2O)%R) (Ht : tame_rates m e H2O temp).

Lemma gas_exists start T y0 : (0 <= T)%R -> List.length y0 = List.length (species m) -> nonneg y0 ->
  exists u, u 0%R = y0 /\ solves (fun t => gas_dydt_numba (interp m) (List.length m) start t H2O temp) T u /\ forall t, (0 <= t <= T)%R -> nonneg (u t).
Proof.
  intros PT L0 N0. destruct (tame_regimes m e H2O temp Ht) as (k & kd & kn & Hr & Hc & Rd & Rn & Fl & Eq).
  destruct (list_ceiling y0) as (A & PA & BA).
  set (N := List.length (species m)). set (F := fun t y => generated m (rates_at m k start t y) y).
  set (bathq := map (fun i => [(1%R, i)]) (filter (fun i => match nth_error (species m) i with Some s => inb s bath | None => false end) (seq 0 N))).
  assert (Bq : forall q, In q bathq -> exists i s, q = [(1%R, i)] /\ nth_error (species m) i = Some s /\ In s bath).
  { intros q Hq. apply in_map_iff in Hq as (i & <- & Hi). apply filter_In in Hi as [_ Hi]. destruct (nth_error (species m) i) as [s|] eqn:E; [|discriminate].
    exists i, s. split; [reflexivity|]. split; [exact E | apply inb_In, Hi]. }
  assert (PCe : (0 <= ceiling w m A)%R) by (assert (Z := ceiling_start w m A Pw PA); lra).
  destruct (solution_exists N F T (ceiling w m A) PT PCe y0 (atoms w (p_sp2a (interp m)) :: bathq) L0 N0) as (u & U0 & U & NN).
  - assert (P := sun_pieces start (start + T) ltac:(lra)).
    assert (Q := pieces_map (settled sunny) (fun a b => exists Fr, regime N T Fr /\ forall t y, (a < t < b)%R -> List.length y = N -> F t y = Fr t y) (fun x => x - start)%R ltac:(intros; lra)).
    cbv beta in Q. replace (start - start)%R with 0%R in Q by ring. specialize (fun X => Q X start (start + T)%R P). replace (start - start)%R with 0%R in Q by ring. replace (start + T - start)%R with T in Q by ring.
    apply Q. intros x y Hxy [S|S].
    + exists (fun t y => generated m (rates_at m kd start t y) y). split.
      * intros i Hi. split; [apply generated_ulip; [exact Hw | apply Rd] | apply generated_flow; [intros r Hr'; apply Fl, Hr' | exact Hw]].
      * intros t z Htt Lz. unfold F. rewrite (rates_at_ext m k kd); [reflexivity|]. intros r v Hr'. apply Eq; [exact Hr' | apply S; lra].
    + exists (fun t y => generated m (rates_at m kn start t y) y). split.
      * intros i Hi. split; [apply generated_ulip; [exact Hw | apply Rn] | apply generated_flow; [intros r Hr'; apply Fl, Hr' | exact Hw]].
      * intros t z Htt Lz. unfold F. rewrite (rates_at_ext m k kn); [reflexivity|]. intros r v Hr'. apply Eq; [exact Hr' | apply S; lra].
  - intros i Hi. apply generated_ulip; [exact Hw | apply Hr].
  - intros t y i Htt Ly Ny Hi Hz. apply (generated_boundary m text); try assumption; [apply rates_at_length | | lia].
    apply (rates_at_nonneg m k start (start + T)); [apply Hr | lra | exact Ny].
  - intros t y q Htt Ly Ny [<-|Hq].
    + unfold F. apply generated_loses; try assumption; [apply rates_at_length|]. apply (rates_at_nonneg m k start (start + T)); [apply Hr | lra | exact Ny].
    + destruct (Bq q Hq) as (i & s & -> & Es & Ib). unfold amount_of. cbn [map rsum fst snd]. unfold F. rewrite (generated_bath m _ _ i s Es Ib). lra.
  - apply Forall_cons.
    + unfold atoms. apply Forall_forall. intros a Ha. apply in_map_iff in Ha as ([x j] & <- & Hin). cbn [snd]. apply In_sp2a in Hin. apply nth_error_Some. unfold species in *. congruence.
    + apply Forall_forall. intros q Hq. destruct (Bq q Hq) as (i & s & -> & Es & Ib). apply Forall_cons; [|apply Forall_nil]. cbn [snd]. apply nth_error_Some. congruence.
  - intros y Ly Ny HQ i Hi. apply (ceiling_holds w m y0 Pw Pp L0 N0 A PA BA y Ly Ny); [apply HQ; left; reflexivity | | exact Hi].
    intros j s Es Ib. assert (X := HQ [(1%R, j)]). unfold amount_of in X. cbn [map rsum fst snd] in X.
    enough (1 * nth j y 0 + 0 <= 1 * nth j y0 0 + 0)%R by lra. apply X. right. unfold bathq. apply in_map_iff. exists j. split; [reflexivity|]. apply filter_In. split.
    + apply in_seq. assert (j < List.length (species m)) by (apply nth_error_Some; congruence). unfold N. lia.
    + rewrite Es. apply inb_In, Ib.
  - exists u. split; [exact U0|]. split; [|exact NN]. eapply solves_ext; [|exact U]. intros t Htt. cbv beta.
    assert (Lt : List.length (u t) = List.length (species m)) by (rewrite (proj1 (proj1 U t Htt)), U0; exact L0).
    rewrite (generated_defined m text (interp m) e start t H2O temp (u t) (fun r => k r (start + t)%R (peroxy_total (species m) (conc_of (p_sp2a (interp m)) (u t)))) W Hw Hs PC (written_extract _ _ W) HT HH Lt); [reflexivity | apply Hc].
Qed.
End Exist.

(* C85.  From every non-negative state the equations have exactly one solution,
   over any length of time, across all sunrises and sunsets.  The weight w says
   that no reaction makes more than it uses. *)
Theorem C85_exists_partial : forall m text e w, written m text -> whole m -> peroxy_clean (first_seen (reading_order m)) -> Forall products_safe m ->
  Forall (fun r => weight w (rhs r) <= weight w (lhs r))%R m -> w light = 0%R -> (forall b, In b bath -> w b = 0%R) -> (forall s, (0 <= w s)%R) ->
  (forall s, In s (first_seen (reading_order m)) -> ~ In s bath -> (0 < w s)%R) ->
  exists st, extract_mechanism text = Ok (Z.of_nat (List.length m), st) /\
  forall start_time H2O temp T y0, (0 < temp)%R -> (0 <= H2O)%R -> (0 <= T)%R -> tame_rates m e H2O temp ->
    List.length y0 = List.length (first_seen (reading_order m)) -> nonneg y0 ->
    let solution := solves (fun t => gas_dydt_numba st (List.length m) start_time t H2O temp) T in
    exists u, u 0%R = y0 /\ solution u /\ (forall t, (0 <= t <= T)%R -> nonneg (u t)) /\
      forall v, v 0%R = y0 -> solution v -> same_on T u v.
Proof.
  intros m text e w W Hw PC Hs Hwt Hl Hb Pw Pp. exists (interp m). split; [apply written_extract, W|].
  intros start wa temp T y0 HT HW PT Ht L0 N0 solution.
  destruct (gas_exists m text e w W Hw PC Hs Hwt Hl Hb Pw Pp wa temp HT HW Ht start T y0 PT L0 N0) as (u & U0 & U & NN).
  exists u. split; [exact U0|]. split; [exact U|]. split; [exact NN|]. intros v V0 V.
  destruct (C82_regular m e wa temp Ht) as (k & Hr & Hc).
  exact (numba_unique m text e W Hw PC wa temp HT HW k Hr Hc start T u v PT (eq_trans (f_equal (@List.length R) U0) L0) U V (eq_trans U0 (eq_sym V0))).
Qed.

(* The Fortran code has one too, whatever the order in which its parallel
   sections write and whatever its arrays contain before. *)
Theorem C85_fortran_partial : forall m text e w ord, written m text -> whole m -> peroxy_clean (first_seen (reading_order m)) -> Forall products_safe m ->
  Forall unit_coefficients m -> Forall (fun r => NoDup (names (rhs r)) /\ ~ In (last_reactant r) (names (rhs r))) m -> Forall distinct_reactants m ->
  Forall (fun r => weight w (rhs r) <= weight w (lhs r))%R m -> w light = 0%R -> (forall b, In b bath -> w b = 0%R) -> (forall s, (0 <= w s)%R) ->
  (forall s, In s (first_seen (reading_order m)) -> ~ In s bath -> (0 < w s)%R) ->
  exists st, extract_mechanism text = Ok (Z.of_nat (List.length m), st) /\
  forall o1 o2 o3 o4 calls rnd start_time H2O temp T y0, (forall t y, is_fortran_call ord st (List.length m) o1 o2 o3 o4 (calls t y)) ->
    is_rounding rnd -> (0 < temp)%R -> (0 <= H2O)%R -> (0 <= T)%R -> tame_rates m e H2O temp ->
    List.length y0 = List.length (first_seen (reading_order m)) -> nonneg y0 ->
    exists u, u 0%R = y0 /\ solves (fun t y => f2py_dydt st (List.length m) rnd start_time t H2O temp (calls t y) y) T u /\
      forall t, (0 <= t <= T)%R -> nonneg (u t).
Proof.
  intros m text e w ord W Hw PC Hs Hu Hp Hd Hwt Hl Hb Pw Pp. exists (interp m). assert (Hst := written_extract _ _ W). split; [exact Hst|].
  intros o1 o2 o3 o4 calls rnd start wa temp T y0 Hcall Hrnd HT HW PT Ht L0 N0. assert (FR : fortran_ready m) by (constructor; assumption).
  destruct (gas_exists m text e w W Hw PC Hs Hwt Hl Hb Pw Pp wa temp HT HW Ht start T y0 PT L0 N0) as (u & U0 & U & NN).
  exists u. split; [exact U0|]. split; [|exact NN]. eapply solves_ext; [|exact U]. intros t Htt. cbv beta.
  destruct (C82_regular m e wa temp Ht) as (k & Hr & Hc).
  destruct (same_dydt m text _ W FR Hst PC e ord o1 o2 o3 o4 (calls t (u t)) rnd start t wa temp (u t) (fun r => k r (start + t)%R (peroxy_total (first_seen (reading_order m)) (conc_of (p_sp2a (interp m)) (u t)))) (Hcall _ _) Hrnd HT HW) as (dy & D1 & D2).
  - rewrite (proj1 (proj1 U t Htt)), U0. exact L0.
  - apply Hc.
  - exact (eq_trans D1 (eq_sym D2)).
Qed.

(* ------------------------------------------------------------------ *)
(* Whole runs.  Each row is the exact solution, one batch of length b after the
   row before it; every batch reads the clock from start on. *)
Inductive exact_rows (f : R -> list R -> option (list R)) (start b : R) : list R -> list (list R) -> Prop :=
| exact_none y : exact_rows f start b y []
| exact_more u y1 rows : u b = y1 -> solves (fun t => f (start + t)%R) b u -> exact_rows f start b y1 rows -> exact_rows f start b (u 0%R) (y1 :: rows).

Lemma fadd_positive total b : (0 < B2R b)%R -> Bltb fzero total = true \/ total = fzero -> Beqb (fadd total b) fzero = false /\ Bltb fzero (fadd total b) = true.
Proof.
  intros Pb Pt. assert (Fb : is_finite b = true) by (destruct b; try reflexivity; cbn [B2R] in Pb; lra).
  enough (X : Bltb fzero (fadd total b) = true).
  { split; [|exact X]. revert X. destruct (fadd total b) as [[|]|[|]| |[|] p e H]; intros X; try reflexivity; discriminate X. }
  destruct Pt as [Pt| ->].
  - destruct (is_finite total) eqn:Ft.
    + assert (Rt : (0 < B2R total)%R). { rewrite (Bltb_correct _ _ fzero total eq_refl Ft) in Pt. cbn [B2R fzero] in Pt. destruct (Rlt_bool_spec 0 (B2R total)); [assumption | discriminate]. }
      assert (C := Bplus_correct prec64 emax64 _ _ mode_NE total b Ft Fb). destruct (Rlt_bool _ _) eqn:O in C.
      * destruct C as (E & F & _). unfold fadd. rewrite (Bltb_correct _ _ fzero _ eq_refl F). rewrite E. cbn [B2R fzero].
        apply Rlt_bool_true. apply Rlt_le_trans with (B2R b); [exact Pb|].
        rewrite <- (round_generic radix2 (SpecFloat.fexp prec64 emax64) (round_mode mode_NE) (B2R b)) at 1; [|apply generic_format_B2R].
        apply round_le; [apply FLT_exp_valid; reflexivity | apply valid_rnd_N | lra].
      * destruct C as (E & _). unfold fadd. destruct (Bplus mode_NE total b) as [s|s| |s p x H]; cbn in E; try discriminate.
        assert (Sg : Bsign total = false). { destruct total as [| | |[|]]; try reflexivity; try discriminate. }
        injection E as E. rewrite Sg in E. subst s. reflexivity.
    + destruct total as [|[|]| |]; try discriminate. destruct b; try discriminate; reflexivity.
  - destruct b as [| | |[|] p x H]; try discriminate; cbn [B2R] in Pb; try lra; [|reflexivity].
    exfalso. assert (F2R (Float radix2 (cond_Zopp true (Zpos p)) x) < 0)%R by (apply F2R_lt_0; reflexivity). lra.
Qed.

Lemma loop_rows f (simulate : solver (list R)) rhs_at jac_at start sim b zr : (0 < B2R b)%R -> error_free f rhs_at simulate ->
  forall rows total y out ts ys, (out = None /\ total = fzero \/ exists o, out = Some o /\ Bltb fzero total = true /\ Beqb total fzero = false) ->
  loop simulate rhs_at jac_at start sim b zr rows total y out = Ok (ts, ys) ->
  exact_rows f (B2R start) (B2R b) (match out with Some o => o | None => y end) (firstn (List.length ts) ys).
Proof.
  intros Pb HE. induction rows as [|rows IH]; intros total y out ts ys Ho H; cbn [loop] in H; destruct (Bltb total sim).
  - apply bind_Ok in H as (y0 & _ & H). apply bind_Ok in H as (y1 & _ & H). discriminate.
  - injection H as <- _. apply exact_none.
  - apply bind_Ok in H as (y0 & H0 & H). apply bind_Ok in H as (y1 & H1 & H). apply bind_Ok in H as (rr & H2 & H). injection H as <- <-.
    cbn [List.length firstn].
    assert (E0 : y0 = match out with Some o => o | None => y end).
    { destruct Ho as [[-> ->]|(o & -> & _ & Z)]; [injection H0 as <-; reflexivity|]. rewrite Z in H0. injection H0 as <-. reflexivity. }
    rewrite <- E0. destruct (HE start _ y0 b y1 H1) as (u & U0 & U1 & U). rewrite <- U0. apply exact_more; [exact U1 | exact U|].
    destruct rr as [ts' ys']. apply (IH (fadd total b) y0 (Some y1) ts' ys'); [|exact H2]. right. exists y1. split; [reflexivity|].
    apply and_comm, fadd_positive; [exact Pb|]. destruct Ho as [[_ ->]|(o & _ & Z & _)]; [right; reflexivity | left; exact Z].
  - injection H as <- _. apply exact_none.
Qed.

Theorem C85_rows_partial : forall m text e w, written m text -> whole m -> peroxy_clean (first_seen (reading_order m)) -> Forall products_safe m ->
  Forall (fun r => weight w (rhs r) <= weight w (lhs r))%R m -> w light = 0%R -> (forall b, In b bath -> w b = 0%R) -> (forall s, (0 <= w s)%R) ->
  (forall s, In s (first_seen (reading_order m)) -> ~ In s bath -> (0 < w s)%R) ->
  exists st, extract_mechanism text = Ok (Z.of_nat (List.length m), st) /\
  forall start H2O temp b, (0 < temp)%R -> (0 <= H2O)%R -> (0 < B2R b)%R -> tame_rates m e H2O temp ->
    let equations := fun clock => gas_dydt_numba st (List.length m) clock 0 H2O temp in
    let rhs_at := gas_rhs_at st (List.length m) H2O temp in
    (forall n y0, List.length y0 = List.length (first_seen (reading_order m)) -> nonneg y0 ->
       exists rows, List.length rows = n /\ exact_rows equations (B2R start) (B2R b) y0 rows /\
         forall rows', List.length rows' = n -> exact_rows equations (B2R start) (B2R b) y0 rows' -> rows' = rows) /\
    (forall simulate jac conc sim ts ys, error_free equations rhs_at simulate ->
       run_simulation simulate rhs_at jac start (p_sp st) (p_sp2a st) conc sim b = Ok (ts, ys) ->
       exists y0, initial_state (List.length (p_sp st)) (p_sp2a st) conc = Ok y0 /\
         exact_rows equations (B2R start) (B2R b) y0 (firstn (List.length ts) ys)).
Proof.
  intros m text e w W Hw PC Hs Hwt Hl Hb Pw Pp. exists (interp m). split; [apply written_extract, W|].
  intros start wa temp b HT HW PB Ht equations rhs_at. destruct (C82_regular m e wa temp Ht) as (k & Hr & Hc).
  assert (Same : forall t y, equations (B2R start + t)%R y = gas_dydt_numba (interp m) (List.length m) (B2R start) t wa temp y) by (intros t y; unfold equations, gas_dydt_numba; rewrite Rplus_0_r; reflexivity).
  split.
  - induction n as [|n IH]; intros y0 L0 N0; [exists []; split; [reflexivity|]; split; [apply exact_none|]; intros [|? ?]; [reflexivity | discriminate]|].
    destruct (gas_exists m text e w W Hw PC Hs Hwt Hl Hb Pw Pp wa temp HT HW Ht (B2R start) (B2R b) y0 ltac:(lra) L0 N0) as (u & U0 & U & NN).
    assert (Lu : List.length (u 0%R) = List.length (species m)) by (rewrite U0; exact L0).
    destruct (IH (u (B2R b))) as (rows & L & X & Uq); [rewrite (proj1 (proj1 U (B2R b) ltac:(lra))); exact Lu | apply NN; lra|].
    exists (u (B2R b) :: rows). split; [cbn; lia|]. split.
    + rewrite <- U0. apply exact_more; [reflexivity | | exact X]. eapply solves_ext; [|exact U]. intros t _. cbv beta. symmetry. apply Same.
    + intros rows' L' X'. inversion X' as [|v y1 rows1 V1 V X1]; subst; [discriminate|].
      assert (Q : v (B2R b) = u (B2R b)).
      { symmetry. refine (numba_unique m text e W Hw PC wa temp HT HW k Hr Hc (B2R start) (B2R b) u v ltac:(lra) Lu U _ ltac:(congruence) (B2R b) ltac:(lra)). eapply solves_ext; [|exact V]. intros t _. cbv beta. apply Same. }
      rewrite Q in *. f_equal. apply Uq; [cbn in L'; lia | exact X1].
  - intros simulate jac conc sim ts ys HE H. unfold run_simulation in H. apply bind_Ok in H as (y0 & I0 & H). exists y0. split; [exact I0|].
    unfold run_batches in H. apply bind_Ok in H as (q & _ & H). apply bind_Ok in H as (n & _ & H). destruct (n <? 0)%Z; [discriminate|].
    exact (loop_rows equations simulate rhs_at jac start sim b _ PB HE _ fzero y0 None ts ys (or_introl (conj eq_refl eq_refl)) H).
Qed.

(* ------------------------------------------------------------------ *)
(* The weight is needed: a mechanism that makes more than it uses can run off
   to infinity in finite time, so there is nothing to integrate to. *)
Definition grow_words : list wrx := [ ([s_ "CH3O2"], [s_ "CH3O2"; s_ "CH3O2"], s_ "1.82D-13*RO2") ].
Definition grow_mech : mech := map bare grow_words.
Lemma grow_written : written grow_mech (ParseShow.show grow_words).
Proof. apply bare_written; [discriminate | reflexivity]. Qed.
Lemma grow_species : first_seen (reading_order grow_mech) = [s_ "CH3O2"].
Proof. vm_compute. reflexivity. Qed.
Lemma grow_tame H2O T : (0 < T)%R -> (0 <= H2O)%R -> tame_rates grow_mech self_expr H2O T.
Proof. intros HT HH [|k] r Hk; [|destruct k; discriminate]. injection Hk as <-. exact (C82_hypotheses H2O T HT HH 2 _ eq_refl). Qed.
Lemma grow_coefficients t x H2O T : (0 < T)%R -> coefficients grow_mech self_expr t x H2O T (fun r => self_rate r t x).
Proof. intros HT [|k] r Hk; [|destruct k; discriminate]. injection Hk as <-. exact (gas_coefficients t x H2O T HT 2 _ eq_refl). Qed.
Lemma grow_safe : Forall products_safe grow_mech.
Proof.
  apply Forall_cons; [|constructor]. right. exists [], [s_ "CH3O2"]. split; [vm_compute; reflexivity|]. split; [repeat constructor; intros []|].
  intros s [<-|[]]. left. vm_compute. reflexivity.
Qed.
Lemma grow_clean : peroxy_clean (first_seen (reading_order grow_mech)).
Proof. rewrite grow_species. split; [exists (s_ "CH3O2"); split; [left; reflexivity | vm_compute; reflexivity]|]. cbn. intuition discriminate. Qed.
Lemma grow_whole : whole grow_mech.
Proof. intros r s [<-|[]] [<-|[]]. exists 1. vm_compute. reflexivity. Qed.
Lemma grow_rhs start t H2O T a : (0 < T)%R -> (0 <= H2O)%R -> (0 <= a)%R ->
  gas_dydt_numba (interp grow_mech) 1 start t H2O T [a] = Some [1.82e-13 * a * a]%R.
Proof.
  intros HT HH Ha. assert (E := written_extract _ _ grow_written). change (Z.of_nat (List.length grow_mech)) with 1%Z in E.
  assert (D : Forall distinct_reactants grow_mech).
  { apply Forall_cons; [|constructor]. split; [vm_compute; discriminate | vm_compute; repeat constructor; cbn; intuition discriminate]. }
  destruct (C59_partial grow_mech _ self_expr grow_written grow_safe D grow_clean) as (st' & E' & H). change (Z.of_nat (List.length grow_mech)) with 1%Z in E'. rewrite E in E'.
  assert (st' = interp grow_mech) by congruence. subst st'. clear E E'.
  rewrite grow_species in H.
  assert (Nn : nonneg [a]) by (apply Forall_cons; [exact Ha | constructor]).
  destruct (H start t H2O T [a] _ HT HH eq_refl Nn (grow_coefficients _ _ _ _ HT)) as (dy & Hdy & Ldy & V).
  change (List.length grow_mech) with 1 in Hdy. rewrite Hdy. f_equal.
  destruct dy as [|d0 [|d1 dy]]; [discriminate Ldy | | discriminate Ldy]. assert (V0 := V 0 (s_ "CH3O2") eq_refl).
  assert (I : forall x y : R, Some x = Some y -> x = y) by (intros x y Q; congruence). apply I in V0. rewrite V0. clear V V0.
  assert (C0 : conc_of (p_sp2a (interp grow_mech)) [a] (s_ "CH3O2") = a) by (rewrite conc_of_dget; replace (dget (s_ "CH3O2") (p_sp2a (interp grow_mech))) with (Some 0) by (vm_compute; reflexivity); reflexivity).
  assert (PT : peroxy_total [s_ "CH3O2"] (conc_of (p_sp2a (interp grow_mech)) [a]) = a).
  { unfold peroxy_total. cbn [map rsum]. replace (is_peroxy (s_ "CH3O2")) with true by (vm_compute; reflexivity). rewrite C0. ring. }
  unfold expected. replace (inb (s_ "CH3O2") bath) with false by (vm_compute; reflexivity).
  set (w2 := ([s_ "CH3O2"], [s_ "CH3O2"; s_ "CH3O2"], s_ "1.82D-13*RO2")).
  assert (N0 : net (s_ "CH3O2") (bare w2) = 1%R) by (unfold net, Q2R; cbn; lra).
  assert (M : mass_action (conc_of (p_sp2a (interp grow_mech)) [a]) (lhs (bare w2)) = a).
  { unfold mass_action. replace (first_seen (names (lhs (bare w2)))) with [s_ "CH3O2"] by (vm_compute; reflexivity). cbn [map rprod].
    rewrite (rpow_nat _ _ 1) by (vm_compute; reflexivity). rewrite C0. ring. }
  assert (K : forall v s, kinetics grow_mech (map v (seq 0 (List.length grow_mech))) (conc_of (p_sp2a (interp grow_mech)) [a]) s = (net s (bare w2) * (a * v 0%nat))%R).
  { intros v s. change (kinetics [bare w2] (map v (seq 0 (List.length [bare w2]))) (conc_of (p_sp2a (interp grow_mech)) [a]) s = (net s (bare w2) * (a * v 0%nat))%R).
    unfold kinetics. change (combine [bare w2] (map v (seq 0 (List.length [bare w2])))) with [(bare w2, v 0)].
    cbn [map rsum fst snd]. rewrite M. ring. }
  rewrite K, N0. unfold self_rate. cbv beta. rewrite PT. f_equal. ring.
Qed.

Lemma solves_shorter f T T' u : (0 <= T' <= T)%R -> solves f T u -> solves f T' u.
Proof.
  intros HT [H1 (jumps & H2)]. split.
  - intros t Ht. destruct (H1 t ltac:(lra)) as [L C]. split; [exact L|]. intros i Hi eps He. destruct (C i Hi eps He) as (d & Pd & Hd). exists d. split; [exact Pd|]. intros s Hs. apply Hd. lra.
  - exists jumps. intros t Ht Nt. destruct (H2 t ltac:(lra) Nt) as (d & Ed & D). exists d. split; [exact Ed|]. intros i Hi eps He. destruct (D i Hi eps He) as (de & Pd & Hd). exists de. split; [exact Pd|]. intros s Hs. apply Hd. lra.
Qed.

Lemma grow_solves start H2O temp a T : (0 < temp)%R -> (0 <= H2O)%R -> (0 < a)%R -> (T < 1 / (1.82e-13 * a))%R ->
  solves (fun t => gas_dydt_numba (interp grow_mech) 1 start t H2O temp) T (fun t => [a / (1 - 1.82e-13 * a * t)]%R).
Proof.
  intros HT HH Ha HTs. apply solves_everywhere. intros t Ht. split; [reflexivity|]. set (c := 1.82e-13%R) in *. assert (Pc : (0 < c)%R) by (unfold c; lra).
  assert (Pca : (0 < c * a)%R) by (apply Rmult_lt_0_compat; assumption).
  assert (P1 : (0 < 1 - c * a * t)%R).
  { assert (X : (c * a * t < c * a * (1 / (c * a)))%R) by (apply Rmult_lt_compat_l; lra). replace (c * a * (1 / (c * a)))%R with 1%R in X by (field; lra). lra. }
  exists [c * (a / (1 - c * a * t)) * (a / (1 - c * a * t))]%R.
  split; [apply grow_rhs; try assumption; left; apply Rdiv_lt_0_compat; assumption|].
  assert (D0 : derivable_pt_lim (fun t => a / (1 - c * a * t))%R t (c * (a / (1 - c * a * t)) * (a / (1 - c * a * t)))%R).
  { assert (L : derivable_pt_lim (fun t => 1 - c * a * t)%R t (0 - c * a * 1)%R).
    { apply (derivable_pt_lim_minus (fun _ => 1%R) (fun t => c * a * t)%R); [apply derivable_pt_lim_const | apply (derivable_pt_lim_scal id (c * a)%R), derivable_pt_lim_id]. }
    assert (Q := derivable_pt_lim_div (fun _ => a) (fun t => 1 - c * a * t)%R t 0%R _ (derivable_pt_lim_const a t) L ltac:(lra)).
    replace (c * (a / (1 - c * a * t)) * (a / (1 - c * a * t)))%R with ((0 * (1 - c * a * t) - (0 - c * a * 1) * a) / Rsqr (1 - c * a * t))%R; [exact Q|].
    unfold Rsqr. field. lra. }
  intros i Hi eps He. cbn [List.length] in Hi. destruct i as [|i]; [|lia].
  destruct (deriv_error _ _ _ D0 eps He) as (d & Pd' & Hd). exists d. split; [exact Pd'|]. intros s _ Hs. cbn [nth]. exact (Hd s Hs).
Qed.

Theorem C85_refuted : exists m text e, written m text /\ whole m /\ peroxy_clean (first_seen (reading_order m)) /\ Forall products_safe m /\
  exists st, extract_mechanism text = Ok (Z.of_nat (List.length m), st) /\
  forall start_time H2O temp, (0 < temp)%R -> (0 <= H2O)%R -> tame_rates m e H2O temp /\
    forall a, (0 < a)%R -> exists T0, (0 < T0)%R /\ forall T, (T0 <= T)%R ->
      ~ exists u, u 0%R = [a] /\ solves (fun t => gas_dydt_numba st (List.length m) start_time t H2O temp) T u.
Proof.
  exists grow_mech, (ParseShow.show grow_words), self_expr. split; [apply grow_written|]. split; [apply grow_whole|]. split; [apply grow_clean|]. split; [apply grow_safe|].
  exists (interp grow_mech). split; [apply written_extract, grow_written|]. intros start w temp HT HW. assert (Ht := grow_tame w temp HT HW). split; [exact Ht|].
  intros a Ha. set (c := 1.82e-13%R). assert (Pc : (0 < c)%R) by (unfold c; lra). assert (Pca : (0 < c * a)%R) by (apply Rmult_lt_0_compat; assumption).
  set (T0 := (1 / (c * a))%R). assert (P0 : (0 < T0)%R) by (apply Rdiv_lt_0_compat; lra). exists T0. split; [exact P0|]. intros T HTT (u & U0 & U).
  destruct (C82_regular grow_mech self_expr w temp Ht) as (k & Hr & Hc).
  assert (Lu : List.length (u 0%R) = List.length (species grow_mech)) by (rewrite U0; unfold species; rewrite grow_species; reflexivity).
  assert (Val : forall s, (0 <= s < T0)%R -> u s = [a / (1 - c * a * s)]%R).
  { intros s Hs. assert (V := grow_solves start w temp a s HT HW Ha (proj2 Hs)). fold c in V.
    refine (numba_unique grow_mech _ self_expr grow_written grow_whole grow_clean w temp HT HW k Hr Hc start s u _ (proj1 Hs) Lu (solves_shorter _ T s u ltac:(lra) U) V _ s ltac:(lra)).
    cbv beta. rewrite U0. apply f_equal2; [field; lra | reflexivity]. }
  assert (L1 : List.length (u 0%R) = 1) by (rewrite U0; reflexivity).
  destruct (proj2 (proj1 U T0 ltac:(lra)) 0 ltac:(lia) 1%R ltac:(lra)) as (d & Pd & Hd).
  set (Y := nth 0 (u T0) 0%R) in *. set (G := (Rabs Y + 2)%R). assert (AY := Rabs_pos Y).
  (* at T0 - h the solution is 1/(c h) *)
  set (h := Rmin (Rmin (d / 2) (T0 / 2)) (1 / (c * G))).
  assert (PG0 : (0 < G)%R) by (unfold G; lra). assert (PG : (0 < c * G)%R) by (apply Rmult_lt_0_compat; unfold G; lra).
  assert (Ph : (0 < h)%R) by (unfold h; repeat apply Rmin_pos; try lra; apply Rdiv_lt_0_compat; lra).
  assert (H1 : (h <= d / 2)%R) by (unfold h; eapply Rle_trans; [apply Rmin_l | apply Rmin_l]).
  assert (H2 : (h <= T0 / 2)%R) by (unfold h; eapply Rle_trans; [apply Rmin_l | apply Rmin_r]).
  assert (H3 : (h <= 1 / (c * G))%R) by (unfold h; apply Rmin_r).
  specialize (Hd (T0 - h)%R ltac:(lra)). rewrite (Val (T0 - h)%R ltac:(lra)) in Hd. cbn [nth] in Hd.
  assert (E : (a / (1 - c * a * (T0 - h)) = 1 / (c * h))%R).
  { replace (1 - c * a * (T0 - h))%R with (c * a * h)%R by (unfold T0; field; repeat split; lra). field. repeat split; lra. }
  rewrite E in Hd. assert (X : (Rabs (T0 - h - T0) < d)%R) by (replace (T0 - h - T0)%R with (- h)%R by ring; rewrite Rabs_Ropp, Rabs_pos_eq by lra; lra). specialize (Hd X).
  assert (B : (G <= 1 / (c * h))%R).
  { apply Rmult_le_reg_r with (c * h)%R; [apply Rmult_lt_0_compat; assumption|]. replace (1 / (c * h) * (c * h))%R with 1%R by (field; repeat split; lra).
    apply Rmult_le_compat_l with (r := (c * G)%R) in H3; [|lra]. replace (c * G * (1 / (c * G)))%R with 1%R in H3 by (field; repeat split; lra). lra. }
  assert (Z := Rle_abs (1 / (c * h) - Y)). assert (Z' := Rle_abs Y). unfold G in B. lra.
Qed.

(* A case: the mechanism of C59_hypotheses, where formaldehyde is photolysed, so
   that the right-hand side jumps at sunrise and sunset.  The solution over
   three days exists although no formula for it is known. *)
Definition halves (s : str) : R := if inb s [s_ "CH3O2"; s_ "CH3O"; s_ "NO"; s_ "NO2"; s_ "CO"; s_ "HO2"] then 1%R else if inb s [s_ "HCHO"] then 2%R else 0%R.
Lemma gas_species : first_seen (reading_order gas_mech) = [s_ "CH3O2"; s_ "NO"; s_ "CH3O"; s_ "NO2"; s_ "HCHO"; s_ "CO"; s_ "HO2"].
Proof. vm_compute. reflexivity. Qed.
Lemma gas_whole : whole gas_mech.
Proof. intros r s [<-|[<-|[<-|[]]]]; vm_compute names; intros H; exists 1; repeat (destruct H as [<-|H]; [vm_compute; reflexivity|]); destruct H. Qed.
Ltac values := repeat match goal with |- context [halves ?x] => first [change (halves x) with 1%R | change (halves x) with 2%R | change (halves x) with 0%R] end.
Lemma halves_balance : Forall (fun r => weight halves (rhs r) <= weight halves (lhs r))%R gas_mech.
Proof.
  repeat (apply Forall_cons; [unfold weight; vm_compute lhs; vm_compute rhs; cbn [map rsum fst snd]; values; unfold Q2R; cbn [Qnum Qden]; lra|]). constructor.
Qed.
Example C85_hypotheses : written gas_mech (ParseShow.show gas_words) /\ whole gas_mech /\ peroxy_clean (first_seen (reading_order gas_mech)) /\
  Forall products_safe gas_mech /\ Forall unit_coefficients gas_mech /\ Forall (fun r => NoDup (names (rhs r)) /\ ~ In (last_reactant r) (names (rhs r))) gas_mech /\
  Forall distinct_reactants gas_mech /\ Forall (fun r => weight halves (rhs r) <= weight halves (lhs r))%R gas_mech /\ halves light = 0%R /\
  (forall b, In b bath -> halves b = 0%R) /\ (forall s, (0 <= halves s)%R) /\
  (forall s, In s (first_seen (reading_order gas_mech)) -> ~ In s bath -> (0 < halves s)%R) /\
  (forall H2O T, (0 < T)%R -> (0 <= H2O)%R -> tame_rates gas_mech gas_expr H2O T) /\
  exists st u, extract_mechanism (ParseShow.show gas_words) = Ok (3%Z, st) /\ u 0%R = [1e9; 1e10; 0; 0; 1e11; 0; 0]%R /\
    solves (fun t => gas_dydt_numba st 3 43200 t 1e17 298) (3 * 86400) u.
Proof.
  destruct C59_hypotheses as (W & S & D & U & P & C & _). assert (Hw := gas_whole). assert (Hb := halves_balance).
  assert (B1 : forall b, In b bath -> halves b = 0%R) by (intros x [<-|[<-|[<-|[]]]]; reflexivity).
  assert (B2 : forall s, (0 <= halves s)%R) by (intros s; unfold halves; destruct (inb _ _); [lra|]; destruct (inb _ _); lra).
  assert (B3 : forall s, In s (first_seen (reading_order gas_mech)) -> ~ In s bath -> (0 < halves s)%R).
  { intros s Hin _. rewrite gas_species in Hin. repeat (destruct Hin as [<-|Hin]; [values; lra|]). destruct Hin. }
  assert (T := C82_hypotheses).
  refine (conj W (conj Hw (conj C (conj S (conj U (conj P (conj D (conj Hb (conj eq_refl (conj B1 (conj B2 (conj B3 (conj T _))))))))))))).
  destruct (C85_exists_partial gas_mech _ gas_expr halves W Hw C S Hb eq_refl B1 B2 B3) as (st & E & H). change (Z.of_nat (List.length gas_mech)) with 3%Z in E.
  destruct (H 43200%R 1e17%R 298%R (3 * 86400)%R [1e9; 1e10; 0; 0; 1e11; 0; 0]%R ltac:(lra) ltac:(lra) ltac:(lra) (T 1e17%R 298%R ltac:(lra) ltac:(lra))) as (u & U0 & Us & _).
  - rewrite gas_species. reflexivity.
  - repeat (apply Forall_cons; [lra|]). constructor.
  - exists st, u. split; [exact E|]. split; [exact U0 | exact Us].
Qed.

Print Assumptions C85_exists_partial. Print Assumptions C85_fortran_partial. Print Assumptions C85_rows_partial. Print Assumptions C85_refuted.
