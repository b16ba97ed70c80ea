(* C95: slightly negative concentrations do no harm. *)
From Coq Require Import String List Bool Arith Lia ZArith QArith Reals Qreals Lra Permutation Sorted FunctionalExtensionality.
From Flocq Require Import Core BinarySingleNaN.
From Verif Require Import Base PyStr PyDict SpecRateText RateNames RateParse ModelSource ModelWrite SpecSource SourceRead SourceRun PropsSource PropsSourceRun SourceWidth PropsWidth
  ModelRateText ModelRateWrite ModelRateRead RateFileN RateFileF RateFileUse ModelGasFiles PropsRateText.
From Verif Require Import SpecRate ModelParse SpecMech ParseStruct ParseTables ParseWritten ParseShow PropsParse
  ModelLang ModelGen ModelRhs SpecKin LangFacts GenReact GenLossGain GenParsed GenSparse PropsKin PropsRhs
  ModelOmp ModelExpr ModelRate ModelRateFile RateExpr PropsRate ModelRateBody ModelRateRun RateSym
  SpecRateValue SpecMcmEnv PropsRateValue ModelRo2 SpecRo2 PropsRo2 ModelGas SpecGas PropsGas PropsGasJac
  ModelSolver SpecSolver SolverFacts OdeFacts PropsSolver ModelSplit PropsSplit SpecMethod PropsMethod SpecTraj OdeSign PropsTraj
  OdeNear GasFortran OdeClose OdeStay GasFlow SpecSun SpecTroe SpecTame TameFacts PropsTame PropsUnique OdePicard OdeExist SunPieces TameFlow PropsExist
  PropsAeroExist SpecError PropsError SpecChem PropsChem.
Import ListNotations.
Import Coq.Lists.List.
Open Scope nat_scope.
Open Scope list_scope.
Local Arguments eqb : simpl never.

Notation low eps y := (Forall (fun c => - eps <= c)%R y).

(* Rows each within delta of an exact solution from the row before, as long as
   that row is not below -eps. *)
Inductive signed_rows (eps delta : R) (f : R -> list R -> option (list R)) (start b : R) : list R -> list (list R) -> Prop :=
| signed_none y : signed_rows eps delta f start b y []
| signed_more u y1 rows : close delta (u b) y1 -> solves (fun t => f (start + t)%R) b u -> (low eps y1 -> signed_rows eps delta f start b y1 rows) ->
    signed_rows eps delta f start b (u 0%R) (y1 :: rows).

Section Rows.
Context (n : nat) (f : R -> list R -> option (list R)) (start b : R) (Pb : (0 <= b)%R) (eps : R) (Pe : (0 < eps)%R).
Context (Hbd : forall A, (0 <= A)%R -> exists A', (0 <= A')%R /\ forall u, solves (fun t => f (start + t)%R) b u -> start_in n A (u 0%R) -> start_in n A' (u b)).
Context (Hnr : forall A, (0 <= A)%R -> exists C D, (0 <= C)%R /\ (0 < D)%R /\ forall u v delta, start_in n A (u 0%R) -> List.length (v 0%R) = n -> (delta <= D)%R ->
  solves (fun t => f (start + t)%R) b u -> solves (fun t => f (start + t)%R) b v ->
  (forall i, i < n -> (Rabs (nth i (u 0%R) 0 - nth i (v 0%R) 0) <= delta)%R) -> forall i, i < n -> (Rabs (nth i (u b) 0 - nth i (v b) 0) <= C * delta)%R).

Lemma below_quotient a k delta : (0 <= k)%R -> (0 <= delta <= a / (k + 1))%R -> (k * delta <= a)%R.
Proof.
  intros Pk Hd. apply Rle_trans with ((k + 1) * delta)%R; [lra|]. apply Rle_trans with ((k + 1) * (a / (k + 1)))%R; [apply Rmult_le_compat_l; lra|].
  apply Req_le. field. lra.
Qed.

Lemma errors_add_up_signed k : forall A K, (0 <= A)%R -> (0 <= K)%R -> exists C D, (0 <= C)%R /\ (0 < D)%R /\ forall delta y z rows rows', (0 <= delta <= D)%R ->
  start_in n A y -> List.length z = n -> close (K * delta) y z -> exact_rows f start b y rows -> signed_rows eps delta f start b z rows' ->
  List.length rows <= k -> List.length rows' = List.length rows -> forall j, j < List.length rows -> close (C * delta) (nth j rows []) (nth j rows' []).
Proof.
  induction k as [|k IH]; intros A K PA PK; [exists 0%R, 1%R; split; [lra|]; split; [lra|]; intros; lia|].
  destruct (Hbd A PA) as (A' & PA' & HB). destruct (Hnr A PA) as (C1 & D1 & PC1 & PD1 & HC).
  assert (PCK : (0 <= C1 * K)%R) by (apply Rmult_le_pos; assumption).
  assert (PK' : (0 <= C1 * K + 1)%R) by lra.
  destruct (IH A' (C1 * K + 1)%R PA' PK') as (C2 & D2 & PC2 & PD2 & H2).
  exists (Rmax (C1 * K + 1) C2), (Rmin D2 (Rmin (D1 / (K + 1)) (eps / (C1 * K + 1 + 1)))). split; [eapply Rle_trans; [exact PK' | apply Rmax_l]|].
  split; [apply Rmin_pos; [exact PD2|]; apply Rmin_pos; apply Rdiv_lt_0_compat; lra|].
  intros delta y z rows rows' Hd Sy Lz0 Cyz X X' Lk Ll j Hj.
  assert (M1 := Rmin_l D2 (Rmin (D1 / (K + 1)) (eps / (C1 * K + 1 + 1)))). assert (M2 := Rmin_r D2 (Rmin (D1 / (K + 1)) (eps / (C1 * K + 1 + 1)))).
  assert (M3 := Rmin_l (D1 / (K + 1)) (eps / (C1 * K + 1 + 1))). assert (M4 := Rmin_r (D1 / (K + 1)) (eps / (C1 * K + 1 + 1))).
  assert (Q1 : (K * delta <= D1)%R) by (apply below_quotient; [exact PK | lra]).
  assert (Q2 : ((C1 * K + 1) * delta <= eps)%R) by (apply below_quotient; [exact PK' | lra]).
  destruct X as [y|u y1 rows U1 U X]; [cbn in Hj; lia|]. inversion X' as [z' E0 E1|v z1 rws C0 V X1 E0 E1]; subst; [discriminate|].
  destruct (HB u U Sy) as [Lu Fu]. assert (Lv : List.length (v b) = List.length (v 0%R)) by (apply (proj1 V); lra). destruct C0 as [Lz Cz].
  assert (C11 : forall i, i < List.length (v 0%R) -> (Rabs (nth i (u b) 0 - nth i (v b) 0) <= C1 * (K * delta))%R).
  { apply (HC u v (K * delta)%R Sy eq_refl Q1 U V). intros i Hi. apply Cyz. destruct Sy as [-> _]. exact Hi. }
  assert (Cb : close ((C1 * K + 1) * delta) (u b) z1).
  { split; [congruence|]. intros i Hi. rewrite Lu in Hi. assert (R1 := C11 i Hi). assert (Hv : i < List.length (v b)) by (rewrite Lv; exact Hi). assert (R2 := Cz i Hv). replace ((C1 * K + 1) * delta)%R with (C1 * (K * delta) + delta)%R by ring.
    replace (nth i (u b) 0 - nth i z1 0)%R with ((nth i (u b) 0 - nth i (v b) 0) + (nth i (v b) 0 - nth i z1 0))%R by ring. eapply Rle_trans; [apply Rabs_triang|]. lra. }
  assert (Lz1 : List.length z1 = List.length (v 0%R)) by congruence.
  assert (Low : low eps z1).
  { apply Forall_forall. intros c Hin. apply In_nth with (d := 0%R) in Hin as (i & Hi & <-). rewrite Lz1 in Hi.
    assert (R1 := proj2 Cb i ltac:(rewrite Lu; exact Hi)). rewrite Forall_forall in Fu. assert (R2 := Fu (nth i (u b) 0%R) (nth_In _ _ ltac:(rewrite Lu; exact Hi))). cbv beta in R2.
    apply Rabs_le_inv in R1. lra. }
  destruct j as [|j]; cbn [nth].
  - destruct Cb as [Lb Cb]. split; [exact Lb|]. intros i Hi. eapply Rle_trans; [apply Cb, Hi|]. apply Rmult_le_compat_r; [lra | apply Rmax_l].
  - cbn [List.length] in Lk, Ll, Hj.
    destruct (H2 delta (u b) z1 rows rws ltac:(lra) (conj Lu Fu) Lz1 Cb X (X1 Low) ltac:(lia) ltac:(lia) j ltac:(lia)) as [L3 C3].
    split; [exact L3|]. intros i Hi. eapply Rle_trans; [apply C3, Hi|]. apply Rmult_le_compat_r; [lra | apply Rmax_r].
Qed.
End Rows.

Lemma loop_signed eps delta f (simulate : solver (list R)) rhs_at jac_at start sim b zr : (0 < B2R b)%R -> off_by_signed eps delta f rhs_at simulate ->
  forall rows total y out ts ys, (out = None /\ total = fzero \/ exists o, out = Some o /\ Bltb fzero total = true /\ Beqb total fzero = false) ->
  loop simulate rhs_at jac_at start sim b zr rows total y out = Ok (ts, ys) ->
  (low eps (match out with Some o => o | None => y end) ->
   signed_rows eps delta f (B2R start) (B2R b) (match out with Some o => o | None => y end) (firstn (List.length ts) ys)) /\ List.length ts <= List.length ys.
Proof.
  intros Pb HE. induction rows as [|rows IH]; intros total y out ts ys Ho H; cbn [loop] in H; destruct (Bltb total sim).
  - apply bind_Ok in H as (y0 & _ & H). apply bind_Ok in H as (y1 & _ & H). discriminate.
  - injection H as <- <-. split; [intros _; apply signed_none | cbn; lia].
  - apply bind_Ok in H as (y0 & H0 & H). apply bind_Ok in H as (y1 & H1 & H). apply bind_Ok in H as (rr & H2 & H). injection H as <- <-.
    cbn [List.length firstn].
    assert (E0 : y0 = match out with Some o => o | None => y end).
    { destruct Ho as [[-> ->]|(o & -> & _ & Z)]; [injection H0 as <-; reflexivity|]. rewrite Z in H0. injection H0 as <-. reflexivity. }
    rewrite <- E0. destruct rr as [ts' ys']. destruct (IH (fadd total b) y0 (Some y1) ts' ys') as [X L]; [|exact H2|].
    + right. exists y1. split; [reflexivity|]. apply and_comm, fadd_positive; [exact Pb|]. destruct Ho as [[_ ->]|(o & _ & Z & _)]; [right; reflexivity | left; exact Z].
    + split; [|cbn [fst snd]; lia]. intros Lw. destruct (HE start _ y0 b y1 Lw (Rlt_le _ _ Pb) H1) as (u & U0 & U & C). rewrite <- U0. apply signed_more; assumption.
  - injection H as <- <-. split; [intros _; apply signed_none | cbn; lia].
Qed.

(* Rows near the equations of the model are near its exact rows. *)
Lemma gas_signed m text e w (start : b64) wa temp (b : b64) N A eps : written m text -> whole m -> peroxy_clean (first_seen (reading_order m)) -> Forall products_safe m ->
  Forall (fun r => weight w (rhs r) <= weight w (lhs r))%R m -> w light = 0%R -> (forall b, In b bath -> w b = 0%R) -> (forall s, (0 <= w s)%R) ->
  (forall s, In s (first_seen (reading_order m)) -> ~ In s bath -> (0 < w s)%R) ->
  (0 < temp)%R -> (0 <= wa)%R -> (0 < B2R b)%R -> (0 <= A)%R -> (0 < eps)%R -> tame_rates m e wa temp ->
  let equations := fun clock => gas_dydt_numba (interp m) (List.length m) clock 0 wa temp in
  exists C D, (0 <= C)%R /\ (0 < D)%R /\ forall delta y0 rows', (0 <= delta <= D)%R -> start_in (List.length (species m)) A y0 ->
    signed_rows eps delta equations (B2R start) (B2R b) y0 rows' -> List.length rows' <= N ->
    exists rows, List.length rows = List.length rows' /\ exact_rows equations (B2R start) (B2R b) y0 rows /\ Forall nonneg rows /\
      forall j, j < List.length rows' -> close (C * delta) (nth j rows []) (nth j rows' []).
Proof.
  intros W Hw PC Hs Hwt Hl Hb Pw Pp HT HW PB PA Pe Ht equations. assert (Hst := written_extract _ _ W). destruct (C82_regular m e wa temp Ht) as (k & Hr & Hc).
  assert (Same : forall t y, equations (B2R start + t)%R y = gas_dydt_numba (interp m) (List.length m) (B2R start) t wa temp y) by (intros t y; unfold equations, gas_dydt_numba; rewrite Rplus_0_r; reflexivity).
  assert (Code : forall u, solves (fun t => equations (B2R start + t)%R) (B2R b) u -> solves (fun t => gas_dydt_numba (interp m) (List.length m) (B2R start) t wa temp) (B2R b) u).
  { intros u U. eapply solves_ext; [|exact U]. intros t _. cbv beta. apply Same. }
  set (n := List.length (species m)).
  assert (Box : forall A1 u t, (0 <= A1)%R -> solves (fun t => equations (B2R start + t)%R) (B2R b) u -> start_in n A1 (u 0%R) -> (0 <= t <= B2R b)%R ->
    nonneg (u t) /\ forall i, i < n -> (nth i (u t) 0 <= ceiling w m A1)%R).
  { intros A1 u t PA1 U [Lu Fu] Htt.
    exact (gas_bounded m text e W Hw PC wa temp HT HW k Hr Hc w A1 (B2R start) (B2R b) u Hs Hwt Hl Hb Pw Pp ltac:(lra) Lu (Code u U) (range_nonneg _ _ Fu) ltac:(eapply Forall_impl; [|exact Fu]; intros a Ha; cbv beta in *; lra) PA1 t Htt). }
  destruct (errors_add_up_signed n equations (B2R start) (B2R b) ltac:(lra) eps Pe) with (k := N) (A := A) (K := 0%R) as (C & D & PCC & PD & H); try lra.
  - intros A1 PA1. exists (ceiling w m A1). split; [assert (Z := ceiling_start w m A1 Pw PA1); lra|]. intros u U Su.
    destruct (Box A1 u (B2R b) PA1 U Su ltac:(lra)) as [Nu Bu]. destruct Su as [Lu Fu].
    assert (L1 : List.length (u (B2R b)) = n) by (rewrite (proj1 (proj1 U (B2R b) ltac:(lra))); exact Lu). split; [exact L1|]. apply Forall_forall. intros c Hin. split; [unfold nonneg in Nu; rewrite Forall_forall in Nu; apply Nu, Hin|].
    apply In_nth with (d := 0%R) in Hin as (i & Hi & <-). apply Bu. rewrite L1 in Hi. exact Hi.
  - intros A1 PA1. destruct (solution_near n _ (B2R b) ltac:(lra) (gas_lipschitz m Hw k Hr (B2R start) (B2R b)) (ceiling w m A1)) as (C1 & D1 & PC1 & PD1 & H1).
    assert (Pn := pos_INR n).
    assert (PCn : (0 <= C1 * INR n)%R) by (apply Rmult_le_pos; assumption).
    exists (C1 * INR n)%R, (D1 / (INR n + 1))%R. split; [exact PCn|]. split; [apply Rdiv_lt_0_compat; lra|].
    intros u v delta Su Lv Hd U V Hu i Hi.
    assert (Pd : (0 <= delta)%R) by (eapply Rle_trans; [apply Rabs_pos | apply (Hu i Hi)]).
    assert (Q := dist1_close n (u 0%R) (v 0%R) delta Hu).
    assert (Q1 : (INR n * delta <= D1)%R) by (apply below_quotient; [exact Pn | lra]).
    assert (G := H1 _ _ u v (numba_follows m text e W Hw PC wa temp HT HW k Hc (B2R start) (B2R b) u (proj1 Su) (Code u U)) (numba_follows m text e W Hw PC wa temp HT HW k Hc (B2R start) (B2R b) v Lv (Code v V))).
    assert (Bu : forall t, (0 <= t <= B2R b)%R -> bounded_by n (ceiling w m A1) (u t)).
    { intros t Htt. destruct (Box A1 u t PA1 U Su Htt) as [Nu Bu]. split; [rewrite (proj1 (proj1 U t Htt)); apply Su|]. intros j Hj.
      assert (Lt : j < List.length (u t)) by (rewrite (proj1 (proj1 U t Htt)), (proj1 Su); exact Hj).
      rewrite Rabs_pos_eq; [apply Bu, Hj|]. unfold nonneg in Nu. rewrite Forall_forall in Nu. apply Nu, nth_In, Lt. }
    specialize (G Bu ltac:(lra) (B2R b) ltac:(lra)).
    eapply Rle_trans; [apply (dist1_part n (u (B2R b)) (v (B2R b)) i Hi)|]. eapply Rle_trans; [exact G|]. rewrite Rmult_assoc. apply Rmult_le_compat_l; [exact PC1 | exact Q].
  - exists C, D. split; [exact PCC|]. split; [exact PD|]. intros delta y0 rows' Hd [L0 F0] X LN. fold n in L0.
    destruct (rows_there n equations (B2R start) (B2R b) ltac:(lra)) with (k := List.length rows') (y := y0) as (rows & Lr & X'); [|exact L0|exact (range_nonneg _ _ F0)|].
    { intros y Ly Ny. destruct (gas_exists m text e w W Hw PC Hs Hwt Hl Hb Pw Pp wa temp HT HW Ht (B2R start) (B2R b) y ltac:(lra) Ly Ny) as (u & U0 & U & NN).
      exists u. split; [exact U0|]. split; [|apply NN; lra]. eapply solves_ext; [|exact U]. intros t _. cbv beta. symmetry. apply Same. }
    exists rows. split; [exact Lr|]. split; [exact X'|]. split.
    + assert (N0 := range_nonneg _ _ F0). clear - X' L0 N0 PB Code W Hst Hw PC HT HW Hr Hc Hs. revert L0 N0. induction X' as [y|u y1 rows U1 U X' IH]; intros L0 N0; [constructor|]. subst y1.
      assert (Nu : nonneg (u (B2R b))).
      { exact (gas_nonneg m text (interp m) W Hst k (B2R start) (B2R b) e wa temp u Hw PC HT HW (Rlt_le _ _ PB) (Hr _ _) (fun t x _ => Hc t x) L0 (Code u U) N0 (B2R b) (conj (Rlt_le _ _ PB) (Rle_refl _))). }
      constructor; [exact Nu|]. apply IH; [rewrite (proj1 (proj1 U (B2R b) ltac:(lra))); exact L0 | exact Nu].
    + intros j Hj. apply (H delta y0 y0 rows _ Hd (conj L0 F0) L0); try assumption; try lia.
      split; [reflexivity|]. intros i _. unfold Rminus. rewrite Rplus_opp_r, Rabs_R0. lra.
Qed.

Lemma start_length m conc y0 : initial_state (List.length (p_sp (interp m))) (p_sp2a (interp m)) conc = Ok y0 -> List.length y0 = List.length (species m).
Proof.
  intros I0. unfold initial_state in I0. rewrite (set_initial_length _ _ _ _ I0), repeat_length. destruct (interp_species m) as (-> & _). rewrite combine_length, seq_length. lia.
Qed.
Lemma run_signed eps delta f (simulate : solver (list R)) rhs_at jac start sp sp2a conc sim b ts ys y0 : (0 < B2R b)%R -> (0 < eps)%R -> off_by_signed eps delta f rhs_at simulate ->
  initial_state (List.length sp) sp2a conc = Ok y0 -> nonneg y0 -> run_simulation simulate rhs_at jac start sp sp2a conc sim b = Ok (ts, ys) ->
  signed_rows eps delta f (B2R start) (B2R b) y0 (firstn (List.length ts) ys) /\ List.length ts <= List.length ys.
Proof.
  intros PB Pe HE I0 N0 HR. unfold run_simulation in HR. rewrite I0 in HR. cbn [bind] in HR. unfold run_batches in HR. apply bind_Ok in HR as (q & _ & HR). apply bind_Ok in HR as (z & _ & HR). destruct (z <? 0)%Z; [discriminate|].
  destruct (loop_signed eps delta f simulate rhs_at jac start sim b _ PB HE _ fzero y0 None ts ys (or_introl (conj eq_refl eq_refl)) HR) as [X L]. split; [|exact L].
  apply X. eapply Forall_impl; [|exact N0]. intros a Ha. cbv beta in *. lra.
Qed.

(* C95.  The integrator may return slightly negative concentrations and go on
   from them.  If it is off by at most delta, and delta is below some D > 0, the
   rows are still within C delta of the exact ones, which are not negative. *)
Theorem C95_gas_partial : forall m text e w, written m text -> whole m -> peroxy_clean (first_seen (reading_order m)) -> Forall products_safe m ->
  Forall (fun r => weight w (rhs r) <= weight w (lhs r))%R m -> w light = 0%R -> (forall b, In b bath -> w b = 0%R) -> (forall s, (0 <= w s)%R) ->
  (forall s, In s (first_seen (reading_order m)) -> ~ In s bath -> (0 < w s)%R) ->
  exists st, extract_mechanism text = Ok (Z.of_nat (List.length m), st) /\
  forall start H2O temp b N A eps, (0 < temp)%R -> (0 <= H2O)%R -> (0 < B2R b)%R -> (0 <= A)%R -> (0 < eps)%R -> tame_rates m e H2O temp ->
    let equations := fun clock => gas_dydt_numba st (List.length m) clock 0 H2O temp in
    let rhs_at := gas_rhs_at st (List.length m) H2O temp in
    exists C D, (0 <= C)%R /\ (0 < D)%R /\ forall delta simulate jac conc sim ts ys y0, (0 <= delta <= D)%R ->
      off_by_signed eps delta equations rhs_at simulate ->
      initial_state (List.length (p_sp st)) (p_sp2a st) conc = Ok y0 -> Forall (fun c => 0 <= c <= A)%R y0 ->
      run_simulation simulate rhs_at jac start (p_sp st) (p_sp2a st) conc sim b = Ok (ts, ys) -> List.length ts <= N ->
      exists rows, List.length rows = List.length ts /\ exact_rows equations (B2R start) (B2R b) y0 rows /\ Forall nonneg rows /\
        forall j, j < List.length ts -> close (C * delta) (nth j rows []) (nth j ys []).
Proof.
  intros m text e w W Hw PC Hs Hwt Hl Hb Pw Pp. assert (Hst := written_extract _ _ W).
  exists (interp m). split; [exact Hst|]. intros start wa temp b N A eps HT HW PB PA Pe Ht equations rhs_at.
  destruct (gas_signed m text e w start wa temp b N A eps W Hw PC Hs Hwt Hl Hb Pw Pp HT HW PB PA Pe Ht) as (C & D & PCC & PD & H).
  exists C, D. split; [exact PCC|]. split; [exact PD|]. intros delta simulate jac conc sim ts ys y0 Hd HE I0 F0 HR LN.
  destruct (run_signed eps delta equations simulate rhs_at jac start _ _ conc sim b ts ys y0 PB Pe HE I0 (range_nonneg _ _ F0) HR) as [X L].
  assert (Lf : List.length (firstn (List.length ts) ys) = List.length ts) by (rewrite firstn_length; lia).
  destruct (H delta y0 _ Hd (conj (start_length m conc y0 I0) F0) X ltac:(lia)) as (rows & Lr & X' & Nr & Cl). rewrite Lf in Lr, Cl.
  exists rows. split; [exact Lr|]. split; [exact X'|]. split; [exact Nr|]. intros j Hj. rewrite <- (firstn_row (List.length ts) ys j Hj). apply Cl, Hj.
Qed.

(* The same from the text of the mechanism and the three files to the chemistry. *)
Theorem C95_partial : forall m text e w num date, written m text -> one_line date -> whole m -> Forall distinct_reactants m ->
  peroxy_clean (first_seen (reading_order m)) -> Forall products_safe m -> Forall (fun r => mcm_text (rtext r)) m ->
  Forall (fun r => weight w (rhs r) <= weight w (lhs r))%R m -> w light = 0%R -> (forall b, In b bath -> w b = 0%R) -> (forall s, (0 <= w s)%R) ->
  (forall s, In s (first_seen (reading_order m)) -> ~ In s bath -> (0 < w s)%R) ->
  let sp := first_seen (reading_order m) in
  exists st p1 t1, extract_mechanism text = Ok (Z.of_nat (List.length m), st) /\
    gen_reactants_numba (List.length m) (p_sp2a st) (p_reac st) (p_loss st) = Ok p1 /\
    write_reactants_numba num date (List.length m) (p_sp2a st) (p_reac st) (p_loss st) = Ok t1 /\
    (prints num p1 -> prints num (snd (gen_loss_gain_numba (p_sp2a st) (p_loss st) (p_gain st))) ->
  exists rs s1 s2, read_rates_python (rate_file_numba date st) = Some rs /\ read_python one_subscript t1 = Some s1 /\
    read_python one_subscript (write_loss_gain_numba num date (p_sp2a st) (p_loss st) (p_gain st)) = Some s2 /\
  forall start H2O temp b N A eps, (0 < temp)%R -> (0 <= H2O)%R -> (0 < B2R b)%R -> (0 <= A)%R -> (0 < eps)%R -> tame_rates m e H2O temp ->
    let RO2_indices := write_RO2_indices (p_sp2a st) in
    let equations := fun clock y => gas_dydt_files rs s1 s2 (List.length m) (RO2_sum RO2_indices y) clock 0 H2O temp y in
    let rhs_at := files_rhs_at rs s1 s2 (List.length m) RO2_indices H2O temp in
    (* the function handed to the integrator is this function of the clock and the state *)
    (forall clock y, rhs_at clock y = match equations (B2R clock) y with Some d => Ok d | None => Err ValueError end) /\
    exists C D, (0 <= C)%R /\ (0 < D)%R /\ forall delta simulate jac conc sim ts ys, (0 <= delta <= D)%R ->
      off_by_signed eps delta equations rhs_at simulate -> NoDup (dkeys conc) -> Forall (fun p => 0 <= snd p <= A)%R conc ->
      run_simulation simulate rhs_at jac start (p_sp st) (p_sp2a st) conc sim b = Ok (ts, ys) -> List.length ts <= N ->
      exists y0 rows, List.length y0 = List.length sp /\
        (forall s, In s sp -> concentration sp y0 s = match dget s conc with Some c => c * 25500000000 | None => 0 end)%R /\
        List.length rows = List.length ts /\ chained (one_batch m e H2O temp (B2R start) (B2R b)) y0 rows /\
        (forall rows', List.length rows' = List.length ts -> chained (one_batch m e H2O temp (B2R start) (B2R b)) y0 rows' -> rows' = rows) /\
        (forall j s, j < List.length ts -> In s sp -> (Rabs (concentration sp (nth j ys []) s - concentration sp (nth j rows []) s) <= C * delta)%R) /\
        ((forall k r, nth_error m k = Some r -> sunless (e k)) ->
         exists u, obeys m e H2O temp (B2R start) (INR (List.length ts) * B2R b) u /\ u 0%R = y0 /\
           forall j, j < List.length ts -> u (INR (S j) * B2R b)%R = nth j rows [])).
Proof.
  intros m text e w num date W Hd Hw Hr PC Hs HM Hwt Hl Hb Pw Pp sp.
  destruct (C83_rhs_partial m text num date W Hd Hs Hr PC HM) as (st & p1 & t1 & E & G & Wt & _). assert (X := written_extract _ _ W). rewrite E in X. injection X as ->.
  exists (interp m), p1, t1. split; [exact E|]. split; [exact G|]. split; [exact Wt|]. intros P1 P2.
  destruct (files_same m text num date W Hd HM p1 t1 G Wt P1 P2) as (rs & s1 & s2 & R & R1 & R2 & Same). exists rs, s1, s2. split; [exact R|]. split; [exact R1|]. split; [exact R2|].
  intros start H2O temp b N A eps HT HH Pb PA Pe Ht RO2_indices equations rhs_at. split; [intros clock y; reflexivity|].
  assert (Eq : equations = fun clock => gas_dydt_numba (interp m) (List.length m) clock 0 H2O temp).
  { apply functional_extensionality. intros clock. apply functional_extensionality. intros y. apply Same. }
  assert (Er : rhs_at = gas_rhs_at (interp m) (List.length m) H2O temp).
  { apply functional_extensionality. intros clock. apply functional_extensionality. intros y. unfold rhs_at, files_rhs_at, gas_rhs_at. rewrite Same. reflexivity. }
  rewrite Eq, Er. clear Eq Er equations rhs_at.
  destruct (C95_gas_partial m text e w W Hw PC Hs Hwt Hl Hb Pw Pp) as (st' & E' & H). rewrite E in E'. injection E' as <-.
  destruct (H start H2O temp b N (A * 25500000000)%R eps HT HH Pb ltac:(lra) Pe Ht) as (C & D & PCC & PD & HC). exists C, D. split; [exact PCC|]. split; [exact PD|].
  intros delta simulate jac conc sim ts ys Hdel Ho Nd Fc Hrun HN.
  apply (rows_chemistry m text e w start H2O temp b A (C * delta)%R W Hw Hr PC Hs Hwt Hl Hb Pw Pp HT HH Pb PA Ht simulate _ jac conc sim ts ys Nd Fc Hrun).
  intros y0 Y0 F0. destruct (HC delta simulate jac conc sim ts ys y0 Hdel Ho Y0 F0 Hrun HN) as (rows & Q1 & Q2 & _ & Q3). exists rows. split; [exact Q1|]. split; [exact Q2 | exact Q3].
Qed.

(* The mechanism CH3O2 -> CH3O, and an integrator whose CH3O is too low by delta
   in every batch: without CH3O2 it returns -delta and then -2 delta. *)
Definition sinking_solver (delta : R) : solver (list R) := fun pb tf =>
  match pb_y0 pb with
  | [a; b] => if Rle_dec 0 a then Ok [nth 0 (self_solution a b (B2R tf)) 0; nth 1 (self_solution a b (B2R tf)) 0 - delta]%R else Err ValueError
  | _ => Err ValueError
  end.

Lemma self_second st start t H2O temp a b : extract_mechanism (ParseShow.show self_words) = Ok (1%Z, st) -> (0 < temp)%R -> (0 <= H2O)%R ->
  gas_dydt_numba st 1 start t H2O temp [a; b] = gas_dydt_numba st 1 start t H2O temp [a; 0]%R.
Proof.
  intros Hst HT HH. destruct C71_hypotheses as (W & Hw & PC & Hs & _).
  assert (X := written_extract _ _ W). change (Z.of_nat (List.length self_mech)) with 1%Z in X. rewrite Hst in X. injection X as ->. clear Hst.
  assert (Hst := written_extract _ _ W).
  assert (Cr : forall c, conc_of (p_sp2a (interp self_mech)) [a; c] (s_ "CH3O2") = a) by (intros c; rewrite conc_of_dget; replace (dget (s_ "CH3O2") (p_sp2a (interp self_mech))) with (Some 0) by (vm_compute; reflexivity); reflexivity).
  assert (PT : forall c, peroxy_total (first_seen (reading_order self_mech)) (conc_of (p_sp2a (interp self_mech)) [a; c]) = a).
  { intros c. rewrite self_species. unfold peroxy_total. cbn [map rsum]. replace (is_peroxy (s_ "CH3O2")) with true by (vm_compute; reflexivity). replace (is_peroxy (s_ "CH3O")) with false by (vm_compute; reflexivity). rewrite Cr. ring. }
  assert (V : forall c, gas_dydt_numba (interp self_mech) 1 start t H2O temp [a; c] = Some (generated self_mech (map (fun r => self_rate r (start + t) a) (seq 0 1)) [a; c])).
  { intros c. apply (generated_defined self_mech _ (interp self_mech) self_expr start t H2O temp [a; c] (fun r => self_rate r (start + t) a) W Hw Hs PC Hst HT HH eq_refl). rewrite PT. apply self_coefficients, HT. }
  rewrite !V. apply f_equal. set (k := map _ _). clearbody k. clear V. unfold generated. apply map_ext. intros s. destruct (inb s bath); [reflexivity|].
  apply f_equal2; [|reflexivity]. apply f_equal2; [|reflexivity].
  unfold products. apply map_ext_in. intros r [<-|[]]. vm_compute lhs. cbn. reflexivity.
Qed.
Lemma ok_inj {X} (a b : X) : Ok a = Ok b -> a = b.
Proof. intros H. injection H as H. exact H. Qed.
Lemma self_shift a b t : self_solution a b t = [nth 0 (self_solution a 0 t) 0; b + nth 1 (self_solution a 0 t) 0]%R.
Proof. unfold self_solution. cbn [nth]. f_equal. f_equal. ring. Qed.
Lemma self_solves_any st start H2O temp a b T : extract_mechanism (ParseShow.show self_words) = Ok (1%Z, st) ->
  (0 < temp)%R -> (0 <= H2O)%R -> (0 <= a)%R ->
  solves (fun t => gas_dydt_numba st 1 start t H2O temp) T (self_solution a b).
Proof.
  intros Hst HT HH Pa. apply solves_everywhere. intros t Ht. destruct (self_everywhere st start H2O temp a 0 T Hst HT HH Pa (Rle_refl _) t Ht) as (_ & d & Ed & S).
  split; [reflexivity|]. exists d. split.
  - rewrite self_shift, self_second by assumption. rewrite (self_shift a 0 t), self_second in Ed by assumption. exact Ed.
  - intros [|[|i]] Hi eps He; [| |cbn in Hi; lia].
    + destruct (S 0 ltac:(cbn; lia) eps He) as (h & Ph & H). exists h. split; [exact Ph|]. exact H.
    + destruct (S 1 ltac:(cbn; lia) eps He) as (h & Ph & H). exists h. split; [exact Ph|]. intros s Hs1 Hs2. specialize (H s Hs1 Hs2). rewrite !(self_shift a b). cbn [nth] in *.
      match goal with |- (Rabs ?x <= _)%R => match type of H with (Rabs ?y <= _)%R => replace x with y by ring end end. exact H.
Qed.
Lemma sinking_off st H2O temp eps delta : extract_mechanism (ParseShow.show self_words) = Ok (1%Z, st) -> (0 < temp)%R -> (0 <= H2O)%R -> (0 <= delta)%R ->
  off_by_signed eps delta (fun clock => gas_dydt_numba st 1 clock 0 H2O temp) (gas_rhs_at st 1 H2O temp) (sinking_solver delta).
Proof.
  intros Hst HT HH Pd start jac y0 tf y1 N0 Pt H. unfold sinking_solver in H. cbn [pb_y0] in H. destruct y0 as [|a [|b [|]]]; try discriminate.
  destruct (Rle_dec 0 a) as [Pa|]; [|discriminate]. apply ok_inj in H. rewrite <- H. clear H.
  exists (self_solution a b). split; [unfold self_solution; f_equal; [field | f_equal; field]|]. split.
  - eapply solves_ext; [|exact (self_solves_any _ (B2R start) H2O temp a b (B2R tf) Hst HT HH Pa)]. intros t Ht. cbv beta. unfold gas_dydt_numba. rewrite Rplus_0_r. reflexivity.
  - split; [reflexivity|]. intros [|[|i]] Hi; [| |cbn in Hi; lia]; cbn [nth].
    + unfold Rminus. rewrite Rplus_opp_r, Rabs_R0. exact Pd.
    + match goal with |- (Rabs (?x - (?x - ?d)) <= _)%R => replace (x - (x - d))%R with d by ring end. rewrite Rabs_pos_eq; lra.
Qed.

(* For every delta, so also for those below the D of the theorem. *)
Example C95_hypotheses : forall eps delta, (0 < eps)%R -> (0 <= delta)%R -> exists st ts r1 r2,
  written self_mech (ParseShow.show self_words) /\ whole self_mech /\ peroxy_clean (first_seen (reading_order self_mech)) /\ Forall products_safe self_mech /\
  Forall (fun r => weight methyls (rhs r) <= weight methyls (lhs r))%R self_mech /\
  (forall s, In s (first_seen (reading_order self_mech)) -> ~ In s bath -> (0 < methyls s)%R) /\
  extract_mechanism (ParseShow.show self_words) = Ok (1%Z, st) /\ (0 < B2R f3600)%R /\ tame_rates self_mech self_expr 1e17 298 /\
  off_by_signed eps delta (fun clock => gas_dydt_numba st 1 clock 0 1e17 298) (gas_rhs_at st 1 1e17 298) (sinking_solver delta) /\
  run_simulation (sinking_solver delta) (gas_rhs_at st 1 1e17 298) (fun _ _ => Err ValueError) f43200 (p_sp st) (p_sp2a st) [(s_ "CH3O2", 0%R)] f7200 f3600 = Ok (ts, [r1; r2]) /\ List.length ts = 2 /\
  nth 1 r1 0%R = (- delta)%R /\ nth 1 r2 0%R = (- 2 * delta)%R.
Proof.
  intros eps delta He Pd. destruct C92_hypotheses as (st & _ & _ & _ & W & Hw & PC & Hs & Hwt & _ & _ & _ & Pp & E & PB & Htame & _).
  assert (X := written_extract _ _ W). change (Z.of_nat (List.length self_mech)) with 1%Z in X. rewrite E in X. injection X as ->.
  assert (H0 : initial_state (List.length (p_sp (interp self_mech))) (p_sp2a (interp self_mech)) [(s_ "CH3O2", 0%R)] = Ok [(0 * Cfactor)%R; 0%R]) by (vm_compute; reflexivity).
  destruct (C35_partial (sinking_solver delta) (gas_rhs_at (interp self_mech) 1 1e17 298) (fun _ _ => Err ValueError) f43200 f7200 f3600 3600 0 2 (repeat 0%R 2) [(0 * Cfactor)%R; 0%R] (proj1 C35_hypotheses) f3600_num ltac:(lia) ltac:(lia) ltac:(lia))
    as (ts & HR & Lts & _).
  assert (S : forall rhs jac a b, a = 0%R -> sinking_solver delta (Problem rhs jac [a; b] fzero) f3600 = Ok [0%R; (b - delta)%R]).
  { intros rhs jac a b ->. unfold sinking_solver. cbn [pb_y0]. destruct (Rle_dec 0 0) as [_|F]; [|exfalso; lra]. unfold self_solution. cbn [nth].
    apply f_equal. unfold Rdiv. rewrite Rmult_0_l. f_equal. f_equal. ring. }
  exists (interp self_mech), ts, [0; 0 - delta]%R, [0; 0 - delta - delta]%R.
  split; [exact W|]. split; [exact Hw|]. split; [exact PC|]. split; [exact Hs|]. split; [exact Hwt|]. split; [exact Pp|]. split; [exact E|]. split; [exact PB|]. split; [exact Htame|].
  split; [apply sinking_off; [exact E | lra | lra | exact Pd]|].
  split; [|split; [exact Lts|]; cbn [nth]; split; ring].
  unfold run_simulation. rewrite H0. cbn [bind]. change (List.length [(0 * Cfactor)%R; 0%R]) with 2. rewrite HR. cbn [states].
  rewrite S by ring. cbn [bind]. rewrite S by reflexivity. cbn [bind]. reflexivity.
Qed.

Print Assumptions C95_gas_partial. Print Assumptions C95_partial.
