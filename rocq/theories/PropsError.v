(* C92: small errors of the integrator make small errors in the results. *)
From Coq Require Import String List Bool Arith Lia ZArith QArith Reals Qreals Lra Permutation Sorted.
From Flocq Require Import Core BinarySingleNaN.
From Verif Require Import Base PyStr PyDict ModelParse SpecMech ParseStruct ParseTables ParseWritten ParseShow PropsParse
  ModelLang ModelGen ModelRhs SpecKin LangFacts GenReact GenLossGain GenParsed GenSparse PropsKin PropsRhs
  ModelOmp ModelExpr ModelRate ModelRateFile SpecRate RateExpr PropsRate ModelRateBody ModelRateRun RateSym
  SpecRateValue SpecMcmEnv PropsRateValue ModelRo2 SpecRo2 PropsRo2 ModelGas SpecGas PropsGas PropsGasJac
  ModelSolver SpecSolver SolverFacts OdeFacts PropsSolver ModelSplit PropsSplit SpecMethod PropsMethod SpecTraj OdeSign PropsTraj
  OdeNear ModelPart SpecPart PartFacts PartValue PropsPart PartBounds ModelAero SpecAero PropsAero PropsAeroRun PropsAeroChem AeroPull GasFortran
  AeroFacts ModelSpecies SpecSpecies PropsSpecies ModelYield PropsYield ModelAeroRun SpecAeroRun PropsAeroTraj PropsYieldTraj
  OdeClose GasFlow SpecSun SpecTroe SpecTame TameFacts PropsTame PropsUnique OdePicard OdeExist SunPieces TameFlow PropsExist OdeBox PartLip AeroExist PropsAeroExist SpecError.
Import ListNotations.
Import Coq.Lists.List.
Open Scope nat_scope.
Open Scope list_scope.
Local Arguments eqb : simpl never.

Definition start_in (n : nat) (A : R) (y : list R) : Prop := List.length y = n /\ Forall (fun c => 0 <= c <= A)%R y.

(* Rows each within delta of an exact solution from the row before. *)
Inductive near_rows (delta : R) (f : R -> list R -> option (list R)) (start b : R) : list R -> list (list R) -> Prop :=
| near_none y : near_rows delta f start b y []
| near_more u y1 rows : nonneg y1 -> close delta (u b) y1 -> solves (fun t => f (start + t)%R) b u -> near_rows delta f start b y1 rows ->
    near_rows delta f start b (u 0%R) (y1 :: rows).

Section Rows.
Context (n : nat) (f : R -> list R -> option (list R)) (start b : R) (Pb : (0 <= b)%R).
Context (Hbd : forall A, (0 <= A)%R -> exists A', (0 <= A')%R /\ forall u, solves (fun t => f (start + t)%R) b u -> start_in n A (u 0%R) -> start_in n A' (u b)).
Context (Hst : forall A, (0 <= A)%R -> exists C, (0 <= C)%R /\ forall u v delta, start_in n A (u 0%R) -> start_in n A (v 0%R) ->
  solves (fun t => f (start + t)%R) b u -> solves (fun t => f (start + t)%R) b v ->
  (forall i, i < n -> (Rabs (nth i (u 0%R) 0 - nth i (v 0%R) 0) <= delta)%R) -> forall i, i < n -> (Rabs (nth i (u b) 0 - nth i (v b) 0) <= C * delta)%R).

Lemma start_more A A' y : (A <= A')%R -> start_in n A y -> start_in n A' y.
Proof. intros H [L F]. split; [exact L|]. eapply Forall_impl; [|exact F]. intros a Ha. cbv beta in *. lra. Qed.

Lemma errors_add_up D k : (0 <= D)%R -> forall A K, (0 <= A)%R -> (0 <= K)%R -> exists C, (0 <= C)%R /\ forall delta y z rows rows', (0 <= delta <= D)%R ->
  start_in n A y -> start_in n A z -> close (K * delta) y z -> exact_rows f start b y rows -> near_rows delta f start b z rows' ->
  List.length rows <= k -> List.length rows' = List.length rows -> forall j, j < List.length rows -> close (C * delta) (nth j rows []) (nth j rows' []).
Proof.
  intros PD. induction k as [|k IH]; intros A K PA PK; [exists 0%R; split; [lra|]; intros; lia|].
  destruct (Hbd A PA) as (A' & PA' & HB). destruct (Hst A PA) as (C1 & PC1 & HC).
  assert (PK' : (0 <= C1 * K + 1)%R) by (assert (0 <= C1 * K)%R by (apply Rmult_le_pos; assumption); lra).
  destruct (IH (A' + D)%R (C1 * K + 1)%R ltac:(lra) PK') as (C2 & PC2 & H2).
  exists (Rmax (C1 * K + 1) C2). split; [eapply Rle_trans; [exact PK' | apply Rmax_l]|].
  intros delta y z rows rows' Hd Sy Sz Cyz X X' Lk Ll j Hj.
  destruct X as [y|u y1 rows U1 U X]; [cbn in Hj; lia|]. inversion X' as [z' E0 E1|v z1 rws N1 C0 V X1 E0 E1]; subst; [discriminate|].
  assert (Su := HB u U Sy). assert (Sv := HB v V Sz). destruct Su as [Lu Fu], Sv as [Lv Fv]. destruct C0 as [Lz Cz].
  assert (C11 : forall i, i < n -> (Rabs (nth i (u b) 0 - nth i (v b) 0) <= C1 * (K * delta))%R).
  { apply (HC u v (K * delta)%R Sy Sz U V). intros i Hi. apply Cyz. destruct Sy as [-> _]. exact Hi. }
  assert (Cb : close ((C1 * K + 1) * delta) (u b) z1).
  { split; [congruence|]. intros i Hi. rewrite Lu in Hi. assert (Q1 := C11 i Hi). assert (Hv : i < List.length (v b)) by (rewrite Lv; exact Hi). assert (Q2 := Cz i Hv). replace ((C1 * K + 1) * delta)%R with (C1 * (K * delta) + delta)%R by ring.
    replace (nth i (u b) 0 - nth i z1 0)%R with ((nth i (u b) 0 - nth i (v b) 0) + (nth i (v b) 0 - nth i z1 0))%R by ring. eapply Rle_trans; [apply Rabs_triang|]. lra. }
  destruct j as [|j]; cbn [nth].
  - destruct Cb as [Lb Cb]. split; [exact Lb|]. intros i Hi. eapply Rle_trans; [apply Cb, Hi|]. apply Rmult_le_compat_r; [lra | apply Rmax_l].
  - cbn [List.length] in Lk, Ll, Hj. assert (Sz1 : start_in n (A' + D) z1).
    { split; [congruence|]. apply Forall_forall. intros c Hin. split; [unfold nonneg in N1; rewrite Forall_forall in N1; apply N1, Hin|].
      apply In_nth with (d := 0%R) in Hin as (i & Hi & <-). assert (Hv : i < List.length (v b)) by (rewrite Lz; exact Hi). assert (Q := Cz i Hv). rewrite Forall_forall in Fv. assert (Q2 := Fv (nth i (v b) 0%R) (nth_In _ _ Hv)). cbv beta in Q2.
      apply Rabs_le_inv in Q. lra. }
    destruct (H2 delta (u b) z1 rows rws Hd (start_more A' (A' + D)%R _ ltac:(lra) (conj Lu Fu)) Sz1 Cb X X1 ltac:(lia) ltac:(lia) j ltac:(lia)) as [L3 C3].
    split; [exact L3|]. intros i Hi. eapply Rle_trans; [apply C3, Hi|]. apply Rmult_le_compat_r; [lra | apply Rmax_r].
Qed.


(* The exact rows, and how far the rows of a run are from them. *)
Context (Hex : forall y, List.length y = n -> nonneg y -> exists u, u 0%R = y /\ solves (fun t => f (start + t)%R) b u /\ nonneg (u b)).
Lemma rows_there k : forall y, List.length y = n -> nonneg y -> exists rows, List.length rows = k /\ exact_rows f start b y rows.
Proof.
  induction k as [|k IH]; intros y Ly Ny; [exists []; split; [reflexivity | apply exact_none]|].
  destruct (Hex y Ly Ny) as (u & <- & U & Nu). destruct (IH (u b)) as (rows & L & X); [rewrite (proj1 (proj1 U b ltac:(lra))); exact Ly | exact Nu|].
  exists (u b :: rows). split; [cbn; lia|]. apply exact_more; [reflexivity | exact U | exact X].
Qed.
Lemma rows_near D N A : (0 <= D)%R -> (0 <= A)%R -> exists C, (0 <= C)%R /\ forall delta y rows', (0 <= delta <= D)%R -> start_in n A y ->
  near_rows delta f start b y rows' -> List.length rows' <= N ->
  exists rows, List.length rows = List.length rows' /\ exact_rows f start b y rows /\ forall j, j < List.length rows' -> close (C * delta) (nth j rows []) (nth j rows' []).
Proof.
  intros PD PA. destruct (errors_add_up D N PD A 0%R PA (Rle_refl _)) as (C & PC & H). exists C. split; [exact PC|]. intros delta y rows' Hd Sy X L.
  assert (Ny : nonneg y) by (destruct Sy as [_ F]; eapply Forall_impl; [|exact F]; intros a Ha; cbv beta in *; lra).
  destruct (rows_there (List.length rows') y (proj1 Sy) Ny) as (rows & Lr & X'). exists rows. split; [exact Lr|]. split; [exact X'|].
  intros j Hj. apply (H delta y y rows rows' Hd Sy Sy); try assumption; try lia.
  split; [reflexivity|]. intros i _. unfold Rminus. rewrite Rplus_opp_r, Rabs_R0. lra.
Qed.
End Rows.

Lemma loop_near delta f (simulate : solver (list R)) rhs_at jac_at start sim b zr : (0 < B2R b)%R -> off_by delta f rhs_at simulate ->
  forall rows total y out ts ys, (out = None /\ total = fzero \/ exists o, out = Some o /\ Bltb fzero total = true /\ Beqb total fzero = false) ->
  nonneg (match out with Some o => o | None => y end) ->
  loop simulate rhs_at jac_at start sim b zr rows total y out = Ok (ts, ys) ->
  near_rows delta f (B2R start) (B2R b) (match out with Some o => o | None => y end) (firstn (List.length ts) ys) /\ List.length ts <= List.length ys.
Proof.
  intros Pb HE. induction rows as [|rows IH]; intros total y out ts ys Ho Nn H; cbn [loop] in H; destruct (Bltb total sim).
  - apply bind_Ok in H as (y0 & _ & H). apply bind_Ok in H as (y1 & _ & H). discriminate.
  - injection H as <- <-. split; [apply near_none | cbn; lia].
  - apply bind_Ok in H as (y0 & H0 & H). apply bind_Ok in H as (y1 & H1 & H). apply bind_Ok in H as (rr & H2 & H). injection H as <- <-.
    cbn [List.length firstn].
    assert (E0 : y0 = match out with Some o => o | None => y end).
    { destruct Ho as [[-> ->]|(o & -> & _ & Z)]; [injection H0 as <-; reflexivity|]. rewrite Z in H0. injection H0 as <-. reflexivity. }
    rewrite <- E0 in Nn |- *. destruct (HE start _ y0 b y1 Nn (Rlt_le _ _ Pb) H1) as (N1 & u & U0 & U & C). rewrite <- U0.
    destruct rr as [ts' ys']. destruct (IH (fadd total b) y0 (Some y1) ts' ys') as [X L]; [|exact N1|exact H2|].
    + right. exists y1. split; [reflexivity|]. apply and_comm, fadd_positive; [exact Pb|]. destruct Ho as [[_ ->]|(o & _ & Z & _)]; [right; reflexivity | left; exact Z].
    + split; [|cbn [fst snd]; lia]. apply near_more; assumption.
  - injection H as <- <-. split; [apply near_none | cbn; lia].
Qed.

Lemma record_near {O} delta f (simulate : recording_solver (list R)) rhs jac (observe : b64 -> list R -> res O) sim b zr zo : (0 < B2R b)%R -> off_by_recording delta f rhs simulate ->
  forall rows total y out ts ys os, (out = None /\ total = fzero \/ exists o, out = Some o /\ Bltb fzero total = true /\ Beqb total fzero = false) ->
  nonneg (match out with Some o => o | None => y end) ->
  record_loop simulate rhs jac observe sim b zr zo rows total y out = Ok (ts, ys, os) ->
  near_rows delta f 0 (B2R b) (match out with Some o => o | None => y end) (firstn (List.length ts) ys) /\ List.length ts <= List.length ys.
Proof.
  intros Pb HE. induction rows as [|rows IH]; intros total y out ts ys os Ho Nn H; cbn [record_loop] in H; destruct (Bltb total sim).
  - apply bind_Ok in H as (y0 & _ & H). apply bind_Ok in H as ([y1 [t z]] & _ & H). apply bind_Ok in H as (o1 & _ & H). discriminate.
  - injection H as <- <- _. split; [apply near_none | cbn; lia].
  - apply bind_Ok in H as (y0 & H0 & H). apply bind_Ok in H as ([y1 [t z]] & H1 & H). apply bind_Ok in H as (o1 & H2 & H). apply bind_Ok in H as ([[ts' ys'] os'] & H3 & H).
    injection H as <- <- _. cbn [fst snd List.length firstn].
    assert (E0 : y0 = match out with Some o => o | None => y end).
    { destruct Ho as [[-> ->]|(o & -> & _ & Z)]; [injection H0 as <-; reflexivity|]. rewrite Z in H0. injection H0 as <-. reflexivity. }
    rewrite <- E0 in Nn |- *. destruct (HE _ y0 b y1 _ Nn (Rlt_le _ _ Pb) H1) as (N1 & u & U0 & U & C). rewrite <- U0.
    destruct (IH (fadd total b) y0 (Some y1) ts' ys' os') as [X L]; [|exact N1|exact H3|].
    + right. exists y1. split; [reflexivity|]. apply and_comm, fadd_positive; [exact Pb|]. destruct Ho as [[_ ->]|(o & _ & Z & _)]; [right; reflexivity | left; exact Z].
    + split; [|lia]. apply near_more; try assumption. eapply solves_ext; [|exact U]; intros x _; cbv beta; rewrite Rplus_0_l; reflexivity.
  - injection H as <- <- _. split; [apply near_none | cbn; lia].
Qed.
Lemma run_near {O} delta f (simulate : recording_solver (list R)) rhs jac (observe : b64 -> list R -> res O) sim b zr zo y0 ts ys os : (0 < B2R b)%R -> off_by_recording delta f rhs simulate -> nonneg y0 ->
  record_run simulate rhs jac observe sim b zr zo y0 = Ok (ts, ys, os) -> near_rows delta f 0 (B2R b) y0 (firstn (List.length ts) ys) /\ List.length ts <= List.length ys.
Proof.
  intros Pb HE Ny H. unfold record_run in H. apply bind_Ok in H as (x & _ & H). apply bind_Ok in H as (z & _ & H). destruct (z <? 0)%Z; [discriminate|].
  exact (record_near delta f simulate rhs jac observe sim b zr zo Pb HE _ fzero y0 None ts ys os (or_introl (conj eq_refl eq_refl)) Ny H).
Qed.
Lemma range_nonneg A y : Forall (fun c => 0 <= c <= A)%R y -> nonneg y.
Proof. intros F. eapply Forall_impl; [|exact F]. intros a Ha. cbv beta in *. lra. Qed.

Lemma firstn_row k (ys : list (list R)) j : j < k -> nth j (firstn k ys) [] = nth j ys [].
Proof. revert j ys. induction k as [|k IH]; intros [|j] [|x ys] Hi; cbn; try reflexivity; try lia. apply IH. lia. Qed.

(* C92.  For runs of up to N batches from concentrations of up to A, there is one
   constant C such that an integrator off by at most delta in a batch (for any
   delta up to D) gives rows off by at most C delta, through all batches. *)
Theorem C92_gas_partial : forall m text e w, written m text -> whole m -> peroxy_clean (first_seen (reading_order m)) -> Forall products_safe m ->
  Forall (fun r => weight w (rhs r) <= weight w (lhs r))%R m -> w light = 0%R -> (forall b, In b bath -> w b = 0%R) -> (forall s, (0 <= w s)%R) ->
  (forall s, In s (first_seen (reading_order m)) -> ~ In s bath -> (0 < w s)%R) ->
  exists st, extract_mechanism text = Ok (Z.of_nat (List.length m), st) /\
  forall start H2O temp b N A D, (0 < temp)%R -> (0 <= H2O)%R -> (0 < B2R b)%R -> (0 <= A)%R -> (0 <= D)%R -> tame_rates m e H2O temp ->
    let equations := fun clock => gas_dydt_numba st (List.length m) clock 0 H2O temp in
    let rhs_at := gas_rhs_at st (List.length m) H2O temp in
    exists C, (0 <= C)%R /\ forall delta simulate jac conc sim ts ys y0, (0 <= delta <= D)%R ->
      off_by delta equations rhs_at simulate ->
      initial_state (List.length (p_sp st)) (p_sp2a st) conc = Ok y0 -> Forall (fun c => 0 <= c <= A)%R y0 ->
      run_simulation simulate rhs_at jac start (p_sp st) (p_sp2a st) conc sim b = Ok (ts, ys) -> List.length ts <= N ->
      exists rows, List.length rows = List.length ts /\ exact_rows equations (B2R start) (B2R b) y0 rows /\
        forall j, j < List.length ts -> close (C * delta) (nth j rows []) (nth j ys []).
Proof.
  intros m text e w W Hw PC Hs Hwt Hl Hb Pw Pp.
  destruct (C84_stable_partial m text e w W Hw PC Hs Hwt Hl Hb Pw Pp) as (st & Hst & HS). assert (E := written_extract _ _ W). rewrite Hst in E. injection E as ->.
  exists (interp m). split; [exact Hst|]. intros start wa temp b N A D HT HW PB PA PD Ht equations rhs_at. destruct (C82_regular m e wa temp Ht) as (k & Hr & Hc).
  assert (Same : forall t y, equations (B2R start + t)%R y = gas_dydt_numba (interp m) (List.length m) (B2R start) t wa temp y) by (intros t y; unfold equations, gas_dydt_numba; rewrite Rplus_0_r; reflexivity).
  set (n := List.length (species m)).
  destruct (rows_near n equations (B2R start) (B2R b) ltac:(lra)) with (D := D) (N := N) (A := A) as (C & PCC & H); try assumption.
  - intros A1 PA1. exists (ceiling w m A1). split; [assert (Z := ceiling_start w m A1 Pw PA1); lra|]. intros u U [Lu Fu].
    assert (U' : solves (fun t => gas_dydt_numba (interp m) (List.length m) (B2R start) t wa temp) (B2R b) u) by (eapply solves_ext; [|exact U]; intros t _; cbv beta; apply Same).
    destruct (gas_bounded m text e W Hw PC wa temp HT HW k Hr Hc w A1 (B2R start) (B2R b) u Hs Hwt Hl Hb Pw Pp ltac:(lra) Lu U' (range_nonneg _ _ Fu) ltac:(eapply Forall_impl; [|exact Fu]; intros a Ha; cbv beta in *; lra) PA1 (B2R b) ltac:(lra)) as [Nu Bu].
    assert (L1 : List.length (u (B2R b)) = n) by (rewrite (proj1 (proj1 U (B2R b) ltac:(lra))); exact Lu). split; [exact L1|]. apply Forall_forall. intros c Hin. split; [unfold nonneg in Nu; rewrite Forall_forall in Nu; apply Nu, Hin|].
    apply In_nth with (d := 0%R) in Hin as (i & Hi & <-). apply Bu. rewrite L1 in Hi. exact Hi.
  - intros A1 PA1. destruct (HS (B2R start) wa temp (B2R b) A1 HT HW ltac:(lra) PA1 Ht) as (C1 & PC1 & H1). exists C1. split; [exact PC1|]. intros u v delta Su Sv U V Hd i Hi.
    refine (H1 u v delta Su Sv _ _ Hd (B2R b) i _ Hi); [eapply solves_ext; [|exact U] | eapply solves_ext; [|exact V] | lra]; intros t _; cbv beta; apply Same.
  - intros y Ly Ny. destruct (gas_exists m text e w W Hw PC Hs Hwt Hl Hb Pw Pp wa temp HT HW Ht (B2R start) (B2R b) y ltac:(lra) Ly Ny) as (u & U0 & U & NN).
    exists u. split; [exact U0|]. split; [|apply NN; lra]. eapply solves_ext; [|exact U]. intros t _. cbv beta. symmetry. apply Same.
  - exists C. split; [exact PCC|]. intros delta simulate jac conc sim ts ys y0 Hd HE I0 F0 HR LN.
    assert (L0 : List.length y0 = n) by (unfold initial_state in I0; rewrite (set_initial_length _ _ _ _ I0), repeat_length; destruct (interp_species m) as (-> & _); rewrite combine_length, seq_length; unfold n; lia).
    unfold run_simulation in HR. rewrite I0 in HR. cbn [bind] in HR. unfold run_batches in HR. apply bind_Ok in HR as (q & _ & HR). apply bind_Ok in HR as (z & _ & HR). destruct (z <? 0)%Z; [discriminate|].
    destruct (loop_near delta equations simulate rhs_at jac start sim b _ PB HE _ fzero y0 None ts ys (or_introl (conj eq_refl eq_refl)) (range_nonneg _ _ F0) HR) as [X L].
    assert (Lf : List.length (firstn (List.length ts) ys) = List.length ts) by (rewrite firstn_length; lia).
    destruct (H delta y0 _ Hd (conj L0 F0) X ltac:(lia)) as (rows & Lr & X' & Cl). rewrite Lf in Lr, Cl. exists rows. split; [exact Lr|]. split; [exact X'|].
    intros j Hj. rewrite <- (firstn_row (List.length ts) ys j Hj). apply Cl, Hj.
Qed.

(* The same for the fixed-yield model, whatever order the parallel loop takes. *)
(* What the theorem needs of the equations. *)
Lemma yield_rows rd fl rows text cv ov cutoff temp RH diss core_density core_mw nb y_core nper ys d y0 q b rbins N A D :
  yield_file rows text -> (forall s n, first_number rows s = Some n -> fl n = Ok (cv s) /\ rd s = Ok (ov s)) ->
  (forall s, In s (first_seen (map fst rows)) -> c_C (ov s) <> 0 /\ sensible (ov s)) ->
  RH <> 1%R -> (0 < temp)%R -> seeds nb y_core nper core_density core_mw diss ->
  yield_setup rd fl text cutoff temp RH nb y_core diss = Ok (ys, d, y0) -> Pure_component2 (d_nc d) (d_mw d) Rgas temp = Some q -> (0 < b)%R ->
  (forall t y, Permutation (rbins t y) (seq 0 nb)) -> (0 <= A)%R -> (0 <= D)%R ->
  let equations := fun t y => option_map fst (yield_rhs d q nb y_core nper core_density core_mw diss temp (rbins t y) y) in
  exists C, (0 <= C)%R /\ forall delta y rws', (0 <= delta <= D)%R -> start_in (List.length y0) A y ->
    near_rows delta equations 0 b y rws' -> List.length rws' <= N ->
    exists rws, List.length rws = List.length rws' /\ exact_rows equations 0 b y rws /\
      forall j, j < List.length rws' -> close (C * delta) (nth j rws []) (nth j rws' []).
Proof.
  intros Hf Hv HC HR Htemp SD Hsetup Hq Pb PB PA PD equations. destruct (yield_prepared rd fl rows text cv ov cutoff temp RH diss nb y_core nper Hf Hv HC HR _ _ ys d y0 SD Hsetup) as [WP L0].
  set (n := List.length y0). fold n in L0.
  assert (Same : forall t y, equations (0 + t)%R y = equations t y) by (intros t y; rewrite Rplus_0_l; reflexivity).
  destruct (rows_near n equations 0 b ltac:(lra)) with (D := D) (N := N) (A := A) as (C & PCC & H); try assumption.
  - intros A1 PA1. exists (INR n * A1)%R. split; [apply Rmult_le_pos; [apply pos_INR | exact PA1]|]. intros u U [Lu Fu].
    assert (U' : solves equations b u) by (eapply solves_ext; [|exact U]; intros t _; cbv beta; apply Same).
    assert (Bx := yield_in_box d temp q WP Htemp Hq nb y_core nper core_density core_mw diss SD rbins PB b u (INR n * A1)%R ltac:(lra) U'). rewrite <- L0 in Bx.
    destruct (Bx Lu (range_nonneg _ _ Fu)) with (t := b) as [L1 B1]; [|lra|].
    + rewrite all_amount. apply sum_at_most; [exact PA1|]. intros i Hi. rewrite Forall_forall in Fu. apply Fu, nth_In. rewrite Lu. exact Hi.
    + split; [exact L1|]. apply Forall_forall. intros c Hin. apply In_nth with (d := 0%R) in Hin as (i & Hi & <-). apply B1. rewrite L1 in Hi. exact Hi.
  - intros A1 PA1. destruct (C91_yield_stable rd fl rows text cv ov cutoff temp RH diss core_density core_mw nb y_core nper ys d y0 q rbins b A1 Hf Hv HC HR Htemp SD Hsetup Hq PB ltac:(lra) PA1) as (C1 & PC1 & H1).
    exists C1. split; [exact PC1|]. intros u v delta Su Sv U V Hd i Hi.
    refine (H1 u v delta Su Sv _ _ Hd b i _ Hi); [eapply solves_ext; [|exact U] | eapply solves_ext; [|exact V] | lra]; intros t _; cbv beta; apply Same.
  - intros y Ly Ny. destruct (C91_yield rd fl rows text cv ov cutoff temp RH diss core_density core_mw nb y_core nper ys d y0 q b y Hf Hv HC HR Htemp SD Hsetup Hq ltac:(lra) Ly Ny) as (u & U0 & Nu & U).
    exists u. split; [exact U0|]. split; [|apply Nu; lra]. eapply solves_ext; [|exact (proj1 (U rbins PB))]. intros t _. cbv beta. symmetry. apply Same.
  - exists C. split; [exact PCC | exact H].
Qed.
Theorem C92_yield rd fl rows text cv ov cutoff temp RH diss core_density core_mw nb y_core nper ys d y0 q b rbins N A D :
  yield_file rows text -> (forall s n, first_number rows s = Some n -> fl n = Ok (cv s) /\ rd s = Ok (ov s)) ->
  (forall s, In s (first_seen (map fst rows)) -> c_C (ov s) <> 0 /\ sensible (ov s)) ->
  RH <> 1%R -> (0 < temp)%R -> seeds nb y_core nper core_density core_mw diss ->
  yield_setup rd fl text cutoff temp RH nb y_core diss = Ok (ys, d, y0) -> Pure_component2 (d_nc d) (d_mw d) Rgas temp = Some q -> (0 < B2R b)%R ->
  (forall t y, Permutation (rbins t y) (seq 0 nb)) -> (0 <= A)%R -> (0 <= D)%R ->
  let equations := fun t y => option_map fst (yield_rhs d q nb y_core nper core_density core_mw diss temp (rbins t y) y) in
  exists C, (0 <= C)%R /\ forall delta bins simulate jac sim zr zo y1 ts ys' os, (0 <= delta <= D)%R ->
    off_by_recording delta equations (yield_dydt d q nb y_core nper core_density core_mw diss temp bins) simulate ->
    List.length y1 = List.length y0 -> Forall (fun c => 0 <= c <= A)%R y1 ->
    record_run simulate (yield_dydt d q nb y_core nper core_density core_mw diss temp bins) jac
      (yield_observe d q nb y_core nper core_density core_mw diss temp bins) sim b zr zo y1 = Ok (ts, ys', os) -> List.length ts <= N ->
    exists rws, List.length rws = List.length ts /\ exact_rows equations 0 (B2R b) y1 rws /\
      forall j, j < List.length ts -> close (C * delta) (nth j rws []) (nth j ys' []).
Proof.
  intros Hf Hv HC HR Htemp SD Hsetup Hq Pb PB PA PD equations.
  destruct (yield_rows rd fl rows text cv ov cutoff temp RH diss core_density core_mw nb y_core nper ys d y0 q (B2R b) rbins N A D Hf Hv HC HR Htemp SD Hsetup Hq Pb PB PA PD) as (C & PCC & H).
  exists C. split; [exact PCC|]. intros delta bins simulate jac sim zr zo y1 ts ys' os Hd HE Ly Fy Hrun LN.
  destruct (run_near delta equations _ _ _ _ _ _ _ _ _ _ _ _ Pb HE (range_nonneg _ _ Fy) Hrun) as [X L].
  assert (Lf : List.length (firstn (List.length ts) ys') = List.length ts) by (rewrite firstn_length; lia).
  destruct (H delta y1 _ Hd (conj Ly Fy) X ltac:(lia)) as (rws & Lr & X' & Cl). rewrite Lf in Lr, Cl. exists rws. split; [exact Lr|]. split; [exact X'|].
  intros j Hj. rewrite <- (firstn_row (List.length ts) ys' j Hj). apply Cl, Hj.
Qed.

(* The same for the gas and particle model. *)
(* What the theorem needs of the equations. *)
Lemma aerosol_rows : forall m text e w, written m text ->
  Forall unit_coefficients m -> Forall (fun r => NoDup (names (rhs r)) /\ ~ In (last_reactant r) (names (rhs r))) m ->
  Forall distinct_reactants m -> peroxy_clean (first_seen (reading_order m)) ->
  Forall (fun r => weight w (rhs r) <= weight w (lhs r))%R m -> w light = 0%R -> (forall b, In b bath -> w b = 0%R) ->
  (forall s, In s (first_seen (reading_order m)) -> ~ In s bath -> (0 < w s)%R) ->
  exists st, extract_mechanism text = Ok (Z.of_nat (List.length m), st) /\
  forall smiles objects cutoff temp nb y_core nper core_density core_mw diss d q,
    aerosol_setup st (List.length (first_seen (reading_order m))) smiles objects cutoff temp nb y_core nper core_density core_mw diss d q ->
  forall rnd H2O o1 o2 o3 start b rcalls N A D, is_rounding rnd -> (0 <= H2O)%R -> (0 < b)%R -> (0 <= A)%R -> (0 <= D)%R -> tame_rates m e H2O temp ->
    (forall t y, is_call st (List.length m) nb o1 o2 o3 (rcalls t y)) ->
    let equations := fun t y => aerosol_dydt st (List.length m) rnd H2O temp d q nb y_core nper core_density core_mw diss (rcalls t y) (start + t)%R y in
    exists C, (0 <= C)%R /\ forall delta y rows', (0 <= delta <= D)%R -> start_in (d_ns d + d_nc d * nb) A y ->
      near_rows delta equations 0 b y rows' -> List.length rows' <= N ->
      exists rows, List.length rows = List.length rows' /\ exact_rows equations 0 b y rows /\
        forall j, j < List.length rows' -> close (C * delta) (nth j rows []) (nth j rows' []).
Proof.
  intros m text e w W Hu Hpr Hdr PC Hwt Hl Hb Pp.
  destruct (C91_aerosol_partial m text e w W Hu Hpr Hdr PC Hwt Hl Hb Pp) as (st & Hst & HX). assert (E := written_extract _ _ W). rewrite Hst in E. injection E as ->.
  destruct (C91_aerosol_stable_partial m text e w W Hu Hpr Hdr PC Hwt Hl Hb Pp) as (st' & Hst' & HS). rewrite Hst in Hst'. injection Hst' as <-.
  exists (interp m). split; [exact Hst|]. intros smiles objects cutoff temp nb y_core nper cd cm diss d q AS rnd H2O o1 o2 o3 start b rcalls N A D Hrnd HH Pb PA PD Ht Hcall equations.
  assert (AS' := AS). destruct AS as [(p & Hp & Hd) Hq Hchem Htemp SD].
  assert (FR : fortran_ready m) by (constructor; assumption). destruct (C82_regular m e H2O temp Ht) as (k & Hr & Hc).
  set (n := d_ns d + d_nc d * nb).
  assert (Same : forall t y, equations (0 + t)%R y = equations t y) by (intros t y; rewrite Rplus_0_l; reflexivity).
  set (wt := slot_weight (by_species (species m) (all_pos w) 1) (d_ns d) (d_nc d) (d_include d)). set (stock_of := fun A1 => rsum (map (fun i => wt i * A1)%R (seq 0 n))).
  assert (Pw : forall i, (0 < wt i)%R) by (intros i; apply slot_pos; exact Pp).
  destruct (rows_near n equations 0 b ltac:(lra)) with (D := D) (N := N) (A := A) as (C & PCC & H); try assumption.
  - intros A1 PA1. assert (PS : (0 <= stock_of A1)%R) by (apply rsum_nonneg; intros x Hx; apply in_map_iff in Hx as (i & <- & _); assert (Z := Pw i); apply Rmult_le_pos; lra).
    exists (side m d nb w (stock_of A1)). split; [apply side_nonneg; assumption|]. intros u U [Lu Fu].
    assert (U' : solves equations b u) by (eapply solves_ext; [|exact U]; intros t _; cbv beta; apply Same).
    assert (HA : (amount_of (stock m d nb w) (u 0%R) <= stock_of A1)%R).
    { unfold stock. rewrite both_phases_amount. apply rsum_le. intros j Hj. apply in_seq in Hj. apply Rmult_le_compat_l; [left; apply Pw|]. rewrite Forall_forall in Fu. apply Fu, nth_In. rewrite Lu. unfold n. lia. }
    destruct (aerosol_in_box m text (interp m) W FR Hst smiles objects cutoff temp p d q Hp Hd Hchem Htemp Hq nb y_core nper cd cm diss SD rnd Hrnd H2O HH o1 o2 o3 PC e w Hwt Hl Hb Pp rcalls Hcall start b ltac:(lra) k Hr Hc u _ U' Lu (range_nonneg _ _ Fu) HA b ltac:(lra)) as [L1 B1].
    split; [exact L1|]. apply Forall_forall. intros c Hin. apply In_nth with (d := 0%R) in Hin as (i & Hi & <-). apply B1. rewrite L1 in Hi. exact Hi.
  - intros A1 PA1. destruct (HS smiles objects cutoff temp nb y_core nper cd cm diss d q AS' rnd H2O o1 o2 o3 start b A1 Hrnd HH ltac:(lra) PA1 Ht rcalls Hcall) as (C1 & PC1 & H1).
    exists C1. split; [exact PC1|]. intros u v delta Su Sv U V Hdl i Hi.
    refine (H1 u v delta Su Sv _ _ Hdl b i _ Hi); [eapply solves_ext; [|exact U] | eapply solves_ext; [|exact V] | lra]; intros t _; cbv beta; apply Same.
  - intros y Ly Ny. assert (V : exists o1 o2 o3, forall t y, is_call (interp m) (List.length m) nb o1 o2 o3 (rcalls t y)) by (exists o1, o2, o3; exact Hcall).
    destruct (HX smiles objects cutoff temp nb y_core nper cd cm diss d q AS' rnd H2O start b y Hrnd HH ltac:(lra) Ht (ex_intro _ rcalls V) Ly Ny) as (u & U0 & Nu & U).
    exists u. split; [exact U0|]. split; [|apply Nu; lra]. eapply solves_ext; [|exact (proj1 (U rcalls V))]. intros t _. cbv beta. symmetry. apply Same.
  - exists C. split; [exact PCC | exact H].
Qed.
Theorem C92_aerosol_partial : forall m text e w, written m text ->
  Forall unit_coefficients m -> Forall (fun r => NoDup (names (rhs r)) /\ ~ In (last_reactant r) (names (rhs r))) m ->
  Forall distinct_reactants m -> peroxy_clean (first_seen (reading_order m)) ->
  Forall (fun r => weight w (rhs r) <= weight w (lhs r))%R m -> w light = 0%R -> (forall b, In b bath -> w b = 0%R) ->
  (forall s, In s (first_seen (reading_order m)) -> ~ In s bath -> (0 < w s)%R) ->
  exists st, extract_mechanism text = Ok (Z.of_nat (List.length m), st) /\
  forall smiles objects cutoff temp nb y_core nper core_density core_mw diss d q,
    aerosol_setup st (List.length (first_seen (reading_order m))) smiles objects cutoff temp nb y_core nper core_density core_mw diss d q ->
  forall rnd H2O o1 o2 o3 start_time b rcalls N A D, is_rounding rnd -> (0 <= H2O)%R -> (0 < B2R b)%R -> (0 <= A)%R -> (0 <= D)%R -> tame_rates m e H2O temp ->
    (forall t y, is_call st (List.length m) nb o1 o2 o3 (rcalls t y)) ->
    let equations := fun t y => aerosol_dydt st (List.length m) rnd H2O temp d q nb y_core nper core_density core_mw diss (rcalls t y) (B2R start_time + t)%R y in
    exists C, (0 <= C)%R /\ forall delta calls simulate jac conc y_cond sim ts ys os y0, (0 <= delta <= D)%R ->
      off_by_recording delta equations (aerosol_dydt_func st (List.length m) rnd H2O temp d q nb y_core nper core_density core_mw diss calls start_time) simulate ->
      aerosol_initial (d_ns d) (d_nc d) nb (d_sp2a d) conc y_cond = Ok y0 -> List.length y_cond = d_nc d * nb -> Forall (fun c => 0 <= c <= A)%R y0 ->
      aerosol_simulation st (List.length m) rnd H2O temp d q nb y_core nper core_density core_mw diss simulate jac calls start_time (d_sp2a d) conc y_cond sim b = Ok (ts, ys, os) ->
      List.length ts <= N ->
      exists rows, List.length rows = List.length ts /\ exact_rows equations 0 (B2R b) y0 rows /\
        forall j, j < List.length ts -> close (C * delta) (nth j rows []) (nth j ys []).
Proof.
  intros m text e w W Hu Hpr Hdr PC Hwt Hl Hb Pp. destruct (aerosol_rows m text e w W Hu Hpr Hdr PC Hwt Hl Hb Pp) as (st & Hst & HR). exists st. split; [exact Hst|].
  intros smiles objects cutoff temp nb y_core nper cd cm diss d q AS rnd H2O o1 o2 o3 start b rcalls N A D Hrnd HH Pb PA PD Ht Hcall equations.
  destruct (HR smiles objects cutoff temp nb y_core nper cd cm diss d q AS rnd H2O o1 o2 o3 (B2R start) (B2R b) rcalls N A D Hrnd HH Pb PA PD Ht Hcall) as (C & PCC & H). fold equations in H.
  exists C. split; [exact PCC|]. intros delta calls simulate jac conc y_cond sim ts ys os y0 Hdl HE I0 Lc F0 Hrun LN.
  destruct (aerosol_start _ _ _ _ _ _ _ I0 Lc) as [L0 _]. unfold aerosol_simulation in Hrun. rewrite I0 in Hrun. cbn [bind] in Hrun.
  destruct (run_near delta equations _ _ _ _ _ _ _ _ _ _ _ _ Pb HE (range_nonneg _ _ F0) Hrun) as [X L].
  assert (Lf : List.length (firstn (List.length ts) ys) = List.length ts) by (rewrite firstn_length; lia).
  destruct (H delta y0 _ Hdl (conj L0 F0) X ltac:(lia)) as (rws & Lr & X' & Cl). rewrite Lf in Lr, Cl. exists rws. split; [exact Lr|]. split; [exact X'|].
  intros j Hj. rewrite <- (firstn_row (List.length ts) ys j Hj). apply Cl, Hj.
Qed.
(* Cases.  The mechanism of C71_hypotheses with an integrator that adds five
   molecules too many to both species in every batch: 20 ppb of CH3O2, two hours
   in two batches. *)
Definition drifting_solver : solver (list R) := fun pb tf =>
  if Rle_dec 0 (B2R tf) then do y <- self_solver pb tf; Ok (map (fun c => c + 5)%R y) else Err ValueError.
Lemma self_nonneg a b t : (0 <= a)%R -> (0 <= b)%R -> (0 <= t)%R -> nonneg (self_solution a b t).
Proof.
  intros Pa Pb Pt. assert (P : (0 <= 1.82e-13 * a * t)%R) by (apply Rmult_le_pos; [apply Rmult_le_pos; lra | exact Pt]).
  assert (Q : (0 <= a / (1 + 1.82e-13 * a * t) <= a)%R).
  { split; [apply Rmult_le_pos; [exact Pa | left; apply Rinv_0_lt_compat; lra]|]. apply Rmult_le_reg_r with (1 + 1.82e-13 * a * t)%R; [lra|]. unfold Rdiv. rewrite Rmult_assoc, Rinv_l by lra.
    rewrite Rmult_1_r, <- (Rmult_1_r a) at 1. apply Rmult_le_compat_l; lra. }
  unfold self_solution. apply Forall_cons; [lra|]. apply Forall_cons; [lra|]. apply Forall_nil.
Qed.
Lemma drifting_off st H2O temp : extract_mechanism (ParseShow.show self_words) = Ok (1%Z, st) -> (0 < temp)%R -> (0 <= H2O)%R ->
  off_by 5 (fun clock => gas_dydt_numba st 1 clock 0 H2O temp) (gas_rhs_at st 1 H2O temp) drifting_solver.
Proof.
  intros Hst HT HH start jac y0 tf y1 N0 Pt H. unfold drifting_solver in H. destruct (Rle_dec 0 (B2R tf)) as [_|]; [|discriminate]. apply bind_Ok in H as (y & H & E).
  unfold self_solver in H. cbn [pb_y0] in H. destruct y0 as [|a [|b [|]]]; try discriminate.
  destruct (Rle_dec 0 a) as [Pa|]; [|discriminate]. destruct (Rle_dec 0 b) as [Pb|]; [|discriminate].
  assert (Ey : y = self_solution a b (B2R tf)) by congruence. assert (E1 : y1 = map (fun c => c + 5)%R y) by congruence. rewrite E1, Ey. clear E E1 Ey H.
  assert (Nn := self_nonneg a b (B2R tf) Pa Pb Pt). split.
  - unfold nonneg in *. rewrite Forall_map. eapply Forall_impl; [|exact Nn]. intros c Hc. cbv beta in *. lra.
  - exists (self_solution a b). split; [unfold self_solution; f_equal; [field | f_equal; field]|]. split.
    + eapply solves_ext; [|exact (self_solves _ (B2R start) H2O temp a b (B2R tf) Hst HT HH Pa Pb)]. intros t Ht. cbv beta. unfold gas_dydt_numba. rewrite Rplus_0_r. reflexivity.
    + split; [symmetry; apply map_length|]. intros [|[|i]] Hi; cbn [self_solution map nth]; [| |cbn in Hi; lia];
        (match goal with |- (Rabs (?x - (?x + 5)) <= 5)%R => replace (x - (x + 5))%R with (- (5))%R by ring end); rewrite Rabs_Ropp, Rabs_pos_eq; lra.
Qed.
Example C92_hypotheses : exists st ts r1 r2,
  written self_mech (ParseShow.show self_words) /\ whole self_mech /\ peroxy_clean (first_seen (reading_order self_mech)) /\ Forall products_safe self_mech /\
  Forall (fun r => weight methyls (rhs r) <= weight methyls (lhs r))%R self_mech /\ methyls light = 0%R /\ (forall b, In b bath -> methyls b = 0%R) /\ (forall s, (0 <= methyls s)%R) /\
  (forall s, In s (first_seen (reading_order self_mech)) -> ~ In s bath -> (0 < methyls s)%R) /\
  extract_mechanism (ParseShow.show self_words) = Ok (1%Z, st) /\ (0 < B2R f3600)%R /\ tame_rates self_mech self_expr 1e17 298 /\
  off_by 5 (fun clock => gas_dydt_numba st 1 clock 0 1e17 298) (gas_rhs_at st 1 1e17 298) drifting_solver /\
  initial_state (List.length (p_sp st)) (p_sp2a st) [(s_ "CH3O2", 20%R)] = Ok [(20 * Cfactor)%R; 0%R] /\
  run_simulation drifting_solver (gas_rhs_at st 1 1e17 298) (fun _ _ => Err ValueError) f43200 (p_sp st) (p_sp2a st) [(s_ "CH3O2", 20%R)] f7200 f3600 = Ok (ts, [r1; r2]) /\ List.length ts = 2.
Proof.
  destruct C71_hypotheses as (W & Hw & PC & Hs & Hwt & Hl & Hb & Pw & _). assert (Hst := written_extract _ _ self_written). change (Z.of_nat (List.length self_mech)) with 1%Z in Hst.
  assert (H0 : initial_state (List.length (p_sp (interp self_mech))) (p_sp2a (interp self_mech)) [(s_ "CH3O2", 20%R)] = Ok [(20 * Cfactor)%R; 0%R]) by (vm_compute; reflexivity).
  assert (B36 : B2R f3600 = 3600%R) by (destruct f3600_num as [_ Q]; rewrite Q; cbn [bpow]; ring).
  set (z1 := map (fun c => c + 5)%R (self_solution (20 * Cfactor) 0 (B2R f3600))).
  assert (N1 : nonneg z1).
  { unfold z1, nonneg. rewrite Forall_map. eapply Forall_impl; [|apply (self_nonneg (20 * Cfactor) 0 (B2R f3600)); unfold Cfactor; lra]. intros c Hc. cbv beta in *. lra. }
  destruct (C35_partial drifting_solver (gas_rhs_at (interp self_mech) 1 1e17 298) (fun _ _ => Err ValueError) f43200 f7200 f3600 3600 0 2 (repeat 0%R 2) [(20 * Cfactor)%R; 0%R] (proj1 C35_hypotheses) f3600_num ltac:(lia) ltac:(lia) ltac:(lia))
    as (ts & HR & Lts & _).
  assert (S1 : forall rhs jac, drifting_solver (Problem rhs jac [(20 * Cfactor)%R; 0%R] fzero) f3600 = Ok z1).
  { intros rhs jac. unfold drifting_solver. destruct (Rle_dec 0 (B2R f3600)) as [_|F]; [|exfalso; lra]. unfold self_solver. cbn [pb_y0].
    destruct (Rle_dec 0 (20 * Cfactor)) as [_|F]; [|exfalso; apply F; unfold Cfactor; lra]. destruct (Rle_dec 0 0) as [_|F]; [|exfalso; lra]. reflexivity. }
  assert (S2 : exists z2, forall rhs jac, drifting_solver (Problem rhs jac z1 fzero) f3600 = Ok z2).
  { eexists. intros rhs jac. unfold drifting_solver. destruct (Rle_dec 0 (B2R f3600)) as [_|F]; [|exfalso; lra]. unfold self_solver. cbn [pb_y0]. unfold z1 at 1. cbn [map self_solution].
    destruct (Rle_dec 0 (20 * Cfactor / (1 + 1.82e-13 * (20 * Cfactor) * B2R f3600) + 5)) as [_|F]; [|exfalso; apply F; exact (Forall_inv N1)].
    destruct (Rle_dec 0 (0 + (20 * Cfactor - 20 * Cfactor / (1 + 1.82e-13 * (20 * Cfactor) * B2R f3600)) + 5)) as [_|F]; [|exfalso; apply F; exact (Forall_inv (Forall_inv_tail N1))]. reflexivity. }
  destruct S2 as (z2 & S2). exists (interp self_mech), ts, z1, z2.
  assert (Pp : forall s, In s (first_seen (reading_order self_mech)) -> ~ In s bath -> (0 < methyls s)%R).
  { intros s Hin _. rewrite self_species in Hin. destruct Hin as [<-|[<-|[]]]; unfold methyls; vm_compute inb; lra. }
  repeat (split; [assumption|]). split. { eapply Forall_impl; [|exact Hwt]; intros r E; cbv beta in *; lra. } repeat (split; [assumption|]).
  split; [lra|]. split; [apply self_tame; lra|]. split; [apply drifting_off; [exact Hst | lra | lra]|]. split; [exact H0|]. split; [|exact Lts].
  unfold run_simulation. rewrite H0. cbn [bind]. change (List.length [(20 * Cfactor)%R; 0%R]) with 2. rewrite HR. cbn [states]. rewrite S1. cbn [bind]. rewrite S2. cbn [bind]. reflexivity.
Qed.

(* The fixed-yield model: the equilibrium of C73_yield_hypotheses, and an
   integrator that drifts away from it by five molecules in every slot. *)
Definition drifting_recorder (y : list R) : recording_solver (list R) := fun pb tf =>
  if list_eq_dec Req_EM_T (pb_y0 pb) y then Ok (map (fun c => c + 5)%R y, (tf, y)) else Err ValueError.
Example C92_yield_hypotheses : exists ys d y0 q y ts row o,
  yield_file c46_rows c46_text /\ seeds 1 [1e9]%R [50]%R 1770 132.14 3 /\
  yield_setup (fun s => Ok (ex_chem s)) ex_float c46_text (-6) 298.15 0.5 1 [1e9]%R 3 = Ok (ys, d, y0) /\
  Pure_component2 (d_nc d) (d_mw d) Rgas 298.15 = Some q /\ List.length y = List.length y0 /\ nonneg y /\ (0 < B2R f3600)%R /\
  off_by_recording 5 (fun t y => option_map fst (yield_rhs d q 1 [1e9]%R [50]%R 1770 132.14 3 298.15 [0] y)) (yield_dydt d q 1 [1e9]%R [50]%R 1770 132.14 3 298.15 [0]) (drifting_recorder y) /\
  record_run (drifting_recorder y) (yield_dydt d q 1 [1e9]%R [50]%R 1770 132.14 3 298.15 [0]) (fun _ _ => Err ValueError)
    (yield_observe d q 1 [1e9]%R [50]%R 1770 132.14 3 298.15 [0]) f3600 f3600 [] (0%R, []) y = Ok (ts, [row], [o]) /\ List.length ts = 1.
Proof.
  destruct C73_yield_hypotheses as (ys & d & y0 & q & y & Hf & SD & Hsetup & Hq & Ly & Ny & _ & Sol).
  assert (B36 : B2R f3600 = 3600%R) by (destruct f3600_num as [_ Q]; rewrite Q; cbn [bpow]; ring).
  destruct (yield_prepared (fun s => Ok (ex_chem s)) ex_float c46_rows c46_text ex_yield ex_chem (-6) 298.15 0.5 3 1 [1e9]%R [50]%R Hf ex_rows_values
    (fun s _ => conj (proj1 (ex_chem_good s)) (proj1 (proj2 (ex_chem_good s)))) ltac:(lra) _ _ ys d y0 SD Hsetup) as [WP L0].
  assert (Ho : exists r, yield_rhs d q 1 [1e9]%R [50]%R 1770 132.14 3 298.15 [0] y = Some r).
  { set (B := rsum (map (fun i => nth i y 0%R) (seq 0 (List.length y0)))).
    assert (HB : (0 <= B)%R) by (unfold B; apply rsum_nonneg; intros x Hx; apply in_map_iff in Hx as (i & <- & _); apply nonneg_nth, Ny).
    assert (Bx : in_box (d_ns d + d_nc d * 1) B y).
    { rewrite <- L0. split; [exact Ly|]. intros i Hi. split; [apply nonneg_nth, Ny|]. apply (part_of_sum (fun i => nth i y 0%R)); [intros k _; apply nonneg_nth, Ny | apply in_seq; lia]. }
    assert (J := joined_swap d 298.15 q WP ltac:(lra) Hq 1 [1e9]%R [50]%R 1770 132.14 3 SD (fun _ _ => [0]) (fun _ _ => Permutation_refl _) 0 B 0 y HB (Rle_refl _) Bx). cbv beta in J.
    destruct (yield_rhs d q 1 [1e9]%R [50]%R 1770 132.14 3 298.15 [0] y) as [r|]; [exists r; reflexivity | discriminate]. }
  destruct Ho as ([dy [soa size]] & Ho).
  exists ys, d, y0, q, y. eexists _, _, (soa, size). repeat (split; [assumption|]). split; [lra|]. split; [|split].
  - intros jac z tf y1 last Nz Pt H. unfold drifting_recorder in H. cbn [pb_y0] in H. destruct (list_eq_dec Req_EM_T z y) as [->|]; [|discriminate].
    assert (E : y1 = map (fun c => c + 5)%R y) by congruence. subst y1. split; [unfold nonneg in *; rewrite Forall_map; eapply Forall_impl; [|exact Ny]; intros c Hc; cbv beta in *; lra|].
    exists (fun _ => y). split; [reflexivity|]. split; [apply Sol|]. split; [symmetry; apply map_length|]. intros i Hi. rewrite (nth_indep (map _ _) 0%R (0 + 5)%R) by (rewrite map_length; exact Hi).
    rewrite (map_nth (fun c => c + 5)%R). replace (nth i y 0 - (nth i y 0 + 5))%R with (- (5))%R by ring. rewrite Rabs_Ropp, Rabs_pos_eq; lra.
  - assert (B := f3600_num). destruct (quotient_exact f3600 f3600 3600 1 0 B B ltac:(lia) ltac:(lia)) as [E1 E2].
    unfold record_run. rewrite E1. cbn [bind]. rewrite E2. cbn [bind]. change (Z.of_nat 1 <? 0)%Z with false. cbv iota. change (Z.to_nat (Z.of_nat 1)) with 1. cbn [record_loop].
    rewrite (bltb_num fzero f3600 0 3600 0 (fzero_num 0) B). change (0 <? 3600)%Z with true. cbv iota.
    rewrite (beqb_num fzero 0 0 (fzero_num 0)). change (0 =? 0)%Z with true. cbv iota. cbn [bind].
    unfold drifting_recorder at 1. cbn [pb_y0]. destruct (list_eq_dec Req_EM_T y y) as [_|F]; [|congruence]. cbn [bind].
    unfold yield_observe at 1. rewrite Ho. cbn [bind snd].
    assert (FA := fadd_exact fzero f3600 0 3600 0 (fzero_num 0) B ltac:(cbn; lia) ltac:(lia) ltac:(cbn [bpow]; rewrite Rmult_1_r; apply small_int_bound; cbn; lia)).
    assert (E3 : Bltb (fadd fzero f3600) f3600 = false) by (rewrite (bltb_num _ _ _ _ _ FA B); reflexivity).
    rewrite E3. cbn [bind fst snd repeat]. reflexivity.
  - reflexivity.
Qed.

(* The gas and particle model: the run of C73_hypotheses, whose integrator is off
   by nothing, and so by at most any delta. *)
Lemma self_integrator_off f rhs w c0 delta : (0 <= delta)%R -> error_free_recording f rhs (self_integrator w c0) -> off_by_recording delta f rhs (self_integrator w c0).
Proof.
  intros Pd HE jac y0 tf y1 last N0 Pt H. destruct (HE _ _ _ _ _ H) as (u & U0 & U1 & U). split.
  - unfold self_integrator in H. cbn [pb_y0] in H. destruct y0 as [|a [|b [|w' [|c' [|]]]]]; try discriminate.
    destruct (Rle_dec 0 a) as [Pa|]; [|discriminate]. destruct (Rle_dec 0 b) as [Pb|]; [|discriminate]. destruct (Req_EM_T w' w) as [->|]; [|discriminate]. destruct (Req_EM_T c' c0) as [->|]; [|discriminate].
    cbv zeta in H. assert (E : y1 = with_water w c0 (self_solution a b (B2R tf))) by congruence. rewrite E. unfold nonneg in *. apply Forall_app. split; [apply self_nonneg; assumption|].
    exact (Forall_inv_tail (Forall_inv_tail N0)).
  - exists u. split; [exact U0|]. split; [exact U|]. rewrite U1. split; [reflexivity|]. intros i _. unfold Rminus. rewrite Rplus_opp_r, Rabs_R0. exact Pd.
Qed.
Example C92_aerosol_hypotheses : exists st d q p1 w c0 y_cond ts row o,
  extract_mechanism (ParseShow.show self_words) = Ok (1%Z, st) /\ aerosol_setup st 2 [] [] (-6) 298.15 1 [1e9]%R [50]%R 1770 132.14 3 d q /\
  is_call st 1 1 None None None (self_call p1 st) /\ tame_rates self_mech self_expr 1e17 298.15 /\
  off_by_recording 5 (fun t y => aerosol_dydt st 1 (fun x => x) 1e17 298.15 d q 1 [1e9]%R [50]%R 1770 132.14 3 (self_call p1 st) (B2R f43200 + t)%R y)
    (aerosol_dydt_func st 1 (fun x => x) 1e17 298.15 d q 1 [1e9]%R [50]%R 1770 132.14 3 (fun _ _ => self_call p1 st) f43200) (self_integrator w c0) /\
  aerosol_simulation st 1 (fun x => x) 1e17 298.15 d q 1 [1e9]%R [50]%R 1770 132.14 3 (self_integrator w c0) (fun _ _ => Err ValueError)
    (fun _ _ => self_call p1 st) f43200 (d_sp2a d) [(s_ "CH3O2", 20%R); (s_ "H2O", w)] y_cond f3600 f3600 = Ok (ts, [row], [o]).
Proof.
  destruct C73_hypotheses as (st & d & q & p1 & w & y_cond & ts & row & soa & size & _ & _ & _ & Hst & AS & Hcall & _ & _ & _ & _ & HE & _ & _ & Hrun & _).
  exists st, d, q, p1, w. eexists _, y_cond, ts, row, (soa, size). split; [exact Hst|]. split; [exact AS|]. split; [exact Hcall|]. split; [apply self_tame; lra|].
  split; [apply self_integrator_off; [lra | exact HE] | exact Hrun].
Qed.

Print Assumptions C92_gas_partial. Print Assumptions C92_yield. Print Assumptions C92_aerosol_partial.
