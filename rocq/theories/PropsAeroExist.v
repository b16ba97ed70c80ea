(* C91: the equations of the aerosol models have exactly one solution. *)
From Coq Require Import String List Bool Arith Lia ZArith QArith Reals Qreals Lra Permutation Sorted.
From Flocq Require Import Core BinarySingleNaN.
From Verif Require Import Base PyStr PyDict ModelParse SpecMech ParseStruct ParseTables ParseWritten ParseShow PropsParse
  ModelLang ModelGen ModelRhs SpecKin LangFacts GenReact GenLossGain GenParsed GenSparse PropsKin PropsRhs
  ModelOmp ModelExpr ModelRate ModelRateFile SpecRate RateExpr PropsRate ModelRateBody ModelRateRun RateSym
  SpecRateValue SpecMcmEnv PropsRateValue ModelRo2 SpecRo2 PropsRo2 ModelGas SpecGas PropsGas PropsGasJac
  ModelSolver SpecSolver SolverFacts OdeFacts PropsSolver ModelSplit PropsSplit SpecMethod PropsMethod SpecTraj OdeSign PropsTraj
  OdeNear ModelPart SpecPart PartFacts PartValue PropsPart PartBounds ModelAero SpecAero PropsAero PropsAeroRun PropsAeroChem AeroPull GasFortran
  AeroFacts ModelSpecies SpecSpecies PropsSpecies ModelYield PropsYield ModelAeroRun SpecAeroRun PropsAeroTraj PropsYieldTraj
  OdeClose GasFlow SpecSun SpecTroe SpecTame TameFacts PropsTame PropsUnique OdePicard OdeExist SunPieces TameFlow PropsExist OdeBox PartLip AeroExist.
Import ListNotations.
Import Coq.Lists.List.
Open Scope nat_scope.
Open Scope list_scope.
Local Arguments eqb : simpl never.

Lemma all_amount n y : amount_of (map (fun i => (1%R, i)) (seq 0 n)) y = rsum (map (fun i => nth i y 0%R) (seq 0 n)).
Proof. unfold amount_of. rewrite map_map. apply rsum_ext. intros i _. cbn [fst snd]. ring. Qed.
Lemma part_of_sum (f : nat -> R) l j : (forall k, In k l -> (0 <= f k)%R) -> In j l -> (f j <= rsum (map f l))%R.
Proof.
  intros Pf. induction l as [|k l IH]; [intros []|]. assert (0 <= rsum (map f l))%R by (apply rsum_nonneg; intros v Hv; apply in_map_iff in Hv as (k' & <- & Hk); apply Pf; right; exact Hk).
  assert (Z := Pf k (or_introl eq_refl)). cbn [map]. change (rsum (f k :: map f l)) with (f k + rsum (map f l))%R. intros [->|Hj]; [lra|]. specialize (IH (fun i Hi => Pf i (or_intror Hi)) Hj). lra.
Qed.
Lemma nonneg_nth y i : nonneg y -> (0 <= nth i y 0)%R.
Proof. intros N. destruct (Nat.lt_ge_cases i (List.length y)) as [G|G]; [unfold nonneg in N; rewrite Forall_forall in N; apply N, nth_In, G | rewrite nth_overflow by exact G; lra]. Qed.
Lemma sum_at_most n A y : (0 <= A)%R -> (forall i, i < n -> (nth i y 0 <= A)%R) -> (rsum (map (fun i => nth i y 0) (seq 0 n)) <= INR n * A)%R.
Proof.
  intros PA. induction n as [|n IH]; intros H; [cbn; lra|]. rewrite seq_S, map_app, rsum_app, S_INR. specialize (IH (fun i Hi => H i (Nat.lt_lt_succ_r _ _ Hi))).
  assert (X := H n (Nat.lt_succ_diag_r n)). cbn. lra.
Qed.
Lemma dist1_close n u v delta : (forall i, i < n -> (Rabs (nth i u 0 - nth i v 0) <= delta)%R) -> (dist1 n u v <= INR n * delta)%R.
Proof.
  unfold dist1. induction n as [|n IH]; intros H; [cbn; lra|]. rewrite seq_S, map_app, rsum_app, S_INR. specialize (IH (fun i Hi => H i (Nat.lt_lt_succ_r _ _ Hi))).
  assert (X := H n (Nat.lt_succ_diag_r n)). cbn. lra.
Qed.
Lemma dist1_part n u v i : i < n -> (Rabs (nth i u 0 - nth i v 0) <= dist1 n u v)%R.
Proof. intros Hi. apply (part_of_sum (fun j => Rabs (nth j u 0 - nth j v 0))%R); [intros k _; apply Rabs_pos | apply in_seq; lia]. Qed.

(* The exchange does not depend on the order in which the bins are worked on. *)
Lemma swap_order d temp q nb y_core nper cd cm diss b b' B t y : well_prepared d -> (0 < temp)%R -> Pure_component2 (d_nc d) (d_mw d) Rgas temp = Some q ->
  seeds nb y_core nper cd cm diss -> (forall t y, Permutation (b t y) (seq 0 nb)) -> (forall t y, Permutation (b' t y) (seq 0 nb)) -> (0 <= B)%R ->
  in_box (d_ns d + d_nc d * nb) B y -> swap d temp q nb y_core nper cd cm diss b t y = swap d temp q nb y_core nper cd cm diss b' t y.
Proof.
  intros WP Htemp Hq SD Pb Pb' HB By. destruct WP as [Hnc L1 L2 L3 Fb Nd Wnc [PD PM] Hns].
  destruct (sd_core _ _ _ _ _ _ SD) as [S1 S2], (sd_nper _ _ _ _ _ _ SD) as [S3 S4], (sd_pos _ _ _ _ _ _ SD) as (S5 & S6 & S7).
  destruct (swap_is d temp q Hnc L1 L2 L3 Fb Nd Wnc PD PM Htemp Hq nb y_core nper cd cm diss S1 S3 S2 S4 S5 S6 S7 b Pb B HB t y By) as [E L].
  destruct (swap_is d temp q Hnc L1 L2 L3 Fb Nd Wnc PD PM Htemp Hq nb y_core nper cd cm diss S1 S3 S2 S4 S5 S6 S7 b' Pb' B HB t y By) as [E' L'].
  apply nth_ext with (d := 0%R) (d' := 0%R); [congruence|]. intros i Hi. rewrite L in Hi.
  destruct (proj2 (box_exchange d temp q Hnc L1 L2 L3 Fb Nd Wnc PD PM Htemp Hq nb y_core nper cd cm diss S1 S3 S2 S4 S5 S6 S7 B HB) i Hi) as (g & _ & Eg).
  rewrite (Eg (b t y) y _ (Pb t y) By E), (Eg (b' t y) y _ (Pb' t y) By E'). reflexivity.
Qed.
Lemma joined_order d temp q nb y_core nper cd cm diss b b' G B t y : well_prepared d -> (0 < temp)%R -> Pure_component2 (d_nc d) (d_mw d) Rgas temp = Some q ->
  seeds nb y_core nper cd cm diss -> (forall t y, Permutation (b t y) (seq 0 nb)) -> (forall t y, Permutation (b' t y) (seq 0 nb)) -> (0 <= B)%R ->
  in_box (d_ns d + d_nc d * nb) B y -> joined d temp q nb y_core nper cd cm diss b G t y = joined d temp q nb y_core nper cd cm diss b' G t y.
Proof. intros WP Ht Hq SD Pb Pb' HB By. unfold joined. rewrite (swap_order d temp q nb y_core nper cd cm diss b b' B t y WP Ht Hq SD Pb Pb' HB By). reflexivity. Qed.

(* Rows of a run from one solution per batch. *)
Lemma rows_unique {I} (f : I -> R -> list R -> option (list R)) (P : I -> Prop) (good : list R -> Prop) b : (0 <= b)%R ->
  (forall y1, good y1 -> exists u, u 0%R = y1 /\ good (u b) /\ forall i, P i -> solves (f i) b u /\ forall v, v 0%R = y1 -> solves (f i) b v -> same_on b u v) ->
  forall n y1, good y1 -> exists rows, List.length rows = n /\ Forall good rows /\
    forall i, P i -> exact_rows (f i) 0 b y1 rows /\ forall rows', List.length rows' = n -> exact_rows (f i) 0 b y1 rows' -> rows' = rows.
Proof.
  intros Pb H. induction n as [|n IH]; intros y1 Gy.
  - exists []. split; [reflexivity|]. split; [constructor|]. intros i Pi. split; [apply exact_none|]. intros [|? ?] L; [reflexivity | discriminate].
  - destruct (H y1 Gy) as (u & U0 & Gu & U). destruct (IH (u b) Gu) as (rows & L & Gr & X). exists (u b :: rows). split; [cbn; lia|]. split; [constructor; assumption|]. intros i Pi.
    destruct (U i Pi) as [Ui Uq]. destruct (X i Pi) as [Xi Xq]. split.
    + rewrite <- U0. apply exact_more; [reflexivity | | exact Xi]. eapply solves_ext; [|exact Ui]. intros t _. cbv beta. rewrite Rplus_0_l. reflexivity.
    + intros rows' L' X'. inversion X' as [|v y2 rows1 V1 V X1]; subst; [discriminate|].
      assert (Q : v b = u b) by (symmetry; apply (Uq v); [congruence | | lra]; eapply solves_ext; [|exact V]; intros t _; cbv beta; rewrite Rplus_0_l; reflexivity).
      rewrite Q in *. f_equal. apply Xq; [cbn in L'; lia | exact X1].
Qed.
Lemma record_exact {O} f (simulate : recording_solver (list R)) rhs jac (observe : b64 -> list R -> res O) sim b zr zo : (0 < B2R b)%R -> error_free_recording f rhs simulate ->
  forall rows total y out ts ys os, (out = None /\ total = fzero \/ exists o, out = Some o /\ Bltb fzero total = true /\ Beqb total fzero = false) ->
  record_loop simulate rhs jac observe sim b zr zo rows total y out = Ok (ts, ys, os) ->
  exact_rows f 0 (B2R b) (match out with Some o => o | None => y end) (firstn (List.length ts) ys).
Proof.
  intros Pb HE. induction rows as [|rows IH]; intros total y out ts ys os Ho H; cbn [record_loop] in H; destruct (Bltb total sim).
  - apply bind_Ok in H as (y0 & _ & H). apply bind_Ok in H as ([y1 [t z]] & _ & H). apply bind_Ok in H as (o1 & _ & H). discriminate.
  - injection H as <- _ _. apply exact_none.
  - apply bind_Ok in H as (y0 & H0 & H). apply bind_Ok in H as ([y1 [t z]] & H1 & H). apply bind_Ok in H as (o1 & H2 & H). apply bind_Ok in H as ([[ts' ys'] os'] & H3 & H).
    injection H as <- <- _. cbn [fst snd List.length firstn].
    assert (E0 : y0 = match out with Some o => o | None => y end).
    { destruct Ho as [[-> ->]|(o & -> & _ & Z)]; [injection H0 as <-; reflexivity|]. rewrite Z in H0. injection H0 as <-. reflexivity. }
    rewrite <- E0. destruct (HE _ y0 b y1 _ H1) as (u & U0 & U1 & U). rewrite <- U0.
    apply exact_more; [exact U1 | eapply solves_ext; [|exact U]; intros x _; cbv beta; rewrite Rplus_0_l; reflexivity|].
    apply (IH (fadd total b) y0 (Some y1) ts' ys' os'); [|exact H3]. right. exists y1. split; [reflexivity|].
    apply and_comm, fadd_positive; [exact Pb|]. destruct Ho as [[_ ->]|(o & _ & Z & _)]; [right; reflexivity | left; exact Z].
  - injection H as <- _ _. apply exact_none.
Qed.
Lemma run_exact {O} f (simulate : recording_solver (list R)) rhs jac (observe : b64 -> list R -> res O) sim b zr zo y0 ts ys os : (0 < B2R b)%R -> error_free_recording f rhs simulate ->
  record_run simulate rhs jac observe sim b zr zo y0 = Ok (ts, ys, os) -> exact_rows f 0 (B2R b) y0 (firstn (List.length ts) ys).
Proof.
  intros Pb HE H. unfold record_run in H. apply bind_Ok in H as (x & _ & H). apply bind_Ok in H as (z & _ & H). destruct (z <? 0)%Z; [discriminate|].
  exact (record_exact f simulate rhs jac observe sim b zr zo Pb HE _ fzero y0 None ts ys os (or_introl (conj eq_refl eq_refl)) H).
Qed.

Section Yield.
Context (d : prepared) (temp : R) (q : pc2) (WP : well_prepared d) (Htemp : (0 < temp)%R) (Hq : Pure_component2 (d_nc d) (d_mw d) Rgas temp = Some q).
Context (nb : nat) (y_core nper : list R) (core_density core_mw diss : R) (SD : seeds nb y_core nper core_density core_mw diss).
Context (bins : R -> list R -> list nat) (PB : forall t y, Permutation (bins t y) (seq 0 nb)).
Notation n := (d_ns d + d_nc d * nb).
Notation f := (fun t y => option_map fst (yield_rhs d q nb y_core nper core_density core_mw diss temp (bins t y) y)).
Notation all := (map (fun i => (1%R, i)) (seq 0 n)).

Lemma yield_exchange b y : option_map fst (yield_rhs d q nb y_core nper core_density core_mw diss temp b y) = exchange d temp q nb y_core nper core_density core_mw diss b y.
Proof.
  unfold yield_rhs, exchange. destruct (partition_inputs d q y_core nper core_density core_mw diss temp y) as [inp|]; [|reflexivity]. cbn [obind].
  destruct (dydt_partition _ _ _ _ inp b) as [[[[soa aw] size] dy]|]; [|reflexivity]. cbn [obind option_map fst snd]. rewrite map_add0. reflexivity.
Qed.

(* Solutions stay in the box whose side is the amount of all material. *)
Lemma yield_in_box T u B : (0 <= T)%R -> solves f T u -> List.length (u 0%R) = n -> nonneg (u 0%R) -> (amount_of all (u 0%R) <= B)%R ->
  forall t, (0 <= t <= T)%R -> in_box n B (u t).
Proof.
  intros PT Hs Lu N0 Hall. destruct WP as [Hnc L1 L2 L3 Fb Nd Wnc [PD PM] Hns].
  destruct (sd_core _ _ _ _ _ _ SD) as [S1 S2], (sd_nper _ _ _ _ _ _ SD) as [S3 S4], (sd_pos _ _ _ _ _ _ SD) as (S5 & S6 & S7).
  destruct (exchange_pull d temp q Hnc L1 L2 L3 Fb Nd Wnc PD PM Htemp Hq nb y_core nper core_density core_mw diss S1 S3 S2 S4 S5 S6 S7) as (eps & Pe & HX).
  assert (Lt : forall t, (0 <= t <= T)%R -> List.length (u t) = n) by (intros t Ht; rewrite (proj1 (proj1 Hs t Ht)); exact Lu).
  assert (NN : forall t, (0 <= t <= T)%R -> nonneg (u t)).
  { apply (solution_nonneg_near _ T u eps PT Hs Pe); [|exact N0]. intros M HM. rewrite Lu. destruct (HX M HM) as (K & _ & X). exists K.
    intros t y dy Ht Ly By Hy. rewrite yield_exchange in Hy. apply (X (bins t y)); [apply PB | exact Ly | exact By | exact Hy]. }
  intros t Ht. split; [apply Lt, Ht|]. intros i Hi. split; [apply nonneg_nth, NN, Ht|].
  assert (Cj : amount_of all (u t) = amount_of all (u 0%R)).
  { apply (solution_conserves _ T u _ PT Hs); [| |exact Ht].
    - rewrite Lu. apply Forall_forall. intros a Ha. apply in_map_iff in Ha as (k & <- & Hk). apply in_seq in Hk. cbn [snd]. lia.
    - intros t' dd Ht' Hdd. rewrite yield_exchange in Hdd. rewrite all_amount.
      apply (exchange_total d temp q Hnc L1 L2 L3 Fb Nd Wnc PD PM Htemp Hq nb y_core nper core_density core_mw diss S1 S3 S2 S4 S5 S6 S7 (bins t' (u t')) (u t')); [apply PB | apply Lt, Ht' | exact Hdd]. }
  apply Rle_trans with (2 := Hall). rewrite <- Cj, all_amount. apply (part_of_sum (fun i => nth i (u t) 0%R)); [intros k _; apply nonneg_nth, NN, Ht | apply in_seq; lia].
Qed.

Let none (t : R) (y : list R) : list R := repeat 0%R n.
Lemma joined_swap T B t y : (0 <= B)%R -> (0 <= T)%R -> in_box n B y ->
  f t y = Some (joined d temp q nb y_core nper core_density core_mw diss bins none t y).
Proof.
  intros HB HT By. destruct WP as [Hnc L1 L2 L3 Fb Nd Wnc [PD PM] Hns].
  destruct (sd_core _ _ _ _ _ _ SD) as [S1 S2], (sd_nper _ _ _ _ _ _ SD) as [S3 S4], (sd_pos _ _ _ _ _ _ SD) as (S5 & S6 & S7).
  destruct (swap_is d temp q Hnc L1 L2 L3 Fb Nd Wnc PD PM Htemp Hq nb y_core nper core_density core_mw diss S1 S3 S2 S4 S5 S6 S7 bins PB B HB t y By) as [E L].
  rewrite yield_exchange, E. f_equal. apply nth_ext with (d := 0%R) (d' := 0%R); [unfold joined; rewrite map_length, seq_length; exact L|].
  intros i Hi. rewrite L in Hi. rewrite joined_nth by exact Hi. unfold none. rewrite nth_repeat. ring.
Qed.

Lemma none_lip T i : ulip n (fun t => 0 <= t <= T)%R (fun t y => nth i (none t y) 0%R).
Proof. unfold none. eapply ulip_ext; [|apply (ulip_const _ _ 0%R)]. intros t y _ _. rewrite nth_repeat. reflexivity. Qed.

Lemma yield_exists T y1 : (0 <= T)%R -> List.length y1 = n -> nonneg y1 -> exists u, u 0%R = y1 /\ solves f T u /\ forall t, (0 <= t <= T)%R -> nonneg (u t).
Proof.
  intros HT Ly Ny. assert (WP' := WP). destruct WP' as [Hnc L1 L2 L3 Fb Nd Wnc [PD PM] Hns].
  destruct (sd_core _ _ _ _ _ _ SD) as [S1 S2], (sd_nper _ _ _ _ _ _ SD) as [S3 S4], (sd_pos _ _ _ _ _ _ SD) as (S5 & S6 & S7).
  set (B := amount_of all y1). assert (HB : (0 <= B)%R).
  { unfold B. rewrite all_amount. apply rsum_nonneg. intros x Hx. apply in_map_iff in Hx as (i & <- & _). apply nonneg_nth, Ny. }
  destruct (joined_exists d temp q Hnc L1 L2 L3 Fb Nd Wnc PD PM Htemp Hq nb y_core nper core_density core_mw diss S1 S3 S2 S4 S5 S6 S7 none bins PB T B HT HB (fun i _ => none_lip T i) y1 [all] Ly Ny)
    as (u & U0 & U & BX).
  - apply pieces_one; [exact HT|]. exists none. split; [|intros; reflexivity]. intros i Hi. split; [apply none_lip|].
    eapply flow_ext; [|apply (flow_const n 0%R)]. intros t y _. unfold none. rewrite nth_repeat. reflexivity.
  - intros t y i _ _ _ _. unfold none. rewrite nth_repeat. lra.
  - intros t y qq Ht By [<-|[]]. assert (E := joined_swap T B t y HB HT By). cbv beta in E. rewrite yield_exchange in E. rewrite all_amount. right.
    apply (exchange_total d temp q Hnc L1 L2 L3 Fb Nd Wnc PD PM Htemp Hq nb y_core nper core_density core_mw diss S1 S3 S2 S4 S5 S6 S7 (bins t y) y); [apply PB | apply By | exact E].
  - apply Forall_cons; [|apply Forall_nil]. apply Forall_forall. intros a Ha. apply in_map_iff in Ha as (k & <- & Hk). apply in_seq in Hk. cbn [snd]. lia.
  - intros y Ly' Ny' HQ i Hi. specialize (HQ all (or_introl eq_refl)). apply Rle_trans with (2 := HQ). rewrite all_amount.
    apply (part_of_sum (fun i => nth i y 0%R)); [intros k _; apply nonneg_nth, Ny' | apply in_seq; lia].
  - exists u. split; [exact U0|]. split.
    + eapply solves_ext; [|exact U]. intros t Ht. cbv beta. symmetry. apply (joined_swap T B); [exact HB | exact HT | apply BX, Ht].
    + intros t Ht. apply Forall_forall. intros x Hx. apply In_nth with (d := 0%R) in Hx as (i & Hi & <-). destruct (BX t Ht) as [L X]. apply X. lia.
Qed.

Lemma yield_close T A : (0 <= T)%R -> (0 <= A)%R -> exists C, (0 <= C)%R /\ forall u v, solves f T u -> solves f T v ->
  List.length (u 0%R) = n -> List.length (v 0%R) = n -> nonneg (u 0%R) -> nonneg (v 0%R) -> (forall i, i < n -> (nth i (u 0%R) 0 <= A /\ nth i (v 0%R) 0 <= A)%R) ->
  forall t, (0 <= t <= T)%R -> (dist1 n (u t) (v t) <= C * dist1 n (u 0%R) (v 0%R))%R.
Proof.
  intros HT PA. assert (WP' := WP). destruct WP' as [Hnc L1 L2 L3 Fb Nd Wnc [PD PM] Hns].
  destruct (sd_core _ _ _ _ _ _ SD) as [S1 S2], (sd_nper _ _ _ _ _ _ SD) as [S3 S4], (sd_pos _ _ _ _ _ _ SD) as (S5 & S6 & S7).
  assert (HB : (0 <= INR n * A)%R) by (apply Rmult_le_pos; [apply pos_INR | exact PA]).
  destruct (joined_close d temp q Hnc L1 L2 L3 Fb Nd Wnc PD PM Htemp Hq nb y_core nper core_density core_mw diss S1 S3 S2 S4 S5 S6 S7 none bins PB T (INR n * A)%R HT HB (fun i _ => none_lip T i)) as (C & PC & H).
  exists C. split; [exact PC|]. intros u v U V Lu Lv Nu Nv HA. apply (H f u v U V).
  - apply yield_in_box; try assumption. rewrite all_amount. apply sum_at_most; [exact PA | intros i Hi; apply HA, Hi].
  - apply yield_in_box; try assumption. rewrite all_amount. apply sum_at_most; [exact PA | intros i Hi; apply HA, Hi].
  - intros t y dy Ht By E. rewrite (joined_swap T (INR n * A)%R t y HB HT By) in E. congruence.
Qed.

Lemma yield_unique T u v : (0 <= T)%R -> solves f T u -> solves f T v -> List.length (u 0%R) = n -> nonneg (u 0%R) -> u 0%R = v 0%R -> same_on T u v.
Proof.
  intros HT U V Lu Nu E t Ht. destruct (list_ceiling (u 0%R)) as (A & PA & BA). destruct (yield_close T A HT PA) as (C & PC & H).
  assert (X := H u v U V Lu (eq_trans (f_equal (@List.length R) (eq_sym E)) Lu) Nu ltac:(rewrite <- E; exact Nu) ltac:(intros i _; rewrite <- E; split; apply BA) t Ht).
  rewrite <- E, dist1_same in X. apply (dist1_zero n); [rewrite (proj1 (proj1 U t Ht)); exact Lu | rewrite (proj1 (proj1 V t Ht)), <- E; exact Lu | lra].
Qed.
End Yield.

Section YieldSetup.
Context (rd : str -> res chem) (fl : str -> res R) (rows : list (str * str)) (text : str) (cv : str -> R) (ov : str -> chem) (cutoff temp RH diss : R)
  (nb : nat) (y_core nper : list R).
Context (Hf : yield_file rows text) (Hv : forall s n, first_number rows s = Some n -> fl n = Ok (cv s) /\ rd s = Ok (ov s))
  (HC : forall s, In s (first_seen (map fst rows)) -> c_C (ov s) <> 0 /\ sensible (ov s)) (HR : RH <> 1%R).
Lemma yield_prepared cd cm ys d y0 : seeds nb y_core nper cd cm diss -> yield_setup rd fl text cutoff temp RH nb y_core diss = Ok (ys, d, y0) ->
  well_prepared d /\ List.length y0 = d_ns d + d_nc d * nb.
Proof.
  intros SD Hsetup. set (n := List.length (first_seen (map fst rows))).
  destruct (sd_core _ _ _ _ _ _ SD) as [S1 S2], (sd_nper _ _ _ _ _ _ SD) as [S3 S4].
  destruct (setup_facts rd fl rows text cv ov cutoff temp RH diss nb y_core nper Hf Hv HC HR S1 S3 ys d y0 Hsetup) as (F1 & F2 & F3 & L1 & L2 & L3 & PD & PM & _). fold n in F1, F2, F3.
  split.
  - constructor; try assumption; [rewrite F3, seq_length; exact F2 | rewrite F3, F1; apply (seq_bound nb y_core nper S1 S3) | rewrite F3; apply seq_NoDup | lia | split; assumption | lia].
  - destruct (C66_partial rd fl rows text cv ov cutoff temp RH nb y_core diss Hf Hv (fun s Hs => proj1 (HC s Hs)) HR S1) as (ys' & d' & y0' & E & _ & _ & _ & _ & _ & _ & L & _).
    rewrite Hsetup in E. injection E as _ _ <-. fold n in L. rewrite L, F1, F2. reflexivity.
Qed.
End YieldSetup.

(* C91 for the fixed-yield model: from every non-negative state there is, for any
   length of run, exactly one solution of its equations; it is non-negative, and it
   is the same whatever order the parallel loop takes at each call. *)
Theorem C91_yield rd fl rows text cv ov cutoff temp RH diss core_density core_mw nb y_core nper ys d y0 q T y1 :
  yield_file rows text -> (forall s n, first_number rows s = Some n -> fl n = Ok (cv s) /\ rd s = Ok (ov s)) ->
  (forall s, In s (first_seen (map fst rows)) -> c_C (ov s) <> 0 /\ sensible (ov s)) ->
  RH <> 1%R -> (0 < temp)%R -> seeds nb y_core nper core_density core_mw diss ->
  yield_setup rd fl text cutoff temp RH nb y_core diss = Ok (ys, d, y0) -> Pure_component2 (d_nc d) (d_mw d) Rgas temp = Some q ->
  (0 <= T)%R -> List.length y1 = List.length y0 -> nonneg y1 ->
  exists u, u 0%R = y1 /\ (forall t, (0 <= t <= T)%R -> nonneg (u t)) /\
    forall bins, (forall t y, Permutation (bins t y) (seq 0 nb)) ->
    let solution := solves (fun t y => option_map fst (yield_rhs d q nb y_core nper core_density core_mw diss temp (bins t y) y)) T in
    solution u /\ forall v, v 0%R = y1 -> solution v -> same_on T u v.
Proof.
  intros Hf Hv HC HR Htemp SD Hsetup Hq PT Ly N1. destruct (yield_prepared rd fl rows text cv ov cutoff temp RH diss nb y_core nper Hf Hv HC HR _ _ ys d y0 SD Hsetup) as [WP L0].
  rewrite L0 in Ly. set (b0 := fun (_ : R) (_ : list R) => seq 0 nb). assert (P0 : forall t y, Permutation (b0 t y) (seq 0 nb)) by (intros; apply Permutation_refl).
  destruct (yield_exists d temp q WP Htemp Hq nb y_core nper core_density core_mw diss SD b0 P0 T y1 PT Ly N1) as (u & U0 & U & Nu).
  assert (Lu : List.length (u 0%R) = d_ns d + d_nc d * nb) by (rewrite U0; exact Ly). assert (Nu0 : nonneg (u 0%R)) by (rewrite U0; exact N1).
  exists u. split; [exact U0|]. split; [exact Nu|]. intros bins PB solution.
  assert (Us : solution u).
  { set (B := amount_of (map (fun i => (1%R, i)) (seq 0 (d_ns d + d_nc d * nb))) (u 0%R)).
    assert (HB : (0 <= B)%R) by (unfold B; rewrite all_amount; apply rsum_nonneg; intros x Hx; apply in_map_iff in Hx as (i & <- & _); apply nonneg_nth, Nu0).
    eapply solves_ext; [|exact U]. intros t Ht. cbv beta.
    assert (Bx := yield_in_box d temp q WP Htemp Hq nb y_core nper core_density core_mw diss SD b0 P0 T u B PT U Lu Nu0 (Rle_refl _) t Ht).
    etransitivity; [apply (joined_swap d temp q WP Htemp Hq nb y_core nper core_density core_mw diss SD b0 P0 T B t (u t) HB PT Bx)|].
    rewrite (joined_order d temp q nb y_core nper core_density core_mw diss b0 bins _ B t (u t) WP Htemp Hq SD P0 PB HB Bx). symmetry.
    apply (joined_swap d temp q WP Htemp Hq nb y_core nper core_density core_mw diss SD bins PB T B t (u t) HB PT Bx). }
  split; [exact Us|]. intros v V0 V. apply (yield_unique d temp q WP Htemp Hq nb y_core nper core_density core_mw diss SD bins PB T u v PT Us V Lu Nu0). congruence.
Qed.

(* Whole runs: the rows of an integrator without error are determined, whatever
   order the parallel loop takes. *)
Theorem C91_yield_rows rd fl rows text cv ov cutoff temp RH diss core_density core_mw nb y_core nper ys d y0 q b :
  yield_file rows text -> (forall s n, first_number rows s = Some n -> fl n = Ok (cv s) /\ rd s = Ok (ov s)) ->
  (forall s, In s (first_seen (map fst rows)) -> c_C (ov s) <> 0 /\ sensible (ov s)) ->
  RH <> 1%R -> (0 < temp)%R -> seeds nb y_core nper core_density core_mw diss ->
  yield_setup rd fl text cutoff temp RH nb y_core diss = Ok (ys, d, y0) -> Pure_component2 (d_nc d) (d_mw d) Rgas temp = Some q -> (0 < B2R b)%R ->
  let equations := fun bins t y => option_map fst (yield_rhs d q nb y_core nper core_density core_mw diss temp (bins t y) y) in
  (forall n y1, List.length y1 = List.length y0 -> nonneg y1 -> exists rws, List.length rws = n /\ Forall nonneg rws /\
     forall bins, (forall t y, Permutation (bins t y) (seq 0 nb)) -> exact_rows (equations bins) 0 (B2R b) y1 rws /\
       forall rws', List.length rws' = n -> exact_rows (equations bins) 0 (B2R b) y1 rws' -> rws' = rws) /\
  forall bins rbins simulate jac sim zr zo ts ys' os,
    error_free_recording (equations rbins) (yield_dydt d q nb y_core nper core_density core_mw diss temp bins) simulate ->
    record_run simulate (yield_dydt d q nb y_core nper core_density core_mw diss temp bins) jac
      (yield_observe d q nb y_core nper core_density core_mw diss temp bins) sim b zr zo y0 = Ok (ts, ys', os) ->
    exact_rows (equations rbins) 0 (B2R b) y0 (firstn (List.length ts) ys').
Proof.
  intros Hf Hv HC HR Htemp SD Hsetup Hq Pb equations. split.
  - intros n y1 Ly Ny. destruct (rows_unique equations (fun bins => forall t y, Permutation (bins t y) (seq 0 nb)) (fun y => List.length y = List.length y0 /\ nonneg y) (B2R b) ltac:(lra)) with (n := n) (y1 := y1) as (rws & L & Gr & X).
    + intros z [Lz Nz]. destruct (C91_yield rd fl rows text cv ov cutoff temp RH diss core_density core_mw nb y_core nper ys d y0 q (B2R b) z Hf Hv HC HR Htemp SD Hsetup Hq ltac:(lra) Lz Nz) as (u & U0 & Nu & U).
      exists u. split; [exact U0|]. split; [|exact U]. split; [|apply Nu; lra].
      destruct (U (fun _ _ => seq 0 nb) (fun _ _ => Permutation_refl _)) as [Us _]. rewrite (proj1 (proj1 Us (B2R b) ltac:(lra))), U0. exact Lz.
    + split; assumption.
    + exists rws. split; [exact L|]. split; [|exact X]. eapply Forall_impl; [|exact Gr]. intros z [_ Nz]. exact Nz.
  - intros bins rbins simulate jac sim zr zo ts ys' os HE H. exact (run_exact _ _ _ _ _ _ _ _ _ _ _ _ _ Pb HE H).
Qed.

(* Close starts give close solutions: the distance grows by a factor that depends
   on the size of the start and the length of the run only. *)
Theorem C91_yield_stable rd fl rows text cv ov cutoff temp RH diss core_density core_mw nb y_core nper ys d y0 q bins T A :
  yield_file rows text -> (forall s n, first_number rows s = Some n -> fl n = Ok (cv s) /\ rd s = Ok (ov s)) ->
  (forall s, In s (first_seen (map fst rows)) -> c_C (ov s) <> 0 /\ sensible (ov s)) ->
  RH <> 1%R -> (0 < temp)%R -> seeds nb y_core nper core_density core_mw diss ->
  yield_setup rd fl text cutoff temp RH nb y_core diss = Ok (ys, d, y0) -> Pure_component2 (d_nc d) (d_mw d) Rgas temp = Some q ->
  (forall t y, Permutation (bins t y) (seq 0 nb)) -> (0 <= T)%R -> (0 <= A)%R ->
  exists C, (0 <= C)%R /\ forall u v delta,
    let good_start := fun x : R -> list R => List.length (x 0%R) = List.length y0 /\ Forall (fun c => 0 <= c <= A)%R (x 0%R) in
    let solution := solves (fun t y => option_map fst (yield_rhs d q nb y_core nper core_density core_mw diss temp (bins t y) y)) T in
    good_start u -> good_start v -> solution u -> solution v ->
    (forall i, i < List.length y0 -> (Rabs (nth i (u 0%R) 0 - nth i (v 0%R) 0) <= delta)%R) ->
    forall t i, (0 <= t <= T)%R -> i < List.length y0 -> (Rabs (nth i (u t) 0 - nth i (v t) 0) <= C * delta)%R.
Proof.
  intros Hf Hv HC HR Htemp SD Hsetup Hq PB PT PA. destruct (yield_prepared rd fl rows text cv ov cutoff temp RH diss nb y_core nper Hf Hv HC HR _ _ ys d y0 SD Hsetup) as [WP L0].
  destruct (yield_close d temp q WP Htemp Hq nb y_core nper core_density core_mw diss SD bins PB T A PT PA) as (C & PC & H).
  exists (C * INR (List.length y0))%R. split; [apply Rmult_le_pos; [exact PC | apply pos_INR]|]. intros u v delta good_start solution [Lu Gu] [Lv Gv] U V Hd t i Ht Hi.
  rewrite Forall_forall in Gu, Gv. assert (X := H u v U V). rewrite <- L0 in X. specialize (X Lu Lv).
  assert (Nu : nonneg (u 0%R)) by (apply Forall_forall; intros x Hx; apply Gu, Hx). assert (Nv : nonneg (v 0%R)) by (apply Forall_forall; intros x Hx; apply Gv, Hx).
  specialize (X Nu Nv). eapply Rle_trans; [apply dist1_part, Hi|]. eapply Rle_trans; [apply X; [|exact Ht]|].
  - intros j Hj. split; [apply Gu, nth_In; lia | apply Gv, nth_In; lia].
  - rewrite Rmult_assoc. apply Rmult_le_compat_l; [exact PC|]. apply dist1_close, Hd.
Qed.

(* ------------------------------------------------------------------ *)
(* Functions of the gas part of the state only. *)
Lemma ulip_front N n (I : R -> Prop) g : N <= n -> ulip N I g -> ulip n I (fun t y => g t (firstn N y)).
Proof.
  intros Hn H M. destruct (H M) as (L & PL & HL). exists L. split; [exact PL|].
  assert (Bf : forall y, bounded_by n M y -> bounded_by N M (firstn N y)).
  { intros y [Ly By]. split; [rewrite firstn_length; lia|]. intros i Hi. rewrite firstn_nth by exact Hi. apply By. lia. }
  intros t y y' It By By'. destruct (HL t _ _ It (Bf _ By) (Bf _ By')) as [H1 H2]. split; [exact H1|]. eapply Rle_trans; [exact H2|]. apply Rmult_le_compat_l; [exact PL|].
  unfold dist1. replace n with (N + (n - N)) by lia. rewrite seq_app, map_app, rsum_app.
  assert (0 <= rsum (map (fun j => Rabs (nth j y 0 - nth j y' 0)) (seq (0 + N) (n - N))))%R by (apply rsum_nonneg; intros v Hv; apply in_map_iff in Hv as (j & <- & _); apply Rabs_pos).
  assert (E : rsum (map (fun j => Rabs (nth j (firstn N y) 0 - nth j (firstn N y') 0))%R (seq 0 N)) = rsum (map (fun j => Rabs (nth j y 0 - nth j y' 0))%R (seq 0 N))) by (apply rsum_ext; intros j Hj; apply in_seq in Hj; rewrite !firstn_nth by lia; reflexivity).
  lra.
Qed.
Lemma firstn_seq a k N : N <= k -> firstn N (seq a k) = seq a N.
Proof. revert a N. induction k as [|k IH]; intros a [|N] H; try reflexivity; [lia|]. cbn [seq firstn]. f_equal. apply IH. lia. Qed.
Lemma flow_front N n g : N <= n -> flowing N g -> flowing n (fun t y => g t (firstn N y)).
Proof.
  intros Hn H tau p Ct Sp t. specialize (H tau p Ct Sp t). intros e He. destruct (H e He) as (dl & Pd & Hd). exists dl. split; [exact Pd|].
  assert (E : forall s, firstn N (as_list n (p s)) = as_list N (p s)) by (intros s; unfold as_list; rewrite firstn_map, firstn_seq by exact Hn; reflexivity).
  intros x Hx. rewrite !E. exact (Hd x Hx).
Qed.

Section Aerosol.
Context (m : mech) (text : str) (st : pstate) (W : written m text) (FR : fortran_ready m)
  (Hst : extract_mechanism text = Ok (Z.of_nat (List.length m), st)).
Notation N := (List.length (species m)).
Context (smiles : dict str str) (objects : dict str chem) (cutoff temp : R) (p : pc1) (d : prepared) (q : pc2).
Context (Hp : Pure_component1 N (p_sp st) (p_sp2a st) smiles objects true cutoff = Ok p).
Context (Hd : prepare N (p_sp2a st) p true temp = Ok d).
Context (Hchem : forall i x c, dget i (p_sp st) = Some x -> molecule_of smiles objects x c -> sensible c).
Context (Htemp : (0 < temp)%R) (Hq : Pure_component2 (d_nc d) (d_mw d) Rgas temp = Some q).
Context (nb : nat) (y_core nper : list R) (core_density core_mw diss : R) (SD : seeds nb y_core nper core_density core_mw diss).
Context (rnd : Q -> Q) (Hrnd : is_rounding rnd) (H2O : R) (HH : (0 <= H2O)%R) (o1 o2 o3 : option (list nat)).
Context (PC : peroxy_clean (species m)) (e : nat -> rexpr) (w : str -> R).
Context (Hwt : Forall (fun r => weight w (rhs r) <= weight w (lhs r))%R m) (Hl : w light = 0%R) (Hb : forall b, In b bath -> w b = 0%R)
  (Pp : forall s, In s (species m) -> ~ In s bath -> (0 < w s)%R).
Context (calls : R -> list R -> call) (Hcall : forall t y, is_call st (List.length m) nb o1 o2 o3 (calls t y)) (start T : R) (HT : (0 <= T)%R).
Context (k : nat -> R -> R -> R) (Hk : forall from until, regular_rates (List.length m) k from until)
  (Hc : forall t x, coefficients m e t x H2O temp (fun r => k r t x)).
Notation n := (d_ns d + d_nc d * nb).
Notation f := (fun t y => aerosol_dydt st (List.length m) rnd H2O temp d q nb y_core nper core_density core_mw diss (calls t y) (start + t)%R y).
Notation bins := (fun t y => c_bins (calls t y)).

Definition front_chem (kk : nat -> R -> R -> R) (t : R) (y : list R) : list R := generated m (rates_at m kk start t (firstn N y)) (firstn N y).
Notation G := (front_chem k).
Lemma front_length kk t y : List.length (front_chem kk t y) = N.
Proof. unfold front_chem, generated. rewrite map_length. reflexivity. Qed.
Lemma call_bins t y : Permutation (bins t y) (seq 0 nb).
Proof. apply (Hcall t y). Qed.
Lemma size_front : d_ns d = N + 1.
Proof. exact (gas_count m text st W Hst smiles objects cutoff temp p d Hp Hd). Qed.
Lemma prep : well_prepared d.
Proof. exact (prepared_here m text st W Hst smiles objects cutoff temp p d Hp Hd Hchem). Qed.

Lemma front_lip kk i : (forall from until, regular_rates (List.length m) kk from until) -> ulip n (fun t => 0 <= t <= T)%R (fun t y => nth i (front_chem kk t y) 0%R).
Proof.
  intros HR. apply (ulip_front N n _ (fun t y => nth i (generated m (rates_at m kk start t y) y) 0%R)); [assert (Z := size_front); lia|]. apply generated_ulip; [apply ready_whole, FR | apply HR].
Qed.
Lemma front_flow kk i : (forall r, r < List.length m -> flows (kk r)) -> flowing n (fun t y => nth i (front_chem kk t y) 0%R).
Proof.
  intros HR. apply (flow_front N n (fun t y => nth i (generated m (rates_at m kk start t y) y) 0%R)); [assert (Z := size_front); lia|]. apply generated_flow; [exact HR | apply ready_whole, FR].
Qed.
Lemma front_nonneg y : nonneg y -> nonneg (firstn N y).
Proof. intros Ny. unfold nonneg in *. rewrite <- (firstn_skipn N y) in Ny. apply Forall_app in Ny. apply Ny. Qed.

(* The weights: positive for every component, and no reaction adds to the sum. *)
Definition all_pos (s : str) : R := if inb s bath then 1%R else w s.
Definition stock : quantity := both_phases (by_species (species m) all_pos 1) (d_ns d) (d_nc d) nb (d_include d).
Notation sw := (slot_weight (by_species (species m) all_pos 1) (d_ns d) (d_nc d) (d_include d)).
Lemma species_weight i : (0 < by_species (species m) all_pos 1 i)%R.
Proof.
  unfold by_species, all_pos. destruct (nth_error (species m) i) as [s|] eqn:E; [|lra]. destruct (inb s bath) eqn:Eb; [lra|]. apply Pp; [apply (nth_error_In _ _ E)|].
  intros I. apply inb_In in I. congruence.
Qed.
Lemma slot_pos i : (0 < sw i)%R.
Proof. unfold slot_weight. destruct (i <? d_ns d); apply species_weight. Qed.

Lemma chem_loses t y : List.length y = n -> nonneg y -> (rsum (map (fun i => sw i * nth i (G t y) 0) (seq 0 n)) <= 0)%R.
Proof.
  intros Ly Ny. assert (Z := size_front). set (g := G t y).
  replace n with (N + (1 + d_nc d * nb)) by lia. rewrite seq_app, map_app, rsum_app.
  rewrite (rsum_zero _ (seq (0 + N) (1 + d_nc d * nb))) by (intros i Hi; apply in_seq in Hi; rewrite nth_overflow by (unfold g; rewrite front_length; lia); ring).
  rewrite Rplus_0_r. eapply Rle_trans; [right | apply (generated_loses m w (rates_at m k start t (firstn N y)) (firstn N y)); try assumption; [apply (ready_safe m FR) | apply rates_at_length | | apply front_nonneg, Ny]].
  - change (generated m (rates_at m k start t (firstn N y)) (firstn N y)) with g. unfold amount_of, atoms. rewrite map_map. cbn [fst snd].
    destruct (interp_species m) as (_ & -> & _ & _).
    assert (Q : forall (l : list str) kx, (forall i, i < List.length l -> nth_error (species m) (kx + i) = nth_error l i) -> kx + List.length l <= N ->
      rsum (map (fun i => sw i * nth i g 0)%R (seq kx (List.length l))) = rsum (map (fun x => w (fst x) * nth (snd x) g 0)%R (combine l (seq kx (List.length l))))).
    { induction l as [|s l IH]; intros kx Hk' Hl'; [reflexivity|]. cbn [List.length seq map combine rsum fold_right fst snd] in *. f_equal.
      - unfold slot_weight. rewrite !(proj2 (Nat.ltb_lt _ _)) by lia. unfold by_species. assert (Q := Hk' 0 ltac:(lia)). rewrite Nat.add_0_r in Q. rewrite Q. cbn [nth_error]. unfold all_pos.
        destruct (inb s bath) eqn:Eb; [|reflexivity]. apply inb_In in Eb. unfold g, front_chem. rewrite (generated_bath m _ _ kx s Q Eb). ring.
      - apply IH; [|lia]. intros i Hi. replace (Datatypes.S kx + i) with (kx + Datatypes.S i) by lia. apply (Hk' (Datatypes.S i)). lia. }
    apply (Q (species m) 0); [reflexivity | lia].
  - apply (rates_at_nonneg m k (start + t) (start + t)); [apply Hk | lra | apply front_nonneg, Ny].
Qed.

Definition side (A0 : R) : R := rsum (map (fun i => A0 / sw i)%R (seq 0 n)).
Lemma side_nonneg A0 : (0 <= A0)%R -> (0 <= side A0)%R.
Proof. intros P. apply rsum_nonneg. intros x Hx. apply in_map_iff in Hx as (i & <- & _). apply Rmult_le_pos; [exact P | left; apply Rinv_0_lt_compat, slot_pos]. Qed.
Lemma stock_nonneg y : nonneg y -> (0 <= amount_of stock y)%R.
Proof. intros Ny. unfold stock. rewrite both_phases_amount. apply rsum_nonneg. intros x Hx. apply in_map_iff in Hx as (i & <- & _). apply Rmult_le_pos; [left; apply slot_pos | apply nonneg_nth, Ny]. Qed.
Lemma stock_box y A0 : List.length y = n -> nonneg y -> (amount_of stock y <= A0)%R -> in_box n (side A0) y.
Proof.
  intros Ly Ny HA. assert (P0 := stock_nonneg y Ny). split; [exact Ly|]. intros i Hi. split; [apply nonneg_nth, Ny|].
  assert (Pi : (sw i * nth i y 0 <= amount_of stock y)%R).
  { unfold stock. rewrite both_phases_amount. apply (part_of_sum (fun i => sw i * nth i y 0)%R); [|apply in_seq; lia]. intros j _. apply Rmult_le_pos; [left; apply slot_pos | apply nonneg_nth, Ny]. }
  apply Rle_trans with (A0 / sw i)%R.
  - apply Rmult_le_reg_l with (sw i); [apply slot_pos|]. replace (sw i * (A0 / sw i))%R with A0 by (field; assert (Z := slot_pos i); lra). lra.
  - unfold side. apply (part_of_sum (fun i => A0 / sw i)%R); [|apply in_seq; lia]. intros j _. apply Rmult_le_pos; [lra | left; apply Rinv_0_lt_compat, slot_pos].
Qed.
Lemma stock_range : Forall (fun a => snd a < n) stock.
Proof. apply both_phases_range. Qed.

(* On a box the driver's equations run and are chemistry plus exchange. *)
Notation J := (joined d temp q nb y_core nper core_density core_mw diss bins G).
Lemma dydt_joined B t y : (0 <= B)%R -> in_box n B y -> f t y = Some (J t y).
Proof.
  intros HB By. assert (WP := prep). destruct WP as [Hnc L1 L2 L3 Fb Nd Wnc [PD PM] Hns].
  destruct (sd_core _ _ _ _ _ _ SD) as [S1 S2], (sd_nper _ _ _ _ _ _ SD) as [S3 S4], (sd_pos _ _ _ _ _ _ SD) as (S5 & S6 & S7).
  destruct (swap_is d temp q Hnc L1 L2 L3 Fb Nd Wnc PD PM Htemp Hq nb y_core nper core_density core_mw diss S1 S3 S2 S4 S5 S6 S7 bins call_bins B HB t y By) as [E L].
  assert (Ly := proj1 By). assert (Z := size_front). assert (Hne : species m <> []) by (destruct PC as ((s & Hin & _) & _); destruct (species m); [destruct Hin | discriminate]).
  assert (Eg : aerosol_gas st (List.length m) rnd H2O temp (calls t y) (start + t)%R y (firstn N y) = Some (G t y)).
  { destruct (Hcall t y) as ((p1 & C1 & C2) & C3 & C4 & C5).
    assert (Q := generated_fortran m text st W FR Hst Hne e o1 o2 o3 p1 _ _ _ rnd (c_a0 (calls t y)) (c_m0 (calls t y)) (start + t)%R 0%R H2O temp y
      (fun r => k r (start + t)%R (peroxy_total (species m) (conc_of (p_sp2a st) (firstn N y)))) PC C1 C2 C3 C4 Hrnd Htemp HH ltac:(lia)).
    cbv zeta in Q. rewrite Rplus_0_r in Q. specialize (Q (Hc _ _)). unfold aerosol_gas. rewrite Q. unfold front_chem, rates_at. rewrite (is_interp m text st W Hst). reflexivity. }
  assert (Ex : exists dy, f t y = Some dy).
  { unfold aerosol_dydt, aerosol_rhs. rewrite Z, Nat.add_sub, Eg. cbn [obind]. rewrite front_length, Nat.eqb_refl. cbn [negb]. unfold exchange in E. rewrite Z in E.
    destruct (partition_inputs d q y_core nper core_density core_mw diss temp y) as [inp|]; [|discriminate]. cbn [obind] in E |- *.
    destruct (dydt_partition _ _ _ _ inp (bins t y)) as [r|]; [|discriminate]. cbn [obind]. eexists. reflexivity. }
  destruct Ex as (dy & Ed). rewrite Ed. f_equal.
  destruct (dydt_split m text st W Hst smiles objects cutoff temp p d q Hp Hd Hchem nb y_core nper core_density core_mw diss SD rnd H2O o1 o2 o3 _ _ y dy (Hcall t y) Ly Ed) as (g & ex & G1 & G2 & G3 & G4 & G5 & G6).
  rewrite Eg in G1. assert (g = G t y) by congruence. subst g. cbv beta in E. rewrite E in G3. assert (Ee : swap d temp q nb y_core nper core_density core_mw diss bins t y = ex) by congruence.
  apply nth_ext with (d := 0%R) (d' := 0%R); [rewrite G5; unfold joined; rewrite map_length, seq_length; reflexivity|]. intros i Hi. rewrite G5 in Hi. rewrite (G6 i Hi), joined_nth by exact Hi. rewrite Ee. f_equal.
  destruct (Nat.ltb_spec i (d_ns d - 1)) as [A|A]; [reflexivity|]. rewrite nth_overflow; [reflexivity | rewrite front_length; lia].
Qed.
Lemma joined_loses B t y : (0 <= B)%R -> in_box n B y -> (amount_of stock (J t y) <= 0)%R.
Proof.
  intros HB By. assert (WP := prep). assert (WP' := WP). destruct WP' as [Hnc L1 L2 L3 Fb Nd Wnc [PD PM] Hns].
  destruct (sd_core _ _ _ _ _ _ SD) as [S1 S2], (sd_nper _ _ _ _ _ _ SD) as [S3 S4], (sd_pos _ _ _ _ _ _ SD) as (S5 & S6 & S7).
  destruct (swap_is d temp q Hnc L1 L2 L3 Fb Nd Wnc PD PM Htemp Hq nb y_core nper core_density core_mw diss S1 S3 S2 S4 S5 S6 S7 bins call_bins B HB t y By) as [E L].
  assert (X := exchange_keeps (by_species (species m) all_pos 1) _ _ _ _ _ _ _ _ _ _ _ _ WP (call_bins t y) E).
  unfold stock. rewrite both_phases_amount in X |- *.
  assert (Ny : nonneg y). { apply Forall_forall. intros x Hx. apply In_nth with (d := 0%R) in Hx as (i & Hi & <-). destruct By as [Ly By]. apply By. lia. }
  assert (Y := chem_loses t y (proj1 By) Ny).
  enough (Q : rsum (map (fun i => sw i * nth i (J t y) 0)%R (seq 0 n)) = (rsum (map (fun i => sw i * nth i (G t y) 0)%R (seq 0 n)) + rsum (map (fun i => sw i * nth i (swap d temp q nb y_core nper core_density core_mw diss bins t y) 0)%R (seq 0 n)))%R) by (rewrite Q, X; lra).
  rewrite rsum_plus. apply rsum_ext. intros i Hi. apply in_seq in Hi. rewrite joined_nth by lia. ring.
Qed.

(* Any solution from a non-negative state stays in the box of its stock. *)
Lemma aerosol_in_box u A0 : solves f T u -> List.length (u 0%R) = n -> nonneg (u 0%R) -> (amount_of stock (u 0%R) <= A0)%R -> forall t, (0 <= t <= T)%R -> in_box n (side A0) (u t).
Proof.
  intros U Lu Nu HA. assert (NN := aerosol_nonneg m text st W FR Hst smiles objects cutoff temp p d q Hp Hd Hchem Htemp Hq nb y_core nper core_density core_mw diss SD rnd Hrnd H2O o1 o2 o3 e k start T calls u PC HH HT (Hk _ _) (fun t x _ => Hc t x) Hcall Lu U Nu).
  assert (Lt : forall t, (0 <= t <= T)%R -> List.length (u t) = n) by (intros t Ht; rewrite (proj1 (proj1 U t Ht)); exact Lu).
  intros t Ht. apply stock_box; [apply Lt, Ht | apply NN, Ht|]. apply Rle_trans with (2 := HA). apply (solution_loses _ T u stock HT U); [rewrite Lu; apply stock_range | | exact Ht].
  intros s dd Hs E. assert (Bs := stock_box (u s) _ (Lt s Hs) (NN s Hs) (Rle_refl _)). assert (HB := side_nonneg _ (stock_nonneg (u s) (NN s Hs))).
  assert (X := dydt_joined _ s (u s) HB Bs). cbv beta in X. rewrite X in E. injection E as <-. exact (joined_loses _ s (u s) HB Bs).
Qed.

Lemma aerosol_close A0 : (0 <= A0)%R -> exists C, (0 <= C)%R /\ forall u v, solves f T u -> solves f T v ->
  List.length (u 0%R) = n -> List.length (v 0%R) = n -> nonneg (u 0%R) -> nonneg (v 0%R) -> (amount_of stock (u 0%R) <= A0)%R -> (amount_of stock (v 0%R) <= A0)%R ->
  forall t, (0 <= t <= T)%R -> (dist1 n (u t) (v t) <= C * dist1 n (u 0%R) (v 0%R))%R.
Proof.
  intros PA. assert (WP := prep). destruct WP as [Hnc L1 L2 L3 Fb Nd Wnc [PD PM] Hns].
  destruct (sd_core _ _ _ _ _ _ SD) as [S1 S2], (sd_nper _ _ _ _ _ _ SD) as [S3 S4], (sd_pos _ _ _ _ _ _ SD) as (S5 & S6 & S7).
  assert (HB := side_nonneg A0 PA).
  destruct (joined_close d temp q Hnc L1 L2 L3 Fb Nd Wnc PD PM Htemp Hq nb y_core nper core_density core_mw diss S1 S3 S2 S4 S5 S6 S7 G bins call_bins T (side A0) HT HB (fun i _ => front_lip k i Hk)) as (C & PCC & H).
  exists C. split; [exact PCC|]. intros u v U V Lu Lv Nu Nv Au Av. apply (H f u v U V); [apply aerosol_in_box; assumption | apply aerosol_in_box; assumption|].
  intros t y dy Ht By E. assert (X := dydt_joined _ t y HB By). cbv beta in X, E. rewrite X in E. congruence.
Qed.
Lemma aerosol_unique u v : solves f T u -> solves f T v -> List.length (u 0%R) = n -> nonneg (u 0%R) -> u 0%R = v 0%R -> same_on T u v.
Proof.
  intros U V Lu Nu E t Ht. destruct (aerosol_close (amount_of stock (u 0%R)) (stock_nonneg _ Nu)) as (C & _ & H).
  assert (X := H u v U V Lu (eq_trans (f_equal (@List.length R) (eq_sym E)) Lu) Nu ltac:(rewrite <- E; exact Nu) (Rle_refl _) ltac:(rewrite <- E; apply Rle_refl) t Ht).
  rewrite <- E, dist1_same in X. apply (dist1_zero n); [rewrite (proj1 (proj1 U t Ht)); exact Lu | rewrite (proj1 (proj1 V t Ht)), <- E; exact Lu | lra].
Qed.

Context (kd kn : nat -> R -> R -> R) (Rd : forall from until, regular_rates (List.length m) kd from until) (Rn : forall from until, regular_rates (List.length m) kn from until)
  (Fl : forall r, r < List.length m -> flows (kd r) /\ flows (kn r))
  (Eq : forall r t x, r < List.length m -> (sunny t -> k r t x = kd r t x) /\ (~ sunny t -> k r t x = kn r t x)).

Lemma aerosol_exists y1 : List.length y1 = n -> nonneg y1 -> exists u, u 0%R = y1 /\ solves f T u /\ forall t, (0 <= t <= T)%R -> nonneg (u t).
Proof.
  intros Ly Ny. assert (WP := prep). destruct WP as [Hnc L1 L2 L3 Fb Nd Wnc [PD PM] Hns].
  destruct (sd_core _ _ _ _ _ _ SD) as [S1 S2], (sd_nper _ _ _ _ _ _ SD) as [S3 S4], (sd_pos _ _ _ _ _ _ SD) as (S5 & S6 & S7).
  set (B := side (amount_of stock y1)). assert (HB : (0 <= B)%R) by apply (side_nonneg _ (stock_nonneg _ Ny)).
  destruct (joined_exists d temp q Hnc L1 L2 L3 Fb Nd Wnc PD PM Htemp Hq nb y_core nper core_density core_mw diss S1 S3 S2 S4 S5 S6 S7 G bins call_bins T B HT HB (fun i _ => front_lip k i Hk) y1 [stock] Ly Ny)
    as (u & U0 & U & BX).
  - assert (P := sun_pieces start (start + T) ltac:(lra)).
    assert (Q := pieces_map (settled sunny) (fun a b => exists Gr, regime n T Gr /\ forall t y, (a < t < b)%R -> List.length y = n -> G t y = Gr t y) (fun x => x - start)%R ltac:(intros; lra)).
    cbv beta in Q. replace (start - start)%R with 0%R in Q by ring. specialize (fun X => Q X start (start + T)%R P). replace (start - start)%R with 0%R in Q by ring. replace (start + T - start)%R with T in Q by ring.
    apply Q. intros x y Hxy [S|S].
    + exists (front_chem kd). split.
      * intros i Hi. split; [apply front_lip, Rd | apply front_flow; intros r Hr'; apply Fl, Hr'].
      * intros t z Htt Lz. unfold front_chem. rewrite (rates_at_ext m k kd); [reflexivity|]. intros r v Hr'. apply Eq; [exact Hr' | apply S; lra].
    + exists (front_chem kn). split.
      * intros i Hi. split; [apply front_lip, Rn | apply front_flow; intros r Hr'; apply Fl, Hr'].
      * intros t z Htt Lz. unfold front_chem. rewrite (rates_at_ext m k kn); [reflexivity|]. intros r v Hr'. apply Eq; [exact Hr' | apply S; lra].
  - intros t y i Ht [Ly' By] Hi Hz. assert (Nf : nonneg (firstn N y)) by (apply front_nonneg, Forall_forall; intros x Hx; apply In_nth with (d := 0%R) in Hx as (j & Hj & <-); apply By; lia).
    destruct (Nat.lt_ge_cases i N) as [A|A]; [|rewrite nth_overflow by (rewrite front_length; exact A); lra].
    unfold front_chem. apply (generated_boundary m text); try assumption; [apply rates_at_length | apply (rates_at_nonneg m k (start + t) (start + t)); [apply Hk | lra | exact Nf] | | | rewrite firstn_nth by exact A; exact Hz]; rewrite firstn_length; assert (Z := size_front); lia.
  - intros t y qq Ht By [<-|[]]. apply (joined_loses B); assumption.
  - apply Forall_cons; [apply stock_range | apply Forall_nil].
  - intros y Ly' Ny' HQ i Hi. apply (stock_box y (amount_of stock y1) Ly' Ny' (HQ stock (or_introl eq_refl))). exact Hi.
  - exists u. split; [exact U0|]. split.
    + eapply solves_ext; [|exact U]. intros t Ht. cbv beta. symmetry. apply (dydt_joined B); [exact HB | apply BX, Ht].
    + intros t Ht. apply Forall_forall. intros x Hx. apply In_nth with (d := 0%R) in Hx as (i & Hi & <-). destruct (BX t Ht) as [L X]. apply X. lia.
Qed.
End Aerosol.

(* C91 for the gas and particle model: from every non-negative state there is,
   for any length of run, exactly one solution of the coupled equations; it is
   non-negative, and it is the same whatever order the writer's tables and the
   parallel loops take.  The weight w says that no reaction makes more than it uses. *)
Theorem C91_aerosol_partial : forall m text e w, written m text ->
  Forall unit_coefficients m -> Forall (fun r => NoDup (names (rhs r)) /\ ~ In (last_reactant r) (names (rhs r))) m ->
  Forall distinct_reactants m -> peroxy_clean (first_seen (reading_order m)) ->
  Forall (fun r => weight w (rhs r) <= weight w (lhs r))%R m -> w light = 0%R -> (forall b, In b bath -> w b = 0%R) ->
  (forall s, In s (first_seen (reading_order m)) -> ~ In s bath -> (0 < w s)%R) ->
  exists st, extract_mechanism text = Ok (Z.of_nat (List.length m), st) /\
  forall smiles objects cutoff temp nb y_core nper core_density core_mw diss d q,
    aerosol_setup st (List.length (first_seen (reading_order m))) smiles objects cutoff temp nb y_core nper core_density core_mw diss d q ->
  forall rnd H2O start_time T y1, is_rounding rnd -> (0 <= H2O)%R -> (0 <= T)%R -> tame_rates m e H2O temp ->
    let valid := fun calls => exists o1 o2 o3, forall t y, is_call st (List.length m) nb o1 o2 o3 (calls t y) in
    (exists calls : R -> list R -> call, valid calls) ->
    List.length y1 = d_ns d + d_nc d * nb -> nonneg y1 ->
    exists u, u 0%R = y1 /\ (forall t, (0 <= t <= T)%R -> nonneg (u t)) /\
      forall calls, valid calls ->
      let solution := solves (fun t y => aerosol_dydt st (List.length m) rnd H2O temp d q nb y_core nper core_density core_mw diss (calls t y) (start_time + t)%R y) T in
      solution u /\ forall v, v 0%R = y1 -> solution v -> same_on T u v.
Proof.
  intros m text e w W Hu Hpr Hdr PC Hwt Hl Hb Pp. exists (interp m). assert (Hst := written_extract _ _ W). split; [exact Hst|].
  intros smiles objects cutoff temp nb y_core nper cd cm diss d q [(p & Hp & Hd) Hq Hchem Htemp SD] rnd H2O start T y1 Hrnd HH PT Ht valid (c0 & o1 & o2 & o3 & V0) Ly Ny.
  assert (FR : fortran_ready m) by (constructor; assumption).
  assert (WP := prepared_here m text (interp m) W Hst smiles objects cutoff temp p d Hp Hd Hchem).
  destruct (tame_regimes m e H2O temp Ht) as (k & kd & kn & Hr & Hc & Rd & Rn & Fl & Eq).
  destruct (aerosol_exists m text (interp m) W FR Hst smiles objects cutoff temp p d q Hp Hd Hchem Htemp Hq nb y_core nper cd cm diss SD rnd Hrnd H2O HH o1 o2 o3 PC e w Hwt Hl Hb Pp c0 V0 start T PT k Hr Hc kd kn Rd Rn Fl Eq y1 Ly Ny) as (u & U0 & U & NN).
  assert (Lu : List.length (u 0%R) = d_ns d + d_nc d * nb) by (rewrite U0; exact Ly). assert (Nu0 : nonneg (u 0%R)) by (rewrite U0; exact Ny).
  exists u. split; [exact U0|]. split; [exact NN|]. intros calls (o1' & o2' & o3' & V) solution.
  assert (Us : solution u).
  { eapply solves_ext; [|exact U]. intros t Htt. cbv beta. set (B := side m d nb w (amount_of (stock m d nb w) (u 0%R))).
    assert (HB : (0 <= B)%R) by (apply side_nonneg; [exact Pp | apply stock_nonneg; [exact Pp | exact Nu0]]).
    assert (Bx := aerosol_in_box m text (interp m) W FR Hst smiles objects cutoff temp p d q Hp Hd Hchem Htemp Hq nb y_core nper cd cm diss SD rnd Hrnd H2O HH o1 o2 o3 PC e w Hwt Hl Hb Pp c0 V0 start T PT k Hr Hc u _ U Lu Nu0 (Rle_refl _) t Htt).
    etransitivity; [apply (dydt_joined m text (interp m) W FR Hst smiles objects cutoff temp p d q Hp Hd Hchem Htemp Hq nb y_core nper cd cm diss SD rnd Hrnd H2O HH o1 o2 o3 PC e w Pp c0 V0 start k Hc B t (u t) HB Bx)|].
    rewrite (joined_order d temp q nb y_core nper cd cm diss (fun t y => c_bins (c0 t y)) (fun t y => c_bins (calls t y)) _ B t (u t) WP Htemp Hq SD
      (fun t y => proj2 (proj2 (proj2 (V0 t y)))) (fun t y => proj2 (proj2 (proj2 (V t y)))) HB Bx). symmetry.
    apply (dydt_joined m text (interp m) W FR Hst smiles objects cutoff temp p d q Hp Hd Hchem Htemp Hq nb y_core nper cd cm diss SD rnd Hrnd H2O HH o1' o2' o3' PC e w Pp calls V start k Hc B t (u t) HB Bx). }
  split; [exact Us|]. intros v Ev Sv.
  apply (aerosol_unique m text (interp m) W FR Hst smiles objects cutoff temp p d q Hp Hd Hchem Htemp Hq nb y_core nper cd cm diss SD rnd Hrnd H2O HH o1' o2' o3' PC e w Hwt Hl Hb Pp calls V start T PT k Hr Hc u v Us Sv Lu Nu0).
  congruence.
Qed.

(* Whole runs: the rows of an integrator without error are determined. *)
Theorem C91_aerosol_rows_partial : forall m text e w, written m text ->
  Forall unit_coefficients m -> Forall (fun r => NoDup (names (rhs r)) /\ ~ In (last_reactant r) (names (rhs r))) m ->
  Forall distinct_reactants m -> peroxy_clean (first_seen (reading_order m)) ->
  Forall (fun r => weight w (rhs r) <= weight w (lhs r))%R m -> w light = 0%R -> (forall b, In b bath -> w b = 0%R) ->
  (forall s, In s (first_seen (reading_order m)) -> ~ In s bath -> (0 < w s)%R) ->
  exists st, extract_mechanism text = Ok (Z.of_nat (List.length m), st) /\
  forall smiles objects cutoff temp nb y_core nper core_density core_mw diss d q,
    aerosol_setup st (List.length (first_seen (reading_order m))) smiles objects cutoff temp nb y_core nper core_density core_mw diss d q ->
  forall rnd H2O start_time b, is_rounding rnd -> (0 <= H2O)%R -> (0 < B2R b)%R -> tame_rates m e H2O temp ->
    let valid := fun calls => exists o1 o2 o3, forall t y, is_call st (List.length m) nb o1 o2 o3 (calls t y) in
    let equations := fun (calls : R -> list R -> call) t y =>
      aerosol_dydt st (List.length m) rnd H2O temp d q nb y_core nper core_density core_mw diss (calls t y) (B2R start_time + t)%R y in
    (exists calls, valid calls) ->
    (forall n y1, List.length y1 = d_ns d + d_nc d * nb -> nonneg y1 -> exists rws, List.length rws = n /\ Forall nonneg rws /\
       forall calls, valid calls -> exact_rows (equations calls) 0 (B2R b) y1 rws /\
         forall rws', List.length rws' = n -> exact_rows (equations calls) 0 (B2R b) y1 rws' -> rws' = rws) /\
    forall calls rcalls simulate jac conc y_cond sim ts ys os,
      error_free_recording (equations rcalls) (aerosol_dydt_func st (List.length m) rnd H2O temp d q nb y_core nper core_density core_mw diss calls start_time) simulate ->
      aerosol_simulation st (List.length m) rnd H2O temp d q nb y_core nper core_density core_mw diss simulate jac calls start_time (d_sp2a d) conc y_cond sim b = Ok (ts, ys, os) ->
      exists y0, aerosol_initial (d_ns d) (d_nc d) nb (d_sp2a d) conc y_cond = Ok y0 /\ exact_rows (equations rcalls) 0 (B2R b) y0 (firstn (List.length ts) ys).
Proof.
  intros m text e w W Hu Hpr Hdr PC Hwt Hl Hb Pp. destruct (C91_aerosol_partial m text e w W Hu Hpr Hdr PC Hwt Hl Hb Pp) as (st & Hst & HX). exists st. split; [exact Hst|].
  intros smiles objects cutoff temp nb y_core nper cd cm diss d q AS rnd H2O start b Hrnd HH Pb Ht valid equations Hex. split.
  - intros n y1 Ly Ny. destruct (rows_unique equations valid (fun y => List.length y = d_ns d + d_nc d * nb /\ nonneg y) (B2R b) ltac:(lra)) with (n := n) (y1 := y1) as (rws & L & Gr & X).
    + intros z [Lz Nz]. destruct (HX smiles objects cutoff temp nb y_core nper cd cm diss d q AS rnd H2O (B2R start) (B2R b) z Hrnd HH ltac:(lra) Ht Hex Lz Nz) as (u & U0 & Nu & U).
      exists u. split; [exact U0|]. split; [|exact U]. split; [|apply Nu; lra].
      destruct Hex as (c0 & V0). destruct (U c0 V0) as [Us _]. rewrite (proj1 (proj1 Us (B2R b) ltac:(lra))), U0. exact Lz.
    + split; assumption.
    + exists rws. split; [exact L|]. split; [|exact X]. eapply Forall_impl; [|exact Gr]. intros z [_ Nz]. exact Nz.
  - intros calls rcalls simulate jac conc y_cond sim ts ys os HE H. unfold aerosol_simulation in H. apply bind_Ok in H as (y0 & H0 & H). exists y0. split; [exact H0|].
    exact (run_exact _ _ _ _ _ _ _ _ _ _ _ _ _ Pb HE H).
Qed.

(* Close starts give close solutions. *)
Theorem C91_aerosol_stable_partial : forall m text e w, written m text ->
  Forall unit_coefficients m -> Forall (fun r => NoDup (names (rhs r)) /\ ~ In (last_reactant r) (names (rhs r))) m ->
  Forall distinct_reactants m -> peroxy_clean (first_seen (reading_order m)) ->
  Forall (fun r => weight w (rhs r) <= weight w (lhs r))%R m -> w light = 0%R -> (forall b, In b bath -> w b = 0%R) ->
  (forall s, In s (first_seen (reading_order m)) -> ~ In s bath -> (0 < w s)%R) ->
  exists st, extract_mechanism text = Ok (Z.of_nat (List.length m), st) /\
  forall smiles objects cutoff temp nb y_core nper core_density core_mw diss d q,
    aerosol_setup st (List.length (first_seen (reading_order m))) smiles objects cutoff temp nb y_core nper core_density core_mw diss d q ->
  forall rnd H2O o1 o2 o3 start_time T A, is_rounding rnd -> (0 <= H2O)%R -> (0 <= T)%R -> (0 <= A)%R -> tame_rates m e H2O temp ->
    forall calls, (forall t y, is_call st (List.length m) nb o1 o2 o3 (calls t y)) ->
    let n := d_ns d + d_nc d * nb in
    exists C, (0 <= C)%R /\ forall u v delta,
      let good_start := fun x : R -> list R => List.length (x 0%R) = n /\ Forall (fun c => 0 <= c <= A)%R (x 0%R) in
      let solution := solves (fun t y => aerosol_dydt st (List.length m) rnd H2O temp d q nb y_core nper core_density core_mw diss (calls t y) (start_time + t)%R y) T in
      good_start u -> good_start v -> solution u -> solution v ->
      (forall i, i < n -> (Rabs (nth i (u 0%R) 0 - nth i (v 0%R) 0) <= delta)%R) ->
      forall t i, (0 <= t <= T)%R -> i < n -> (Rabs (nth i (u t) 0 - nth i (v t) 0) <= C * delta)%R.
Proof.
  intros m text e w W Hu Hpr Hdr PC Hwt Hl Hb Pp. exists (interp m). assert (Hst := written_extract _ _ W). split; [exact Hst|].
  intros smiles objects cutoff temp nb y_core nper cd cm diss d q [(p & Hp & Hd) Hq Hchem Htemp SD] rnd H2O o1 o2 o3 start T A Hrnd HH PT PA Ht calls Hcall n.
  assert (FR : fortran_ready m) by (constructor; assumption). destruct (C82_regular m e H2O temp Ht) as (k & Hr & Hc).
  set (wt := slot_weight (by_species (species m) (all_pos w) 1) (d_ns d) (d_nc d) (d_include d)). set (A0 := rsum (map (fun i => wt i * A)%R (seq 0 n))).
  assert (Pw : forall i, (0 < wt i)%R) by (intros i; apply slot_pos; exact Pp).
  assert (PA0 : (0 <= A0)%R) by (apply rsum_nonneg; intros x Hx; apply in_map_iff in Hx as (i & <- & _); assert (Z := Pw i); apply Rmult_le_pos; lra).
  destruct (aerosol_close m text (interp m) W FR Hst smiles objects cutoff temp p d q Hp Hd Hchem Htemp Hq nb y_core nper cd cm diss SD rnd Hrnd H2O HH o1 o2 o3 PC e w Hwt Hl Hb Pp calls Hcall start T PT k Hr Hc A0 PA0) as (C & PCC & H).
  exists (C * INR n)%R. split; [apply Rmult_le_pos; [exact PCC | apply pos_INR]|]. intros u v delta good_start solution [Lu Gu] [Lv Gv] U V Hdl t i Htt Hi.
  rewrite Forall_forall in Gu, Gv.
  assert (Nu : nonneg (u 0%R)) by (apply Forall_forall; intros x Hx; apply Gu, Hx). assert (Nv : nonneg (v 0%R)) by (apply Forall_forall; intros x Hx; apply Gv, Hx).
  assert (St : forall y, List.length y = n -> (forall x, In x y -> 0 <= x <= A)%R -> (amount_of (stock m d nb w) y <= A0)%R).
  { intros y Ly Hy. unfold stock. rewrite both_phases_amount. apply rsum_le. intros j Hj. apply in_seq in Hj. apply Rmult_le_compat_l; [left; apply Pw | apply Hy, nth_In; lia]. }
  eapply Rle_trans; [apply dist1_part, Hi|]. eapply Rle_trans; [apply (H u v U V Lu Lv Nu Nv (St _ Lu Gu) (St _ Lv Gv) t Htt)|].
  rewrite Rmult_assoc. apply Rmult_le_compat_l; [exact PCC|]. apply dist1_close, Hdl.
Qed.

(* Cases: the files of C73_yield_hypotheses and C73_hypotheses, one hour from
   1e10 molecules of every component in every slot, far from equilibrium. *)
Example C91_yield_hypotheses : exists ys d y0 q u,
  yield_file c46_rows c46_text /\ seeds 1 [1e9]%R [50]%R 1770 132.14 3 /\
  yield_setup (fun s => Ok (ex_chem s)) ex_float c46_text (-6) 298.15 0.5 1 [1e9]%R 3 = Ok (ys, d, y0) /\
  Pure_component2 (d_nc d) (d_mw d) Rgas 298.15 = Some q /\ List.length (repeat 1e10%R 8) = List.length y0 /\ u 0%R = repeat 1e10%R 8 /\
  solves (fun t y => option_map fst (yield_rhs d q 1 [1e9]%R [50]%R 1770 132.14 3 298.15 [0] y)) 3600 u.
Proof.
  destruct C73_yield_hypotheses as (ys & d & y0 & q & y & Hf & SD & Hsetup & Hq & _ & _ & _ & _).
  assert (L : List.length (repeat 1e10%R 8) = List.length y0).
  { destruct C46_hypotheses as (_ & Hs & _). destruct (C66_partial (fun s => Ok (ex_chem s)) ex_float c46_rows c46_text ex_yield ex_chem (-6) 298.15 0.5 1 [1e9]%R 3 Hf ex_rows_values
    (fun s _ => proj1 (ex_chem_good s)) ltac:(lra) eq_refl) as (ys' & d' & y0' & H & _ & _ & _ & _ & _ & _ & L0 & _).
    rewrite Hsetup in H. injection H as _ _ <-. rewrite L0, Hs. reflexivity. }
  destruct (C91_yield (fun s => Ok (ex_chem s)) ex_float c46_rows c46_text ex_yield ex_chem (-6) 298.15 0.5 3 1770 132.14 1 [1e9]%R [50]%R ys d y0 q 3600 (repeat 1e10%R 8) Hf ex_rows_values
    (fun s _ => conj (proj1 (ex_chem_good s)) (proj1 (proj2 (ex_chem_good s)))) ltac:(lra) ltac:(lra) SD Hsetup Hq ltac:(lra) L) as (u & U0 & _ & U).
  { apply Forall_forall. intros x Hx. apply repeat_spec in Hx. lra. }
  exists ys, d, y0, q, u. destruct (U (fun _ _ => [0]) (fun _ _ => Permutation_refl _)) as [Us _]. repeat (split; [assumption|]). exact Us.
Qed.

Lemma self_tame H2O temp : (0 < temp)%R -> (0 <= H2O)%R -> tame_rates self_mech self_expr H2O temp.
Proof. intros HT HH [|k] r Hk; [|destruct k; discriminate]. injection Hk as <-. exact (C82_hypotheses H2O temp HT HH 2 _ eq_refl). Qed.
Example C91_hypotheses : exists st d q p1 u,
  written self_mech (ParseShow.show self_words) /\ fortran_ready self_mech /\ peroxy_clean (first_seen (reading_order self_mech)) /\
  Forall (fun r => weight methyls (rhs r) <= weight methyls (lhs r))%R self_mech /\ methyls light = 0%R /\ (forall b, In b bath -> methyls b = 0%R) /\
  (forall s, In s (first_seen (reading_order self_mech)) -> ~ In s bath -> (0 < methyls s)%R) /\
  extract_mechanism (ParseShow.show self_words) = Ok (1%Z, st) /\ tame_rates self_mech self_expr 1e17 298.15 /\
  aerosol_setup st 2 [] [] (-6) 298.15 1 [1e9]%R [50]%R 1770 132.14 3 d q /\ is_call st 1 1 None None None (self_call p1 st) /\
  u 0%R = repeat 1e10%R 4 /\
  solves (fun t y => aerosol_dydt st 1 (fun x => x) 1e17 298.15 d q 1 [1e9]%R [50]%R 1770 132.14 3 (self_call p1 st) (43200 + t)%R y) 3600 u.
Proof.
  destruct C71_hypotheses as (W & Hw & PC & Hs & Hwt & Hl & Hb & Pw & _). assert (FR := self_ready).
  assert (Hwt' : Forall (fun r => weight methyls (rhs r) <= weight methyls (lhs r))%R self_mech) by (eapply Forall_impl; [|exact Hwt]; intros r E; cbv beta in *; lra).
  assert (Pp : forall s, In s (first_seen (reading_order self_mech)) -> ~ In s bath -> (0 < methyls s)%R).
  { intros s Hin _. rewrite self_species in Hin. destruct Hin as [<-|[<-|[]]]; unfold methyls; vm_compute inb; lra. }
  destruct (self_aerosol 0%R ltac:(lra)) as (st & d & q & p1 & w & Hst & AS & Hns & Hnc & Hinc & S0 & S2 & Hcall & Pw' & HD).
  destruct (C91_aerosol_partial self_mech _ self_expr methyls W (fr_units _ FR) (fr_products _ FR) (fr_reactants _ FR) PC Hwt' Hl Hb Pp) as (st' & Hst' & H).
  change (Z.of_nat (List.length self_mech)) with 1%Z in Hst'. rewrite Hst in Hst'. assert (st' = st) by congruence. subst st'.
  assert (T := self_tame 1e17 298.15 ltac:(lra) ltac:(lra)). rewrite self_species in H. change (List.length [s_ "CH3O2"; s_ "CH3O"]) with 2 in H. change (List.length self_mech) with 1 in H.
  destruct (H [] [] (-6)%R 298.15%R 1 [1e9]%R [50]%R 1770%R 132.14%R 3%R d q AS (fun x => x) 1e17%R 43200%R 3600%R (repeat 1e10%R 4)) as (u & U0 & _ & U).
  - intros x _. reflexivity.
  - lra.
  - lra.
  - exact T.
  - exists (fun _ _ => self_call p1 st). exists None, None, None. intros _ _. exact Hcall.
  - rewrite Hns, Hnc. reflexivity.
  - apply Forall_forall. intros x Hx. apply repeat_spec in Hx. lra.
  - exists st, d, q, p1, u. destruct (U (fun _ _ => self_call p1 st)) as [Us _]; [exists None, None, None; intros _ _; exact Hcall|]. repeat (split; [assumption|]). exact Us.
Qed.

Print Assumptions C91_yield. Print Assumptions C91_yield_rows. Print Assumptions C91_yield_stable.
Print Assumptions C91_aerosol_partial. Print Assumptions C91_aerosol_rows_partial. Print Assumptions C91_aerosol_stable_partial.
