(* C76, C77: what the aerosol drivers hand to the solver, and how a recorded
   run is made of its batches. *)
From Coq Require Import String List Bool Arith Lia ZArith QArith Reals Qreals Lra Permutation Sorted.
From Flocq Require Import Core BinarySingleNaN.
From Verif Require Import Base PyStr PyDict ModelParse SpecMech ParseStruct ParseTables ParseWritten ParseShow PropsParse
  ModelLang ModelGen ModelRhs SpecKin LangFacts GenReact GenLossGain GenParsed GenSparse PropsKin PropsRhs
  ModelOmp ModelExpr ModelRate ModelRateFile SpecRate RateExpr PropsRate ModelRateBody ModelRateRun RateSym
  SpecRateValue SpecMcmEnv PropsRateValue ModelRo2 SpecRo2 PropsRo2 ModelGas SpecGas PropsGas PropsGasJac
  ModelSolver SpecSolver SolverFacts OdeFacts PropsSolver ModelSplit PropsSplit SpecMethod PropsMethod SpecTraj OdeSign PropsTraj
  OdeNear ModelPart SpecPart PartFacts PartValue PropsPart PartBounds ModelAero SpecAero PropsAero PropsAeroRun PropsAeroChem AeroPull GasFortran
  ModelYield PropsYield ModelAeroRun SpecAeroRun PropsAeroTraj PropsYieldTraj.
Import ListNotations.
Import Coq.Lists.List.
Open Scope nat_scope.
Open Scope list_scope.
Local Arguments eqb : simpl never.

(* ------------------------------------------------------------------ *)
(* C76: at every non-negative state of the right length, whatever order the
   parallel loops take, the derivative handed to the solver at time t after the
   start of the batch is the one of the mechanism at the time of day
   start_time + t: species by species, gas and particles together, production
   minus loss with the rate coefficients of that time; water is only
   exchanged. *)
Theorem C76_partial : forall m text e, written m text ->
  Forall unit_coefficients m -> Forall (fun r => NoDup (names (rhs r)) /\ ~ In (last_reactant r) (names (rhs r))) m ->
  Forall distinct_reactants m -> peroxy_clean (first_seen (reading_order m)) ->
  let sp := first_seen (reading_order m) in let N := List.length sp in
  exists st, extract_mechanism text = Ok (Z.of_nat (List.length m), st) /\
  forall smiles objects cutoff temp nb y_core nper core_density core_mw diss d q,
    aerosol_setup st N smiles objects cutoff temp nb y_core nper core_density core_mw diss d q -> nb <> 0 ->
  forall rnd H2O o1 o2 o3 calls start_time t y v, is_rounding rnd -> (0 <= H2O)%R ->
    (forall t y, is_call st (List.length m) nb o1 o2 o3 (calls t y)) ->
    nonneg y -> List.length y = d_ns d + d_nc d * nb ->
    let c := conc_of (p_sp2a st) (firstn N y) in
    coefficients m e (B2R (fadd start_time t)) (peroxy_total sp c) H2O temp v ->
    exists dy, aerosol_dydt_func st (List.length m) rnd H2O temp d q nb y_core nper core_density core_mw diss calls start_time t y = Ok dy /\
      List.length dy = List.length y /\
      (forall i s j, nth_error sp i = Some s -> nth_error (d_include d) j = Some i ->
         (nth i dy 0 + rsum (map (fun b => nth (slot (d_ns d) (d_nc d) b j) dy 0) (seq 0 nb)) = expected m v c s)%R) /\
      (forall i s, nth_error sp i = Some s -> ~ In i (d_include d) -> nth i dy 0%R = expected m v c s) /\
      (nth N dy 0 + rsum (map (fun b => nth (slot (d_ns d) (d_nc d) b (d_nc d - 1)) dy 0) (seq 0 nb)) = 0)%R.
Proof.
  intros m text e W Hu Hp Hd Hc sp N. destruct (C64_partial m text e W Hu Hp Hd Hc) as (st & E & HX). exists st. split; [exact E|].
  intros smiles objects cutoff temp nb y_core nper cd cm diss d q [(p & Hpc & Hpd) Hq Hchem Htemp SD] Hnb rnd H2O o1 o2 o3 calls start t y v Hrnd HH Hcall Hn Ly c HC.
  destruct (Hcall t y) as ((p1 & G1 & R1) & R2 & R3 & PB).
  destruct (sd_core _ _ _ _ _ _ SD) as [S1 S2], (sd_nper _ _ _ _ _ _ SD) as [S3 S4], (sd_pos _ _ _ _ _ _ SD) as (S5 & S6 & S7).
  destruct (HX o1 o2 o3 p1 _ _ _ G1 R1 R2 R3 rnd (c_a0 (calls t y)) (c_m0 (calls t y)) (B2R (fadd start t)) 0%R H2O temp y v Hrnd Htemp HH Hn
    smiles objects cutoff p d nb y_core nper cd cm diss (c_bins (calls t y)) Hpc Hpd Hchem S1 S3 Ly S2 S4 S5 S6 S7 PB Hnb) as (q' & dy & Q1 & Q2 & Q3 & Q4 & Q5 & Q6).
  { rewrite Rplus_0_r. exact HC. }
  rewrite Hq in Q1. injection Q1 as <-. exists dy. split; [|auto].
  unfold aerosol_dydt_func, aerosol_dydt, aerosol_gas. rewrite Q2. reflexivity.
Qed.

(* A case: the mechanism of C59_hypotheses with two condensable species and two
   size bins, 100 s after noon. *)
Example C76_hypotheses : exists st d q p1 v dy j,
  let y := repeat 1%R (d_ns d + d_nc d * 2) in
  let c := Call (gen_rates_fortran None (convert_dict convert_fortran (p_rate st))) p1 (gen_loss_gain_fortran None (p_sp2a st) (p_loss st) (p_gain st)) zeros zeros [1; 0] in
  extract_mechanism (ParseShow.show gas_words) = Ok (3%Z, st) /\
  aerosol_setup st 7 gas_smiles gas_objects (-6) 288.15 2 [1; 1]%R [1; 1]%R 1770 132.14 3 d q /\
  is_call st 3 2 None None None c /\ nonneg y /\
  coefficients gas_mech gas_expr (B2R (fadd f43200 f100)) (peroxy_total (first_seen (reading_order gas_mech)) (conc_of (p_sp2a st) (firstn 7 y))) 1 288.15 v /\
  nth_error (d_include d) j = Some 0 /\
  aerosol_dydt_func st 3 (fun x => x) 1 288.15 d q 2 [1; 1]%R [1; 1]%R 1770 132.14 3 (fun _ _ => c) f43200 f100 y = Ok dy /\
  (nth 0 dy 0 + rsum (map (fun b => nth (slot (d_ns d) (d_nc d) b j) dy 0) (seq 0 2)) = expected gas_mech v (conc_of (p_sp2a st) (firstn 7 y)) (s_ "CH3O2"))%R.
Proof.
  destruct C59_hypotheses as (W & H1 & H2 & H3 & H4 & H5 & H6).
  destruct (C76_partial gas_mech _ gas_expr W H3 H4 H2 H5) as (st & E & HX).
  assert (Est : st = interp gas_mech) by (assert (X := written_extract _ _ W); rewrite E in X; congruence).
  destruct (C16_fortran_partial gas_mech _ W H3 H4 H2) as (st' & E' & HR). rewrite E in E'. injection E' as <-.
  destruct (HR None None) as (p1 & G1 & _). clear HR.
  assert (Nsp : List.length (p_sp st) = 7) by (rewrite Est; vm_compute; reflexivity).
  assert (N7 : List.length (first_seen (reading_order gas_mech)) = 7) by (vm_compute; reflexivity).
  destruct (proj2 (C43_exactly_when _ _ _ gas_smiles gas_objects true (-6)%R E)) as [p Hp].
  { intros i x s _ Hs. apply dget_Some_In in Hs. destruct Hs as [Hs|[Hs|[]]]; apply (f_equal snd) in Hs; cbn [snd] in Hs; subst s; eexists.
    - split; [vm_compute; reflexivity | discriminate].
    - split; [vm_compute; reflexivity | discriminate]. }
  assert (Hm : forall i x c, dget i (p_sp st) = Some x -> molecule_of gas_smiles gas_objects x c -> sensible c).
  { intros i x c _ (s & Hs & Hc). apply dget_Some_In in Hc. cbn [In gas_objects] in Hc. destruct Hc as [Hc|[Hc|[]]]; injection Hc as _ <-; split; cbn; lra. }
  destruct (C44_partial _ _ _ gas_smiles gas_objects (-6)%R p 288.15%R E Hp) as (d & Hd & Hns & Hnc & R44).
  assert (WP : well_prepared d) by exact (aerosol_prepared _ _ st _ _ _ _ p d E Hp Hd Hm).
  rewrite Nsp in *.
  destruct (pc2_total (d_nc d) (d_mw d) 288.15 (wp_mw d WP) (proj2 (wp_pos d WP)) ltac:(lra)) as (q & Hq & _).
  assert (AS : aerosol_setup st 7 gas_smiles gas_objects (-6) 288.15 2 [1; 1]%R [1; 1]%R 1770 132.14 3 d q).
  { constructor; [eauto | exact Hq | exact Hm | lra |]. constructor; [split; [reflexivity|] | split; [reflexivity|] | lra]; repeat (apply Forall_cons; [lra|]); constructor. }
  destruct (H6 (B2R (fadd f43200 f100)) (peroxy_total (first_seen (reading_order gas_mech))
     (conc_of (p_sp2a st) (firstn 7 (repeat 1%R (d_ns d + d_nc d * 2))))) 1%R 288.15%R ltac:(lra)) as [v Hv].
  set (c := Call (gen_rates_fortran None (convert_dict convert_fortran (p_rate st))) p1 (gen_loss_gain_fortran None (p_sp2a st) (p_loss st) (p_gain st)) zeros zeros [1; 0]).
  assert (Hcall : is_call st 3 2 None None None c).
  { split; [exists p1; split; [exact G1 | reflexivity]|]. split; [reflexivity|]. split; [reflexivity|]. apply perm_swap. }
  assert (Ny : nonneg (repeat 1%R (d_ns d + d_nc d * 2))) by (apply Forall_forall; intros x Hx; apply repeat_spec in Hx; subst; lra).
  cbv zeta in HX. rewrite N7 in HX.
  destruct (HX gas_smiles gas_objects (-6)%R 288.15%R 2 [1; 1]%R [1; 1]%R 1770%R 132.14%R 3%R d q AS ltac:(lia) (fun x => x) 1%R None None None (fun _ _ => c) f43200 f100
    (repeat 1%R (d_ns d + d_nc d * 2)) v ltac:(intros x Hx; reflexivity) ltac:(lra) (fun _ _ => Hcall) Ny (repeat_length _ _) Hv) as (dy & Q1 & Q2 & Q3 & _).
  assert (Hj : exists j, nth_error (d_include d) j = Some 0).
  { destruct R44 as (_ & _ & _ & _ & _ & _ & _ & Hex & _). destruct (Hex 0 (s_ "CH3O2")) as (j & _ & Hj); [| | exists j; exact Hj].
      - rewrite Est. vm_compute. reflexivity.
      - intros [Hx|(_ & c1 & (s & Hs & Hc) & Hv')]; [vm_compute in Hx; discriminate|].
        assert (Es : s = s_ "CO[O]") by (apply (f_equal (fun o => match o with Some v => v | None => [] end)) in Hs; rewrite <- Hs; vm_compute; reflexivity).
        subst s. apply (f_equal (fun o => match o with Some v => c_vp v | None => 0%R end)) in Hc. revert Hv'.
        change (match dget (s_ "CO[O]") gas_objects with Some v => c_vp v | None => 0%R end) with (-7)%R in Hc. rewrite <- Hc. lra. }
  destruct Hj as [j Hj]. exists st, d, q, p1, v, dy, j. cbv zeta. fold c.
  split; [exact E|]. split; [exact AS|]. split; [exact Hcall|]. split; [exact Ny|]. split; [exact Hv|]. split; [exact Hj|]. split; [exact Q1|].
  apply (Q3 0 (s_ "CH3O2") j); [vm_compute; reflexivity | exact Hj].
Qed.

(* ------------------------------------------------------------------ *)
(* C77 *)
Section Batches.
Context {S O : Type} (simulate : recording_solver S) (rhs : b64 -> S -> res S) (jac : b64 -> S -> res (nat * nat -> R)) (observe : b64 -> S -> res O).

Local Notation recorded_batch := (SpecAeroRun.recorded_batch simulate rhs jac observe).

(* The recorded run is the run of the gas-phase drivers with the attributes
   carried along in the state. *)
Definition paired : solver (S * O) := fun pb tf => recorded_batch tf (fst (pb_y0 pb)).
Definition nothing {A} (t : b64) (p : S * O) : res A := Err ValueError.

Lemma record_loop_paired sim b zr zo : forall rows total p out,
  record_loop simulate rhs jac observe sim b zr zo rows total (fst p) (option_map fst out) =
  do r <- loop paired nothing nothing fzero sim b (zr, zo) rows total p out;
  Ok (fst r, map fst (snd r), map snd (snd r)).
Proof.
  induction rows as [|rows IH]; intros total p out; cbn [record_loop loop]; destruct (Bltb total sim); cbn [bind fst snd map]; try reflexivity.
  - assert (Y : forall X, (do y0 <- (if Beqb total fzero then Ok (fst p) else match option_map fst out with Some o => Ok o | None => Err UnboundLocalError end); X y0) =
      ((do p0 <- (if Beqb total fzero then Ok p else match out with Some o => Ok o | None => Err UnboundLocalError end); X (fst p0)) : res (list b64 * list S * list O))).
    { intros X. destruct (Beqb total fzero); [reflexivity|]. destruct out; reflexivity. }
    rewrite Y. destruct (if Beqb total fzero then Ok p else _) as [p0|]; cbn [bind]; [|reflexivity].
    unfold paired, SpecAeroRun.recorded_batch. cbn [pb_y0 fst].
    destruct (simulate (Problem rhs jac (fst p0) fzero) b) as [[y1 [t z]]|]; cbn [bind fst snd]; [|reflexivity]. destruct (observe t z); reflexivity.
  - assert (Y : forall X, (do y0 <- (if Beqb total fzero then Ok (fst p) else match option_map fst out with Some o => Ok o | None => Err UnboundLocalError end); X y0) =
      ((do p0 <- (if Beqb total fzero then Ok p else match out with Some o => Ok o | None => Err UnboundLocalError end); X (fst p0)) : res (list b64 * list S * list O))).
    { intros X. destruct (Beqb total fzero); [reflexivity|]. destruct out; reflexivity. }
    rewrite Y. destruct (if Beqb total fzero then Ok p else _) as [p0|]; cbn [bind]; [|reflexivity].
    unfold paired at 1, SpecAeroRun.recorded_batch. cbn [pb_y0 fst].
    destruct (simulate (Problem rhs jac (fst p0) fzero) b) as [[y1 [t z]]|]; cbn [bind fst snd]; [|reflexivity]. destruct (observe t z) as [o1|]; cbn [bind]; [|reflexivity].
    change (Some y1) with (option_map fst (Some (y1, o1))). rewrite IH.
    destruct (loop paired nothing nothing fzero sim b (zr, zo) rows (fadd total b) p0 (Some (y1, o1))) as [r|]; reflexivity.
  - change (Datatypes.S rows) with (Datatypes.S rows). assert (M : forall k, map fst (repeat (zr, zo) k) = repeat zr k /\ map snd (repeat (zr, zo) k) = repeat zo k).
    { induction k as [|k IHk]; [split; reflexivity|]. cbn [repeat map fst snd]. destruct IHk as [-> ->]. split; reflexivity. }
    destruct (M (Datatypes.S rows)) as [M1 M2]. rewrite M1, M2. reflexivity.
Qed.

Lemma record_run_paired sim b zr zo y0 : record_run simulate rhs jac observe sim b zr zo y0 =
  do r <- run_batches paired nothing nothing fzero sim b (zr, zo) (y0, zo); Ok (fst r, map fst (snd r), map snd (snd r)).
Proof.
  unfold record_run, run_batches. destruct (py_div sim b); cbn [bind]; [|reflexivity]. destruct (py_trunc _) as [n|]; cbn [bind]; [|reflexivity].
  destruct (n <? 0)%Z; [reflexivity|]. exact (record_loop_paired sim b zr zo _ _ (y0, zo) None).
Qed.

(* simulation_time = n * batch_step with batch_step = z * 2^e: the run makes n
   solver calls from time 0, each from the state in which the previous one
   ended; row k of y_matrix and of the attributes belong to call k+1, and the
   k-th time is exactly (k+1) * batch_step. *)
Theorem C77_partial : forall sim b z e n zero_row zero_obs y0,
  is_num sim (Z.of_nat n * z) e -> is_num b z e -> (0 < z)%Z -> (-1074 <= e)%Z -> (Z.of_nat n * z < 2 ^ 53)%Z ->
  exists ts, record_run simulate rhs jac observe sim b zero_row zero_obs y0 =
      (do rows <- states (fun _ p => recorded_batch b (fst p)) 0 n (y0, zero_obs); Ok (ts, map fst rows, map snd rows)) /\
    List.length ts = n /\ forall j t, nth_error ts j = Some t -> is_num t (Z.of_nat (j + 1) * z) e.
Proof.
  intros sim b z e n zr zo y0 Hs Hb Hz He Hn.
  destruct (C35_partial paired nothing nothing fzero sim b z e n (zr, zo) (y0, zo) Hs Hb Hz He Hn) as (ts & H & L & V).
  exists ts. split; [|auto]. rewrite record_run_paired, H. change (fun (_ : nat) y => paired _ b) with (fun (_ : nat) (p : S * O) => recorded_batch b (fst p)).
  destruct (states _ 0 n (y0, zo)); reflexivity.
Qed.

(* A stand-in that never fails. *)
Definition padded : solver (S * O) := fun pb tf => match paired pb tf with Ok r => Ok r | Err _ => Ok (pb_y0 pb) end.
Lemma loop_padded (P : S -> Prop) sim b zr : (forall y, P y -> exists r, recorded_batch b y = Ok r /\ P (fst r)) ->
  forall rows total p out, P (fst p) -> (forall o, out = Some o -> P (fst o)) ->
  loop paired nothing nothing fzero sim b zr rows total p out = loop padded nothing nothing fzero sim b zr rows total p out.
Proof.
  intros HP. induction rows as [|rows IH]; intros total p out Hp Ho; cbn [loop]; destruct (Bltb total sim); try reflexivity;
    destruct (if Beqb total fzero then Ok p else _) as [p0|] eqn:E; cbn [bind]; try reflexivity;
    (assert (P0 : P (fst p0)) by (destruct (Beqb total fzero); [injection E as <-; exact Hp | destruct out; [injection E as <-; apply Ho; reflexivity | discriminate]]));
    destruct (HP _ P0) as (r & Hr & Pr);
    (assert (E1 : paired (Problem (dydt_func nothing fzero) (ModelSolver.jac nothing fzero) p0 fzero) b = Ok r) by exact Hr);
    (assert (E2 : padded (Problem (dydt_func nothing fzero) (ModelSolver.jac nothing fzero) p0 fzero) b = Ok r) by (unfold padded; rewrite E1; reflexivity));
    rewrite E1, E2; cbn [bind]; [reflexivity|].
  rewrite (IH (fadd total b) p0 (Some r) P0) by (intros o Eo; injection Eo as <-; exact Pr). reflexivity.
Qed.

(* If no batch fails (P tells which states can be met): the run ends normally
   exactly when the number of rows makes sense and that many batch steps, added
   one by one, reach simulation_time; otherwise the loop ends in IndexError. *)
Theorem C77_exactly_when : forall (P : S -> Prop) sim b zero_row zero_obs y0,
  P y0 -> (forall y, P y -> exists r, recorded_batch b y = Ok r /\ P (fst r)) ->
  ((exists r, record_run simulate rhs jac observe sim b zero_row zero_obs y0 = Ok r) <->
   Beqb b fzero = false /\ exists n, py_trunc (fdiv sim b) = Ok n /\ (0 <= n)%Z /\
     exists j, j <= Z.to_nat n /\ (forall i, i < j -> Bltb (accumulated b i) sim = true) /\ Bltb (accumulated b j) sim = false) /\
  (forall n, Beqb b fzero = false -> py_trunc (fdiv sim b) = Ok n -> (0 <= n)%Z ->
     forall e, record_run simulate rhs jac observe sim b zero_row zero_obs y0 = Err e -> e = IndexError).
Proof.
  intros P sim b zr zo y0 P0 HP. rewrite record_run_paired.
  assert (E : run_batches paired nothing nothing fzero sim b (zr, zo) (y0, zo) = run_batches padded nothing nothing fzero sim b (zr, zo) (y0, zo)).
  { unfold run_batches. destruct (py_div sim b); cbn [bind]; [|reflexivity]. destruct (py_trunc _) as [n|]; cbn [bind]; [|reflexivity].
    destruct (n <? 0)%Z; [reflexivity|]. apply (loop_padded P); [exact HP | exact P0 | discriminate]. }
  rewrite E. destruct (C36_exactly_when (S * O) padded nothing nothing fzero sim b (zr, zo) (y0, zo)) as (H1 & _ & H3).
  { intros pb tf. unfold padded. destruct (paired pb tf); eauto. }
  split.
  - rewrite <- H1. destruct (run_batches padded _ _ _ _ _ _ _) as [r|]; cbn [bind]; split; intros [x Hx]; eauto; discriminate.
  - intros n Hb Hn Hn0 ex He. apply (H3 n Hb Hn Hn0). destruct (run_batches padded _ _ _ _ _ _ _) as [r|]; cbn [bind] in He; [discriminate | injection He as ->; reflexivity].
Qed.
End Batches.

(* With batch_step = 0.1 and simulation_time = 0.8, exactly 8 times as much,
   the recorded runs make a ninth call and end in IndexError too. *)
Theorem C77_refuted : B2R f08 = (8 * B2R f01)%R /\
  forall S O (simulate : recording_solver S) rhs jac (observe : b64 -> S -> res O) (P : S -> Prop) zero_row zero_obs y0,
    P y0 -> (forall y, P y -> exists r, recorded_batch simulate rhs jac observe f01 y = Ok r /\ P (fst r)) ->
    record_run simulate rhs jac observe f08 f01 zero_row zero_obs y0 = Err IndexError.
Proof.
  destruct C35_refuted as [E H]. split; [exact E|]. intros S O simulate rhs jac observe P zr zo y0 P0 HP. rewrite record_run_paired.
  assert (R : run_batches (paired simulate rhs jac observe) nothing nothing fzero f08 f01 (zr, zo) (y0, zo) =
     run_batches (padded simulate rhs jac observe) nothing nothing fzero f08 f01 (zr, zo) (y0, zo)).
  { unfold run_batches. destruct (py_div f08 f01); cbn [bind]; [|reflexivity]. destruct (py_trunc _) as [n|]; cbn [bind]; [|reflexivity].
    destruct (n <? 0)%Z; [reflexivity|]. apply (loop_padded _ _ _ _ P); [exact HP | exact P0 | discriminate]. }
  rewrite R, H; [reflexivity|]. intros pb tf. unfold padded. destruct (paired _ _ _ _ pb tf); eauto.
Qed.

(* The aerosol driver: the run starts from the state aerosol_initial sets up
   and continues batch by batch. *)
Theorem C77_aerosol_partial : forall st n rnd H2O temp d q nb y_core nper core_density core_mw diss simulate jac calls start_time sp2a conc y_cond y0 sim b z e k,
  aerosol_initial (d_ns d) (d_nc d) nb sp2a conc y_cond = Ok y0 ->
  is_num sim (Z.of_nat k * z) e -> is_num b z e -> (0 < z)%Z -> (-1074 <= e)%Z -> (Z.of_nat k * z < 2 ^ 53)%Z ->
  let rhs := aerosol_dydt_func st n rnd H2O temp d q nb y_core nper core_density core_mw diss calls start_time in
  let observe := aerosol_observe st n rnd H2O temp d q nb y_core nper core_density core_mw diss calls start_time in
  exists ts, aerosol_simulation st n rnd H2O temp d q nb y_core nper core_density core_mw diss simulate jac calls start_time sp2a conc y_cond sim b =
      (do rows <- states (fun _ p => do r <- simulate (Problem rhs jac (fst p) fzero) b; do o <- observe (fst (snd r)) (snd (snd r)); Ok (fst r, o))
                    0 k (y0, (0%R, repeat 0%R nb));
       Ok (ts, map fst rows, map snd rows)) /\
    List.length ts = k /\ forall j t, nth_error ts j = Some t -> is_num t (Z.of_nat (j + 1) * z) e.
Proof.
  intros st n rnd H2O temp d q nb y_core nper cd cm diss simulate jac calls start sp2a conc y_cond y0 sim b z e k H0 Hs Hb Hz He Hk rhs observe.
  destruct (C77_partial simulate rhs jac observe sim b z e k (repeat 0%R (List.length y0)) (0%R, repeat 0%R nb) y0 Hs Hb Hz He Hk) as (ts & H & R).
  exists ts. split; [|exact R]. unfold aerosol_simulation. rewrite H0. cbn [bind]. exact H.
Qed.

(* A case for all of these: the reaction and the integrator of C73_hypotheses,
   two batches of 3600 s; CH3O2 falls in both. *)
Example C77_hypotheses : exists st d q p1 w y_cond y0 ts r1 r2 o1 o2 (P : list R -> Prop),
  extract_mechanism (ParseShow.show self_words) = Ok (1%Z, st) /\
  aerosol_setup st 2 [] [] (-6) 298.15 1 [1e9]%R [50]%R 1770 132.14 3 d q /\ is_call st 1 1 None None None (self_call p1 st) /\
  let c0 := (1e9 * 3 * (0.5 / (1 - 0.5)))%R in
  let calls := fun (_ : b64) (_ : list R) => self_call p1 st in
  let conc := [(s_ "CH3O2", 20%R); (s_ "H2O", w)] in
  aerosol_initial (d_ns d) (d_nc d) 1 (d_sp2a d) conc y_cond = Ok y0 /\ nonneg y0 /\ List.length y0 = d_ns d + d_nc d * 1 /\
  is_num f7200 (Z.of_nat 2 * 3600) 0 /\ is_num f3600 3600 0 /\
  P y0 /\ (forall b y, P y -> (0 <= B2R b)%R -> exists r, recorded_batch (self_integrator w c0)
     (aerosol_dydt_func st 1 (fun x => x) 1e17 298.15 d q 1 [1e9]%R [50]%R 1770 132.14 3 calls f43200) (fun _ _ => Err ValueError)
     (aerosol_observe st 1 (fun x => x) 1e17 298.15 d q 1 [1e9]%R [50]%R 1770 132.14 3 calls f43200) b y = Ok r /\ P (fst r)) /\
  aerosol_simulation st 1 (fun x => x) 1e17 298.15 d q 1 [1e9]%R [50]%R 1770 132.14 3 (self_integrator w c0) (fun _ _ => Err ValueError)
    calls f43200 (d_sp2a d) conc y_cond f7200 f3600 = Ok (ts, [r1; r2], [o1; o2]) /\ (nth 0 r2 0 < nth 0 r1 0 < 20 * Cfactor)%R.
Proof.
  set (c0 := (1e9 * 3 * (0.5 / (1 - 0.5)))%R). assert (Pc : (0 <= c0)%R) by (unfold c0; lra).
  destruct (self_aerosol c0 Pc) as (st & d & q & p1 & w & Hst & AS & Hns & Hnc & Hinc & S0 & S2 & Hcall & Pw & HD).
  assert (B36 : B2R f3600 = 3600%R) by (destruct f3600_num as [_ Q]; rewrite Q; cbn [bpow]; ring).
  assert (PC : (0 < 20 * Cfactor)%R) by (unfold Cfactor; lra).
  set (P := fun y => exists a b, (0 < a)%R /\ (0 <= b)%R /\ y = with_water w c0 [a; b]).
  set (y0 := with_water w c0 [20 * Cfactor; 0]%R).
  assert (P0 : P y0) by (exists (20 * Cfactor)%R, 0%R; split; [exact PC | split; [lra | reflexivity]]).
  assert (Y0 : aerosol_initial (d_ns d) (d_nc d) 1 (d_sp2a d) [(s_ "CH3O2", 20%R); (s_ "H2O", w)] [c0] = Ok y0).
  { rewrite Hns, Hnc. unfold aerosol_initial. cbn [foldM]. unfold set_gas at 1. cbn [fst snd]. unfold lookup. rewrite S0. cbn [bind].
    change (eqb (s_ "CH3O2") (s_ "H2O")) with false. cbv iota. unfold store at 1. cbn [repeat Nat.add Nat.mul List.length Nat.ltb Nat.leb bind set_nth].
    unfold set_gas. cbn [fst snd]. unfold lookup. rewrite S2. cbn [bind]. change (eqb (s_ "H2O") (s_ "H2O")) with true. cbv iota. unfold store. cbn [List.length Nat.ltb Nat.leb bind set_nth].
    unfold slice_assign. cbn [firstn skipn app Nat.add Nat.mul bind List.length]. reflexivity. }
  assert (Step : forall b y, P y -> (0 <= B2R b)%R -> exists r, recorded_batch (self_integrator w c0)
     (aerosol_dydt_func st 1 (fun x => x) 1e17 298.15 d q 1 [1e9]%R [50]%R 1770 132.14 3 (fun _ _ => self_call p1 st) f43200) (fun _ _ => Err ValueError)
     (aerosol_observe st 1 (fun x => x) 1e17 298.15 d q 1 [1e9]%R [50]%R 1770 132.14 3 (fun _ _ => self_call p1 st) f43200) b y = Ok r /\ P (fst r) /\
     ((0 < B2R b)%R -> (nth 0 (fst r) 0 < nth 0 y 0)%R)).
  { intros tf y (a & b & Pa & Pb & ->) Ptf.
    assert (Q1 : (0 <= 1.82e-13 * a * B2R tf)%R) by (apply Rmult_le_pos; [apply Rmult_le_pos; lra | exact Ptf]).
    assert (Q2 : (a / (1 + 1.82e-13 * a * B2R tf) <= a)%R).
    { apply Rmult_le_reg_r with (1 + 1.82e-13 * a * B2R tf)%R; [lra|]. unfold Rdiv. rewrite Rmult_assoc, Rinv_l by lra.
      assert (0 <= a * (1.82e-13 * a * B2R tf))%R by (apply Rmult_le_pos; lra). lra. }
    assert (Q3 : (0 < a / (1 + 1.82e-13 * a * B2R tf))%R) by (apply Rmult_lt_0_compat; [exact Pa | apply Rinv_0_lt_compat; lra]).
    set (y1 := with_water w c0 (self_solution a b (B2R tf))).
    destruct (HD 1e17%R (B2R (fadd f43200 tf)) (a / (1 + 1.82e-13 * a * B2R tf))%R (b + (a - a / (1 + 1.82e-13 * a * B2R tf)))%R ltac:(lra) ltac:(lra) ltac:(lra)) as (_ & o & Ho).
    exists (y1, o). split; [|split; [exists (a / (1 + 1.82e-13 * a * B2R tf))%R, (b + (a - a / (1 + 1.82e-13 * a * B2R tf)))%R; split; [exact Q3 | split; [lra | reflexivity]]|]].
    - unfold recorded_batch, self_integrator. cbn [pb_y0 with_water app].
      destruct (Rle_dec 0 a) as [_|F]; [|exfalso; lra]. destruct (Rle_dec 0 b) as [_|F]; [|exfalso; lra].
      destruct (Req_EM_T w w) as [_|F]; [|congruence]. destruct (Req_EM_T c0 c0) as [_|F]; [|congruence]. cbv zeta. cbn [bind fst snd]. fold (with_water w c0 (self_solution a b (B2R tf))). fold y1.
      unfold aerosol_observe. change y1 with (with_water w c0 [a / (1 + 1.82e-13 * a * B2R tf); b + (a - a / (1 + 1.82e-13 * a * B2R tf))]%R). rewrite Ho. reflexivity.
    - intros Pt. cbn [fst]. unfold y1, with_water, self_solution. cbn [app nth].
      assert (0 < 1.82e-13 * a * B2R tf)%R by (apply Rmult_lt_0_compat; [apply Rmult_lt_0_compat; lra | exact Pt]).
      apply Rmult_lt_reg_r with (1 + 1.82e-13 * a * B2R tf)%R; [lra|]. unfold Rdiv. rewrite Rmult_assoc, Rinv_l by lra.
      assert (0 < a * (1.82e-13 * a * B2R tf))%R by (apply Rmult_lt_0_compat; lra). lra. }
  destruct (Step f3600 y0 P0 ltac:(lra)) as ([r1 o1] & E1 & P1 & L1). cbn [fst] in P1, L1.
  destruct (Step f3600 r1 P1 ltac:(lra)) as ([r2 o2] & E2 & P2 & L2). cbn [fst] in P2, L2.
  assert (B72 : is_num f7200 (Z.of_nat 2 * 3600) 0) by (exact (proj1 C35_hypotheses)).
  destruct (C77_aerosol_partial st 1 (fun x => x) 1e17 298.15 d q 1 [1e9]%R [50]%R 1770 132.14 3 (self_integrator w c0) (fun _ _ => Err ValueError)
    (fun _ _ => self_call p1 st) f43200 (d_sp2a d) [(s_ "CH3O2", 20%R); (s_ "H2O", w)] [c0] y0 f7200 f3600 3600 0 2 Y0 B72 f3600_num ltac:(lia) ltac:(lia) ltac:(lia)) as (ts & H & _).
  unfold recorded_batch in E1, E2. cbn [states fst] in H. rewrite E1 in H. cbn [bind fst] in H. rewrite E2 in H. cbn [bind map fst snd] in H.
  exists st, d, q, p1, w, [c0], y0, ts, r1, r2, o1, o2, P. cbv zeta.
  split; [exact Hst|]. split; [exact AS|]. split; [exact Hcall|]. split; [exact Y0|].
  split; [unfold y0, with_water; cbn [app]; repeat (apply Forall_cons; [first [exact Pw | exact Pc | lra]|]); constructor|].
  split; [rewrite Hns, Hnc; reflexivity|]. split; [exact B72|]. split; [exact f3600_num|]. split; [exact P0|].
  split; [intros b y Py Pb; destruct (Step b y Py Pb) as (r & Hr & Pr & _); eauto|]. split; [exact H|].
  split; [apply L2; lra | apply L1; lra].
Qed.

Print Assumptions C76_partial.
Print Assumptions C77_partial.
Print Assumptions C77_exactly_when.
Print Assumptions C77_refuted.
Print Assumptions C77_aerosol_partial.
