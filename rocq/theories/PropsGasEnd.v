(* C96: the f2py driver of the gas phase from the mechanism text to the rows. *)
From Coq Require Import String List Bool Arith Lia ZArith QArith Reals Qreals Lra Permutation Sorted FunctionalExtensionality.
From Flocq Require Import Core BinarySingleNaN.
From Verif Require Import Base PyStr PyDict SpecRateText RateNames RateParse ModelSource ModelWrite SpecSource SourceRead SourceRun PropsSource PropsSourceRun SourceWidth PropsWidth
  ModelRateText ModelRateWrite ModelRateRead RateFileN RateFileF RateFileUse ModelGasFiles PropsRateText.
From Verif Require Import SpecRate ModelParse SpecMech ParseStruct ParseTables ParseWritten ParseShow PropsParse
  ModelLang ModelGen ModelRhs SpecKin LangFacts GenReact GenLossGain GenParsed GenSparse GenJac PropsKin PropsRhs
  ModelOmp ModelExpr ModelRate ModelRateFile RateExpr PropsRate ModelRateBody ModelRateRun RateSym
  SpecRateValue SpecMcmEnv PropsRateValue ModelRo2 SpecRo2 PropsRo2 ModelGas SpecGas PropsGas ModelGasJac PropsGasJac PropsGasF2py
  ModelSolver SpecSolver SolverFacts OdeFacts PropsSolver ModelSplit PropsSplit SpecMethod PropsMethod SpecTraj OdeSign PropsTraj PropsYieldTraj
  OdeNear GasFortran OdeClose OdeStay GasFlow SpecSun SpecTroe SpecTame TameFacts PropsTame PropsUnique OdePicard OdeExist SunPieces TameFlow PropsExist
  PropsAeroExist SpecError PropsError SpecChem PropsChem ModelGasEnd PropsSigned.
Import ListNotations.
Import Coq.Lists.List.
Open Scope nat_scope.
Open Scope list_scope.
Local Arguments eqb : simpl never.

(* ------------------------------------------------------------------ *)
(* The three Fortran files as compiled compute what the numba driver does, at
   every state of the right length, negative ones included. *)
Lemma compiled_same m text num date : written m text -> one_line date -> fortran_ready m -> peroxy_clean (first_seen (reading_order m)) ->
  Forall (fun r => mcm_text (rtext r)) m ->
  forall o1 o2 o3 p1 t1, gen_reactants_fortran o1 (List.length m) (p_sp2a (interp m)) (p_reac (interp m)) (p_loss (interp m)) = Ok p1 ->
  write_reactants_fortran num date o1 (List.length m) (p_sp2a (interp m)) (p_reac (interp m)) (p_loss (interp m)) = Ok t1 ->
  let t2 := write_loss_gain_fortran num date o2 (List.length m) (species_count (interp m)) (p_sp2a (interp m)) (p_loss (interp m)) (p_gain (interp m)) in
  prints num p1 -> prints num (gen_loss_gain_fortran o2 (p_sp2a (interp m)) (p_loss (interp m)) (p_gain (interp m))) ->
  fine t1 -> fine t2 -> fine (rate_file_fortran o3 (interp m)) ->
  exists rs s1 s2, read_rates_fortran (rate_file_fortran o3 (interp m)) = Some rs /\
    read_fortran one_subscript t1 = Some s1 /\ read_fortran one_subscript t2 = Some s2 /\
    forall c, is_compiled_call rs s1 s2 o1 o2 o3 c -> forall rnd e clock H2O T y v, is_rounding rnd -> (0 < T)%R -> (0 <= H2O)%R ->
      List.length y = List.length (species m) -> coefficients m e clock (peroxy_total (species m) (conc_of (p_sp2a (interp m)) y)) H2O T v ->
      compiled_dydt rnd rs (List.length m) (write_RO2_indices (p_sp2a (interp m))) H2O T c clock y = gas_dydt_numba (interp m) (List.length m) clock 0 H2O T y.
Proof.
  intros W Hd FR PC HM o1 o2 o3 p1 t1 G1 W1 t2 P1 P2 F1 F2 F3. assert (E := written_extract _ _ W). rewrite Forall_forall in HM.
  destruct (rates_of_mech m text convert_fortran good_rate _ W E) as (K1 & L).
  { intros k r I. exact (proj1 (mcm_fortran k _ (HM r I))). }
  destruct (rates_of_mech m text convert_fortran (fun p => ModelRateRead.known rate_names (expr_of fortran_lang (snd p)) = true) _ W E) as (K2 & _).
  { intros k r I. exact (proj2 (mcm_fortran k _ (HM r I))). }
  destruct (call_fortran o3 _ K1 K2 F3) as (rs & R & _ & _ & _ & _ & X).
  destruct (C79_reactants_fortran _ _ _ _ _ _ _ _ Hd W1) as (p1' & G' & R1). rewrite G1 in G'. injection G' as <-.
  pose proof (C79_dydt_fortran num date o2 (List.length m) (species_count (interp m)) (p_sp2a (interp m)) (p_loss (interp m)) (p_gain (interp m)) Hd P2) as R2.
  exists rs. eexists _, _. split; [exact R|]. split; [exact (proj1 (R1 P1) F1)|]. split; [exact (proj1 R2 F2)|].
  intros c (C3 & C1 & C2) rnd e clock H2O T y v Hr HT HH Ly HC. cbn [f_prog] in C1, C2.
  destruct (X _ C3) as (tr0 & T0 & Hcall). destruct (runs_as_plain _ _ _ C1) as (u1 & U1 & V1). destruct (runs_as_plain _ _ _ C2) as (u2 & U2 & V2).
  assert (HC' : coefficients m e (clock + 0) (peroxy_total (species m) (conc_of (p_sp2a (interp m)) y)) H2O T v) by (rewrite Rplus_0_r; exact HC).
  assert (Y : gas_dydt_fortran (reduced_rnd rnd) tr0 u1 u2 (List.length m) (cc_a0 c) (cc_m0 c) (RO2_sum (write_RO2_indices (p_sp2a (interp m))) y) clock 0 H2O T y = gas_dydt_numba (interp m) (List.length m) clock 0 H2O T y).
  { assert (Ey : firstn (List.length (species m)) y = y) by (apply firstn_all2; lia).
    assert (F := generated_fortran m text (interp m) W FR E (some_species m PC) e o1 o2 o3 p1 _ _ _ (reduced_rnd rnd) (cc_a0 c) (cc_m0 c) clock 0%R H2O T y v PC G1 U1 U2 T0 (reduced_rounding rnd Hr) HT HH ltac:(lia)).
    cbv zeta in F. rewrite Ey in F. rewrite (F HC'). symmetry.
    apply (generated_defined m text (interp m) e clock 0 H2O T y v W (ready_whole m FR) (ready_safe m FR) PC E HT HH Ly HC'). }
  rewrite <- Y. unfold compiled_dydt, gas_dydt_compiled, gas_dydt_fortran. destruct (RO2_sum _ y) as [x|]; [|reflexivity].
  rewrite Hcall, L. destruct (fortran_run _ _ _ _) as [en|]; [|reflexivity]. cbn [obind]. destruct (returned _ _) as [ks|]; [|reflexivity]. cbn [obind].
  rewrite V1, V2. unfold rhs_fortran. rewrite reactants_fortran_plain by (eapply runs_as_well; [eapply well_reactants_fortran, G1 | exact U1]).
  destruct (reactants_fortran (reduced_rnd rnd) u1 (List.length m) (cc_m0 c) y); [|reflexivity].
  apply loss_gain_fortran_plain. eapply runs_as_well; [apply well_loss_gain_fortran | exact U2].
Qed.

Lemma signed_rows_ext eps delta n f g start b : (0 <= b)%R -> (forall clock y, List.length y = n -> f clock y = g clock y) ->
  forall y rows, List.length y = n -> signed_rows eps delta f start b y rows -> signed_rows eps delta g start b y rows.
Proof.
  intros Pb Hfg y rows L H. revert L. induction H as [y|u y1 rows C U H IH]; intros L; [apply signed_none|].
  assert (Lu : forall t, (0 <= t <= b)%R -> List.length (u t) = n) by (intros t Ht; rewrite (proj1 (proj1 U t Ht)); exact L).
  apply signed_more with (u := u); [exact C| |].
  - eapply solves_ext; [|exact U]. intros t Ht. cbv beta. apply Hfg, Lu, Ht.
  - intros Lw. apply (IH Lw). rewrite <- (proj1 C). apply Lu. lra.
Qed.

(* C96.  The f2py driver, from the text of the mechanism through the three
   Fortran files: whatever the order of the threads and the contents of the
   output arrays at each evaluation, a good integrator gives rows close to the
   chemistry. *)
Theorem C96_partial : forall m text e w num date, written m text -> one_line date ->
  Forall unit_coefficients m -> Forall (fun r => NoDup (names (rhs r)) /\ ~ In (last_reactant r) (names (rhs r))) m -> Forall distinct_reactants m ->
  peroxy_clean (first_seen (reading_order m)) -> Forall (fun r => mcm_text (rtext r)) m ->
  Forall (fun r => weight w (rhs r) <= weight w (lhs r))%R m -> w light = 0%R -> (forall b, In b bath -> w b = 0%R) -> (forall s, (0 <= w s)%R) ->
  (forall s, In s (first_seen (reading_order m)) -> ~ In s bath -> (0 < w s)%R) ->
  let sp := first_seen (reading_order m) in
  exists st, extract_mechanism text = Ok (Z.of_nat (List.length m), st) /\
  forall o1 o2 o3, exists p1 t1,
    gen_reactants_fortran o1 (List.length m) (p_sp2a st) (p_reac st) (p_loss st) = Ok p1 /\
    write_reactants_fortran num date o1 (List.length m) (p_sp2a st) (p_reac st) (p_loss st) = Ok t1 /\
    let t2 := write_loss_gain_fortran num date o2 (List.length m) (species_count st) (p_sp2a st) (p_loss st) (p_gain st) in
    (prints num p1 -> prints num (gen_loss_gain_fortran o2 (p_sp2a st) (p_loss st) (p_gain st)) ->
     fine t1 -> fine t2 -> fine (rate_file_fortran o3 st) ->
  exists rs s1 s2, read_rates_fortran (rate_file_fortran o3 st) = Some rs /\
    read_fortran one_subscript t1 = Some s1 /\ read_fortran one_subscript t2 = Some s2 /\
  forall rnd start H2O temp b N A eps, is_rounding rnd -> (0 < temp)%R -> (0 <= H2O)%R -> (0 < B2R b)%R -> (0 <= A)%R -> (0 < eps)%R -> tame_rates m e H2O temp ->
    let RO2_indices := write_RO2_indices (p_sp2a st) in
    exists C D, (0 <= C)%R /\ (0 < D)%R /\ forall rcalls calls,
      (forall clock y, is_compiled_call rs s1 s2 o1 o2 o3 (rcalls clock y)) -> (forall clock y, is_compiled_call rs s1 s2 o1 o2 o3 (calls clock y)) ->
      let equations := fun clock y => compiled_dydt rnd rs (List.length m) RO2_indices H2O temp (rcalls clock y) clock y in
      let rhs_at := compiled_rhs_at rnd rs (List.length m) RO2_indices H2O temp calls in
    (* the function handed to the integrator is this function of the clock and the state *)
    (forall clock y, List.length y = List.length sp -> rhs_at clock y = match equations (B2R clock) y with Some d => Ok d | None => Err ValueError end) /\
    forall delta simulate jac conc sim ts ys, (0 <= delta <= D)%R ->
      off_by_signed eps delta equations rhs_at simulate -> NoDup (dkeys conc) -> Forall (fun p => 0 <= snd p <= A)%R conc ->
      run_simulation simulate rhs_at jac start (p_sp st) (p_sp2a st) conc sim b = Ok (ts, ys) -> List.length ts <= N ->
      exists y0 rows, List.length y0 = List.length sp /\
        (forall s, In s sp -> concentration sp y0 s = match dget s conc with Some c => c * 25500000000 | None => 0 end)%R /\
        List.length rows = List.length ts /\ chained (one_batch m e H2O temp (B2R start) (B2R b)) y0 rows /\
        (forall rows', List.length rows' = List.length ts -> chained (one_batch m e H2O temp (B2R start) (B2R b)) y0 rows' -> rows' = rows) /\
        (forall j s, j < List.length ts -> In s sp -> (Rabs (concentration sp (nth j ys []) s - concentration sp (nth j rows []) s) <= C * delta)%R) /\
        ((forall k r, nth_error m k = Some r -> sunless (e k)) ->
         exists u, obeys m e H2O temp (B2R start) (INR (List.length ts) * B2R b) u /\ u 0%R = y0 /\
           forall j, j < List.length ts -> u (INR (S j) * B2R b)%R = nth j rows [])).
Proof.
  intros m text e w num date W Hd Hu Hp Hdr PC HM Hwt Hl Hb Pw Pp sp. assert (FR : fortran_ready m) by (constructor; assumption).
  destruct (C83_rhs_fortran_partial m text num date W Hd Hu Hp Hdr PC HM) as (st & E & H). assert (X := written_extract _ _ W). rewrite E in X. injection X as ->.
  exists (interp m). split; [exact E|]. intros o1 o2 o3. destruct (H o1 o2 o3) as (p1 & t1 & G1 & W1 & _). clear H. exists p1, t1. split; [exact G1|]. split; [exact W1|].
  intros t2 P1 P2 F1 F2 F3. destruct (compiled_same m text num date W Hd FR PC HM o1 o2 o3 p1 t1 G1 W1 P1 P2 F1 F2 F3) as (rs & s1 & s2 & R & R1 & R2 & Same).
  exists rs, s1, s2. split; [exact R|]. split; [exact R1|]. split; [exact R2|].
  intros rnd start H2O temp b N A eps Hrnd HT HH Pb PA Pe Ht RO2_indices. assert (Hw := ready_whole m FR). assert (Hs := ready_safe m FR).
  destruct (gas_signed m text e w start H2O temp b N (A * 25500000000)%R eps W Hw PC Hs Hwt Hl Hb Pw Pp HT HH Pb ltac:(lra) Pe Ht) as (C & D & PCC & PD & HC).
  exists C, D. split; [exact PCC|]. split; [exact PD|]. intros rcalls calls Hrc Hca equations rhs_at.
  destruct (C82_regular m e H2O temp Ht) as (k & _ & Hk).
  assert (Eq : forall clock y, List.length y = List.length (species m) -> equations clock y = gas_dydt_numba (interp m) (List.length m) clock 0 H2O temp y).
  { intros clock y Ly. apply (Same _ (Hrc clock y) rnd e clock H2O temp y (fun r => k r clock (peroxy_total (species m) (conc_of (p_sp2a (interp m)) y))) Hrnd HT HH Ly). apply Hk. }
  split.
  { intros clock y Ly. rewrite (Eq (B2R clock) y Ly). unfold rhs_at, compiled_rhs_at.
    assert (X := Same _ (Hca clock y) rnd e (B2R clock) H2O temp y (fun r => k r (B2R clock) (peroxy_total (species m) (conc_of (p_sp2a (interp m)) y))) Hrnd HT HH Ly (Hk _ _)).
    fold RO2_indices in X. rewrite X. reflexivity. }
  intros delta simulate jac conc sim ts ys Hdel Ho Nd Fc Hrun HN.
  apply (rows_chemistry m text e w start H2O temp b A (C * delta)%R W Hw Hdr PC Hs Hwt Hl Hb Pw Pp HT HH Pb PA Ht simulate _ jac conc sim ts ys Nd Fc Hrun).
  intros y0 Y0 F0. assert (L0 := start_length m conc y0 Y0).
  destruct (run_signed eps delta equations simulate rhs_at jac start _ _ conc sim b ts ys y0 Pb Pe Ho Y0 (range_nonneg _ _ F0) Hrun) as [X L].
  apply (signed_rows_ext eps delta _ _ _ _ _ (Rlt_le _ _ Pb) Eq _ _ L0) in X.
  assert (Lf : List.length (firstn (List.length ts) ys) = List.length ts) by (rewrite firstn_length; lia).
  destruct (HC delta y0 _ Hdel (conj L0 F0) X ltac:(lia)) as (rows & Lr & X' & _ & Cl). rewrite Lf in Lr, Cl.
  exists rows. split; [exact Lr|]. split; [exact X'|]. intros j Hj. rewrite <- (firstn_row (List.length ts) ys j Hj). apply Cl, Hj.
Qed.

(* ------------------------------------------------------------------ *)
(* The two gas-phase drivers side by side. *)
Lemma loop_times (s1 s2 : solver (list R)) r1 r2 j1 j2 start sim b z1 z2 : forall rows total y1 y2 o1 o2 ts1 ts2 ys1 ys2,
  loop s1 r1 j1 start sim b z1 rows total y1 o1 = Ok (ts1, ys1) -> loop s2 r2 j2 start sim b z2 rows total y2 o2 = Ok (ts2, ys2) -> ts1 = ts2.
Proof.
  induction rows as [|rows IH]; intros total y1 y2 o1 o2 ts1 ts2 ys1 ys2 H1 H2; cbn [loop] in H1, H2; destruct (Bltb total sim); try (injection H1 as <- <-; injection H2 as <- <-; reflexivity).
  - apply bind_Ok in H1 as (a & _ & H1). apply bind_Ok in H1 as (a1 & _ & H1). discriminate.
  - apply bind_Ok in H1 as (a & _ & H1). apply bind_Ok in H1 as (a1 & _ & H1). apply bind_Ok in H1 as ([p1 q1] & L1 & H1). injection H1 as <- <-.
    apply bind_Ok in H2 as (b0 & _ & H2). apply bind_Ok in H2 as (b1 & _ & H2). apply bind_Ok in H2 as ([p2 q2] & L2 & H2). injection H2 as <- <-.
    apply f_equal. cbn [fst]. eapply IH; [exact L1 | exact L2].
Qed.
Lemma run_times (s1 s2 : solver (list R)) r1 r2 j1 j2 start sp sp2a conc sim b ts1 ts2 ys1 ys2 :
  run_simulation s1 r1 j1 start sp sp2a conc sim b = Ok (ts1, ys1) -> run_simulation s2 r2 j2 start sp sp2a conc sim b = Ok (ts2, ys2) -> ts1 = ts2.
Proof.
  unfold run_simulation, run_batches. intros H1 H2. apply bind_Ok in H1 as (y & Y & H1). rewrite Y in H2. cbn [bind] in H2.
  apply bind_Ok in H1 as (q & Q & H1). rewrite Q in H2. cbn [bind] in H2. apply bind_Ok in H1 as (z & Z1 & H1). rewrite Z1 in H2. cbn [bind] in H2.
  destruct (z <? 0)%Z; [discriminate|]. exact (loop_times _ _ _ _ _ _ _ _ _ _ _ _ _ _ _ _ _ _ _ _ _ H1 H2).
Qed.
Lemma by_name : forall sp y y', NoDup sp -> List.length y = List.length sp -> List.length y' = List.length sp ->
  (forall s, In s sp -> concentration sp y s = concentration sp y' s) -> y = y'.
Proof.
  induction sp as [|x sp IH]; intros [|c y] [|c' y'] Nd L L' H; try discriminate; [reflexivity|]. inversion Nd as [|? ? N1 N2]; subst.
  assert (H0 := H x (or_introl eq_refl)). cbn [concentration] in H0. replace (str_eqb x x) with true in H0 by (symmetry; apply str_eqb_eq; reflexivity). subst c'.
  apply f_equal, IH; [exact N2 | now injection L | now injection L'|]. intros s Hs. assert (H1 := H s (or_intror Hs)). cbn [concentration] in H1.
  destruct (str_eqb x s) eqn:Ex; [|exact H1]. apply str_eqb_eq in Ex. subst s. contradiction.
Qed.

(* For the same mechanism, start and batches the two gas-phase drivers give the
   same times and rows that differ by no more than their integrators allow. *)
Theorem C96_drivers_partial : forall m text e w num num' date date', written m text -> one_line date -> one_line date' ->
  Forall unit_coefficients m -> Forall (fun r => NoDup (names (rhs r)) /\ ~ In (last_reactant r) (names (rhs r))) m -> Forall distinct_reactants m ->
  peroxy_clean (first_seen (reading_order m)) -> Forall (fun r => mcm_text (rtext r)) m ->
  Forall (fun r => weight w (rhs r) <= weight w (lhs r))%R m -> w light = 0%R -> (forall b, In b bath -> w b = 0%R) -> (forall s, (0 <= w s)%R) ->
  (forall s, In s (first_seen (reading_order m)) -> ~ In s bath -> (0 < w s)%R) ->
  let sp := first_seen (reading_order m) in
  exists st, extract_mechanism text = Ok (Z.of_nat (List.length m), st) /\
  forall o1 o2 o3, exists p1 t1 pn tn,
    gen_reactants_fortran o1 (List.length m) (p_sp2a st) (p_reac st) (p_loss st) = Ok p1 /\
    write_reactants_fortran num date o1 (List.length m) (p_sp2a st) (p_reac st) (p_loss st) = Ok t1 /\
    gen_reactants_numba (List.length m) (p_sp2a st) (p_reac st) (p_loss st) = Ok pn /\
    write_reactants_numba num' date' (List.length m) (p_sp2a st) (p_reac st) (p_loss st) = Ok tn /\
    let t2 := write_loss_gain_fortran num date o2 (List.length m) (species_count st) (p_sp2a st) (p_loss st) (p_gain st) in
    (prints num p1 -> prints num (gen_loss_gain_fortran o2 (p_sp2a st) (p_loss st) (p_gain st)) ->
     fine t1 -> fine t2 -> fine (rate_file_fortran o3 st) ->
     prints num' pn -> prints num' (snd (gen_loss_gain_numba (p_sp2a st) (p_loss st) (p_gain st))) ->
  exists rs s1 s2 rn n1 n2, read_rates_fortran (rate_file_fortran o3 st) = Some rs /\
    read_fortran one_subscript t1 = Some s1 /\ read_fortran one_subscript t2 = Some s2 /\
    read_rates_python (rate_file_numba date' st) = Some rn /\ read_python one_subscript tn = Some n1 /\
    read_python one_subscript (write_loss_gain_numba num' date' (p_sp2a st) (p_loss st) (p_gain st)) = Some n2 /\
  forall rnd start H2O temp b N A eps, is_rounding rnd -> (0 < temp)%R -> (0 <= H2O)%R -> (0 < B2R b)%R -> (0 <= A)%R -> (0 < eps)%R -> tame_rates m e H2O temp ->
    let RO2_indices := write_RO2_indices (p_sp2a st) in
    exists C D, (0 <= C)%R /\ (0 < D)%R /\ forall rcalls calls,
      (forall clock y, is_compiled_call rs s1 s2 o1 o2 o3 (rcalls clock y)) -> (forall clock y, is_compiled_call rs s1 s2 o1 o2 o3 (calls clock y)) ->
      let f2py_equations := fun clock y => compiled_dydt rnd rs (List.length m) RO2_indices H2O temp (rcalls clock y) clock y in
      let f2py_rhs := compiled_rhs_at rnd rs (List.length m) RO2_indices H2O temp calls in
      let numba_equations := fun clock y => gas_dydt_files rn n1 n2 (List.length m) (RO2_sum RO2_indices y) clock 0 H2O temp y in
      let numba_rhs := files_rhs_at rn n1 n2 (List.length m) RO2_indices H2O temp in
    forall delta delta' simulate simulate' jac jac' conc sim ts ys ts' ys', (0 <= delta <= D)%R -> (0 <= delta' <= D)%R ->
      off_by_signed eps delta f2py_equations f2py_rhs simulate -> off_by_signed eps delta' numba_equations numba_rhs simulate' ->
      NoDup (dkeys conc) -> Forall (fun p => 0 <= snd p <= A)%R conc -> List.length ts <= N ->
      run_simulation simulate f2py_rhs jac start (p_sp st) (p_sp2a st) conc sim b = Ok (ts, ys) ->
      run_simulation simulate' numba_rhs jac' start (p_sp st) (p_sp2a st) conc sim b = Ok (ts', ys') ->
      ts' = ts /\ forall j s, j < List.length ts -> In s sp -> (Rabs (concentration sp (nth j ys []) s - concentration sp (nth j ys' []) s) <= C * (delta + delta'))%R).
Proof.
  intros m text e w num num' date date' W Hd Hd' Hu Hp Hdr PC HM Hwt Hl Hb Pw Pp sp. assert (FR : fortran_ready m) by (constructor; assumption).
  destruct (C96_partial m text e w num date W Hd Hu Hp Hdr PC HM Hwt Hl Hb Pw Pp) as (st & E & H1). exists st. split; [exact E|].
  destruct (C95_partial m text e w num' date' W Hd' (ready_whole m FR) Hdr PC (ready_safe m FR) HM Hwt Hl Hb Pw Pp) as (st' & pn & tn & E' & Gn & Wn & H2).
  rewrite E in E'. injection E' as <-. intros o1 o2 o3. destruct (H1 o1 o2 o3) as (p1 & t1 & G1 & W1 & H3). clear H1. exists p1, t1, pn, tn.
  split; [exact G1|]. split; [exact W1|]. split; [exact Gn|]. split; [exact Wn|]. intros t2 P1 P2 F1 F2 F3 P3 P4.
  destruct (H3 P1 P2 F1 F2 F3) as (rs & s1 & s2 & R & R1 & R2 & H4). clear H3. destruct (H2 P3 P4) as (rn & n1 & n2 & Q & Q1 & Q2 & H5). clear H2.
  exists rs, s1, s2, rn, n1, n2. split; [exact R|]. split; [exact R1|]. split; [exact R2|]. split; [exact Q|]. split; [exact Q1|]. split; [exact Q2|].
  intros rnd start H2O temp b N A eps Hrnd HT HH Pb PA Pe Ht RO2_indices.
  destruct (H4 rnd start H2O temp b N A eps Hrnd HT HH Pb PA Pe Ht) as (C & D & PCC & PD & HC). clear H4.
  destruct (H5 start H2O temp b N A eps HT HH Pb PA Pe Ht) as (_ & C' & D' & PCC' & PD' & HC'). clear H5.
  exists (Rmax C C'), (Rmin D D'). split; [eapply Rle_trans; [exact PCC | apply Rmax_l]|]. split; [apply Rmin_pos; assumption|].
  intros rcalls calls Hrc Hca f2py_equations f2py_rhs numba_equations numba_rhs delta delta' simulate simulate' jac jac' conc sim ts ys ts' ys' Hdl Hdl' Ho Ho' Nd Fc LN X X'.
  assert (Et : ts = ts') by (exact (run_times _ _ _ _ _ _ _ _ _ _ _ _ _ _ _ _ X X')). subst ts'. split; [reflexivity|].
  assert (M1 := Rmin_l D D'). assert (M2 := Rmin_r D D').
  destruct (proj2 (HC rcalls calls Hrc Hca) delta simulate jac conc sim ts ys (conj (proj1 Hdl) (Rle_trans _ _ _ (proj2 Hdl) M1)) Ho Nd Fc X LN) as (y0 & rows & L0 & V0 & Lr & Ch & _ & Cl & _).
  destruct (HC' delta' simulate' jac' conc sim ts ys' (conj (proj1 Hdl') (Rle_trans _ _ _ (proj2 Hdl') M2)) Ho' Nd Fc X' LN) as (y0' & rows' & L0' & V0' & Lr' & Ch' & Un & Cl' & _).
  assert (Ey : y0 = y0').
  { apply (by_name sp); [apply first_seen_NoDup | exact L0 | exact L0'|]. intros s Hs. exact (eq_trans (V0 s Hs) (eq_sym (V0' s Hs))). }
  subst y0'. rewrite (Un rows Lr Ch) in Cl. intros j s Hj Hs. assert (A1 := Cl j s Hj Hs). assert (A2 := Cl' j s Hj Hs).
  assert (B1 := Rmax_l C C'). assert (B2 := Rmax_r C C').
  assert (U1 : (C * delta <= Rmax C C' * delta)%R) by (apply Rmult_le_compat_r; lra). assert (U2 : (C' * delta' <= Rmax C C' * delta')%R) by (apply Rmult_le_compat_r; lra).
  rewrite Rmult_plus_distr_l. fold sp in A1, A2 |- *. apply Rabs_le_inv in A1, A2. apply Rabs_le. lra.
Qed.

(* The mechanism CH3O2 -> CH3O and the integrators of C95, off by delta in the
   f2py driver and by delta' in the numba driver. *)
Lemma sinking_run rhs_at delta : exists ts,
  run_simulation (sinking_solver delta) rhs_at (fun _ _ => Err ValueError) f43200 (p_sp (interp self_mech)) (p_sp2a (interp self_mech)) [(s_ "CH3O2", 0%R)] f7200 f3600 =
    Ok (ts, [[0; 0 - delta]; [0; 0 - delta - delta]]%R) /\ List.length ts = 2.
Proof.
  assert (H0 : initial_state (List.length (p_sp (interp self_mech))) (p_sp2a (interp self_mech)) [(s_ "CH3O2", 0%R)] = Ok [(0 * Cfactor)%R; 0%R]) by (vm_compute; reflexivity).
  destruct (C35_partial (sinking_solver delta) rhs_at (fun _ _ => Err ValueError) f43200 f7200 f3600 3600 0 2 (repeat 0%R 2) [(0 * Cfactor)%R; 0%R] (proj1 C35_hypotheses) f3600_num ltac:(lia) ltac:(lia) ltac:(lia))
    as (ts & HR & Lts & _).
  assert (S : forall rhs jac a b, a = 0%R -> sinking_solver delta (Problem rhs jac [a; b] fzero) f3600 = Ok [0%R; (b - delta)%R]).
  { intros rhs jac a b ->. unfold sinking_solver. cbn [pb_y0]. destruct (Rle_dec 0 0) as [_|F]; [|exfalso; lra]. unfold self_solution. cbn [nth].
    apply f_equal. unfold Rdiv. rewrite Rmult_0_l. f_equal. f_equal. ring. }
  exists ts. split; [|exact Lts]. unfold run_simulation. rewrite H0. cbn [bind]. change (List.length [(0 * Cfactor)%R; 0%R]) with 2. rewrite HR. cbn [states].
  rewrite S by ring. cbn [bind]. rewrite S by reflexivity. cbn [bind]. reflexivity.
Qed.
Lemma sinking_any f rhs_at H2O temp eps delta : (0 < temp)%R -> (0 <= H2O)%R -> (0 <= delta)%R ->
  (forall clock y, List.length y = 2 -> f clock y = gas_dydt_numba (interp self_mech) 1 clock 0 H2O temp y) ->
  off_by_signed eps delta f rhs_at (sinking_solver delta).
Proof.
  intros HT HH Pd Hf start jac y0 tf y1 N0 Pt H. assert (E := written_extract _ _ self_written).
  destruct (sinking_off (interp self_mech) H2O temp eps delta E HT HH Pd start jac y0 tf y1 N0 Pt H) as (u & U0 & U & C).
  exists u. split; [exact U0|]. split; [|exact C]. eapply solves_ext; [|exact U]. intros t Ht. cbv beta. symmetry. apply Hf.
  rewrite (proj1 (proj1 U t Ht)), U0. unfold sinking_solver in H. cbn [pb_y0] in H. destruct y0 as [|a [|b [|]]]; try discriminate. reflexivity.
Qed.

Example C96_hypotheses : forall eps delta delta' a0 m0, (0 < eps)%R -> (0 <= delta)%R -> (0 <= delta')%R -> exists st p1 t1 pn tn rs s1 s2 rn n1 n2 ts,
  let t2 := write_loss_gain_fortran repr date0 None 1 (species_count st) (p_sp2a st) (p_loss st) (p_gain st) in
  let idx := write_RO2_indices (p_sp2a st) in
  let c := CompiledCall (fr_rates rs) (f_prog s1) (f_prog s2) a0 m0 in
  let f2py_rhs := compiled_rhs_at (fun x => x) rs 1 idx 1e17 298 (fun _ _ => c) in
  let numba_rhs := files_rhs_at rn n1 n2 1 idx 1e17 298 in
  fortran_ready self_mech /\ Forall (fun r => mcm_text (rtext r)) self_mech /\ one_line date0 /\
  extract_mechanism (ParseShow.show self_words) = Ok (1%Z, st) /\
  gen_reactants_fortran None 1 (p_sp2a st) (p_reac st) (p_loss st) = Ok p1 /\ write_reactants_fortran repr date0 None 1 (p_sp2a st) (p_reac st) (p_loss st) = Ok t1 /\
  gen_reactants_numba 1 (p_sp2a st) (p_reac st) (p_loss st) = Ok pn /\ write_reactants_numba repr date0 1 (p_sp2a st) (p_reac st) (p_loss st) = Ok tn /\
  prints repr p1 /\ prints repr (gen_loss_gain_fortran None (p_sp2a st) (p_loss st) (p_gain st)) /\ fine t1 /\ fine t2 /\ fine (rate_file_fortran None st) /\
  prints repr pn /\ prints repr (snd (gen_loss_gain_numba (p_sp2a st) (p_loss st) (p_gain st))) /\
  read_rates_fortran (rate_file_fortran None st) = Some rs /\ read_fortran one_subscript t1 = Some s1 /\ read_fortran one_subscript t2 = Some s2 /\
  read_rates_python (rate_file_numba date0 st) = Some rn /\ read_python one_subscript tn = Some n1 /\
  read_python one_subscript (write_loss_gain_numba repr date0 (p_sp2a st) (p_loss st) (p_gain st)) = Some n2 /\
  is_compiled_call rs s1 s2 None None None c /\ tame_rates self_mech self_expr 1e17 298 /\
  off_by_signed eps delta (fun clock y => compiled_dydt (fun x => x) rs 1 idx 1e17 298 c clock y) f2py_rhs (sinking_solver delta) /\
  off_by_signed eps delta' (fun clock y => gas_dydt_files rn n1 n2 1 (RO2_sum idx y) clock 0 1e17 298 y) numba_rhs (sinking_solver delta') /\
  run_simulation (sinking_solver delta) f2py_rhs (fun _ _ => Err ValueError) f43200 (p_sp st) (p_sp2a st) [(s_ "CH3O2", 0%R)] f7200 f3600 =
    Ok (ts, [[0; 0 - delta]; [0; 0 - delta - delta]]%R) /\
  run_simulation (sinking_solver delta') numba_rhs (fun _ _ => Err ValueError) f43200 (p_sp st) (p_sp2a st) [(s_ "CH3O2", 0%R)] f7200 f3600 =
    Ok (ts, [[0; 0 - delta']; [0; 0 - delta' - delta']]%R) /\ List.length ts = 2.
Proof.
  intros eps delta delta' a0 m0 Pe Pd Pd'. assert (W := self_written). assert (PC := self_clean). assert (FR := self_ready). destruct self_ready as [Hu Hpr Hdr].
  assert (M : Forall (fun r => mcm_text (rtext r)) self_mech).
  { apply Forall_forall. intros r I. apply In_nth_error in I. destruct I as (k & Hk).
    destruct (self_coefficients 0 0 0 1 Rlt_0_1 k r Hk) as (A & B & C & F & G). exists (self_expr k), 0%R, 0%R, 1%R, 0%R, (self_rate k 0 0). repeat (split; [assumption|]). exact G. }
  assert (O : one_line date0) by (apply one_line_dec; reflexivity).
  assert (E := written_extract _ _ W).
  destruct (C83_rhs_fortran_partial self_mech _ repr date0 W O Hu Hpr Hdr PC M) as (st & E' & HX). rewrite E in E'. injection E' as <-.
  destruct (HX None None None) as (p1 & t1 & G1 & W1 & _). clear HX.
  destruct (C83_rhs_partial self_mech _ repr date0 W O (ready_safe _ FR) Hdr PC M) as (st & pn & tn & E' & Gn & Wn & _). rewrite E in E'. injection E' as <-.
  assert (P3 : prints repr pn). { intros q I. apply repr_ok. vm_compute in Gn. injection Gn as <-. vm_compute in I |- *. tauto. }
  assert (P4 : prints repr (snd (gen_loss_gain_numba (p_sp2a (interp self_mech)) (p_loss (interp self_mech)) (p_gain (interp self_mech))))).
  { intros q I. apply repr_ok. vm_compute in I |- *. tauto. }
  destruct (files_same self_mech _ repr date0 W O M pn tn Gn Wn P3 P4) as (rn & n1 & n2 & N0 & N1 & N2 & SameN).
  change (List.length self_mech) with 1 in G1, W1, Gn, Wn, SameN.
  assert (Pr1 : prints repr p1 /\ printed_within repr 6 p1).
  { assert (G := G1). apply (f_equal (fun r => match r with Ok x => x | Err _ => p1 end)) in G. rewrite <- G. split; intros qq I; [apply repr_ok|]; vm_compute in I |- *; tauto. }
  destruct Pr1 as [Pr1 Pw1].
  assert (Pr2 : prints repr (gen_loss_gain_fortran None (p_sp2a (interp self_mech)) (p_loss (interp self_mech)) (p_gain (interp self_mech))) /\
    printed_within repr 6 (gen_loss_gain_fortran None (p_sp2a (interp self_mech)) (p_loss (interp self_mech)) (p_gain (interp self_mech)))).
  { split; intros qq I.
    - apply repr_ok. vm_compute in I. left. intuition congruence.
    - vm_compute in I. assert (Eq : (1 = qq)%Q) by (cbv in I |- *; intuition congruence). subst qq. vm_compute. lia. }
  destruct Pr2 as [Pr2 Pw2].
  assert (T5 : 2 < 10 ^ 5) by (apply (Nat.lt_le_trans _ (10 ^ 1)); [cbn; lia | apply Nat.pow_le_mono_r; lia]).
  assert (F1 : fine t1).
  { eapply (C81_reactants_fits self_mech _ repr date0 5 6 2 None (interp self_mech) p1 t1 W O E ltac:(lia) ltac:(lia)); [| | |exact G1|exact Pr1|exact Pw1|exact W1|lia].
    - change (List.length self_mech) with 1. lia.
    - change (List.length (first_seen (reading_order self_mech))) with 2. exact T5.
    - apply Forall_cons; [|constructor]. vm_compute. lia. }
  assert (F2 : fine (write_loss_gain_fortran repr date0 None 1 (species_count (interp self_mech)) (p_sp2a (interp self_mech)) (p_loss (interp self_mech)) (p_gain (interp self_mech)))).
  { apply (C81_dydt_fits self_mech _ repr date0 5 6 None (interp self_mech) W O E ltac:(lia) ltac:(lia)); [| |exact Pr2|exact Pw2|lia].
    - change (List.length self_mech) with 1. lia.
    - change (List.length (first_seen (reading_order self_mech))) with 2. exact T5. }
  assert (F3 : fine (rate_file_fortran None (interp self_mech))).
  { unfold rate_file_fortran. destruct (rates_of_mech _ _ convert_fortran good_rate _ W E) as (Fg & L).
    { intros k r I. rewrite Forall_forall in M. exact (proj1 (mcm_fortran k _ (M r I))). }
    apply C83_fits; [exact Fg | |].
    - rewrite L. apply (Nat.lt_le_trans _ (10 ^ 1)); [vm_compute; lia | apply Nat.pow_le_mono_r; lia].
    - rewrite interp_rate. cbn [List.length self_mech self_words map seq combine convert_dict fst snd]. repeat (apply Forall_cons; [vm_compute; reflexivity|]). constructor. }
  destruct (compiled_same self_mech _ repr date0 W O FR PC M None None None p1 t1 G1 W1 Pr1 Pr2 F1 F2 F3) as (rs & s1 & s2 & R & R1 & R2 & Same).
  set (c := CompiledCall (fr_rates rs) (f_prog s1) (f_prog s2) a0 m0).
  assert (Hc : is_compiled_call rs s1 s2 None None None c) by (split; [reflexivity|]; split; reflexivity).
  change (List.length self_mech) with 1 in Same.
  destruct (sinking_run (compiled_rhs_at (fun x => x) rs 1 (write_RO2_indices (p_sp2a (interp self_mech))) 1e17 298 (fun _ _ => c)) delta) as (ts & X1 & Lt).
  destruct (sinking_run (files_rhs_at rn n1 n2 1 (write_RO2_indices (p_sp2a (interp self_mech))) 1e17 298) delta') as (ts' & X2 & _).
  assert (Et := run_times _ _ _ _ _ _ _ _ _ _ _ _ _ _ _ _ X1 X2). subst ts'.
  exists (interp self_mech), p1, t1, pn, tn, rs, s1, s2, rn, n1, n2, ts. cbv zeta. fold c.
  split; [exact FR|]. split; [exact M|]. split; [exact O|]. split; [exact E|]. split; [exact G1|]. split; [exact W1|]. split; [exact Gn|]. split; [exact Wn|].
  split; [exact Pr1|]. split; [exact Pr2|]. split; [exact F1|]. split; [exact F2|]. split; [exact F3|]. split; [exact P3|]. split; [exact P4|].
  split; [exact R|]. split; [exact R1|]. split; [exact R2|]. split; [exact N0|]. split; [exact N1|]. split; [exact N2|]. split; [exact Hc|]. split; [apply self_tame; lra|].
  split; [|split; [|split; [exact X1|]; split; [exact X2 | exact Lt]]].
  - apply (sinking_any _ _ 1e17 298); try lra. intros clock y Ly.
    apply (Same c Hc (fun x => x) self_expr clock 1e17%R 298%R y _ (fun x _ => eq_refl) ltac:(lra) ltac:(lra) Ly (self_coefficients _ _ _ 298%R ltac:(lra))).
  - apply (sinking_any _ _ 1e17 298); try lra. intros clock y _. apply SameN.
Qed.

Print Assumptions C96_partial. Print Assumptions C96_drivers_partial.
