(* C83: the text of the rate files, read back and called, gives the values of
   the rate expressions of the mechanism; with the other files the right-hand
   side of the gas-phase model. *)
From Coq Require Import List Bool Arith Lia Ascii String ZArith QArith Reals Lra.
From Verif Require Import Base PyStr PyDict SpecRate ModelParse SpecMech ParseStruct ParseWritten ParseTables PropsParse
  SpecKin LangFacts GenReact GenLossGain GenParsed PropsKin PropsRhs SpecRo2 PropsRo2 SpecGas PropsGas
  SpecRateValue SpecMcmEnv SpecRateText ModelRate RateExpr RateNames PropsRate PropsRateValue ModelExpr RateParse
  ModelLang ModelOmp ModelGen ModelRhs ModelRo2 ModelGas ModelRateFile ModelRateBody ModelRateRun
  ModelSource ModelWrite SpecSource SourceRead SourceRun PropsSourceRun SourceWidth PropsWidth
  ModelRateText ModelRateWrite ModelRateRead RateFileN RateFileF RateFileUse ModelGasFiles.
Import ListNotations.
Import Coq.Lists.List.
Open Scope nat_scope.
Open Scope list_scope.
Local Arguments eqb : simpl never.

(* The rates of a mechanism as they are put into the two files
   (Gas_simulation.py and the f2py drivers: convert_rate_general, then
   write_rate_file_numba or write_rate_file_fortran). *)
Definition rate_file_numba (date : str) (st : pstate) : str := write_rates_numba date (convert_dict convert_numba (p_rate st)).
Definition rate_file_fortran (omp : option (list nat)) (st : pstate) : str := write_rates_fortran omp (convert_dict convert_fortran (p_rate st)).

Lemma rates_of_mech m text f (P : nat * str -> Prop) st : written m text -> extract_mechanism text = Ok (Z.of_nat (List.length m), st) ->
  (forall k r, In r m -> P (k, f (rtext r))) ->
  Forall P (convert_dict f (p_rate st)) /\ List.length (convert_dict f (p_rate st)) = List.length m.
Proof.
  intros W E H. assert (st = interp m) as -> by (assert (X := written_extract _ _ W); rewrite E in X; congruence).
  rewrite interp_rate. unfold convert_dict. split.
  - apply Forall_forall. intros p I. apply in_map_iff in I. destruct I as ((k & t) & <- & I). cbn [fst snd].
    apply in_combine_r in I. apply in_map_iff in I. destruct I as (r & <- & I). apply H, I.
  - rewrite map_length, combine_length, seq_length, map_length. apply Nat.min_id.
Qed.

(* Any dictionary of rate texts *)
Theorem C83_numba : forall date d, one_line date -> Forall (fun p => one_line (snd p)) d -> Forall (fun p => text_expr numba_lang (snd p) <> None) d ->
  exists rs, read_rates_python (write_rates_numba date d) = Some rs /\
    pr_name rs = s_ "evaluate_rates" /\ pr_args rs = map s_ ["ttime"; "RO2"; "H2O"; "temp"; "rate_values"; "J"]%string /\
    forall ttime RO2 H2O temp n a, call_rates_python rs [ttime; RO2; H2O; temp] n a =
      obind (numba_run ttime RO2 H2O temp) (fun en => returned n (run (cell 0 n) (text_value numba_lang en) (gen_rates_python d) a)).
Proof. exact call_numba. Qed.

(* Read with every rate in terms of declared variables, the Fortran file is
   accepted exactly when no line is too long. *)
Theorem C83_fortran : forall omp d, Forall good_rate d -> Forall (fun p => known rate_names (expr_of fortran_lang (snd p)) = true) d ->
  (fine (write_rates_fortran omp d) <-> exists rs, read_rates_fortran (write_rates_fortran omp d) = Some rs) /\
  forall rs, read_rates_fortran (write_rates_fortran omp d) = Some rs ->
    fr_name rs = s_ "evaluate_rates" /\ fr_in rs = map s_ ["ro2"; "h2o"; "temp"; "ttime"]%string /\ fr_out rs = s_ "rate_values" /\ fr_size rs = List.length d /\
    forall tr, runs_as omp (fr_rates rs) tr -> exists tr0, runs_as omp (gen_rates_fortran omp d) tr0 /\
      forall ttime RO2 H2O temp a, call_rates_fortran rs tr [RO2; H2O; temp; ttime] a =
        obind (fortran_run ttime RO2 H2O temp) (fun en => returned (List.length d) (run (cell 1 (List.length d)) (text_value fortran_lang en) tr0 a)).
Proof.
  intros omp d G K.
  assert (B : forall rs, read_rates_fortran (write_rates_fortran omp d) = Some rs -> fine (write_rates_fortran omp d)).
  { intros rs R. unfold read_rates_fortran in R. unfold fine. destruct (logical None (split_char NL (write_rates_fortran omp d))) eqn:E; [|discriminate].
    eapply logical_fits, E. }
  split; [split|].
  - intros F. destruct (call_fortran omp d G K F) as (rs & R & _). exists rs. exact R.
  - intros [rs R]. exact (B rs R).
  - intros rs R. destruct (call_fortran omp d G K (B rs R)) as (rs' & R' & X). rewrite R in R'. injection R' as <-. exact X.
Qed.

(* Which lines can be too long: only those with the rates. *)
Lemma rate_chunks_fit br : forall d i, Forall (fun l => fits l = true) (rate_chunks i br d) <-> Forall (fun p => fits (fortran_rate_line p) = true) d.
Proof.
  induction d as [|p d IH]; intros i; [split; constructor|]. cbn [rate_chunks]. rewrite !Forall_app. split.
  - intros (_ & _ & H). inversion H as [|x l H1 H2]. apply Forall_cons; [exact H1|]. apply (IH (S i)), H2.
  - intros H. split; [|split].
    + destruct (i =? 0); [|constructor]. repeat (apply Forall_cons; [reflexivity|]). constructor.
    + destruct (inb i br); [|constructor]. repeat (apply Forall_cons; [reflexivity|]). constructor.
    + apply Forall_cons; [exact (Forall_inv H)|]. apply IH, (Forall_inv_tail H).
Qed.
Lemma rate_lines_fit omp d : Forall (fun l => fits l = true) (fortran_rate_lines omp d) <-> Forall (fun p => fits (fortran_rate_line p) = true) d.
Proof.
  destruct omp as [br|]; cbn [fortran_rate_lines].
  - rewrite Forall_app, rate_chunks_fit. split; [tauto|]. intros H. split; [exact H|]. repeat (apply Forall_cons; [reflexivity|]). constructor.
  - rewrite Forall_map. reflexivity.
Qed.
Lemma all_fit ls : forallb fits ls = true -> Forall (fun l => fits l = true) ls.
Proof. rewrite forallb_forall, Forall_forall. auto. Qed.
Theorem C83_fits : forall omp d, Forall good_rate d -> List.length d < 10 ^ 70 ->
  (fine (write_rates_fortran omp d) <-> Forall (fun p => fits (fortran_rate_line p) = true) d).
Proof.
  intros omp d G N. unfold fine. rewrite fortran_split by exact G. unfold fortran_file. rewrite !Forall_app, rate_lines_fit.
  assert (A : Forall (fun l => fits l = true) (text_lines fortran_top)) by (apply all_fit; vm_compute; reflexivity).
  assert (B : Forall (fun l => fits l = true) (text_lines fortran_fixed)) by (apply all_fit; vm_compute; reflexivity).
  assert (C : Forall (fun l => fits l = true) (text_lines fortran_end)) by (apply all_fit; vm_compute; reflexivity).
  assert (D : Forall (fun l => fits l = true) [dim_line (List.length d)]).
  { apply Forall_cons; [|constructor]. apply fits_short. unfold dim_line. rewrite !app_length.
    pose proof (dec_width (List.length d) 70 ltac:(lia) N) as X.
    change (List.length (s_ "    REAL(8), intent(out), dimension(")) with 36. change (List.length (s_ ") :: rate_values ")) with 17. lia. }
  split; [tauto|]. intros H. repeat (split; try assumption). apply Forall_cons; [reflexivity | constructor].
Qed.
(* One line: 20 characters, the number of the equation and the rate. *)
Theorem C83_line_fits : forall k t, List.length (ParseShow.dec (k + 1)) + List.length t <= 112 -> fits (fortran_rate_line (k, t)) = true.
Proof.
  intros k t H. apply fits_short. unfold fortran_rate_line. cbn [fst snd]. rewrite !app_length.
  change (List.length (s_ "    rate_values(")) with 16. change (List.length (s_ ") =")) with 3. change (List.length (s_ " ")) with 1. lia.
Qed.

(* From the text of the mechanism *)
Theorem C83_rates_partial : forall m text date, written m text -> one_line date -> Forall (fun r => mcm_text (rtext r)) m ->
  let N := List.length m in
  exists st, extract_mechanism text = Ok (Z.of_nat N, st) /\
  (exists rs, read_rates_python (rate_file_numba date st) = Some rs /\
     forall e ttime RO2 H2O T v a, (0 < T)%R -> (0 <= H2O)%R -> coefficients m e ttime RO2 H2O T v ->
       call_rates_python rs [ttime; RO2; H2O; T] N a = Some (map v (seq 0 N))) /\
  (forall omp, fine (rate_file_fortran omp st) -> exists rs, read_rates_fortran (rate_file_fortran omp st) = Some rs /\
     forall tr e ttime RO2 H2O T v a, runs_as omp (fr_rates rs) tr -> (omp <> None -> 0 < N) ->
       (0 < T)%R -> (0 <= H2O)%R -> coefficients m e ttime RO2 H2O T v ->
       call_rates_fortran rs tr [RO2; H2O; T; ttime] a = Some (map v (seq 0 N))).
Proof.
  intros m text date W Hd HM N. pose proof (written_extract m text W) as E. exists (interp m). split; [exact E|]. rewrite Forall_forall in HM. split.
  - destruct (rates_of_mech m text convert_numba (fun p => one_line (snd p)) _ W E) as (F1 & _).
    { intros k r I. exact (proj1 (mcm_numba _ (HM r I))). }
    destruct (rates_of_mech m text convert_numba (fun p => text_expr numba_lang (snd p) <> None) _ W E) as (F2 & _).
    { intros k r I. exact (proj2 (mcm_numba _ (HM r I))). }
    destruct (call_numba date _ Hd F1 F2) as (rs & R & _ & _ & X). exists rs. split; [exact R|].
    intros e tt r w T v a HT HW HC. rewrite X. destruct (C58_partial m text e v tt r w T W HT HW HC) as (st' & en & ef & E' & En & _ & Hr & _).
    rewrite E in E'. assert (st' = interp m) by congruence. subst st'. rewrite En. cbn [obind]. apply Hr.
  - intros omp F. destruct (rates_of_mech m text convert_fortran good_rate _ W E) as (F1 & L).
    { intros k r I. exact (proj1 (mcm_fortran k _ (HM r I))). }
    destruct (rates_of_mech m text convert_fortran (fun p => known rate_names (expr_of fortran_lang (snd p)) = true) _ W E) as (F2 & _).
    { intros k r I. exact (proj2 (mcm_fortran k _ (HM r I))). }
    destruct (call_fortran omp _ F1 F2 F) as (rs & R & _ & _ & _ & _ & X). exists rs. split; [exact R|].
    intros tr e tt r w T v a Ht H0 HT HW HC. destruct (X tr Ht) as (tr0 & R0 & ->). rewrite L.
    destruct (C58_partial m text e v tt r w T W HT HW HC) as (st' & en & ef & E' & _ & Ef & _ & Hr & Ho).
    rewrite E in E'. assert (st' = interp m) by congruence. subst st'. rewrite Ef. cbn [obind]. destruct omp as [br|]; cbn [runs_as] in R0.
    + destruct R0 as (bs & t & Hb & He & ->). destruct (Ho (H0 ltac:(discriminate)) br) as (bs' & Hb' & HX).
      rewrite Hb in Hb'. injection Hb' as <-. apply HX, He.
    + subst tr0. apply Hr.
Qed.

(* The whole gas-phase right-hand side from the texts of the files. *)
Theorem C83_rhs_partial : forall m text num date, written m text -> one_line date ->
  Forall products_safe m -> Forall distinct_reactants m -> peroxy_clean (first_seen (reading_order m)) ->
  Forall (fun r => mcm_text (rtext r)) m ->
  exists st p1 t1, extract_mechanism text = Ok (Z.of_nat (List.length m), st) /\
    gen_reactants_numba (List.length m) (p_sp2a st) (p_reac st) (p_loss st) = Ok p1 /\
    write_reactants_numba num date (List.length m) (p_sp2a st) (p_reac st) (p_loss st) = Ok t1 /\
    (prints num p1 -> prints num (snd (gen_loss_gain_numba (p_sp2a st) (p_loss st) (p_gain st))) ->
     exists rs s1 s2, read_rates_python (rate_file_numba date st) = Some rs /\ read_python one_subscript t1 = Some s1 /\
       read_python one_subscript (write_loss_gain_numba num date (p_sp2a st) (p_loss st) (p_gain st)) = Some s2 /\
     forall e start_time t H2O T y v, (0 < T)%R -> (0 <= H2O)%R ->
       List.length y = List.length (first_seen (reading_order m)) -> nonneg y ->
       let c := conc_of (p_sp2a st) y in
       coefficients m e (start_time + t) (peroxy_total (first_seen (reading_order m)) c) H2O T v ->
       exists dy, gas_dydt_files rs s1 s2 (List.length m) (RO2_sum (write_RO2_indices (p_sp2a st)) y) start_time t H2O T y = Some dy /\
         List.length dy = List.length y /\
         forall i s, nth_error (first_seen (reading_order m)) i = Some s -> nth_error dy i = Some (expected m v c s)).
Proof.
  intros m text num date W Hd Hs Hr (P1 & P2 & P3 & P4) HM.
  destruct (C80_numba_partial m text num date W Hd Hs Hr) as (st & p1 & t1 & E & G & Wt & HV). exists st, p1, t1.
  repeat (split; [assumption|]). intros N1 N2. destruct (HV N1 N2) as (s1 & s2 & R1 & R2 & V).
  destruct (C83_rates_partial m text date W Hd HM) as (st' & E' & (rs & R & HR) & _).
  rewrite E in E'. assert (st' = st) by congruence. subst st'. clear E'.
  assert (Est : st = interp m) by (assert (X := written_extract _ _ W); rewrite E in X; congruence).
  exists rs, s1, s2. repeat (split; [assumption|]). intros e t0 t H2O T y v HT HH Hy Hn c HC.
  unfold gas_dydt_files. rewrite (C33_partial m text st W E P1 P2 P3 P4 y Hy). fold c. rewrite (HR e _ _ _ _ v zeros HT HH HC). cbn [obind].
  assert (Hy' : List.length y = species_count st) by (rewrite Est, species_count_interp; exact Hy). rewrite Hy'.
  destruct (V (map v (seq 0 (List.length m))) y) as (dy & Hdy & Ldy & Vdy); [rewrite map_length, seq_length; reflexivity | exact Hy' | exact Hn|].
  exists dy. split; [exact Hdy|]. split; [exact Ldy|]. intros i s Hi. unfold expected. rewrite (Vdy s i); [reflexivity|]. rewrite Est. apply interp_sp2a. exact Hi.
Qed.

Theorem C83_rhs_fortran_partial : forall m text num date, written m text -> one_line date ->
  Forall unit_coefficients m -> Forall (fun r => NoDup (names (rhs r)) /\ ~ In (last_reactant r) (names (rhs r))) m ->
  Forall distinct_reactants m -> peroxy_clean (first_seen (reading_order m)) -> Forall (fun r => mcm_text (rtext r)) m ->
  exists st, extract_mechanism text = Ok (Z.of_nat (List.length m), st) /\
  forall o1 o2 o3, exists p1 t1,
    gen_reactants_fortran o1 (List.length m) (p_sp2a st) (p_reac st) (p_loss st) = Ok p1 /\
    write_reactants_fortran num date o1 (List.length m) (p_sp2a st) (p_reac st) (p_loss st) = Ok t1 /\
    let t2 := write_loss_gain_fortran num date o2 (List.length m) (species_count st) (p_sp2a st) (p_loss st) (p_gain st) in
    (prints num p1 -> prints num (gen_loss_gain_fortran o2 (p_sp2a st) (p_loss st) (p_gain st)) ->
     fine t1 -> fine t2 -> fine (rate_file_fortran o3 st) ->
     exists rs s1 s2, read_rates_fortran (rate_file_fortran o3 st) = Some rs /\
       read_fortran one_subscript t1 = Some s1 /\ read_fortran one_subscript t2 = Some s2 /\
     forall tr tr1 tr2, runs_as o3 (fr_rates rs) tr -> runs_as o1 (f_prog s1) tr1 -> runs_as o2 (f_prog s2) tr2 ->
     forall rnd a0 m0 e start_time t H2O T y v, is_rounding rnd -> (0 < T)%R -> (0 <= H2O)%R ->
       List.length y = List.length (first_seen (reading_order m)) -> nonneg y ->
       let c := conc_of (p_sp2a st) y in
       coefficients m e (start_time + t) (peroxy_total (first_seen (reading_order m)) c) H2O T v ->
       exists dy, gas_dydt_compiled rnd rs tr tr1 tr2 (List.length m) a0 m0 (RO2_sum (write_RO2_indices (p_sp2a st)) y) start_time t H2O T y = Some dy /\
         List.length dy = List.length y /\
         forall i s, nth_error (first_seen (reading_order m)) i = Some s -> nth_error dy i = Some (expected m v c s)).
Proof.
  intros m text num date W Hd Hu Hp Hr (P1 & P2 & P3 & P4) HM.
  assert (Hne : first_seen (reading_order m) <> []).
  { destruct P1 as (s & Hs & _). intros X. rewrite X in Hs. destruct Hs. }
  assert (Hm : 0 < List.length m).
  { destruct m; [exfalso; apply Hne; reflexivity | cbn; lia]. }
  destruct (C80_fortran_partial m text num date W Hd Hne Hu Hp Hr) as (st & E & HV). exists st. split; [exact E|]. intros o1 o2 o3.
  destruct (HV o1 o2) as (p1 & t1 & G & Wt & V). exists p1, t1. repeat (split; [assumption|]). intros t2 N1 N2 F1 F2 F3.
  destruct (V N1 N2 F1 F2) as (s1 & s2 & R1 & R2 & VV).
  destruct (C83_rates_partial m text date W Hd HM) as (st' & E' & _ & HF).
  rewrite E in E'. assert (st' = st) by congruence. subst st'. clear E'. destruct (HF o3 F3) as (rs & R & HR).
  assert (Est : st = interp m) by (assert (X := written_extract _ _ W); rewrite E in X; congruence).
  exists rs, s1, s2. repeat (split; [assumption|]). intros tr tr1 tr2 T0 T1 T2 rnd a0 m0 e t0 t H2O T y v Hrnd HT HH Hy Hn c HC.
  unfold gas_dydt_compiled. rewrite (C33_partial m text st W E P1 P2 P3 P4 y Hy). fold c. rewrite (HR tr e _ _ _ _ v a0 T0 (fun _ => Hm) HT HH HC). cbn [obind].
  assert (Hy' : List.length y = species_count st) by (rewrite Est, species_count_interp; exact Hy). rewrite Hy'.
  destruct (VV tr1 tr2 T1 T2 rnd m0 (map v (seq 0 (List.length m))) y Hrnd) as (dy & Hdy & Vdy); [rewrite map_length, seq_length; reflexivity | exact Hy' | exact Hn|].
  exists dy. split; [exact Hdy|]. split.
  - unfold rhs_fortran in Hdy. destruct (reactants_fortran rnd tr1 (List.length m) m0 y) as [cc|]; [|discriminate].
    unfold loss_gain_fortran, returned in Hdy. destruct (run _ _ _ _) in Hdy; [|discriminate]. injection Hdy as <-. apply array_length.
  - intros i s Hi. unfold expected. rewrite (Vdy s i); [reflexivity|]. rewrite Est. apply interp_sp2a. exact Hi.
Qed.

(* Not every rate fits on a line: nothing breaks the line of a long one. *)
Fixpoint long_sum (n : nat) : rexpr :=
  match n with
  | 0 => RVar (s_ "TEMP")
  | S n => RBin (s_ "+") (long_sum n) (RVar (s_ "TEMP"))
  end.
Lemma long_sum_text n : mcm_text (show kpp (long_sum n)).
Proof.
  exists (long_sum n), 0%R, 0%R, 1%R, 0%R, (INR (S n)). split; [reflexivity|].
  assert (T : safe_name (s_ "TEMP")) by (apply safe_name_by; try reflexivity; discriminate).
  assert (A : forall n, at_level 0 (long_sum n)).
  { clear n. induction n as [|n IH]; cbn [long_sum at_level]; [exact I|]. left. split; [left; reflexivity|]. split; [reflexivity|]. split; [exact IH | exact I]. }
  split; [|split; [|split]].
  - induction n as [|n IH]; cbn [long_sum good]; [exact T|]. split; [left; reflexivity | split; [exact IH | exact T]].
  - apply A.
  - induction n as [|n IH]; cbn [long_sum proper_names]; [reflexivity|]. split; [exact IH | reflexivity].
  - induction n as [|n IH]; cbn [long_sum]; [apply (m_var _ _ _ 1%R); reflexivity|]. rewrite S_INR. apply m_add; [exact IH | apply (m_var _ _ _ 1%R); reflexivity].
Qed.
Definition long_rate_words : list ParseShow.wrx := [([s_ "CH3O2"], [s_ "CH3O"], show kpp (long_sum 25))].

Theorem C83_refuted : exists m text st, written m text /\ Forall (fun r => mcm_text (rtext r)) m /\
  extract_mechanism text = Ok (Z.of_nat (List.length m), st) /\ forall omp, read_rates_fortran (rate_file_fortran omp st) = None.
Proof.
  exists (map ParseShow.bare long_rate_words), (ParseShow.show long_rate_words).
  assert (W : written (map ParseShow.bare long_rate_words) (ParseShow.show long_rate_words)) by (apply ParseShow.bare_written; [discriminate | reflexivity]).
  assert (M : Forall (fun r => mcm_text (rtext r)) (map ParseShow.bare long_rate_words)) by (apply Forall_cons; [apply long_sum_text | constructor]).
  eexists. split; [exact W|]. split; [exact M|]. split; [exact (written_extract _ _ W)|]. intros omp. unfold rate_file_fortran.
  pose proof (written_extract _ _ W) as E. rewrite Forall_forall in M.
  destruct (rates_of_mech _ _ convert_fortran good_rate _ W E) as (F1 & _).
  { intros k r I. exact (proj1 (mcm_fortran k _ (M r I))). }
  set (d := convert_dict convert_fortran _) in *.
  destruct (read_rates_fortran (write_rates_fortran omp d)) as [rs|] eqn:R; [|reflexivity]. exfalso.
  assert (F : fine (write_rates_fortran omp d)).
  { unfold read_rates_fortran in R. unfold fine. destruct (logical None (split_char NL (write_rates_fortran omp d))) eqn:L; [|discriminate]. eapply logical_fits, L. }
  unfold fine in F. rewrite fortran_split in F by exact F1. unfold fortran_file in F. rewrite !Forall_app in F. destruct F as (_ & F & _).
  apply rate_lines_fit in F. unfold d in F. rewrite interp_rate in F. apply Forall_inv in F. vm_compute in F. discriminate F.
Qed.

(* The other hypotheses of the theorems: C59_hypotheses and C81_hypotheses. *)
Example C83_hypotheses : exists st, extract_mechanism (ParseShow.show gas_words) = Ok (3%Z, st) /\
  Forall (fun r => mcm_text (rtext r)) gas_mech /\ forall omp, fine (rate_file_fortran omp st).
Proof.
  destruct C59_hypotheses as (W & _ & _ & _ & _ & _ & HC).
  assert (M : Forall (fun r => mcm_text (rtext r)) gas_mech).
  { apply Forall_forall. intros r I. destruct (HC 0%R 0%R 0%R 1%R Rlt_0_1) as (v & V). apply In_nth_error in I. destruct I as (k & Hk).
    destruct (V k r Hk) as (A & B & C & D & E). exists (gas_expr k), 0%R, 0%R, 1%R, 0%R, (v k). repeat (split; [assumption|]). exact E. }
  pose proof (written_extract _ _ W) as E. eexists. split; [exact E|]. split; [exact M|]. intros omp. unfold rate_file_fortran.
  destruct (rates_of_mech _ _ convert_fortran good_rate _ W E) as (F1 & L).
  { intros k r I. rewrite Forall_forall in M. exact (proj1 (mcm_fortran k _ (M r I))). }
  apply C83_fits; [exact F1 | |].
  - rewrite L. apply (Nat.lt_le_trans _ (10 ^ 1)); [vm_compute; lia | apply Nat.pow_le_mono_r; lia].
  - rewrite interp_rate. cbn [List.length gas_mech gas_words map seq combine convert_dict fst snd]. repeat (apply Forall_cons; [vm_compute; reflexivity|]). constructor.
Qed.

Print Assumptions C83_numba.
Print Assumptions C83_fortran.
Print Assumptions C83_fits.
Print Assumptions C83_line_fits.
Print Assumptions C83_rates_partial.
Print Assumptions C83_rhs_partial.
Print Assumptions C83_rhs_fortran_partial.
Print Assumptions C83_refuted.
