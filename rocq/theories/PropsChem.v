(* C93: from the text of the mechanism to the rows of the output. *)
From Coq Require Import String List Bool Arith Lia ZArith QArith Reals Qreals Lra Permutation Sorted FunctionalExtensionality.
From Flocq Require Import Core BinarySingleNaN.
From Verif Require Import Base PyStr PyDict SpecRateText RateNames RateParse ModelSource ModelWrite SpecSource SourceRead SourceRun PropsSource PropsSourceRun SourceWidth PropsWidth
  ModelRateText ModelRateWrite ModelRateRead RateFileN RateFileF RateFileUse ModelGasFiles PropsRateText.
From Verif Require Import SpecRate ModelParse SpecMech ParseStruct ParseTables ParseWritten ParseShow PropsParse
  ModelLang ModelGen ModelRhs SpecKin LangFacts GenReact GenLossGain GenParsed GenSparse PropsKin PropsRhs
  ModelOmp ModelExpr ModelRate ModelRateFile RateExpr PropsRate ModelRateBody ModelRateRun RateSym
  SpecRateValue SpecMcmEnv PropsRateValue ModelRo2 SpecRo2 PropsRo2 ModelGas SpecGas PropsGas PropsGasJac
  ModelSolver SpecSolver SolverFacts OdeFacts PropsSolver ModelSplit PropsSplit SpecMethod PropsMethod SpecTraj OdeSign PropsTraj
  OdeNear GasFortran OdeClose GasFlow SpecSun SpecTroe SpecTame TameFacts PropsTame PropsUnique OdePicard OdeExist SunPieces TameFlow PropsExist
  SpecError PropsError SpecChem.
Import ListNotations.
Import Coq.Lists.List.
Open Scope nat_scope.
Open Scope list_scope.
Local Arguments eqb : simpl never.

(* ------------------------------------------------------------------ *)
(* The state as a list of concentrations by name. *)
Lemma amount_from s : forall sp y pre, List.length y = List.length sp ->
  conc_of (combine sp (seq (List.length pre) (List.length sp))) (pre ++ y) s = concentration sp y s.
Proof.
  induction sp as [|x sp IH]; intros [|c y] pre L; try discriminate; [reflexivity|]. cbn [List.length seq combine concentration].
  unfold conc_of. cbn [find fst snd]. destruct (str_eqb x s) eqn:E.
  - cbn [snd]. rewrite app_nth2, Nat.sub_diag by lia. reflexivity.
  - injection L as L. specialize (IH y (pre ++ [c]) L). rewrite app_length, Nat.add_1_r, <- app_assoc in IH. exact IH.
Qed.
Lemma amount_conc m y : List.length y = List.length (species m) -> conc_of (p_sp2a (interp m)) y = concentration (species m) y.
Proof.
  intros L. apply functional_extensionality. intros s. destruct (interp_species m) as (_ & -> & _). exact (amount_from s (species m) y [] L).
Qed.

(* ------------------------------------------------------------------ *)
(* The equations of the code and those of the chemistry. *)
Section Same.
Context (m : mech) (text : str) (e : nat -> rexpr) (W : written m text) (Hs : Forall products_safe m) (Hd : Forall distinct_reactants m)
  (PC : peroxy_clean (first_seen (reading_order m))) (H2O temp : R) (HT : (0 < temp)%R) (HH : (0 <= H2O)%R).
Notation equations := (fun clock => gas_dydt_numba (interp m) (List.length m) clock 0 H2O temp).

Lemma right_side clock y v : List.length y = List.length (species m) -> nonneg y ->
  coefficients m e clock (peroxy_total (species m) (concentration (species m) y)) H2O temp v ->
  exists dy, equations clock y = Some dy /\ forall i s, nth_error (species m) i = Some s -> nth i dy 0%R = expected m v (concentration (species m) y) s.
Proof.
  intros L N C. destruct (C59_partial m text e W Hs Hd PC) as (st & E & H). assert (X := written_extract _ _ W). rewrite E in X. injection X as ->.
  destruct (H clock 0%R H2O temp y v HT HH L N) as (dy & D & _ & V).
  { fold (species m). rewrite (amount_conc m y L), Rplus_0_r. exact C. }
  exists dy. split; [exact D|]. intros i s Hi. rewrite <- (amount_conc m y L). apply nth_error_nth, V, Hi.
Qed.

Lemma obeys_solves start T u : (0 <= T)%R -> obeys m e H2O temp start T u -> solves (fun t => equations (start + t)%R) T u.
Proof.
  intros PT [A (jumps & B)]. assert (L0 := proj1 (A 0%R ltac:(lra))). split.
  - intros t Ht. destruct (A t Ht) as (L & _ & C). split; [lia|]. intros i Hi. apply C. lia.
  - exists jumps. intros t Ht Hj. destruct (B t Ht Hj) as (v & C & V). destruct (A t Ht) as (L & N & _).
    destruct (right_side (start + t) (u t) v L N C) as (dy & D & X). exists dy. split; [exact D|]. intros i Hi. rewrite L0 in Hi.
    destruct (nth_error (species m) i) as [s|] eqn:E; [|apply nth_error_None in E; unfold species in E; lia]. rewrite (X i s E). apply V, E.
Qed.
Lemma solves_obeys start T u : tame_rates m e H2O temp -> List.length (u 0%R) = List.length (species m) -> (forall t, (0 <= t <= T)%R -> nonneg (u t)) ->
  solves (fun t => equations (start + t)%R) T u -> obeys m e H2O temp start T u.
Proof.
  intros Ht L0 NN [A (jumps & B)]. destruct (C82_regular m e H2O temp Ht) as (k & _ & Hc). fold (species m) in L0. split.
  - intros t Htt. destruct (A t Htt) as [L C]. fold (species m). split; [lia|]. split; [apply NN, Htt|]. intros i Hi. apply C. lia.
  - exists jumps. intros t Htt Hj c. destruct (B t Htt Hj) as (d & D & S). eexists. split; [apply Hc|]. intros i s Hi. fold (species m) in Hi, c.
    assert (L := proj1 (A t Htt)). rewrite L0 in L. destruct (right_side (start + t) (u t) _ L (NN t Htt) (Hc _ _)) as (dy & D' & X). rewrite D in D'. injection D' as <-.
    assert (Si : i < List.length (u 0%R)) by (rewrite L0; apply nth_error_Some; congruence). specialize (S i Si). rewrite (X i s Hi) in S. exact S.
Qed.
End Same.

(* ------------------------------------------------------------------ *)
(* The three modules as imported compute what the writers meant. *)
Lemma files_same m text num date : written m text -> one_line date -> Forall (fun r => mcm_text (rtext r)) m ->
  forall p1 t1, gen_reactants_numba (List.length m) (p_sp2a (interp m)) (p_reac (interp m)) (p_loss (interp m)) = Ok p1 ->
  write_reactants_numba num date (List.length m) (p_sp2a (interp m)) (p_reac (interp m)) (p_loss (interp m)) = Ok t1 ->
  prints num p1 -> prints num (snd (gen_loss_gain_numba (p_sp2a (interp m)) (p_loss (interp m)) (p_gain (interp m)))) ->
  exists rs s1 s2, read_rates_python (rate_file_numba date (interp m)) = Some rs /\ read_python one_subscript t1 = Some s1 /\
    read_python one_subscript (write_loss_gain_numba num date (p_sp2a (interp m)) (p_loss (interp m)) (p_gain (interp m))) = Some s2 /\
    forall start t H2O T y, gas_dydt_files rs s1 s2 (List.length m) (RO2_sum (write_RO2_indices (p_sp2a (interp m))) y) start t H2O T y =
      gas_dydt_numba (interp m) (List.length m) start t H2O T y.
Proof.
  intros W Hd HM p1 t1 G Wt P1 P2. assert (E := written_extract _ _ W). rewrite Forall_forall in HM.
  destruct (rates_of_mech m text convert_numba (fun p => one_line (snd p)) _ W E) as (F1 & _).
  { intros k r I. exact (proj1 (mcm_numba _ (HM r I))). }
  destruct (rates_of_mech m text convert_numba (fun p => text_expr numba_lang (snd p) <> None) _ W E) as (F2 & _).
  { intros k r I. exact (proj2 (mcm_numba _ (HM r I))). }
  destruct (call_numba date _ Hd F1 F2) as (rs & R & _ & _ & X).
  destruct (C79_reactants_numba _ _ _ _ _ _ _ Hd Wt) as (p1' & G' & R1). rewrite G in G'. injection G' as <-.
  pose proof (C79_dydt_numba num date (p_sp2a (interp m)) (p_loss (interp m)) (p_gain (interp m)) Hd P2) as R2.
  exists rs. eexists _, _. split; [exact R|]. split; [exact (R1 P1)|]. split; [exact R2|]. intros start t H2O T y.
  unfold gas_dydt_files, gas_dydt_numba. rewrite G. destruct (RO2_sum _ y) as [x|]; [|reflexivity]. rewrite X.
  destruct (numba_run _ _ _ _) as [en|]; [|reflexivity]. cbn [obind]. destruct (returned _ _) as [ks|]; [|reflexivity]. cbn [obind].
  unfold rhs_numba. cbn [src_prog]. rewrite reactants_numba_plain by (eapply well_reactants_numba, G).
  destruct (reactants_numba p1 (List.length m) y); [|reflexivity]. apply dydt_numba_plain, well_loss_gain_numba.
Qed.

(* ------------------------------------------------------------------ *)
(* Rows. *)
Lemma chained_unique (step : list R -> list R -> Prop) : (forall y a b, step y a -> step y b -> a = b) ->
  forall y rows rows', chained step y rows -> chained step y rows' -> List.length rows' = List.length rows -> rows' = rows.
Proof.
  intros H y rows rows' X. revert rows'. induction X as [y|y y1 rows S X IH]; intros [|z rows'] Y L; try discriminate; [reflexivity|].
  inversion Y as [|? ? ? S' Y']; subst. rewrite (H _ _ _ S S') in *. f_equal. apply IH; [exact Y' | cbn in L; lia].
Qed.
Lemma chained_all (step : list R -> list R -> Prop) (P : list R -> Prop) : (forall y y1, step y y1 -> P y1) ->
  forall y rows, chained step y rows -> forall j, j < List.length rows -> P (nth j rows []).
Proof.
  intros H y rows X. induction X as [y|y y1 rows S X IH]; intros j Hj; [cbn in Hj; lia|]. destruct j as [|j]; cbn [nth]; [exact (H _ _ S) | apply IH; cbn in Hj; lia].
Qed.

(* Exact rows of the code's equations are rows of the chemistry. *)
Lemma exact_chained m text e H2O temp start b : written m text -> whole m -> Forall products_safe m -> Forall distinct_reactants m -> peroxy_clean (first_seen (reading_order m)) ->
  (0 < temp)%R -> (0 <= H2O)%R -> (0 <= b)%R -> tame_rates m e H2O temp ->
  (forall y, List.length y = List.length (species m) -> nonneg y ->
     exists u, u 0%R = y /\ solves (fun t => gas_dydt_numba (interp m) (List.length m) start t H2O temp) b u /\ forall t, (0 <= t <= b)%R -> nonneg (u t)) ->
  forall y rows, exact_rows (fun clock => gas_dydt_numba (interp m) (List.length m) clock 0 H2O temp) start b y rows ->
  List.length y = List.length (species m) -> nonneg y -> chained (one_batch m e H2O temp start b) y rows.
Proof.
  intros W Hw Hs Hd PC HT HH Pb Ht Hex y rows X. induction X as [y|u y1 rows E U X IH]; intros L N; [apply chained_end|].
  assert (Same : forall t y, gas_dydt_numba (interp m) (List.length m) (start + t) 0 H2O temp y = gas_dydt_numba (interp m) (List.length m) start t H2O temp y) by (intros t z; unfold gas_dydt_numba; rewrite Rplus_0_r; reflexivity).
  assert (U' : solves (fun t => gas_dydt_numba (interp m) (List.length m) start t H2O temp) b u) by (eapply solves_ext; [|exact U]; intros t _; cbv beta; apply Same).
  destruct (C82_regular m e H2O temp Ht) as (k & Hr & Hc).
  destruct (Hex (u 0%R) L N) as (v & V0 & V & NN).
  assert (Q : same_on b u v) by (exact (numba_unique m text e W Hw PC H2O temp HT HH k Hr Hc start b u v Pb L U' V (eq_sym V0))).
  assert (Nu : forall t, (0 <= t <= b)%R -> nonneg (u t)) by (intros t Htt; rewrite (Q t Htt); apply NN, Htt).
  apply chained_more.
  - exists u. split; [|split; [reflexivity | exact E]]. apply (solves_obeys m text e W Hs Hd PC H2O temp HT HH); assumption.
  - apply IH; rewrite <- E; [|apply Nu; lra]. rewrite (proj1 (proj1 U b ltac:(lra))). exact L.
Qed.
Lemma batch_unique m text e H2O temp start b : written m text -> whole m -> Forall products_safe m -> Forall distinct_reactants m -> peroxy_clean (first_seen (reading_order m)) ->
  (0 < temp)%R -> (0 <= H2O)%R -> (0 <= b)%R -> tame_rates m e H2O temp ->
  forall y y1 y2, one_batch m e H2O temp start b y y1 -> one_batch m e H2O temp start b y y2 -> y1 = y2.
Proof.
  intros W Hw Hs Hd PC HT HH Pb Ht y y1 y2 (u & U & U0 & <-) (v & V & V0 & <-). destruct (C82_regular m e H2O temp Ht) as (k & Hr & Hc).
  assert (Same : forall t y, gas_dydt_numba (interp m) (List.length m) (start + t) 0 H2O temp y = gas_dydt_numba (interp m) (List.length m) start t H2O temp y) by (intros t z; unfold gas_dydt_numba; rewrite Rplus_0_r; reflexivity).
  refine (numba_unique m text e W Hw PC H2O temp HT HH k Hr Hc start b u v Pb (proj1 (proj1 U 0%R _)) _ _ (eq_trans U0 (eq_sym V0)) b _); try lra.
  - eapply solves_ext; [|apply (obeys_solves m text e W Hs Hd PC H2O temp HT HH start b u Pb U)]. intros t _. cbv beta. apply Same.
  - eapply solves_ext; [|apply (obeys_solves m text e W Hs Hd PC H2O temp HT HH start b v Pb V)]. intros t _. cbv beta. apply Same.
Qed.

(* ------------------------------------------------------------------ *)
(* Without photolysis the batches join up to one solution. *)
Lemma sunless_means x : sunless x -> forall var J J' v, means var J x v -> means var J' x v.
Proof.
  induction x as [q ex|x|k|a IH|a IH|op a IHa b IHb|a IH]; intros S var J J' v M; cbn [sunless] in S; inversion M; subst;
    try contradiction; econstructor; intuition eauto.
Qed.
Lemma sunless_coefficients m e t t' x H2O T v : (forall k r, nth_error m k = Some r -> sunless (e k)) -> coefficients m e t x H2O T v -> coefficients m e t' x H2O T v.
Proof.
  intros S C k r Hk. destruct (C k r Hk) as (A & B & D & F & M). repeat (split; [assumption|]). eapply sunless_means; [exact (S k r Hk) | exact M].
Qed.

Definition join (T1 : R) (u v : R -> list R) (t : R) : list R := if Rle_dec t T1 then u t else v (t - T1)%R.
Lemma join_left T1 u v t : (t <= T1)%R -> join T1 u v t = u t.
Proof. intros H. unfold join. destruct (Rle_dec t T1); [reflexivity | lra]. Qed.
Lemma join_right T1 u v t : u T1 = v 0%R -> (T1 <= t)%R -> join T1 u v t = v (t - T1)%R.
Proof.
  intros E H. unfold join. destruct (Rle_dec t T1) as [L|]; [|reflexivity]. assert (X : t = T1) by lra. rewrite X at 1. rewrite E. f_equal. lra.
Qed.
Lemma join_continuous T1 T2 u v t i : (0 <= T1)%R -> (0 <= T2)%R -> u T1 = v 0%R -> (0 <= t <= T1 + T2)%R ->
  (t <= T1 -> continuous_on T1 u t i)%R -> (T1 <= t -> continuous_on T2 v (t - T1) i)%R -> continuous_on (T1 + T2) (join T1 u v) t i.
Proof.
  intros P1 P2 E Ht Hu Hv eps He. destruct (Rlt_dec t T1) as [L|L]; [|destruct (Rlt_dec T1 t) as [G|G]].
  - destruct (Hu ltac:(lra) eps He) as (d & Pd & H). exists (Rmin d (T1 - t)). split; [apply Rmin_pos; lra|]. intros s Hs Hst.
    assert (A1 := Rmin_l d (T1 - t)). assert (A2 := Rmin_r d (T1 - t)). assert (B := Rle_abs (s - t)). rewrite !join_left by lra. apply H; lra.
  - destruct (Hv ltac:(lra) eps He) as (d & Pd & H). exists (Rmin d (t - T1)). split; [apply Rmin_pos; lra|]. intros s Hs Hst.
    assert (A1 := Rmin_l d (t - T1)). assert (A2 := Rmin_r d (t - T1)). assert (B := Rle_abs (- (s - t))). rewrite Rabs_Ropp in B.
    rewrite !join_right by (exact E || lra). apply H; [lra|]. replace (s - T1 - (t - T1))%R with (s - t)%R by ring. lra.
  - assert (X : t = T1) by lra. subst t. destruct (Hu ltac:(lra) eps He) as (d1 & Pd1 & H1). destruct (Hv ltac:(lra) eps He) as (d2 & Pd2 & H2).
    exists (Rmin d1 d2). split; [apply Rmin_pos; lra|]. intros s Hs Hst. assert (A1 := Rmin_l d1 d2). assert (A2 := Rmin_r d1 d2).
    destruct (Rle_dec s T1) as [Ls|Ls].
    + rewrite !join_left by lra. apply H1; lra.
    + rewrite !join_right by (exact E || lra). apply H2; [lra|]. replace (s - T1 - (T1 - T1))%R with (s - T1)%R by ring. lra.
Qed.
Lemma join_slope T1 T2 u v t i d : u T1 = v 0%R -> (0 <= t <= T1 + T2)%R -> t <> T1 ->
  (t < T1 -> has_slope T1 u t i d)%R -> (T1 < t -> has_slope T2 v (t - T1) i d)%R -> has_slope (T1 + T2) (join T1 u v) t i d.
Proof.
  intros E Ht Hne Hu Hv eps He. destruct (Rlt_dec t T1) as [L|L].
  - destruct (Hu L eps He) as (dl & Pd & H). exists (Rmin dl (T1 - t)). split; [apply Rmin_pos; lra|]. intros s Hs Hst.
    assert (A1 := Rmin_l dl (T1 - t)). assert (A2 := Rmin_r dl (T1 - t)). assert (B := Rle_abs (s - t)). rewrite !join_left by lra. apply H; lra.
  - destruct (Hv ltac:(lra) eps He) as (dl & Pd & H). exists (Rmin dl (t - T1)). split; [apply Rmin_pos; lra|]. intros s Hs Hst.
    assert (A1 := Rmin_l dl (t - T1)). assert (A2 := Rmin_r dl (t - T1)). assert (B := Rle_abs (- (s - t))). rewrite Rabs_Ropp in B.
    rewrite !join_right by (exact E || lra). specialize (H (s - T1)%R ltac:(lra)). replace (s - T1 - (t - T1))%R with (s - t)%R in H by ring. apply H. lra.
Qed.

Lemma obeys_join m e H2O temp start T1 T2 u v : (forall k r, nth_error m k = Some r -> sunless (e k)) -> (0 <= T1)%R -> (0 <= T2)%R ->
  obeys m e H2O temp start T1 u -> obeys m e H2O temp start T2 v -> u T1 = v 0%R -> obeys m e H2O temp start (T1 + T2) (join T1 u v).
Proof.
  intros S P1 P2 [A1 (j1 & B1)] [A2 (j2 & B2)] E. split.
  - intros t Ht. assert (X : List.length (join T1 u v t) = List.length (first_seen (reading_order m)) /\ nonneg (join T1 u v t)).
    { destruct (Rle_dec t T1) as [L|L].
      - rewrite join_left by exact L. destruct (A1 t ltac:(lra)) as (L1 & N1 & _). split; assumption.
      - rewrite join_right by (exact E || lra). destruct (A2 (t - T1)%R ltac:(lra)) as (L1 & N1 & _). split; assumption. }
    split; [apply X|]. split; [apply X|]. intros i Hi. apply join_continuous; try assumption; intros H; [apply A1 | apply A2]; lra || exact Hi.
  - exists (T1 :: j1 ++ map (fun x => x + T1)%R j2). intros t Ht Hj c. assert (Hne : t <> T1) by (intros ->; apply Hj; left; reflexivity).
    unfold c. destruct (Rlt_dec t T1) as [L|L].
    + rewrite join_left by lra. destruct (B1 t ltac:(lra)) as (k & K & V). { intros X. apply Hj. right. apply in_or_app. left. exact X. }
      exists k. split; [exact K|]. intros i s Hi. apply join_slope; try assumption; [intros _; apply V, Hi | intros; lra].
    + rewrite join_right by (exact E || lra). destruct (B2 (t - T1)%R ltac:(lra)) as (k & K & V).
      { intros X. apply Hj. right. apply in_or_app. right. apply in_map_iff. exists (t - T1)%R. split; [ring | exact X]. }
      exists k. split; [eapply sunless_coefficients; [exact S | exact K]|]. intros i s Hi. apply join_slope; try assumption; [intros; lra | intros _; apply V, Hi].
Qed.

Lemma one_solution m e H2O temp start b : (forall k r, nth_error m k = Some r -> sunless (e k)) -> (0 < b)%R ->
  forall y rows, chained (one_batch m e H2O temp start b) y rows -> List.length y = List.length (first_seen (reading_order m)) -> nonneg y ->
  exists u, obeys m e H2O temp start (INR (List.length rows) * b) u /\ u 0%R = y /\
    forall j, j < List.length rows -> u (INR (S j) * b)%R = nth j rows [].
Proof.
  intros Sn Pb y rows X. induction X as [y|y y1 rows (u & U & U0 & U1) X IH]; intros L N.
  - exists (fun _ => y). split; [|split; [reflexivity | intros j Hj; cbn in Hj; lia]]. split.
    + intros t _. split; [exact L|]. split; [exact N|]. intros i _ eps He. exists 1%R. split; [lra|]. intros s _ _. unfold Rminus. rewrite Rplus_opp_r, Rabs_R0. lra.
    + exists [0%R]. intros t Ht Hj. exfalso. apply Hj. left. cbn in Ht. lra.
  - destruct (proj1 U b ltac:(lra)) as (L1 & N1 & _). rewrite U1 in L1, N1. destruct (IH L1 N1) as (v & V & V0 & Vj).
    assert (Pn := pos_INR (List.length rows)).
    exists (join b u v). cbn [List.length]. rewrite S_INR. split; [|split].
    + replace ((INR (List.length rows) + 1) * b)%R with (b + INR (List.length rows) * b)%R by ring.
      apply obeys_join; try assumption; try lra; [apply Rmult_le_pos; lra | congruence].
    + rewrite join_left by lra. exact U0.
    + intros [|j] Hj; cbn [nth].
      * rewrite join_left by (cbn; lra). rewrite Rmult_1_l. exact U1.
      * rewrite S_INR. assert (Pj : (1 <= INR (S j))%R) by (rewrite S_INR; assert (Z := pos_INR j); lra).
        rewrite join_right by (congruence || nra). replace ((INR (S j) + 1) * b - b)%R with (INR (S j) * b)%R by ring. apply Vj. cbn in Hj. lia.
Qed.
(* From rows close to exact solutions of the code's equations to rows close to the chemistry. *)
Lemma rows_chemistry m text e w start H2O temp b A err : written m text -> whole m -> Forall distinct_reactants m ->
  peroxy_clean (first_seen (reading_order m)) -> Forall products_safe m ->
  Forall (fun r => weight w (rhs r) <= weight w (lhs r))%R m -> w light = 0%R -> (forall b, In b bath -> w b = 0%R) -> (forall s, (0 <= w s)%R) ->
  (forall s, In s (first_seen (reading_order m)) -> ~ In s bath -> (0 < w s)%R) ->
  (0 < temp)%R -> (0 <= H2O)%R -> (0 < B2R b)%R -> (0 <= A)%R -> tame_rates m e H2O temp ->
  let sp := first_seen (reading_order m) in
  forall simulate rhs_at jac conc sim ts ys, NoDup (dkeys conc) -> Forall (fun p => 0 <= snd p <= A)%R conc ->
  run_simulation simulate rhs_at jac start (p_sp (interp m)) (p_sp2a (interp m)) conc sim b = Ok (ts, ys) ->
  (forall y0, initial_state (List.length (p_sp (interp m))) (p_sp2a (interp m)) conc = Ok y0 -> Forall (fun c => 0 <= c <= A * 25500000000)%R y0 ->
    exists rows, List.length rows = List.length ts /\ exact_rows (fun clock => gas_dydt_numba (interp m) (List.length m) clock 0 H2O temp) (B2R start) (B2R b) y0 rows /\
      forall j, j < List.length ts -> close err (nth j rows []) (nth j ys [])) ->
  exists y0 rows, List.length y0 = List.length sp /\
    (forall s, In s sp -> concentration sp y0 s = match dget s conc with Some c => c * 25500000000 | None => 0 end)%R /\
    List.length rows = List.length ts /\ chained (one_batch m e H2O temp (B2R start) (B2R b)) y0 rows /\
    (forall rows', List.length rows' = List.length ts -> chained (one_batch m e H2O temp (B2R start) (B2R b)) y0 rows' -> rows' = rows) /\
    (forall j s, j < List.length ts -> In s sp -> (Rabs (concentration sp (nth j ys []) s - concentration sp (nth j rows []) s) <= err)%R) /\
    ((forall k r, nth_error m k = Some r -> sunless (e k)) ->
     exists u, obeys m e H2O temp (B2R start) (INR (List.length ts) * B2R b) u /\ u 0%R = y0 /\
       forall j, j < List.length ts -> u (INR (S j) * B2R b)%R = nth j rows []).
Proof.
  intros W Hw Hr PC Hs Hwt Hl Hb Pw Pp HT HH Pb PA Ht sp simulate rhs_at jac conc sim ts ys Nd Fc Hrun HC.
  assert (E := written_extract _ _ W).
  destruct (C34_initial_state text _ (interp m) conc E Nd) as [I1 I2].
  assert (Known : forall s, In s (dkeys conc) -> exists i, dget s (p_sp2a (interp m)) = Some i).
  { intros s Hin. destruct (dget s (p_sp2a (interp m))) as [i|] eqn:Di; [exists i; reflexivity|]. exfalso. unfold run_simulation in Hrun. rewrite (I2 s Hin Di) in Hrun. discriminate. }
  destruct (I1 Known) as (y0 & Y0 & L0 & V0).
  assert (LN : List.length (p_sp (interp m)) = List.length (species m)) by (destruct (interp_species m) as (-> & _); rewrite combine_length, seq_length; lia).
  rewrite LN in L0. assert (F0 : Forall (fun c => 0 <= c <= A * 25500000000)%R y0).
  { apply Forall_forall. intros c Hin. apply In_nth_error in Hin as (i & Hi). destruct (nth_error (species m) i) as [s|] eqn:Es.
    - assert (Di := proj2 (interp_sp2a m s i) Es). rewrite (V0 s i Di) in Hi. injection Hi as <-. destruct (dget s conc) as [c|] eqn:Dc; [|lra].
      apply dget_Some_In in Dc. rewrite Forall_forall in Fc. specialize (Fc _ Dc). cbn [snd] in Fc. nra.
    - apply nth_error_None in Es. assert (i < List.length y0) by (apply nth_error_Some; congruence). lia. }
  destruct (HC y0 Y0 F0) as (rows & Lr & Xr & Cl).
  assert (N0 := range_nonneg _ _ F0).
  assert (Ch : chained (one_batch m e H2O temp (B2R start) (B2R b)) y0 rows).
  { apply (exact_chained m text e H2O temp (B2R start) (B2R b)); try assumption; [lra|]. intros y Ly Ny.
    exact (gas_exists m text e w W Hw PC Hs Hwt Hl Hb Pw Pp H2O temp HT HH Ht (B2R start) (B2R b) y ltac:(lra) Ly Ny). }
  change sp with (species m). exists y0, rows. split; [exact L0|]. split.
  { intros s Hin. apply In_nth_error in Hin as (i & Hi). assert (Di := proj2 (interp_sp2a m s i) Hi). rewrite <- (amount_conc m y0 L0).
    assert (Q := conc_of_at m y0 s i L0 Di). rewrite (V0 s i Di) in Q. injection Q as <-. reflexivity. }
  split; [exact Lr|]. split; [exact Ch|]. split.
  { intros rows' L' Ch'. apply (chained_unique _ (batch_unique m text e H2O temp (B2R start) (B2R b) W Hw Hs Hr PC HT HH ltac:(lra) Ht) y0); [exact Ch | exact Ch' | lia]. }
  split; [|intros Sn; rewrite <- Lr; apply (one_solution m e H2O temp (B2R start) (B2R b) Sn Pb y0 rows Ch L0 N0)].
  intros j s Hj Hin. destruct (Cl j Hj) as [Lj Cj].
  assert (Lrow : List.length (nth j rows []) = List.length (species m)).
  { apply (chained_all _ (fun y => List.length y = List.length (species m))) with (2 := Ch); [|rewrite Lr; exact Hj].
    intros y y1 (u & U & _ & <-). apply (proj1 U). lra. }
  apply In_nth_error in Hin as (i & Hi). assert (Di := proj2 (interp_sp2a m s i) Hi).
  assert (Li : i < List.length (species m)) by (apply nth_error_Some; congruence).
  assert (Q1 := conc_of_at m (nth j rows []) s i Lrow Di). assert (Q2 := conc_of_at m (nth j ys []) s i (eq_trans (eq_sym Lj) Lrow) Di).
  rewrite (amount_conc m _ Lrow) in Q1. rewrite (amount_conc m _ (eq_trans (eq_sym Lj) Lrow)) in Q2. apply nth_error_nth with (d := 0%R) in Q1, Q2.
  specialize (Cj i ltac:(lia)). rewrite Q1, Q2, Rabs_minus_sym in Cj. exact Cj.
Qed.

(* ------------------------------------------------------------------ *)
(* The rows of a run of Gas_simulation.  The mechanism is given as text; the
   modules are the generated files, read back; the integrator is off by at most
   delta in a batch.  Then every row is within C delta of the concentrations
   that the chemistry of the mechanism leads to from the row before, starting
   from the given mixing ratios, and those are unique.  Every batch reads the
   clock from the start of the simulation on (C37). *)
Theorem C93_partial : forall m text e w num date, written m text -> one_line date -> whole m -> Forall distinct_reactants m ->
  peroxy_clean (first_seen (reading_order m)) -> Forall products_safe m -> Forall (fun r => mcm_text (rtext r)) m ->
  Forall (fun r => weight w (rhs r) <= weight w (lhs r))%R m -> w light = 0%R -> (forall b, In b bath -> w b = 0%R) -> (forall s, (0 <= w s)%R) ->
  (forall s, In s (first_seen (reading_order m)) -> ~ In s bath -> (0 < w s)%R) ->
  let sp := first_seen (reading_order m) in
  exists st p1 t1, extract_mechanism text = Ok (Z.of_nat (List.length m), st) /\
    gen_reactants_numba (List.length m) (p_sp2a st) (p_reac st) (p_loss st) = Ok p1 /\
    write_reactants_numba num date (List.length m) (p_sp2a st) (p_reac st) (p_loss st) = Ok t1 /\
    (prints num p1 -> prints num (snd (gen_loss_gain_numba (p_sp2a st) (p_loss st) (p_gain st))) ->
  (* the files can be imported *)
  exists rs s1 s2, read_rates_python (rate_file_numba date st) = Some rs /\ read_python one_subscript t1 = Some s1 /\
    read_python one_subscript (write_loss_gain_numba num date (p_sp2a st) (p_loss st) (p_gain st)) = Some s2 /\
  forall start H2O temp b N A D, (0 < temp)%R -> (0 <= H2O)%R -> (0 < B2R b)%R -> (0 <= A)%R -> (0 <= D)%R -> tame_rates m e H2O temp ->
    let RO2_indices := write_RO2_indices (p_sp2a st) in
    let equations := fun clock y => gas_dydt_files rs s1 s2 (List.length m) (RO2_sum RO2_indices y) clock 0 H2O temp y in
    let rhs_at := files_rhs_at rs s1 s2 (List.length m) RO2_indices H2O temp in
    (* the function handed to the integrator is this function of the clock and the state *)
    (forall clock y, rhs_at clock y = match equations (B2R clock) y with Some d => Ok d | None => Err ValueError end) /\
    exists C, (0 <= C)%R /\ forall delta simulate jac conc sim ts ys, (0 <= delta <= D)%R ->
      off_by delta equations rhs_at simulate -> NoDup (dkeys conc) -> Forall (fun p => 0 <= snd p <= A)%R conc ->
      run_simulation simulate rhs_at jac start (p_sp st) (p_sp2a st) conc sim b = Ok (ts, ys) -> List.length ts <= N ->
      exists y0 rows, List.length y0 = List.length sp /\
        (forall s, In s sp -> concentration sp y0 s = match dget s conc with Some c => c * 25500000000 | None => 0 end)%R /\
        List.length rows = List.length ts /\ chained (one_batch m e H2O temp (B2R start) (B2R b)) y0 rows /\
        (forall rows', List.length rows' = List.length ts -> chained (one_batch m e H2O temp (B2R start) (B2R b)) y0 rows' -> rows' = rows) /\
        (forall j s, j < List.length ts -> In s sp -> (Rabs (concentration sp (nth j ys []) s - concentration sp (nth j rows []) s) <= C * delta)%R) /\
        (* without photolysis they sample one solution over the whole run *)
        ((forall k r, nth_error m k = Some r -> sunless (e k)) ->
         exists u, obeys m e H2O temp (B2R start) (INR (List.length ts) * B2R b) u /\ u 0%R = y0 /\
           forall j, j < List.length ts -> u (INR (S j) * B2R b)%R = nth j rows [])).
Proof.
  intros m text e w num date W Hd Hw Hr PC Hs HM Hwt Hl Hb Pw Pp sp.
  destruct (C83_rhs_partial m text num date W Hd Hs Hr PC HM) as (st & p1 & t1 & E & G & Wt & _). assert (X := written_extract _ _ W). rewrite E in X. injection X as ->.
  exists (interp m), p1, t1. split; [exact E|]. split; [exact G|]. split; [exact Wt|]. intros P1 P2.
  destruct (files_same m text num date W Hd HM p1 t1 G Wt P1 P2) as (rs & s1 & s2 & R & R1 & R2 & Same). exists rs, s1, s2. split; [exact R|]. split; [exact R1|]. split; [exact R2|].
  intros start H2O temp b N A D HT HH Pb PA PD Ht RO2_indices equations rhs_at. split; [intros clock y; reflexivity|].
  assert (Eq : equations = fun clock => gas_dydt_numba (interp m) (List.length m) clock 0 H2O temp).
  { apply functional_extensionality. intros clock. apply functional_extensionality. intros y. apply Same. }
  assert (Er : rhs_at = gas_rhs_at (interp m) (List.length m) H2O temp).
  { apply functional_extensionality. intros clock. apply functional_extensionality. intros y. unfold rhs_at, files_rhs_at, gas_rhs_at. rewrite Same. reflexivity. }
  rewrite Eq, Er. clear Eq Er equations rhs_at.
  destruct (C92_gas_partial m text e w W Hw PC Hs Hwt Hl Hb Pw Pp) as (st' & E' & H). rewrite E in E'. injection E' as <-.
  destruct (H start H2O temp b N (A * 25500000000)%R D HT HH Pb ltac:(lra) PD Ht) as (C & PCC & HC). exists C. split; [exact PCC|].
  intros delta simulate jac conc sim ts ys Hdel Ho Nd Fc Hrun HN.
  exact (rows_chemistry m text e w start H2O temp b A (C * delta)%R W Hw Hr PC Hs Hwt Hl Hb Pw Pp HT HH Pb PA Ht simulate _ jac conc sim ts ys Nd Fc Hrun
    (fun y0 Y0 F0 => HC delta simulate jac conc sim ts ys y0 Hdel Ho Y0 F0 Hrun HN)).
Qed.


(* The mechanism CH3O2 -> CH3O, and an integrator off by five molecules. *)
Example C93_hypotheses : exists st p1 t1 rs s1 s2 ts r1 r2,
  one_line date0 /\ Forall distinct_reactants self_mech /\ Forall (fun r => mcm_text (rtext r)) self_mech /\
  extract_mechanism (ParseShow.show self_words) = Ok (1%Z, st) /\
  gen_reactants_numba 1 (p_sp2a st) (p_reac st) (p_loss st) = Ok p1 /\ write_reactants_numba repr date0 1 (p_sp2a st) (p_reac st) (p_loss st) = Ok t1 /\
  prints repr p1 /\ prints repr (snd (gen_loss_gain_numba (p_sp2a st) (p_loss st) (p_gain st))) /\
  read_rates_python (rate_file_numba date0 st) = Some rs /\ read_python one_subscript t1 = Some s1 /\
  read_python one_subscript (write_loss_gain_numba repr date0 (p_sp2a st) (p_loss st) (p_gain st)) = Some s2 /\
  let idx := write_RO2_indices (p_sp2a st) in let rhs_at := files_rhs_at rs s1 s2 1 idx 1e17 298 in
  off_by 5 (fun clock y => gas_dydt_files rs s1 s2 1 (RO2_sum idx y) clock 0 1e17 298 y) rhs_at drifting_solver /\
  run_simulation drifting_solver rhs_at (fun _ _ => Err ValueError) f43200 (p_sp st) (p_sp2a st) [(s_ "CH3O2", 20%R)] f7200 f3600 = Ok (ts, [r1; r2]) /\ List.length ts = 2 /\
  sunless (self_expr 0).
Proof.
  destruct C92_hypotheses as (st & ts & r1 & r2 & W & Hw & PC & Hs & _ & _ & _ & _ & _ & E & _ & _ & Ho & _ & Hrun & Lts).
  assert (X := written_extract _ _ W). change (Z.of_nat (List.length self_mech)) with 1%Z in X. rewrite E in X. injection X as ->.
  assert (D : Forall distinct_reactants self_mech).
  { repeat constructor; [discriminate | intros []]. }
  assert (M : Forall (fun r => mcm_text (rtext r)) self_mech).
  { apply Forall_forall. intros r I. apply In_nth_error in I. destruct I as (k & Hk).
    destruct (self_coefficients 0 0 0 1 Rlt_0_1 k r Hk) as (A & B & C & F & G). exists (self_expr k), 0%R, 0%R, 1%R, 0%R, (self_rate k 0 0). repeat (split; [assumption|]). exact G. }
  assert (O : one_line date0) by (apply one_line_dec; reflexivity).
  destruct (C83_rhs_partial self_mech _ repr date0 W O Hs D PC M) as (st & p1 & t1 & E' & G & Wt & _).
  assert (X := written_extract _ _ W). rewrite E' in X. injection X as ->.
  assert (P1 : prints repr p1). { intros q I. apply repr_ok. vm_compute in G. injection G as <-. vm_compute in I |- *. tauto. }
  assert (P2 : prints repr (snd (gen_loss_gain_numba (p_sp2a (interp self_mech)) (p_loss (interp self_mech)) (p_gain (interp self_mech))))).
  { intros q I. apply repr_ok. vm_compute in I |- *. tauto. }
  destruct (files_same self_mech _ repr date0 W O M p1 t1 G Wt P1 P2) as (rs & s1 & s2 & R & R1 & R2 & Same).
  exists (interp self_mech), p1, t1, rs, s1, s2, ts, r1, r2.
  split; [exact O|]. split; [exact D|]. split; [exact M|]. split; [exact E|]. split; [exact G|]. split; [exact Wt|]. split; [exact P1|]. split; [exact P2|]. split; [exact R|]. split; [exact R1|]. split; [exact R2|]. intros idx rhs_at.
  assert (Er : rhs_at = gas_rhs_at (interp self_mech) 1 1e17 298).
  { apply functional_extensionality. intros clock. apply functional_extensionality. intros y. unfold rhs_at, files_rhs_at, gas_rhs_at, idx. rewrite (Same (B2R clock) 0%R 1e17%R 298%R y : gas_dydt_files _ _ _ 1 _ _ _ _ _ _ = _). reflexivity. }
  assert (Eq : (fun clock y => gas_dydt_files rs s1 s2 1 (RO2_sum idx y) clock 0 1e17 298 y) = fun clock => gas_dydt_numba (interp self_mech) 1 clock 0 1e17 298).
  { apply functional_extensionality. intros clock. apply functional_extensionality. intros y. apply Same. }
  rewrite Er, Eq. split; [exact Ho|]. split; [exact Hrun|]. split; [exact Lts|]. cbn. tauto.
Qed.

Print Assumptions C93_partial.
