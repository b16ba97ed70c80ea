(* C78: the f2py driver of the gas phase gives its solver the same right-hand
   side and the same Jacobian as the numba driver. *)
From Coq Require Import String List Bool Arith Lia ZArith QArith Reals Qreals Lra Permutation.
From Verif Require Import Base PyStr PyDict ModelParse SpecMech ParseStruct ParseTables ParseWritten ParseShow PropsParse
  ModelLang ModelGen ModelRhs SpecKin LangFacts GenReact GenLossGain GenParsed GenSparse GenJac JacDeriv PropsKin PropsRhs PropsJac
  ModelOmp PropsOmp ModelExpr ModelRate ModelRateFile SpecRate RateExpr ModelRateBody ModelRateRun RateSym
  SpecRateValue SpecMcmEnv PropsRateValue ModelRo2 SpecRo2 PropsRo2 ModelGas SpecGas PropsGas ModelGasJac PropsGasJac
  PropsTraj SpecMethod PropsMethod PropsAeroChem GasFortran.
Import ListNotations.
Import Coq.Lists.List.
Open Scope nat_scope.
Open Scope list_scope.
Local Arguments eqb : simpl never.

Lemma ready_jac_ok m s : fortran_ready m -> s <> light -> Forall (jac_ok s) m.
Proof.
  intros [Hu Hp Hd] Hl. rewrite Forall_forall in Hu, Hp, Hd |- *. intros r Hr. right.
  assert (U := Hu r Hr). apply Forall_app in U as [U1 U2]. destruct (Hd r Hr) as [_ N1]. destruct (Hp r Hr) as [N2 _].
  assert (T : forall ts, Forall (fun t : term => fst t == 1) ts -> NoDup (names ts) -> Q2R (total s ts) = once s ts).
  { intros ts Ut Nt. unfold once. destruct (inb s (names ts)) eqn:E.
    - apply inb_In in E. rewrite (Qeq_eqR _ _ (total_unit _ _ Ut Nt E)). unfold Q2R. cbn. field.
    - apply inb_nIn in E. rewrite total_notin; [unfold Q2R; cbn; ring|]. intros I. apply E, In_names. auto. }
  split.
  - unfold net. rewrite (T _ U2 N2), (T _ U1 N1). reflexivity.
  - right. intros x Hx. left. apply total_unit; assumption.
Qed.

Section Same.
Context (m : mech) (text : str) (st : pstate) (W : written m text) (FR : fortran_ready m)
  (Hst : extract_mechanism text = Ok (Z.of_nat (List.length m), st)) (PC : peroxy_clean (first_seen (reading_order m))).

Lemma some_species : species m <> [].
Proof. destruct PC as ((s & Hs & _) & _). unfold species. intros X. rewrite X in Hs. destruct Hs. Qed.

Lemma same_dydt e ord o1 o2 o3 o4 c rnd start_time t H2O T y v : is_fortran_call ord st (List.length m) o1 o2 o3 o4 c ->
  is_rounding rnd -> (0 < T)%R -> (0 <= H2O)%R -> List.length y = List.length (first_seen (reading_order m)) ->
  coefficients m e (start_time + t) (peroxy_total (first_seen (reading_order m)) (conc_of (p_sp2a st) y)) H2O T v ->
  exists dy, gas_dydt_numba st (List.length m) start_time t H2O T y = Some dy /\
    f2py_dydt st (List.length m) rnd start_time t H2O T c y = Some dy.
Proof.
  intros ((p1 & G1 & R1) & R2 & R3 & _) Hr HT HH Ly HC. change (first_seen (reading_order m)) with (species m) in *.
  assert (Ey : firstn (List.length (species m)) y = y) by (apply firstn_all2; lia).
  assert (F := generated_fortran m text st W FR Hst some_species e o1 o2 o3 p1 _ _ _ rnd (f_a0 c) (f_m0 c) start_time t H2O T y v PC G1 R1 R2 R3 Hr HT HH ltac:(lia)).
  cbv zeta in F. rewrite Ey in F. specialize (F HC). eexists. split; [|exact F].
  destruct PC as (P1 & P2 & P3 & P4). unfold gas_dydt_numba. rewrite (C33_partial m text st W Hst P1 P2 P3 P4 y Ly). change (first_seen (reading_order m)) with (species m).
  destruct (gen_reactants_numba_ok (List.length m) _ _ _ (all_known_interp m)) as (pn & Hg & Ha). rewrite <- (is_interp m text st W Hst) in Hg, Ha. rewrite Hg.
  destruct (C58_partial m text e v (start_time + t) _ H2O T W HT HH HC) as (st' & en & ef & E' & En & _ & Hrt & _).
  rewrite Hst in E'. injection E' as <-. rewrite En. cbn [obind]. rewrite Hrt. cbn [obind].
  unfold rhs_numba, reactants_numba. rewrite (is_interp m text st W Hst) in Ha.
  rewrite (products_vec_gen m 0 python zeros pn y); [|left; reflexivity | intros i; cbn; rewrite ?Nat.add_0_r; reflexivity | exact Ly | apply whole_powers, ready_whole, FR | intros k r s _ _ _ q _; reflexivity | exact Ha].
  rewrite <- (is_interp m text st W Hst).
  set (ks := map v (seq 0 (List.length m))). assert (Lk : List.length ks = List.length m) by (unfold ks; rewrite map_length, seq_length; reflexivity).
  assert (Lc : List.length (products m zeros (conc_of (p_sp2a st) y)) = List.length m) by apply array_length.
  destruct (fortran_loss_gain m text st W FR Hst some_species None _ rnd (multiply (products m zeros (conc_of (p_sp2a st) y)) ks) Hr eq_refl) as (d & _ & D2 & _); [rewrite multiply_length; congruence|].
  rewrite Ly, D2. f_equal. apply (numba_generated m text st W Hst ks y d Lk D2).
Qed.

Lemma same_jac e ord1 ord o1 o2 o3 o4 c rnd start_time t H2O T y v : is_set_order ord1 -> is_set_order ord -> is_fortran_call ord st (List.length m) o1 o2 o3 o4 c ->
  is_rounding rnd -> (0 < T)%R -> (0 <= H2O)%R -> List.length y = List.length (first_seen (reading_order m)) ->
  coefficients m e (start_time + t) (peroxy_total (first_seen (reading_order m)) (conc_of (p_sp2a st) y)) H2O T v ->
  exists J1 J2, gas_jac_numba ord1 st (List.length m) start_time t H2O T y = Some J1 /\
    f2py_jac st (List.length m) rnd start_time t H2O T c y = Some J2 /\ forall ij, J1 ij = J2 ij.
Proof.
  intros Ho1 Ho (_ & _ & R3 & (pj & Gj & Rj)) Hr HT HH Ly HC. change (first_seen (reading_order m)) with (species m) in *.
  destruct (C23_fortran_equals_numba m text ord1 ord None W Ho1 Ho) as (st' & q1 & q2 & E' & Q1 & Q2 & HJ).
  { intros r s Hri Hs. assert (O1 := ready_one m FR r s Hri Hs). split.
    - apply (single_proper 1); [symmetry; exact O1 | exact single_one].
    - intros C. rewrite O1 in C. exfalso. revert C. apply Qle_not_lt. discriminate. }
  rewrite Hst in E'. injection E' as <-.
  destruct PC as (P1 & P2 & P3 & P4). unfold gas_jac_numba, f2py_jac, gas_jac_fortran. rewrite (C33_partial m text st W Hst P1 P2 P3 P4 y Ly). change (first_seen (reading_order m)) with (species m). rewrite Q1.
  destruct (C58_partial m text e v (start_time + t) _ H2O T W HT HH HC) as (st' & en & ef & E' & En & Ef & Hn & Hf & Hom).
  rewrite Hst in E'. injection E' as <-. rewrite En, Ef. cbn [obind]. rewrite Hn. cbn [obind].
  assert (HK : returned (List.length m) (run (cell 1 (List.length m)) (text_value fortran_lang ef) (f_rates c) (f_a0 c)) = Some (map v (seq 0 (List.length m)))).
  { destruct o3 as [br|]; cbn [runs_as] in R3.
    - destruct R3 as (bs & tr & Hb & He & ->). destruct (Hom ltac:(assert (X := mech_nonempty m some_species); lia) br) as (bs' & Hb' & HX).
      rewrite Hb in Hb'. injection Hb' as <-. apply HX, He.
    - rewrite R3. apply Hf. }
  rewrite HK. cbn [obind].
  assert (Hsc : species_count st = List.length (species m)) by (rewrite (is_interp m text st W Hst); unfold species_count; apply sp2a_length).
  destruct (HJ rnd (map v (seq 0 (List.length m))) y Hr ltac:(rewrite map_length, seq_length; reflexivity) ltac:(congruence)) as (J1 & J2 & A1 & A2 & A3).
  { right. intros r x Hri Hx. exists 1. rewrite (ready_one m FR r x Hri Hx). reflexivity. }
  rewrite Hsc, <- Ly in A1, A2.
  destruct o4 as [br|]; cbn [runs_as] in Rj.
  - destruct Rj as (bs & tr & Hb & He & ->). destruct (C24_jacobian m text ord br W some_species Ho) as (st' & p0 & p & bs' & E' & Z1 & Z2 & Z3 & Z4).
    rewrite Hst in E'. injection E' as <-. rewrite Z2 in Gj. injection Gj as <-. rewrite Hb in Z3. injection Z3 as <-.
    rewrite Q2 in Z1. injection Z1 as <-.
    assert (S := Z4 rnd (List.length y) y (map v (seq 0 (List.length m))) tr He). rewrite A2 in S. unfold same_result in S.
    destruct (jacobian_fortran rnd (as_items tr) (List.length y) y (map v (seq 0 (List.length m)))) as [J3|]; [|contradiction].
    exists J1, J3. split; [exact A1|]. split; [reflexivity|]. intros [i j]. rewrite S. apply A3.
  - rewrite Q2 in Gj. injection Gj as <-. rewrite Rj. exists J1, J2. split; [exact A1|]. split; [exact A2|]. intros [i j]. apply A3.
Qed.
End Same.

(* ------------------------------------------------------------------ *)
(* C78: both drivers give the solver the same two functions, at every state,
   for all mechanisms whose Fortran text is right. *)
Theorem C78_same_partial : forall m text e ord1 ord, written m text -> is_set_order ord1 -> is_set_order ord ->
  Forall unit_coefficients m -> Forall (fun r => NoDup (names (rhs r)) /\ ~ In (last_reactant r) (names (rhs r))) m ->
  Forall distinct_reactants m -> peroxy_clean (first_seen (reading_order m)) ->
  exists st, extract_mechanism text = Ok (Z.of_nat (List.length m), st) /\
  forall o1 o2 o3 o4 c rnd start_time t H2O T y v, is_fortran_call ord st (List.length m) o1 o2 o3 o4 c ->
    is_rounding rnd -> (0 < T)%R -> (0 <= H2O)%R -> List.length y = List.length (first_seen (reading_order m)) ->
    coefficients m e (start_time + t) (peroxy_total (first_seen (reading_order m)) (conc_of (p_sp2a st) y)) H2O T v ->
    exists dy J1 J2, gas_dydt_numba st (List.length m) start_time t H2O T y = Some dy /\
      f2py_dydt st (List.length m) rnd start_time t H2O T c y = Some dy /\
      gas_jac_numba ord1 st (List.length m) start_time t H2O T y = Some J1 /\
      f2py_jac st (List.length m) rnd start_time t H2O T c y = Some J2 /\ forall i j, J1 (i, j) = J2 (i, j).
Proof.
  intros m text e ord1 ord W Ho1 Ho Hu Hp Hd PC. exists (interp m). assert (Hst := written_extract _ _ W). split; [exact Hst|].
  intros o1 o2 o3 o4 c rnd t0 t H2O T y v Hc Hr HT HH Ly HC. assert (FR : fortran_ready m) by (constructor; assumption).
  destruct (same_dydt m text _ W FR Hst PC e ord o1 o2 o3 o4 c rnd t0 t H2O T y v Hc Hr HT HH Ly HC) as (dy & D1 & D2).
  destruct (same_jac m text _ W FR Hst PC e ord1 ord o1 o2 o3 o4 c rnd t0 t H2O T y v Ho1 Ho Hc Hr HT HH Ly HC) as (J1 & J2 & A1 & A2 & A3).
  exists dy, J1, J2. repeat (split; [assumption|]). intros i j. apply A3.
Qed.

(* The Jacobian of the f2py driver is, in every row, the derivative of its
   right-hand side with RO2 held fixed; the missing part is the derivative of
   the rates by RO2. *)
Theorem C78_exact : forall m text e ord, written m text -> is_set_order ord ->
  Forall unit_coefficients m -> Forall (fun r => NoDup (names (rhs r)) /\ ~ In (last_reactant r) (names (rhs r))) m ->
  Forall distinct_reactants m -> peroxy_clean (first_seen (reading_order m)) ->
  exists st, extract_mechanism text = Ok (Z.of_nat (List.length m), st) /\
  forall o1 o2 o3 o4 calls rnd start_time t H2O T y v dv d, (forall y, is_fortran_call ord st (List.length m) o1 o2 o3 o4 (calls y)) ->
    is_rounding rnd -> (0 < T)%R -> (0 <= H2O)%R -> (0 < d)%R ->
    let sp := first_seen (reading_order m) in let c := conc_of (p_sp2a st) y in let ro := peroxy_total sp c in
    List.length y = List.length sp -> Forall (fun a => 0 < a)%R y ->
    (forall r, (Rabs (r - ro) < d)%R -> coefficients m e (start_time + t) r H2O T (v r)) ->
    (forall k, k < List.length m -> derivable_pt_lim (fun r => v r k) ro (dv k)) ->
    exists J, f2py_jac st (List.length m) rnd start_time t H2O T (calls y) y = Some J /\
      forall i s j x, nth_error sp i = Some s -> nth_error sp j = Some x ->
        derivable_pt_lim (fun z => component i (f2py_dydt st (List.length m) rnd start_time t H2O T (calls (set_nth j z y)) (set_nth j z y))) (nth j y 0%R)
          (J (i, j) + (if is_peroxy x && negb (inb s bath) then kinetics m (map dv (seq 0 (List.length m))) c s else 0))%R.
Proof.
  intros m text e ord W Ho Hu Hp Hd PC. assert (FR : fortran_ready m) by (constructor; assumption).
  destruct (C70_exact m text e ord W Ho (ready_safe m FR) Hd PC) as (st & Hst & H). exists st. split; [exact Hst|].
  intros o1 o2 o3 o4 calls rnd t0 t H2O T y v dv d Hc Hr HT HH Pd sp c ro Ly Pos HC HD.
  destruct (H t0 t H2O T y v dv d HT HH Pd Ly Pos HC HD) as (J & HJ & Hder).
  assert (HC0 : coefficients m e (t0 + t) ro H2O T (v ro)) by (apply HC; replace (ro - ro)%R with 0%R by ring; rewrite Rabs_R0; exact Pd).
  destruct (same_jac m text st W FR Hst PC e ord ord o1 o2 o3 o4 (calls y) rnd t0 t H2O T y (v ro) Ho Ho (Hc y) Hr HT HH Ly HC0) as (J1 & J2 & A1 & A2 & A3).
  assert (J1 = J) by congruence. subst J1. exists J2. split; [exact A2|]. intros i s j x Hi Hj.
  rewrite <- A3. refine (deriv_ext_loc _ _ _ _ _ (Hder i s j x Hi Hj _)).
  - exists d. split; [exact Pd|]. intros z Hz. f_equal.
    assert (Est := is_interp m text st W Hst).
    assert (Hcx : nth j y 0%R = c x) by (unfold c; rewrite conc_of_dget, Est; rewrite (proj2 (interp_sp2a m x j) Hj); reflexivity).
    assert (Hro : peroxy_total sp (conc_of (p_sp2a st) (set_nth j z y)) = (ro + (if is_peroxy x then z - c x else 0))%R).
    { unfold ro. rewrite <- (peroxy_total_set sp c x z (first_seen_NoDup _) (nth_error_In _ _ Hj)). unfold peroxy_total. apply rsum_ext. intros s' _. unfold c. rewrite Est, (conc_of_set m y j z x s') by assumption. reflexivity. }
    destruct (same_dydt m text st W FR Hst PC e ord o1 o2 o3 o4 (calls (set_nth j z y)) rnd t0 t H2O T (set_nth j z y) (v (ro + (if is_peroxy x then z - c x else 0))%R) (Hc _) Hr HT HH) as (dy & D1 & D2).
    + rewrite set_nth_length. exact Ly.
    + fold sp. rewrite Hro. apply HC. rewrite Hcx in Hz. destruct (is_peroxy x).
      * replace (ro + (z - c x) - ro)%R with (z - c x)%R by ring. exact Hz.
      * replace (ro + 0 - ro)%R with 0%R by ring. rewrite Rabs_R0. exact Pd.
    + rewrite D1, D2. reflexivity.
  - destruct (inb s bath) eqn:Eb; [left; apply inb_In, Eb | right]. apply ready_jac_ok; [exact FR|]. eapply species_not_light, nth_error_In, Hi.
Qed.

(* Without RO2 in the rates it is the derivative. *)
Theorem C78_partial : forall m text e ord, written m text -> is_set_order ord ->
  Forall unit_coefficients m -> Forall (fun r => NoDup (names (rhs r)) /\ ~ In (last_reactant r) (names (rhs r))) m ->
  Forall distinct_reactants m -> peroxy_clean (first_seen (reading_order m)) ->
  (forall k, k < List.length m -> ~ mentions (s_ "RO2") (e k)) ->
  exists st, extract_mechanism text = Ok (Z.of_nat (List.length m), st) /\
  forall o1 o2 o3 o4 calls rnd start_time t H2O T y v, (forall y, is_fortran_call ord st (List.length m) o1 o2 o3 o4 (calls y)) ->
    is_rounding rnd -> (0 < T)%R -> (0 <= H2O)%R ->
    let sp := first_seen (reading_order m) in
    List.length y = List.length sp -> Forall (fun a => 0 < a)%R y ->
    coefficients m e (start_time + t) (peroxy_total sp (conc_of (p_sp2a st) y)) H2O T v ->
    exists J, f2py_jac st (List.length m) rnd start_time t H2O T (calls y) y = Some J /\
      forall i j, i < List.length sp -> j < List.length sp ->
        derivable_pt_lim (fun z => component i (f2py_dydt st (List.length m) rnd start_time t H2O T (calls (set_nth j z y)) (set_nth j z y))) (nth j y 0%R) (J (i, j)).
Proof.
  intros m text e ord W Ho Hu Hp Hd PC Hm. destruct (C78_exact m text e ord W Ho Hu Hp Hd PC) as (st & E & H). exists st. split; [exact E|].
  intros o1 o2 o3 o4 calls rnd t0 t H2O T y v Hc Hr HT HH sp Hy Pos HC.
  destruct (H o1 o2 o3 o4 calls rnd t0 t H2O T y (fun _ => v) (fun _ => 0%R) 1%R Hc Hr HT HH Rlt_0_1 Hy Pos) as (J & HJ & D).
  - intros r _ k rx Hk. destruct (HC k rx Hk) as (A1 & A2 & A3 & A4 & A5). repeat (split; [assumption|]).
    eapply means_other; [|exact A5]. apply Hm. apply nth_error_Some. congruence.
  - intros k _. apply derivable_pt_lim_const.
  - exists J. split; [exact HJ|]. intros i j Hi Hj.
    destruct (nth_error sp i) as [s|] eqn:Es; [|apply nth_error_None in Es; lia]. destruct (nth_error sp j) as [x|] eqn:Ex; [|apply nth_error_None in Ex; lia].
    assert (D1 := D i s j x Es Ex). replace (J (i, j) + _)%R with (J (i, j)) in D1; [exact D1|].
    assert (Z : kinetics m (map (fun _ => 0%R) (seq 0 (List.length m))) (conc_of (p_sp2a st) y) s = 0%R).
    { rewrite (kinetics_seq m (fun _ => 0%R)). apply rsum_zero. intros rk _. ring. }
    destruct (is_peroxy x && negb (inb s bath)); [rewrite Z|]; ring.
Qed.

(* A case: the mechanism of C70 meets the hypotheses, and the generated modules
   can be called. *)
Example C78_hypotheses : forall ord, is_set_order ord -> let m := map bare jac_words in
  written m (ParseShow.show jac_words) /\ Forall unit_coefficients m /\
  Forall (fun r => NoDup (names (rhs r)) /\ ~ In (last_reactant r) (names (rhs r))) m /\
  Forall distinct_reactants m /\ peroxy_clean (first_seen (reading_order m)) /\
  (forall k, k < 2 -> ~ mentions (s_ "RO2") (gas_expr k)) /\
  (forall ttime RO2 H2O T, (0 < T)%R -> coefficients m gas_expr ttime RO2 H2O T (gas_v ttime T RO2)) /\
  exists st c, extract_mechanism (ParseShow.show jac_words) = Ok (2%Z, st) /\ is_fortran_call ord st 2 None None None None c.
Proof.
  intros ord Ho m. destruct C70_hypotheses as (W & _ & D & P & M & _ & K). fold m in W, D, P, K. split; [exact W|].
  split. { repeat (apply Forall_cons; [repeat (apply Forall_cons; [vm_compute; reflexivity|]); apply Forall_nil|]). apply Forall_nil. }
  split. { repeat (apply Forall_cons; [split; [vm_compute; repeat (constructor; [cbn; intuition discriminate|]); constructor | vm_compute; intuition discriminate]|]). apply Forall_nil. }
  split; [exact D|]. split; [exact P|]. split; [exact M|]. split; [exact K|].
  exists (interp m). destruct (gen_reactants_fortran_ok None (List.length m) _ _ _ (all_known_interp m)) as (p1 & G1 & _).
  destruct (C23_fortran_equals_numba m _ ord ord None W Ho Ho) as (st' & q1 & q2 & E' & _ & Q2 & _).
  { intros r s Hr Hs. destruct Hr as [<-|[<-|[]]]; vm_compute in Hs.
    - destruct Hs as [<-|[<-|[]]]; (split; [apply (single_proper 1); [vm_compute; reflexivity | exact single_one] | intros C; exfalso; vm_compute in C; discriminate]).
    - destruct Hs as [<-|[]]; (split; [apply (single_proper 1); [vm_compute; reflexivity | exact single_one] | intros C; exfalso; vm_compute in C; discriminate]). }
  assert (E := written_extract _ _ W). rewrite E in E'. injection E' as <-.
  eexists (FCall _ _ _ _ zeros zeros). split; [exact E|]. split; [exists p1; split; [exact G1 | reflexivity]|].
  split; [reflexivity|]. split; [reflexivity|]. exists q2. split; [exact Q2 | reflexivity].
Qed.

Print Assumptions C78_same_partial. Print Assumptions C78_exact. Print Assumptions C78_partial.
