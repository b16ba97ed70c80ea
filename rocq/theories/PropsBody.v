(* C31, C32, C52, C56: the fixed part of the generated rate modules. *)
From Coq Require Import List Bool Arith Lia Ascii String ZArith QArith Reals Qreals Lra.
From Verif Require Import Base PyStr SpecRate ModelExpr ModelRateBody ModelRateRun SpecSun RateSym RateBody RateSun.
Import ListNotations.
Import Coq.Lists.List.
Open Scope nat_scope.
Open Scope list_scope.

(* ------------------------------------------------------------------ *)
(* C31 *)
(* Every photolysis rate is the MCM rate at the zenith angle of the time
   given, in both modules; the other entries stay as they were passed in. *)
Theorem C31_values : forall ttime RO2 H2O temp, (0 < temp)%R -> (0 <= H2O)%R ->
  exists en_n en_f,
    numba_run ttime RO2 H2O temp = Some en_n /\ fortran_run ttime RO2 H2O temp = Some en_f /\
    (forall k lmn, In (k, lmn) mcm_table ->
       rj en_n k = Some (photolysis lmn (cos_zenith ttime)) /\
       rj en_f k = Some (photolysis lmn (cos_zenith ttime))) /\
    (forall k, ~ In k (map fst mcm_table) ->
       rj en_n k = (if k <? 63 then Some 0%R else None) /\ rj en_f k = None).
Proof.
  intros t r w T HT HW. destruct (numba_runs t r w T HT HW) as (en & R & N & _).
  destruct (fortran_runs t r w T HT HW) as (ef & Rf & F & _). exists en, ef.
  destruct (numba_J _ _ _ _ _ R) as [A B]. destruct (fortran_J _ _ _ _ _ Rf) as [Af Bf].
  split; [exact N|]. split; [exact F|]. split; intros; split; auto.
Qed.

(* Nonnegative, at most L, zero with the sun down, positive with the sun up. *)
Theorem C31_range : forall ttime RO2 H2O temp, (0 < temp)%R -> (0 <= H2O)%R ->
  exists en_n en_f,
    numba_run ttime RO2 H2O temp = Some en_n /\ fortran_run ttime RO2 H2O temp = Some en_f /\
    forall en, In en [en_n; en_f] -> forall k l m n, In (k, (l, m, n)) mcm_table ->
      exists v, rj en k = Some v /\ (0 <= v <= Q2R l)%R /\
        ((cos_zenith ttime <= 0)%R -> v = 0%R) /\
        ((1 / 10 ^ 30 < cos_zenith ttime)%R -> (0 < v < Q2R l)%R).
Proof.
  intros t r w T HT HW. destruct (C31_values t r w T HT HW) as (en_n & en_f & N & F & V & _).
  exists en_n, en_f. split; [exact N|]. split; [exact F|]. intros en I k l m n K.
  destruct (table_positive _ _ _ _ K) as (P1 & P2 & P3).
  pose proof (photolysis_range l m n (cos_zenith t) P1 P2 P3 (cos_zenith_le_1 t)) as G.
  destruct (V _ _ K) as [V1 V2]. exists (photolysis (l, m, n) (cos_zenith t)).
  split; [|exact G]. destruct I as [<-|[<-|[]]]; assumption.
Qed.

(* The sun does rise and set: the cases of C31_range both occur. *)
Lemma latitude_bounds : (PI * (286/1000) < SpecSun.latitude < PI * (287/1000))%R.
Proof. unfold SpecSun.latitude. pose proof PI_RGT_0. lra. Qed.
Lemma PI_gt_3 : (3 < PI)%R.
Proof. pose proof PI2_3_2. lra. Qed.
Lemma cos_far y : (- (PI / 2 - 15/100) <= y <= PI / 2 - 15/100)%R -> (1/10 < cos y)%R.
Proof.
  intros B. pose proof PI_gt_3 as P. pose proof PI_4 as P4.
  assert (S : (1/10 < cos (PI / 2 - 15/100))%R).
  { rewrite cos_shift. destruct (SIN (15/100)) as [S _]; [lra|lra|]. eapply Rlt_le_trans; [|exact S].
    unfold sin_lb, sin_approx, sin_term. simpl. lra. }
  assert (G : forall z, (0 <= z <= PI / 2 - 15/100)%R -> (1/10 < cos z)%R).
  { intros z Z. eapply Rlt_le_trans; [exact S|]. destruct (Req_dec z (PI / 2 - 15/100)) as [->|N]; [lra|].
    left. apply cos_decreasing_1; lra. }
  destruct (Rle_dec 0 y); [apply G; lra|]. rewrite <- cos_neg. apply G; lra.
Qed.
Theorem C31_day_and_night :
  (exists t, (1 / 10 ^ 30 < cos_zenith t)%R) /\ (exists t, (cos_zenith t < 0)%R).
Proof.
  pose proof latitude_bounds as LB. pose proof PI_gt_3 as P. pose proof PI_4 as P4.
  pose proof declination_small as D. apply Rabs_def2 in D || apply Rabs_le_inv in D || idtac.
  assert (D' : (- (489/1000) <= declination <= 489/1000)%R).
  { pose proof declination_small as X. unfold Rabs in X. destruct (Rcase_abs declination); lra. }
  assert (T : forall a, exists t, cos (hour_angle t) = cos a).
  { intros a. exists (3600 * ((a - equation_of_time) / PI + 1 + 13/100/180) * 12 - 149 * 86400)%R.
    unfold hour_angle, hour_of_day. rewrite <- (cos_hour_angle _ 0). f_equal. field. exact PI_neq0. }
  split.
  - destruct (T 0%R) as [t H]. exists t. unfold cos_zenith. rewrite H, cos_0, Rmult_1_r.
    assert (E : (1/10 < cos (SpecSun.latitude - declination))%R) by (apply cos_far; lra).
    rewrite cos_minus in E. assert (1 / 10 ^ 30 < 1/10)%R by (simpl; lra). lra.
  - destruct (T PI) as [t H]. exists t. unfold cos_zenith. rewrite H, cos_PI.
    assert (E : (1/10 < cos (SpecSun.latitude + declination))%R) by (apply cos_far; lra).
    rewrite cos_plus in E. lra.
Qed.

(* ------------------------------------------------------------------ *)
(* C32 *)
Definition fractional_day (t : R) : R := (149 + t / 86400)%R.
Theorem C32_hour : forall ttime RO2 H2O temp, (0 < temp)%R -> (0 <= H2O)%R -> (0 <= fractional_day ttime)%R ->
  exists en_n en_f h,
    numba_run ttime RO2 H2O temp = Some en_n /\ fortran_run ttime RO2 H2O temp = Some en_f /\
    rvar en_n (s_ "currentFracHour") = Some h /\ rvar en_f (s_ "currentfrachour") = Some h /\
    h = hour_of_day ttime /\ (0 <= h < 24)%R.
Proof.
  intros t r w T HT HW D. destruct (numba_runs t r w T HT HW) as (en & R & N & _).
  destruct (fortran_runs t r w T HT HW) as (ef & Rf & F & _). exists en, ef, (hour_of_day t).
  pose proof (numba_hour _ _ _ _ _ R) as A. pose proof (fortran_hour _ _ _ _ _ Rf) as B.
  unfold fractional_day in D. unfold rint in A. destruct (Rle_dec 0 (149 + t / 86400)); [|contradiction].
  unfold rfloor in B.
  assert (E : ((149 + t / 86400 - IZR (Int_part (149 + t / 86400))) * 24)%R = hour_of_day t)
    by (unfold hour_of_day, frac_part; ring).
  rewrite E in A, B. repeat split; auto; unfold hour_of_day; destruct (base_fp (149 + t / 86400)); lra.
Qed.
(* Before day 0 the two hours differ (by a whole day), except at midnight. *)
Theorem C32_exactly_when : forall ttime RO2 H2O temp, (0 < temp)%R -> (0 <= H2O)%R ->
  exists en_n en_f,
    numba_run ttime RO2 H2O temp = Some en_n /\ fortran_run ttime RO2 H2O temp = Some en_f /\
    (rvar en_n (s_ "currentFracHour") = rvar en_f (s_ "currentfrachour") <->
     (0 <= fractional_day ttime)%R \/ exists z, fractional_day ttime = IZR z).
Proof.
  intros t r w T HT HW. destruct (numba_runs t r w T HT HW) as (en & R & N & _).
  destruct (fortran_runs t r w T HT HW) as (ef & Rf & F & _). exists en, ef.
  split; [exact N|]. split; [exact F|].
  rewrite (numba_hour _ _ _ _ _ R), (fortran_hour _ _ _ _ _ Rf). unfold fractional_day.
  set (x := (149 + t / 86400)%R). unfold rint, rfloor. destruct (Rle_dec 0 x) as [P|P].
  - split; auto.
  - split.
    + intros H. injection H as H. right. exists (Int_part x).
      assert (E : (- IZR (Int_part (- x)) = IZR (Int_part x))%R) by lra.
      destruct (base_Int_part x) as [A1 A2]. destruct (base_Int_part (- x)) as [B1 B2]. lra.
    + intros [C|[z Z]]; [contradiction|]. rewrite Z.
      replace (Int_part (- IZR z)) with (- z)%Z by (rewrite <- opp_IZR, Int_part_IZR; reflexivity).
      rewrite Int_part_IZR, opp_IZR. f_equal. ring.
Qed.
(* The photolysis rates agree at every time, also before day 0, and repeat
   after any whole number of days. *)
Theorem C32_rates : forall ttime (days : Z) RO2 H2O temp RO2' H2O' temp',
  (0 < temp)%R -> (0 <= H2O)%R -> (0 < temp')%R -> (0 <= H2O')%R ->
  exists en_n en_f en_n' en_f',
    numba_run ttime RO2 H2O temp = Some en_n /\ fortran_run ttime RO2 H2O temp = Some en_f /\
    numba_run (ttime + IZR days * 86400) RO2' H2O' temp' = Some en_n' /\
    fortran_run (ttime + IZR days * 86400) RO2' H2O' temp' = Some en_f' /\
    forall k, In k (map fst mcm_table) ->
      rj en_n k <> None /\ rj en_f k = rj en_n k /\ rj en_n' k = rj en_n k /\ rj en_f' k = rj en_n k.
Proof.
  intros t d r w T r' w' T' HT HW HT' HW'. destruct (C31_values t r w T HT HW) as (a & b & A & B & V & _).
  destruct (C31_values (t + IZR d * 86400) r' w' T' HT' HW') as (a' & b' & A' & B' & V' & _).
  exists a, b, a', b'. repeat (split; [assumption|]). intros k K. apply in_map_iff in K. destruct K as ([k0 lmn] & <- & K).
  destruct (V _ _ K) as [V1 V2]. destruct (V' _ _ K) as [V3 V4]. cbn [fst]. rewrite cos_zenith_shift in V3, V4.
  rewrite V1, V2, V3, V4. repeat split; congruence.
Qed.

(* ------------------------------------------------------------------ *)
(* C52 *)
Definition rate_constants : list string :=
  ["M"; "N2"; "O2"; "KRONO2"; "KRO2NO"; "KRO2HO2"; "KAPHO2"; "KAPNO"; "KRO2NO3"; "KNO3AL"; "KDEC"; "KROSEC"; "KALKOXY"; "KALKPXY";
   "KROPRIM"; "KCH3O2"; "K298CH3O2"; "K14ISOM1"; "KFPAN"; "KBPAN"; "KBPPN"; "KMT01"; "KMT02"; "KMT03"; "KMT04"; "KMT05"; "KMT06";
   "KMT07"; "KMT08"; "KMT09"; "KMT10"; "KMT11"; "KMT12"; "KMT13"; "KMT14"; "KMT15"; "KMT16"; "KMT17"; "KMT18"]%string.
Theorem C52_positive : forall ttime RO2 H2O temp, (0 < temp)%R -> (0 <= H2O)%R ->
  exists en_n en_f,
    numba_run ttime RO2 H2O temp = Some en_n /\ fortran_run ttime RO2 H2O temp = Some en_f /\
    forall x, In x rate_constants ->
      (exists v, rvar en_n (s_ x) = Some v /\ (0 < v)%R) /\
      (exists v, rvar en_f (lower (s_ x)) = Some v /\ (0 < v)%R).
Proof.
  intros t r w T HT HW. destruct (numba_runs t r w T HT HW) as (en & R & N & G & _).
  destruct (fortran_runs t r w T HT HW) as (ef & Rf & F & Gf & _). exists en, ef.
  split; [exact N|]. split; [exact F|]. intros x I.
  assert (A : forallb (fun x => match dlook (s_ x) (fst numba_signs), dlook (lower (s_ x)) (fst fortran_signs) with
                                | Some d, Some d' => is_pos d && is_pos d' | _, _ => false end) rate_constants = true)
    by (vm_compute; reflexivity).
  rewrite forallb_forall in A. specialize (A _ I).
  destruct (dlook (s_ x) (fst numba_signs)) as [d|] eqn:D; [|discriminate].
  destruct (dlook (lower (s_ x)) (fst fortran_signs)) as [d'|] eqn:D'; [|discriminate].
  apply andb_prop in A. destruct A as [P P'].
  destruct (G _ _ D) as (v & V & Q). destruct (Gf _ _ D') as (v' & V' & Q').
  split; eauto using is_pos_den.
Qed.
(* The temperature must be positive: at 0 K the module divides by zero. *)
Theorem C52_needs_temperature : forall ttime RO2 H2O, numba_run ttime RO2 H2O 0 = None.
Proof.
  intros. unfold numba_run. rewrite numba_prog_eq. cbn [obind].
  assert (E : exists e1 e2 e3 e4 l, numba_prog = SDo (SSet (s_ "M") e1) :: SDo (SSet (s_ "N2") e2) :: SDo (SSet (s_ "O2") e3) ::
     SDo (SSet (s_ "KRONO2") (XMul e4 (XCall (s_ "numba_exp") (XDiv (XNum (3600 # 10)) (XVar (s_ "temp")))))) :: l).
  { vm_compute. do 5 eexists. reflexivity. }
  destruct E as (e1 & e2 & e3 & e4 & l & ->). cbn [run_stmts run_stmt run_simple].
  set (en0 := numba_start ttime RO2 H2O 0).
  destruct (xeval numba_lang en0 e1) as [v1|]; cbn [obind]; [|reflexivity].
  destruct (xeval numba_lang (set_var (s_ "M") v1 en0) e2) as [v2|]; cbn [obind]; [|reflexivity].
  match goal with |- context [xeval numba_lang ?en e3] => destruct (xeval numba_lang en e3) as [v3|]; cbn [obind]; [|reflexivity] end.
  match goal with |- context [xeval numba_lang ?en (XMul e4 _)] => set (en3 := en) end.
  cbn [xeval]. destruct (xeval numba_lang en3 e4); cbn [obind]; [|reflexivity].
  replace (rvar en3 (s_ "temp")) with (Some 0%R) by reflexivity. cbn.
  unfold rdiv. destruct (Req_EM_T 0 0); [reflexivity|lra].
Qed.

(* ------------------------------------------------------------------ *)
(* C56 *)
(* The name on the left of a statement of the text. *)
Definition left_side (l : string) : str := strip is_space (hd [] (split_char "="%char (s_ l))).
Definition numba_names : list str := map left_side numba_constants.

Definition numba_inputs : senv := map (fun x => (s_ x, Some (XVar (s_ x)))) ["ttime"; "RO2"; "H2O"; "temp"]%string.
Definition fortran_inputs : senv := map (fun x => (s_ x, Some (XVar (s_ x)))) ["ttime"; "ro2"; "h2o"; "temp"]%string.
Definition numba_closed : senv := Eval vm_compute in sym_stmts numba_lang numba_inputs numba_prog.
Definition fortran_closed : senv := Eval vm_compute in sym_stmts fortran_lang fortran_inputs fortran_prog.

Lemma inputs_agree L x (l : list string) (en : renv) e :
  slook (map (fun x => (s_ x, Some (XVar (s_ x)))) l) x = Some e ->
  rvar en x = xeval L en e /\ int_arith L && x_int e = false.
Proof.
  induction l as [|y l IH]; cbn [map]; [discriminate|]. rewrite slook_cons.
  destruct (Base.eqb x (s_ y)) eqn:E; [|exact IH]. apply Base.eqb_eq in E; subst. intros H; injection H as <-.
  split; [reflexivity | apply andb_false_r].
Qed.
Definition exceptions : list str := [s_ "NCPPN"; s_ "FPPN"].
Definition same_closed (x : str) : bool :=
  match slook numba_closed x, slook fortran_closed (lower x) with Some a, Some b => xeq a b | _, _ => false end.
Lemma all_same : forallb (fun x => inb x exceptions || same_closed x) numba_names = true.
Proof. vm_compute. reflexivity. Qed.
Lemma numba_closed_eq : sym_stmts numba_lang numba_inputs numba_prog = numba_closed.
Proof. vm_compute. reflexivity. Qed.
Lemma fortran_closed_eq : sym_stmts fortran_lang fortran_inputs fortran_prog = fortran_closed.
Proof. vm_compute. reflexivity. Qed.

Theorem C56_partial : forall ttime RO2 H2O temp, (0 < temp)%R -> (0 <= H2O)%R ->
  exists en_n en_f,
    numba_run ttime RO2 H2O temp = Some en_n /\ fortran_run ttime RO2 H2O temp = Some en_f /\
    forall x, In x numba_names -> x <> s_ "NCPPN" -> x <> s_ "FPPN" ->
      exists v, rvar en_n x = Some v /\ rvar en_f (lower x) = Some v.
Proof.
  intros t r w T HT HW. destruct (numba_runs t r w T HT HW) as (en & R & N & G & _).
  destruct (fortran_runs t r w T HT HW) as (ef & Rf & F & Gf & _). exists en, ef.
  split; [exact N|]. split; [exact F|]. intros x I N1 N2.
  pose proof all_same as A. rewrite forallb_forall in A. specialize (A _ I).
  destruct (inb x exceptions) eqn:X.
  { apply inb_In in X. destruct X as [<-|[<-|[]]]; contradiction. }
  cbn [orb] in A. unfold same_closed in A.
  destruct (slook numba_closed x) as [a|] eqn:Ea; [|discriminate].
  destruct (slook fortran_closed (lower x)) as [b|] eqn:Eb; [|discriminate].
  assert (Va : rvar en x = xeval numba_lang (numba_start t r w T) a).
  { rewrite <- numba_closed_eq in Ea. apply (fun A B => proj1 (sym_stmts_sound numba_lang (numba_start t r w T) numba_prog numba_inputs (numba_start t r w T) en A B _ _ Ea)); [|exact R].
    intros y e. apply inputs_agree. }
  assert (Vb : rvar ef (lower x) = xeval fortran_lang (fortran_start t r w T) b).
  { rewrite <- fortran_closed_eq in Eb. apply (fun A B => proj1 (sym_stmts_sound fortran_lang (fortran_start t r w T) fortran_prog fortran_inputs (fortran_start t r w T) ef A B _ _ Eb)); [|exact Rf].
    intros y e. apply inputs_agree. }
  rewrite Va, Vb, <- (xeq_sound (numba_start t r w T) (fortran_start t r w T)) with (e := a) (f := b); [|intros y Y|exact A].
  2:{ destruct Y as [<-|[<-|[<-|[<-|[]]]]]; reflexivity. }
  destruct (dlook x (fst numba_signs)) as [d|] eqn:D.
  - destruct (G _ _ D) as (v & V & _). exists v. rewrite <- Va. auto.
  - exfalso. assert (Q : forallb (fun x => match dlook x (fst numba_signs) with Some _ => true | None => false end) numba_names = true)
      by (vm_compute; reflexivity).
    rewrite forallb_forall in Q. specialize (Q _ I). rewrite D in Q. discriminate.
Qed.
Example C56_names : List.length numba_names = 145 /\ In (s_ "KMT17") numba_names /\ In (s_ "k120") numba_names.
Proof. split; [vm_compute; reflexivity|]. split; apply inb_In; vm_compute; reflexivity. Qed.

(* NCPPN is computed from fcd = 0.30 in the numba module and from FCPPN = 0.36
   in the Fortran module: they differ at every temperature (FPPN builds on it). *)
Theorem C56_refuted : forall ttime RO2 H2O temp, (0 < temp)%R -> (0 <= H2O)%R ->
  exists en_n en_f v w,
    numba_run ttime RO2 H2O temp = Some en_n /\ fortran_run ttime RO2 H2O temp = Some en_f /\
    rvar en_n (s_ "NCPPN") = Some v /\ rvar en_f (s_ "ncppn") = Some w /\ (w < v)%R.
Proof.
  intros t r w T HT HW. destruct (numba_runs t r w T HT HW) as (en & R & N & G & _).
  destruct (fortran_runs t r w T HT HW) as (ef & Rf & F & Gf & _).
  val en R "fcd"%string (30/100)%R. { fin. }
  val en R "NCPPN"%string (75/100 - 127/100 * (ln (30/100) / ln 10))%R.
  { unfold rlog10. destruct (Rlt_dec 0 (30/100)); [|lra]. cbn [obind]. apply f_equal. q2r. field.
    pose proof (ln_lt_2) as L2. assert (ln 2 < ln 10)%R by (apply ln_increasing; lra). lra. }
  val ef Rf "fcppn"%string (36/100)%R. { fin. }
  val ef Rf "ncppn"%string (75/100 - 127/100 * (ln (36/100) / ln 10))%R.
  { unfold rlog10. destruct (Rlt_dec 0 (36/100)); [|lra]. cbn [obind]. apply f_equal. q2r. field.
    pose proof (ln_lt_2) as L2. assert (ln 2 < ln 10)%R by (apply ln_increasing; lra). lra. }
  do 4 eexists. repeat (split; [eassumption|]).
  assert (ln (30/100) < ln (36/100))%R by (apply ln_increasing; lra).
  assert (0 < / ln 10)%R.
  { apply Rinv_0_lt_compat. rewrite <- ln_1. apply ln_increasing; lra. }
  unfold Rdiv. nra.
Qed.

Print Assumptions C31_values.
Print Assumptions C31_range.
Print Assumptions C31_day_and_night.
Print Assumptions C32_hour.
Print Assumptions C32_exactly_when.
Print Assumptions C32_rates.
Print Assumptions C52_positive.
Print Assumptions C52_needs_temperature.
Print Assumptions C56_partial.
Print Assumptions C56_refuted.
