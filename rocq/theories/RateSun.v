(* The photolysis part of the rate modules computes the specified rates. *)
From Coq Require Import List Bool Arith Lia Ascii String ZArith QArith Reals Qreals Lra.
From Verif Require Import Base PyStr SpecRate ModelExpr ModelRateBody ModelRateRun SpecSun RateSym RateBody.
Import ListNotations.
Import Coq.Lists.List.
Open Scope nat_scope.
Open Scope list_scope.

Ltac ev := lazy [xeval is_array func numba_lang fortran_lang numba_func fortran_func assoc Base.eqb EqB_str str_eqb
                 Ascii.eqb Bool.eqb andb s_ list_ascii_of_string some1
                 int_arith x_int refused Qden Pos.eqb negb orb].
Ltac q2r := unfold Q2R; cbn [Qnum Qden].
Lemma rdiv_ok x y : y <> 0%R -> rdiv x y = Some (x / y)%R.
Proof. unfold rdiv. destruct (Req_EM_T y 0); [contradiction|reflexivity]. Qed.
Ltac use_vals en := repeat (match goal with H : rvar en ?m = _ |- context[rvar en ?m] => rewrite H end; cbn [obind]).
Ltac val en R x v :=
  let n := eval vm_compute in (s_ x) in
  assert (rvar en n = Some v);
  [eapply eq_trans; [eapply defined_by_sound; [exact R|vm_compute; reflexivity]|];
   ev; cbn [obind]; use_vals en; cbn [obind]|].

(* ------------------------------------------------------------------ *)
(* Runs of the whole body *)
Lemma bind_look x l : bindings l x = assoc x l.
Proof. induction l as [|[k v] l IH]; cbn; [reflexivity|]. destruct (str_eqb x (s_ k)); auto. Qed.

Lemma numba_runs ttime RO2 H2O temp : (0 < temp)%R -> (0 <= H2O)%R ->
  exists en, run_stmts numba_lang numba_prog (numba_start ttime RO2 H2O temp) = Some en /\
             numba_run ttime RO2 H2O temp = Some en /\ agood numba_signs en.
Proof.
  intros T W. pose proof numba_signs_eq as S. unfold signs_of in S.
  destruct (d_stmts numba_lang numba_signs0 (upto (s_ "fc17") numba_prog)) as [s1|] eqn:S1; cbn [obind] in S; [|discriminate].
  set (en0 := numba_start ttime RO2 H2O temp).
  assert (G : agood numba_signs0 en0).
  { split; cbn [fst snd numba_signs0]; [|intros k d H; discriminate].
    intros x d H. unfold input_signs in H. cbn [map fst snd dlook] in H. unfold en0, numba_start, rvar. cbn [bindings].
    repeat match type of H with (if ?c then _ else _) = _ => destruct c; [injection H as <-; eexists; split; [reflexivity|cbn; auto]|] end.
    discriminate. }
  destruct (rhs_of (s_ "fc17") numba_prog) as [e|] eqn:E; [|exfalso; revert E; vm_compute; discriminate].
  destruct (run_signs numba_lang std_numba (s_ "fc17") e numba_prog numba_signs0 s1 numba_signs en0 E G S1 S) as (en & R & A).
  - intros en1 R1.
    assert (V : rvar en1 (s_ "temp") = Some temp).
    { rewrite (run_frame _ _ _ _ (s_ "temp") R1); [reflexivity|]. apply inb_nIn. vm_compute. reflexivity. }
    revert E. vm_compute (rhs_of (s_ "fc17") numba_prog). intros E; injection E as <-.
    vm_compute (s_ "temp") in V. ev. cbn [obind]. rewrite V. cbn [obind]. rewrite rdiv_ok by lra. cbn [obind].
    rewrite rdiv_ok by (q2r; lra). cbn [obind]. eexists; split; [reflexivity|].
    pose proof (fc17_unit temp T) as F.
    match goal with |- (0 < ?a < 1)%R => replace a with (17/100 * exp (- 51 / temp) + exp (- temp / 204))%R; [exact F|] end.
    apply (f_equal2 Rplus); [apply (f_equal2 Rmult); [q2r; lra|apply (f_equal exp); q2r; field; lra]|apply (f_equal exp); q2r; field; lra].
  - exists en. split; [exact R|]. split; [|exact A]. unfold numba_run. rewrite numba_prog_eq. exact R.
Qed.

Lemma fortran_runs ttime RO2 H2O temp : (0 < temp)%R -> (0 <= H2O)%R ->
  exists en, run_stmts fortran_lang fortran_prog (fortran_start ttime RO2 H2O temp) = Some en /\
             fortran_run ttime RO2 H2O temp = Some en /\ agood fortran_signs en.
Proof.
  intros T W. pose proof fortran_signs_eq as S. unfold signs_of in S.
  destruct (d_stmts fortran_lang fortran_signs0 (upto (s_ "fc17") fortran_prog)) as [s1|] eqn:S1; cbn [obind] in S; [|discriminate].
  set (en0 := fortran_start ttime RO2 H2O temp).
  assert (G : agood fortran_signs0 en0).
  { split; cbn [fst snd fortran_signs0]; [|intros k d H; discriminate].
    intros x d H. unfold input_signs in H. cbn [map fst snd dlook] in H. unfold en0, fortran_start, rvar. cbn [bindings].
    repeat match type of H with (if ?c then _ else _) = _ => destruct c; [injection H as <-; eexists; split; [reflexivity|cbn; auto]|] end.
    discriminate. }
  destruct (rhs_of (s_ "fc17") fortran_prog) as [e|] eqn:E; [|exfalso; revert E; vm_compute; discriminate].
  destruct (run_signs fortran_lang std_fortran (s_ "fc17") e fortran_prog fortran_signs0 s1 fortran_signs en0 E G S1 S) as (en & R & A).
  - intros en1 R1.
    assert (V : rvar en1 (s_ "temp") = Some temp).
    { rewrite (run_frame _ _ _ _ (s_ "temp") R1); [reflexivity|]. apply inb_nIn. vm_compute. reflexivity. }
    revert E. vm_compute (rhs_of (s_ "fc17") fortran_prog). intros E; injection E as <-.
    vm_compute (s_ "temp") in V. ev. cbn [obind]. rewrite V. cbn [obind]. rewrite rdiv_ok by lra. cbn [obind].
    rewrite rdiv_ok by (q2r; lra). cbn [obind]. eexists; split; [reflexivity|].
    pose proof (fc17_unit temp T) as F.
    match goal with |- (0 < ?a < 1)%R => replace a with (17/100 * exp (- 51 / temp) + exp (- temp / 204))%R; [exact F|] end.
    apply (f_equal2 Rplus); [apply (f_equal2 Rmult); [q2r; lra|apply (f_equal exp); q2r; field; lra]|apply (f_equal exp); q2r; field; lra].
  - exists en. split; [exact R|]. split; [|exact A]. unfold fortran_run. rewrite fortran_prog_eq. exact R.
Qed.

(* ------------------------------------------------------------------ *)
(* The zenith angle *)
Lemma cos_period_Z x (z : Z) : cos (x + 2 * IZR z * PI) = cos x.
Proof.
  destruct z as [|p|p].
  - f_equal. ring.
  - rewrite <- (cos_period x (Pos.to_nat p)), INR_IZR_INZ, positive_nat_Z. reflexivity.
  - rewrite <- (cos_period (x + 2 * IZR (Z.neg p) * PI) (Pos.to_nat p)), INR_IZR_INZ, positive_nat_Z.
    f_equal. change (Z.neg p) with (- Z.pos p)%Z. rewrite opp_IZR. ring.
Qed.
(* Removing any whole number of days gives the same hour angle. *)
Lemma cos_hour_angle x (z : Z) a b :
  cos (PI * ((x - IZR z) * 24 / 12 - a) + b) = cos (PI * (24 * frac_part x / 12 - a) + b).
Proof.
  unfold frac_part.
  replace (PI * ((x - IZR z) * 24 / 12 - a) + b)%R
    with ((PI * (24 * (x - IZR (Int_part x)) / 12 - a) + b) + 2 * IZR (Int_part x - z) * PI)%R
    by (rewrite minus_IZR; field).
  apply cos_period_Z.
Qed.
Lemma rint_Z x : exists z, rint x = IZR z.
Proof. unfold rint. destruct (Rle_dec 0 x); [eauto|]. exists (- Int_part (- x))%Z. rewrite opp_IZR. reflexivity. Qed.

Definition threshold : R := 1 / 10 ^ 30.
Definition sun_facts (en : renv) (cosx thr : str) (t : R) : Prop :=
  rvar en cosx = Some (cos_zenith t) /\ rvar en thr = Some threshold.

Ltac side := first [exact PI_neq0 | q2r; lra].
Ltac divs := repeat (rewrite rdiv_ok by side; cbn [obind]).
Ltac fin := first [reflexivity | apply f_equal; q2r; field].
Ltac twos := repeat match goal with |- context [(Q2R ?a * day_angle)%R] => first [replace (Q2R a) with 2%R by (q2r; field) | replace (Q2R a) with 3%R by (q2r; field)] end.
Lemma rfloor_Z x : exists z, rfloor x = IZR z.
Proof. unfold rfloor. eauto. Qed.
Lemma numba_sun ttime RO2 H2O temp en :
  run_stmts numba_lang (before_if numba_prog) (numba_start ttime RO2 H2O temp) = Some en ->
  sun_facts en (s_ "cosx") (s_ "cosx_threshold") ttime /\
  rvar en (s_ "currentFracHour") = Some ((149 + ttime / 86400 - rint (149 + ttime / 86400)) * 24)%R.
Proof.
  intros R.
  assert (I0 : rvar en (s_ "ttime") = Some ttime).
  { rewrite (run_frame _ _ _ _ (s_ "ttime") R); [reflexivity|]. apply inb_nIn. vm_compute. reflexivity. }
  vm_compute (s_ "ttime") in I0.
  val en R "pi"%string PI. { match goal with |- context [atan ?a] => replace a with 1%R by (q2r; field) end. rewrite atan_1. fin. }
  val en R "currentDayOfYear"%string 150%R. { fin. }
  val en R "latitude"%string (5151/100)%R. { fin. }
  val en R "longitude"%string (13/100)%R. { fin. }
  val en R "cosx_threshold"%string threshold. { apply f_equal. unfold threshold. q2r. lra. }
  val en R "theta"%string day_angle. { divs. unfold day_angle. fin. }
  val en R "b0"%string (6918/1000000)%R. { fin. }
  val en R "b1"%string (- (399912/1000000))%R. { fin. }
  val en R "b2"%string (70257/1000000)%R. { fin. }
  val en R "b3"%string (- (6758/1000000))%R. { fin. }
  val en R "b4"%string (907/1000000)%R. { fin. }
  val en R "b5"%string (- (2697/1000000))%R. { fin. }
  val en R "b6"%string (1480/1000000)%R. { fin. }
  val en R "c0"%string (75/1000000)%R. { fin. }
  val en R "c1"%string (1868/1000000)%R. { fin. }
  val en R "c2"%string (- (32077/1000000))%R. { fin. }
  val en R "c3"%string (- (14615/1000000))%R. { fin. }
  val en R "c4"%string (- (40849/1000000))%R. { fin. }
  val en R "dec"%string declination. { twos. unfold declination. fin. }
  val en R "eqtime"%string equation_of_time. { twos. unfold equation_of_time. fin. }
  val en R "currentFracDay"%string (149 + ttime / 86400)%R. { divs. fin. }
  val en R "currentFracHour"%string ((149 + ttime / 86400 - rint (149 + ttime / 86400)) * 24)%R. { fin. }
  val en R "lha"%string (PI * ((149 + ttime / 86400 - rint (149 + ttime / 86400)) * 24 / 12 - (1 + 13/100/180)) + equation_of_time)%R.
  { divs. fin. }
  val en R "lat"%string SpecSun.latitude. { divs. unfold SpecSun.latitude. fin. }
  val en R "sinld"%string (sin SpecSun.latitude * sin declination)%R. { fin. }
  val en R "cosld"%string (cos SpecSun.latitude * cos declination)%R. { fin. }
  val en R "cosx"%string (cos_zenith ttime).
  { apply f_equal. unfold cos_zenith, hour_angle, hour_of_day. destruct (rint_Z (149 + ttime / 86400)) as [z ->].
    rewrite cos_hour_angle. ring. }
  split; [split|]; assumption.
Qed.
Lemma fortran_sun ttime RO2 H2O temp en :
  run_stmts fortran_lang (before_if fortran_prog) (fortran_start ttime RO2 H2O temp) = Some en ->
  sun_facts en (s_ "cosx") (s_ "cosx_threshold") ttime /\
  rvar en (s_ "currentfrachour") = Some ((149 + ttime / 86400 - rfloor (149 + ttime / 86400)) * 24)%R.
Proof.
  intros R.
  assert (I0 : rvar en (s_ "ttime") = Some ttime).
  { rewrite (run_frame _ _ _ _ (s_ "ttime") R); [reflexivity|]. apply inb_nIn. vm_compute. reflexivity. }
  vm_compute (s_ "ttime") in I0.
  val en R "pi"%string PI. { match goal with |- context [atan ?a] => replace a with 1%R by (q2r; field) end. rewrite atan_1. fin. }
  val en R "currentdayofyear"%string 150%R. { fin. }
  val en R "latitude"%string (5151/100)%R. { fin. }
  val en R "longitude"%string (13/100)%R. { fin. }
  val en R "cosx_threshold"%string threshold. { apply f_equal. unfold threshold. q2r. lra. }
  val en R "theta"%string day_angle. { divs. unfold day_angle. fin. }
  val en R "b0"%string (6918/1000000)%R. { fin. }
  val en R "b1"%string (- (399912/1000000))%R. { fin. }
  val en R "b2"%string (70257/1000000)%R. { fin. }
  val en R "b3"%string (- (6758/1000000))%R. { fin. }
  val en R "b4"%string (907/1000000)%R. { fin. }
  val en R "b5"%string (- (2697/1000000))%R. { fin. }
  val en R "b6"%string (1480/1000000)%R. { fin. }
  val en R "c0"%string (75/1000000)%R. { fin. }
  val en R "c1"%string (1868/1000000)%R. { fin. }
  val en R "c2"%string (- (32077/1000000))%R. { fin. }
  val en R "c3"%string (- (14615/1000000))%R. { fin. }
  val en R "c4"%string (- (40849/1000000))%R. { fin. }
  val en R "dec"%string declination. { twos. unfold declination. fin. }
  val en R "eqtime"%string equation_of_time. { twos. unfold equation_of_time. fin. }
  val en R "currentfracday"%string (149 + ttime / 86400)%R. { divs. fin. }
  val en R "currentfrachour"%string ((149 + ttime / 86400 - rfloor (149 + ttime / 86400)) * 24)%R. { fin. }
  val en R "lha"%string (PI * ((149 + ttime / 86400 - rfloor (149 + ttime / 86400)) * 24 / 12 - (1 + 13/100/180)) + equation_of_time)%R.
  { divs. fin. }
  val en R "lat"%string SpecSun.latitude. { divs. unfold SpecSun.latitude. fin. }
  val en R "sinld"%string (sin SpecSun.latitude * sin declination)%R. { fin. }
  val en R "cosld"%string (cos SpecSun.latitude * cos declination)%R. { fin. }
  val en R "cosx"%string (cos_zenith ttime).
  { apply f_equal. unfold cos_zenith, hour_angle, hour_of_day. destruct (rfloor_Z (149 + ttime / 86400)) as [z ->].
    rewrite cos_hour_angle. ring. }
  split; [split|]; assumption.
Qed.

(* ------------------------------------------------------------------ *)
(* The list of photolysis rates *)
Section Photo.
Variable L : rlang.
Variables cx sx ef : str.
Hypothesis exp_ok : func L ef = Some (some1 exp).
Hypothesis exp_fun : is_array L ef = false.

Definition is_photo (c : stmt) (r : nat * (Q * Q * Q)) : bool :=
  let '(k, (l, m, n)) := r in
  match c with
  | SDo (SSetJ k' (XMul (XMul (XNum l') (XPow (XVar a) (XNum m'))) (XCall f (XMul (XMul (XNeg (XNum o)) (XNum n')) (XVar b))))) =>
      (k' =? k) && Qeq_bool l' l && Qeq_bool m' m && Qeq_bool n' n && Qeq_bool o 1 && eqb a cx && eqb b sx && eqb f ef &&
      (0 <? Qnum m)%Z
  | _ => false
  end.
Definition pw (c m : R) : R := if Rlt_dec 0 c then Rpower c m else 0%R.
Definition jvalue (lmn : Q * Q * Q) (c s : R) : R :=
  let '(l, m, n) := lmn in (Q2R l * pw c (Q2R m) * exp (- (Q2R n * s)))%R.

Lemma photo_run c k lmn en c0 s0 : is_photo c (k, lmn) = true -> rvar en cx = Some c0 -> rvar en sx = Some s0 -> (0 <= c0)%R ->
  run_stmt L c en = Some (set_j k (jvalue lmn c0 s0) en).
Proof.
  intros H C S P. destruct lmn as [[l m] n]. unfold is_photo in H. destruct c as [[|k' e]|]; try discriminate.
  repeat match type of H with match ?d with _ => _ end = true => destruct d; try discriminate end.
  repeat match goal with H : _ && _ = true |- _ => apply andb_prop in H; destruct H end.
  repeat match goal with H : Base.eqb _ _ = true |- _ => apply Base.eqb_eq in H end.
  match goal with H : (_ =? _) = true |- _ => apply Nat.eqb_eq in H end.
  repeat match goal with H : Qeq_bool _ _ = true |- _ => apply Qeq_bool_eq, Qeq_eqR in H end.
  match goal with H : (_ <? _)%Z = true |- _ => apply Z.ltb_lt in H; rename H into M end.
  subst.
  assert (MP : (0 < Q2R m)%R).
  { unfold Q2R. apply Rmult_lt_0_compat; [apply IZR_lt, M|]. apply Rinv_0_lt_compat, IZR_lt. reflexivity. }
  cbn [run_stmt run_simple xeval x_int andb]. rewrite ?andb_false_r. cbn [andb]. rewrite ?andb_false_r. rewrite exp_fun, exp_ok, C, S. cbn [obind].
  repeat match goal with H : Q2R _ = Q2R _ |- _ => rewrite H; clear H end.
  assert (W : rpow c0 (Q2R m) = Some (pw c0 (Q2R m))).
  { unfold rpow, pw. destruct (Rlt_dec 0 c0); [reflexivity|]. destruct (Req_EM_T c0 0); [|lra].
    destruct (Rlt_dec 0 (Q2R m)); [reflexivity|lra]. }
  rewrite W. unfold refused. cbn [obind some1 x_int]. rewrite !andb_false_r. cbn [andb obind]. rewrite ?andb_false_r. cbn [obind]. do 2 f_equal. unfold jvalue.
  replace (- Q2R 1 * Q2R n * s0)%R with (- (Q2R n * s0))%R; [reflexivity|]. replace (Q2R 1) with 1%R by (q2r; field). ring.
Qed.
Lemma photos_run p rows : Forall2 (fun c r => is_photo c r = true) p rows -> forall en c0 s0,
  rvar en cx = Some c0 -> rvar en sx = Some s0 -> (0 <= c0)%R -> NoDup (map fst rows) ->
  exists en', run_stmts L p en = Some en' /\ (forall x, rvar en' x = rvar en x) /\
    (forall k lmn, In (k, lmn) rows -> rj en' k = Some (jvalue lmn c0 s0)) /\
    (forall k, ~ In k (map fst rows) -> rj en' k = rj en k).
Proof.
  induction 1 as [|c [k lmn] p rows H F IH]; intros en c0 s0 C S P ND; cbn [run_stmts].
  - exists en. repeat split; auto. intros k lmn [].
  - rewrite (photo_run c k lmn en c0 s0 H C S P). cbn [obind]. cbn in ND. inversion ND as [|? ? N ND']; subst.
    destruct (IH (set_j k (jvalue lmn c0 s0) en) c0 s0 C S P ND') as (en' & R & V & J & O).
    exists en'. split; [exact R|]. split; [exact V|]. split.
    + intros k' lmn' [E|I]; [|apply J, I]. injection E as -> ->. rewrite (O k' N). cbn. rewrite Nat.eqb_refl. reflexivity.
    + intros k' N'. cbn in N'. rewrite O by auto. cbn. destruct (Nat.eqb_spec k' k); [subst; exfalso; auto|reflexivity].
Qed.
End Photo.

Fixpoint allb2 {A B} (f : A -> B -> bool) (a : list A) (b : list B) : bool :=
  match a, b with [], [] => true | x :: a', y :: b' => f x y && allb2 f a' b' | _, _ => false end.
Lemma allb2_Forall2 {A B} (f : A -> B -> bool) a : forall b, allb2 f a b = true -> Forall2 (fun x y => f x y = true) a b.
Proof.
  induction a; destruct b; cbn; try discriminate; auto. intros H; apply andb_prop in H; destruct H; auto.
Qed.
Definition no_setj (l : list stmt) : bool :=
  forallb (fun c => match c with SDo (SSet _ _) => true | SDo _ => false | SIfLe _ _ a b => no_j a && no_j b end) l.
Lemma run_simples_j L l : forall en en', no_j l = true -> run_simples L l en = Some en' -> rj en' = rj en.
Proof.
  induction l as [|c l IH]; cbn; intros en en' N H; [injection H as <-; reflexivity|].
  apply andb_prop in N. destruct N as [N1 N2]. destruct c as [x e|]; [|discriminate]. cbn in H.
  destruct (xeval L en e); cbn in H; [|discriminate]. apply (IH _ _ N2 H).
Qed.
Lemma run_frame_j L l : forall en en', no_setj l = true -> run_stmts L l en = Some en' -> rj en' = rj en.
Proof.
  induction l as [|c l IH]; cbn [no_setj forallb run_stmts]; intros en en' N H; [injection H as <-; reflexivity|].
  apply andb_prop in N. destruct N as [N1 N2].
  destruct (run_stmt L c en) as [en1|] eqn:E; cbn [obind] in H; [|discriminate]. rewrite (IH _ _ N2 H).
  destruct c as [[x e|]|a b th el]; try discriminate; cbn in E.
  - destruct (xeval L en e); cbn in E; [|discriminate]. injection E as <-. reflexivity.
  - apply andb_prop in N1. destruct N1 as [A B].
    destruct (xeval L en a); cbn in E; [|discriminate]. destruct (xeval L en b); cbn in E; [|discriminate].
    destruct (Rle_dec r r0); [exact (run_simples_j _ _ _ _ A E)|exact (run_simples_j _ _ _ _ B E)].
Qed.

(* if cosx <= cosx_threshold: cosx = 0, secx = 1e20 else secx = 1/cosx *)
Definition is_cut (cx thr sx : str) (c : stmt) : bool :=
  match c with
  | SIfLe (XVar a) (XVar b) [SSet x (XNum z); SSet y (XNum w)] [SSet y' (XDiv (XNum o) (XVar d))] =>
      eqb a cx && eqb b thr && eqb x cx && eqb y sx && eqb y' sx && eqb d cx && Qeq_bool z 0 && (0 <? Qnum w)%Z && Qeq_bool o 1
      && negb (eqb cx sx)
  | _ => false
  end.
Lemma threshold_pos : (0 < threshold)%R.
Proof. unfold threshold. apply Rmult_lt_0_compat; [lra|]. apply Rinv_0_lt_compat, pow_lt. lra. Qed.
Lemma cut_run L cx thr sx c en t : is_cut cx thr sx c = true -> rvar en cx = Some t -> rvar en thr = Some threshold ->
  exists en' c0 s0, run_stmt L c en = Some en' /\ rvar en' cx = Some c0 /\ rvar en' sx = Some s0 /\ rj en' = rj en /\ (0 <= c0)%R /\
    (forall lmn, jvalue lmn c0 s0 = photolysis lmn t).
Proof.
  intros H C T. unfold is_cut in H.
  repeat match type of H with match ?d with _ => _ end = true => destruct d; try discriminate end.
  repeat match goal with H : _ && _ = true |- _ => apply andb_prop in H; destruct H end.
  repeat match goal with H : Base.eqb _ _ = true |- _ => apply Base.eqb_eq in H end. subst.
  repeat match goal with H : Qeq_bool _ _ = true |- _ => apply Qeq_bool_eq, Qeq_eqR in H end.
  match goal with H : negb _ = true |- _ => apply negb_true_iff in H; rename H into NE end.
  cbn [run_stmt xeval]. rewrite C, T. cbn [obind]. pose proof threshold_pos as TP.
  destruct (Rle_dec t threshold) as [LE|GT].
  - cbn [run_simples run_simple xeval obind]. eexists _, 0%R, _. repeat split; cbn [rvar set_var].
    + rewrite NE, Base.eqb_refl. f_equal. match goal with H : Q2R _ = Q2R 0 |- _ => rewrite H end. q2r. field.
    + rewrite Base.eqb_refl. reflexivity.
    + lra.
    + intros [[l m] n]. unfold jvalue, pw, photolysis. fold threshold. destruct (Rlt_dec 0 0); [lra|].
      destruct (Rle_dec t threshold); [ring|contradiction].
  - cbn [run_simples run_simple xeval x_int]. rewrite !andb_false_r, C. cbn [obind]. rewrite rdiv_ok by lra. cbn [obind].
    eexists _, t, _. repeat split; cbn [rvar set_var].
    + rewrite NE. exact C.
    + rewrite Base.eqb_refl. reflexivity.
    + lra.
    + intros [[l m] n]. unfold jvalue, pw, photolysis. fold threshold. destruct (Rlt_dec 0 t); [|lra].
      destruct (Rle_dec t threshold); [contradiction|]. do 2 f_equal. match goal with H : Q2R _ = Q2R 1 |- _ => rewrite H end.
      replace (Q2R 1) with 1%R by (q2r; field). unfold Rdiv. ring.
Qed.

(* The part of the program from the if on: the cut, the rates, the rest. *)
Definition sun_part (L : rlang) (ef : string) (l : list stmt) : bool :=
  match l with
  | c :: l' =>
      is_cut (s_ "cosx") (s_ "cosx_threshold") (s_ "secx") c &&
      allb2 (is_photo (s_ "cosx") (s_ "secx") (s_ ef)) (firstn (List.length mcm_table) l') mcm_table &&
      no_setj (skipn (List.length mcm_table) l')
  | [] => false
  end.
Lemma sun_part_run L ef l en en' t : func L (s_ ef) = Some (some1 exp) -> is_array L (s_ ef) = false ->
  sun_part L ef l = true -> sun_facts en (s_ "cosx") (s_ "cosx_threshold") t -> run_stmts L l en = Some en' ->
  (forall k lmn, In (k, lmn) mcm_table -> rj en' k = Some (photolysis lmn (cos_zenith t))) /\
  (forall k, ~ In k (map fst mcm_table) -> rj en' k = rj en k).
Proof.
  intros F A S [C T] R. destruct l as [|c l]; [discriminate|]. cbn [sun_part] in S.
  apply andb_prop in S. destruct S as [S S3]. apply andb_prop in S. destruct S as [S1 S2].
  cbn [run_stmts] in R. destruct (cut_run L _ _ _ c en _ S1 C T) as (en1 & c0 & s0 & R1 & C1 & X1 & J1 & P1 & V1).
  rewrite R1 in R. cbn [obind] in R. rewrite <- (firstn_skipn (List.length mcm_table) l), run_stmts_app in R.
  apply allb2_Forall2 in S2.
  assert (ND : NoDup (map fst mcm_table)).
  { cbn. repeat constructor; cbn; intuition discriminate. }
  destruct (photos_run L _ _ _ F A _ _ S2 en1 c0 s0 C1 X1 P1 ND) as (en2 & R2 & V2 & J2 & O2).
  rewrite R2 in R. cbn [obind] in R. pose proof (run_frame_j _ _ _ _ S3 R) as J3. rewrite J3. split.
  - intros k lmn I. rewrite (J2 _ _ I), V1. reflexivity.
  - intros k N. rewrite (O2 _ N), J1. reflexivity.
Qed.
Lemma numba_sun_part : sun_part numba_lang "numba_exp" (from_if numba_prog) = true.
Proof. vm_compute. reflexivity. Qed.
Lemma fortran_sun_part : sun_part fortran_lang "exp" (from_if fortran_prog) = true.
Proof. vm_compute. reflexivity. Qed.

Lemma numba_J ttime RO2 H2O temp en : run_stmts numba_lang numba_prog (numba_start ttime RO2 H2O temp) = Some en ->
  (forall k lmn, In (k, lmn) mcm_table -> rj en k = Some (photolysis lmn (cos_zenith ttime))) /\
  (forall k, ~ In k (map fst mcm_table) -> rj en k = if k <? 63 then Some 0%R else None).
Proof.
  rewrite (split_if numba_prog), run_stmts_app.
  destruct (run_stmts numba_lang (before_if numba_prog) (numba_start ttime RO2 H2O temp)) as [en1|] eqn:R1; cbn [obind]; [|discriminate].
  intros R. destruct (sun_part_run numba_lang "numba_exp" _ en1 en ttime eq_refl eq_refl numba_sun_part (proj1 (numba_sun _ _ _ _ _ R1)) R) as [A B].
  split; [exact A|]. intros k N. rewrite (B k N), (run_frame_j _ _ _ _ (eq_refl : no_setj (before_if numba_prog) = true) R1). reflexivity.
Qed.
Lemma fortran_J ttime RO2 H2O temp en : run_stmts fortran_lang fortran_prog (fortran_start ttime RO2 H2O temp) = Some en ->
  (forall k lmn, In (k, lmn) mcm_table -> rj en k = Some (photolysis lmn (cos_zenith ttime))) /\
  (forall k, ~ In k (map fst mcm_table) -> rj en k = None).
Proof.
  rewrite (split_if fortran_prog), run_stmts_app.
  destruct (run_stmts fortran_lang (before_if fortran_prog) (fortran_start ttime RO2 H2O temp)) as [en1|] eqn:R1; cbn [obind]; [|discriminate].
  intros R. destruct (sun_part_run fortran_lang "exp" _ en1 en ttime eq_refl eq_refl fortran_sun_part (proj1 (fortran_sun _ _ _ _ _ R1)) R) as [A B].
  split; [exact A|]. intros k N. rewrite (B k N), (run_frame_j _ _ _ _ (eq_refl : no_setj (before_if fortran_prog) = true) R1). reflexivity.
Qed.

Lemma numba_hour ttime RO2 H2O temp en : run_stmts numba_lang numba_prog (numba_start ttime RO2 H2O temp) = Some en ->
  rvar en (s_ "currentFracHour") = Some ((149 + ttime / 86400 - rint (149 + ttime / 86400)) * 24)%R.
Proof.
  rewrite (split_if numba_prog), run_stmts_app.
  destruct (run_stmts numba_lang (before_if numba_prog) (numba_start ttime RO2 H2O temp)) as [en1|] eqn:R1; cbn [obind]; [|discriminate].
  intros R. rewrite (run_frame _ _ _ _ (s_ "currentFracHour") R); [apply (numba_sun _ _ _ _ _ R1)|]. apply inb_nIn. vm_compute. reflexivity.
Qed.
Lemma fortran_hour ttime RO2 H2O temp en : run_stmts fortran_lang fortran_prog (fortran_start ttime RO2 H2O temp) = Some en ->
  rvar en (s_ "currentfrachour") = Some ((149 + ttime / 86400 - rfloor (149 + ttime / 86400)) * 24)%R.
Proof.
  rewrite (split_if fortran_prog), run_stmts_app.
  destruct (run_stmts fortran_lang (before_if fortran_prog) (fortran_start ttime RO2 H2O temp)) as [en1|] eqn:R1; cbn [obind]; [|discriminate].
  intros R. rewrite (run_frame _ _ _ _ (s_ "currentfrachour") R); [apply (fortran_sun _ _ _ _ _ R1)|]. apply inb_nIn. vm_compute. reflexivity.
Qed.

(* ------------------------------------------------------------------ *)
(* The specified rates *)
Lemma cos_zenith_le_1 t : (cos_zenith t <= 1)%R.
Proof.
  unfold cos_zenith. set (a := SpecSun.latitude). set (b := declination). set (c := cos (hour_angle t)).
  assert (C : (-1 <= c <= 1)%R) by apply COS_bound.
  assert (E : (cos (a - b) = cos a * cos b + sin a * sin b)%R) by apply cos_minus.
  assert (F : (cos (a + b) = cos a * cos b - sin a * sin b)%R) by apply cos_plus.
  pose proof (COS_bound (a - b)). pose proof (COS_bound (a + b)).
  nra.
Qed.
Lemma Rpower_le_1 c m : (0 < c <= 1)%R -> (0 < m)%R -> (0 < Rpower c m <= 1)%R.
Proof.
  intros C M. split; [apply exp_pos|]. unfold Rpower. rewrite <- exp_0.
  assert (ln c <= 0)%R. { destruct (Req_dec c 1) as [->|N]; [rewrite ln_1; lra|]. rewrite <- ln_1. left. apply ln_increasing; lra. }
  assert (m * ln c <= 0)%R by nra. destruct (Req_dec (m * ln c) 0) as [->|N]; [lra|]. left. apply exp_increasing. lra.
Qed.
Lemma photolysis_range l m n c : (0 < Q2R l)%R -> (0 < Q2R m)%R -> (0 < Q2R n)%R -> (c <= 1)%R ->
  (0 <= photolysis (l, m, n) c <= Q2R l)%R /\ ((c <= 0)%R -> photolysis (l, m, n) c = 0%R) /\
  ((threshold < c)%R -> (0 < photolysis (l, m, n) c < Q2R l)%R).
Proof.
  intros Pl Pm Pn C. pose proof threshold_pos as TP. unfold photolysis. fold threshold. destruct (Rle_dec c threshold).
  - split; [lra|]. split; [reflexivity|lra].
  - assert (C0 : (0 < c <= 1)%R) by lra. pose proof (Rpower_le_1 c (Q2R m) C0 Pm) as W.
    assert (E : (0 < exp (- (Q2R n / c)) < 1)%R).
    { split; [apply exp_pos|]. rewrite <- exp_0. apply exp_increasing.
      assert (0 < Q2R n / c)%R by (apply Rmult_lt_0_compat; [lra|apply Rinv_0_lt_compat; lra]). lra. }
    set (w := Rpower c (Q2R m)) in *. set (x := exp (- (Q2R n / c))) in *.
    assert (0 < w * x)%R by (apply Rmult_lt_0_compat; lra).
    assert (w * x < 1)%R by nra.
    assert (0 < Q2R l * w * x < Q2R l)%R.
    { split; [rewrite Rmult_assoc; apply Rmult_lt_0_compat; lra|]. rewrite Rmult_assoc. nra. }
    split; [lra|]. split; [lra|]. intros _. assumption.
Qed.
Lemma table_positive k l m n : In (k, (l, m, n)) mcm_table -> (0 < Q2R l)%R /\ (0 < Q2R m)%R /\ (0 < Q2R n)%R.
Proof.
  intros I. assert (H : forallb (fun r : nat * (Q * Q * Q) => let '(_, (l, m, n)) := r in (0 <? Qnum l)%Z && (0 <? Qnum m)%Z && (0 <? Qnum n)%Z) mcm_table = true)
    by (vm_compute; reflexivity).
  rewrite forallb_forall in H. specialize (H _ I). cbn beta iota in H.
  apply andb_prop in H; destruct H as [H H3]. apply andb_prop in H; destruct H as [H1 H2].
  apply Z.ltb_lt in H1, H2, H3.
  assert (G : forall q, (0 < Qnum q)%Z -> (0 < Q2R q)%R).
  { intros q Hq. unfold Q2R. apply Rmult_lt_0_compat; [apply IZR_lt, Hq|]. apply Rinv_0_lt_compat, IZR_lt. reflexivity. }
  auto.
Qed.
Lemma cos_zenith_shift t (z : Z) : cos_zenith (t + IZR z * 86400) = cos_zenith t.
Proof.
  unfold cos_zenith, hour_angle, hour_of_day.
  rewrite <- (cos_hour_angle (149 + t / 86400) 0), <- (cos_hour_angle (149 + (t + IZR z * 86400) / 86400) z).
  do 3 f_equal. field_simplify_eq. ring.
Qed.
Lemma eqtime_small : (Rabs equation_of_time <= 1/10)%R.
Proof.
  unfold equation_of_time. pose proof (COS_bound day_angle). pose proof (SIN_bound day_angle).
  pose proof (COS_bound (2 * day_angle)). pose proof (SIN_bound (2 * day_angle)). apply Rabs_le. lra.
Qed.
Lemma declination_small : (Rabs declination <= 489/1000)%R.
Proof.
  unfold declination. pose proof (COS_bound day_angle). pose proof (SIN_bound day_angle).
  pose proof (COS_bound (2 * day_angle)). pose proof (SIN_bound (2 * day_angle)).
  pose proof (COS_bound (3 * day_angle)). pose proof (SIN_bound (3 * day_angle)). apply Rabs_le. lra.
Qed.
