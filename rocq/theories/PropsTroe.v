(* C57: the values of the rate constants. *)
From Coq Require Import List Bool Arith Lia Ascii String ZArith QArith Reals Qreals Lra.
From Verif Require Import Base PyStr SpecRate ModelExpr ModelRateBody ModelRateRun SpecSun SpecTroe RateSym RateBody RateSun PropsBody.
Import ListNotations.
Import Coq.Lists.List.
Open Scope nat_scope.
Open Scope list_scope.

Lemma rpow_pos x y : (0 < x)%R -> rpow x y = Some (Rpower x y).
Proof. intros. unfold rpow. destruct (Rlt_dec 0 x); [reflexivity|contradiction]. Qed.
Lemma rpow_2 x q : Qeq_bool q 2 = true -> rpow x (Q2R q) = Some (x ^ 2)%R.
Proof.
  intros H. apply Qeq_bool_eq, Qeq_eqR in H. rewrite H. replace (Q2R 2) with (INR 2) by (q2r; cbn; field).
  unfold rpow. destruct (Rlt_dec 0 x); [rewrite Rpower_pow; auto|]. destruct (Req_EM_T x 0) as [->|].
  { destruct (Rlt_dec 0 (INR 2)) as [|N]; [f_equal; ring|]. exfalso; apply N. cbn; lra. }
  rewrite INR_IZR_INZ, Int_part_IZR. destruct (Req_EM_T _ _) as [|N]; [reflexivity|]. exfalso; apply N. reflexivity.
Qed.
Lemma log10_neg x : (0 < x < 1)%R -> (log10 x < 0)%R.
Proof.
  intros X. unfold log10. assert (ln x < 0)%R by (rewrite <- ln_1; apply ln_increasing; lra).
  assert (0 < / ln 10)%R by (apply Rinv_0_lt_compat; rewrite <- ln_1; apply ln_increasing; lra).
  unfold Rdiv. nra.
Qed.

Section Troe.
Variable L : rlang.
Variable lg : str.
Hypothesis lg_ok : func L lg = Some rlog10.
Hypothesis lg_fun : is_array L lg = false.
Hypothesis lg_real : eqb lg (s_ "floor") = false.
Variable en : renv.

Definition is_ratio (a b : str) (e : xexp) : bool := match e with XDiv (XVar x) (XVar y) => eqb x a && eqb y b | _ => false end.
Definition is_nc (fc : str) (e : xexp) : bool :=
  match e with
  | XSub (XNum p) (XMul (XNum q) (XCall f (XVar x))) => Qeq_bool p 0.75 && Qeq_bool q 1.27 && eqb f lg && eqb x fc
  | _ => false
  end.
Definition is_broad (fc kr nc : str) (e : xexp) : bool :=
  match e with
  | XPow (XNum t) (XDiv (XCall f (XVar x)) (XAdd (XNum o) (XPow (XDiv (XCall g (XVar y)) (XVar z)) (XNum w)))) =>
      Qeq_bool t 10 && eqb f lg && eqb x fc && Qeq_bool o 1 && eqb g lg && eqb y kr && eqb z nc && Qeq_bool w 2
  | _ => false
  end.
Definition is_comb (k0 ki f : str) (e : xexp) : bool :=
  match e with
  | XDiv (XMul (XMul (XVar a) (XVar b)) (XVar c)) (XAdd (XVar a') (XVar b')) =>
      eqb a k0 && eqb b ki && eqb c f && eqb a' k0 && eqb b' ki
  | _ => false
  end.
Ltac reals := unfold refused; cbn [x_int]; rewrite ?lg_real; rewrite ?andb_false_r; cbn [orb andb]; rewrite ?andb_false_r; cbn [orb andb]; rewrite ?andb_false_r.
Ltac parts H :=
  repeat match type of H with match ?d with _ => _ end = true => destruct d; try discriminate end;
  repeat match goal with H : _ && _ = true |- _ => apply andb_prop in H; destruct H end;
  repeat match goal with H : Base.eqb _ _ = true |- _ => apply Base.eqb_eq in H end; subst;
  repeat match goal with H : Qeq_bool _ _ = true |- _ => apply Qeq_bool_eq, Qeq_eqR in H end.

Lemma troe_value (k0 ki fc kr nc f : str) e1 e2 e3 e4 (v0 vi vc : R) (K : str) :
  is_ratio k0 ki e1 = true -> is_nc fc e2 = true -> is_broad fc kr nc e3 = true -> is_comb k0 ki f e4 = true ->
  rvar en k0 = Some v0 -> rvar en ki = Some vi -> rvar en fc = Some vc ->
  rvar en kr = xeval L en e1 -> rvar en nc = xeval L en e2 -> rvar en f = xeval L en e3 -> rvar en K = xeval L en e4 ->
  (0 < v0)%R -> (0 < vi)%R -> (0 < vc < 1)%R ->
  rvar en K = Some (troe v0 vi vc).
Proof.
  intros H1 H2 H3 H4 V0 Vi Vc Vr Vn Vf VK P0 Pi Pc.
  assert (Rr : rvar en kr = Some (v0 / vi)%R).
  { rewrite Vr. unfold is_ratio in H1. parts H1. cbn [xeval]; reals; rewrite V0, Vi. cbn [obind]. apply rdiv_ok. lra. }
  assert (LG : forall x, (0 < x)%R -> rlog10 x = Some (log10 x)).
  { intros x X. unfold rlog10. destruct (Rlt_dec 0 x); [reflexivity|contradiction]. }
  assert (Rn : rvar en nc = Some (0.75 - 1.27 * log10 vc)%R).
  { rewrite Vn. unfold is_nc in H2. parts H2. cbn [xeval]; reals; rewrite lg_fun, lg_ok, Vc. cbn [obind]. rewrite LG by lra. cbn [obind].
    repeat match goal with H : Q2R _ = Q2R _ |- _ => rewrite H; clear H end. reflexivity. }
  pose proof (log10_neg vc Pc) as NG.
  assert (Rf : rvar en f = Some (Rpower 10 (log10 vc / (1 + (log10 (v0 / vi) / (0.75 - 1.27 * log10 vc)) ^ 2)))%R).
  { rewrite Vf. unfold is_broad in H3. 
    repeat match type of H3 with match ?d with _ => _ end = true => destruct d; try discriminate end;
    repeat match goal with H : _ && _ = true |- _ => apply andb_prop in H; destruct H end;
    repeat match goal with H : Base.eqb _ _ = true |- _ => apply Base.eqb_eq in H end; subst.
    cbn [xeval]; reals; rewrite lg_fun, lg_ok, Vc, Rr, Rn. cbn [obind].
    assert (0 < v0 / vi)%R by (apply Rmult_lt_0_compat; [lra|apply Rinv_0_lt_compat; lra]).
    rewrite !LG by lra. cbn [obind]. rewrite rdiv_ok by lra. cbn [obind]. rewrite rpow_2 by assumption. cbn [obind].
    set (z := (log10 (v0 / vi) / (0.75 - 1.27 * log10 vc))%R). pose proof (pow2_ge_0 z).
    match goal with H : Qeq_bool ?o 1 = true |- _ => apply Qeq_bool_eq, Qeq_eqR in H; rewrite H end.
    match goal with H : Qeq_bool ?o 10 = true |- _ => apply Qeq_bool_eq, Qeq_eqR in H; rewrite H end.
    replace (Q2R 1) with 1%R by (q2r; field). replace (Q2R 10) with 10%R by (q2r; field).
    rewrite rdiv_ok by lra. cbn [obind]. apply rpow_pos. lra. }
  rewrite VK. unfold is_comb in H4. parts H4. cbn [xeval]; reals; rewrite V0, Vi, Rf. cbn [obind]. rewrite rdiv_ok by lra.
  f_equal. unfold troe, Rdiv. ring.
Qed.
End Troe.
Lemma troe_range v0 vi vc : (0 < v0)%R -> (0 < vi)%R -> (0 < vc < 1)%R ->
  (0 < troe v0 vi vc < v0)%R /\ (troe v0 vi vc < vi)%R.
Proof.
  intros P0 Pi Pc. unfold troe. pose proof (log10_neg vc Pc) as NG.
  set (z := (log10 (v0 / vi) / (0.75 - 1.27 * log10 vc))%R). pose proof (pow2_ge_0 z) as Z.
  assert (F : (0 < Rpower 10 (log10 vc / (1 + z ^ 2)) < 1)%R).
  { split; [apply exp_pos|]. unfold Rpower. apply Rlt_le_trans with (exp 0); [|rewrite exp_0; lra]. apply exp_increasing.
    assert (L10 : (0 < ln 10)%R) by (rewrite <- ln_1; apply ln_increasing; lra).
    assert (I : (0 < / (1 + z ^ 2))%R) by (apply Rinv_0_lt_compat; lra).
    set (i := (/ (1 + z ^ 2))%R) in *. unfold Rdiv. fold i. clearbody i. clear - NG L10 I.
    assert (X : (log10 vc * i < 0)%R) by (rewrite <- (Rmult_0_l i); apply Rmult_lt_compat_r; assumption).
    rewrite <- (Rmult_0_l (ln 10)). apply Rmult_lt_compat_r; assumption. }
  set (g := Rpower 10 (log10 vc / (1 + z ^ 2))) in *.
  set (h := (v0 * vi / (v0 + vi))%R).
  assert (I : (0 < / (v0 + vi))%R) by (apply Rinv_0_lt_compat; lra).
  assert (H0 : (0 < h)%R) by (unfold h, Rdiv; apply Rmult_lt_0_compat; [apply Rmult_lt_0_compat; lra|exact I]).
  assert (E : (h * (v0 + vi) = v0 * vi)%R) by (unfold h; field; lra).
  assert (h < v0)%R by nra. assert (h < vi)%R by nra.
  split; [split|]; [apply Rmult_lt_0_compat; lra|nra|nra].
Qed.

(* ------------------------------------------------------------------ *)
(* Values of the constants in the numba module *)
Ltac q2r ::= repeat match goal with |- context [Q2R ?q] => let q' := eval vm_compute in q in progress change (Q2R q) with (IZR (Qnum q') * / IZR (QDen q'))%R end; cbn [Qnum Qden].
Ltac tidy T :=
  rewrite ?rpow_pos by (unfold Rdiv; apply Rmult_lt_0_compat; [assumption|q2r; lra]); cbn [obind];
  repeat match goal with
  | |- context [(T / Q2R ?q)%R] => lazymatch q with 300%Q => fail | _ => replace (T / Q2R q)%R with (T / 300)%R by (q2r; field) end
  end.
Ltac pows :=
  repeat match goal with
  | |- Some ?a = Some ?b => apply f_equal
  | |- ?l = ?r =>
      match l with context [Rpower ?b ?x] => match r with context [Rpower b ?y] =>
        tryif constr_eq x y then fail else replace x with y by (q2r; lra) end end
  | |- ?l = ?r =>
      match l with context [exp ?x] => match r with context [exp ?y] =>
        tryif constr_eq x y then fail else replace x with y by (q2r; field; lra) end end
  end.
Ltac form T :=
  rewrite ?rdiv_ok by (q2r; lra); cbn [obind]; tidy T;
  unfold oxygen, per_air, power, arrh, const, air; pows; q2r; try field; try lra.
Ltac posi :=
  lazymatch goal with
  | |- (_ /\ _) => first [unfold const; q2r; lra | match goal with |- (0 < _ /\ _)%R => idtac end]
  | _ => unfold per_air, power, arrh, const, air, Rpower;
         repeat first [apply exp_pos | lazymatch goal with |- (0 < Q2R _)%R => q2r; lra | |- (0 < _ * _)%R => apply Rmult_lt_0_compat end]
  end.
Ltac name x := eval vm_compute in (s_ x).
Ltac rule en R x :=
  let n := name x in
  let e := eval vm_compute in (defined_by numba_lang n numba_prog) in
  match e with Some ?d => constr:(defined_by_sound numba_lang numba_prog _ en n d R (ltac:(vm_compute; reflexivity))) end.

Ltac block en R k0 ki fc kr nc f K :=
  let k0 := name k0 in let ki := name ki in let fc := name fc in let krn := name kr in let ncn := name nc in let fn := name f in
  let Kn := name K in
  let h1 := rule en R kr in let h2 := rule en R nc in let h3 := rule en R f in let h4 := rule en R K in
  match goal with
  | V0 : rvar en k0 = Some ?v0, Vi : rvar en ki = Some ?vi, Vc : rvar en fc = Some ?vc |- _ =>
      assert (rvar en Kn = Some (troe v0 vi vc));
      [refine (troe_value numba_lang (s_ "numba_log10") eq_refl eq_refl eq_refl en k0 ki fc krn ncn fn _ _ _ _ v0 vi vc Kn
                 _ _ _ _ V0 Vi Vc h1 h2 h3 h4 _ _ _); [vm_compute; reflexivity..|idtac|idtac|idtac]; try posi|]
  end.

Lemma fc17_ok T : (0 < T)%R -> (0 < Q2R 0.17 * exp (- 51 / T) + exp (- T / 204) < 1)%R.
Proof. intros H. replace (Q2R 0.17) with (17/100)%R by (q2r; lra). apply fc17_unit, H. Qed.
Lemma troe_values ttime RO2 H2O T en : (0 < T)%R ->
  run_stmts numba_lang numba_prog (numba_start ttime RO2 H2O T) = Some en ->
  forall x k0 ki fc, In (x, k0, ki, fc) troe_table ->
    rvar en (s_ x) = Some (troe (k0 T) (ki T) (fc T)) /\ (0 < k0 T)%R /\ (0 < ki T)%R /\ (0 < fc T < 1)%R.
Proof.
  intros HT R.
  assert (IT : rvar en (s_ "temp") = Some T).
  { rewrite (run_frame _ _ _ _ (s_ "temp") R); [reflexivity|]. apply inb_nIn. vm_compute. reflexivity. }
  vm_compute (s_ "temp") in IT.
  val en R "M"%string air. { reflexivity. }
  val en R "kc0"%string ((per_air (power 3.28e-28 (-6.87))) T)%R. { form T. }
  val en R "kci"%string ((power 1.125e-11 (-1.105)) T)%R. { form T. }
  val en R "fcc"%string ((const 0.30) T)%R. { form T. }
  block en R "kc0"%string "kci"%string "fcc"%string "krc"%string "nc"%string "fc"%string "KFPAN"%string.
  val en R "kd0"%string ((per_air (arrh 1.10e-5 (-10100))) T)%R. { form T. }
  val en R "kdi"%string ((arrh 1.90e17 (-14100)) T)%R. { form T. }
  val en R "fcd"%string ((const 0.30) T)%R. { form T. }
  block en R "kd0"%string "kdi"%string "fcd"%string "krd"%string "ncd"%string "fd"%string "KBPAN"%string.
  val en R "k10"%string ((per_air (power 1.00e-31 (-1.6))) T)%R. { form T. }
  val en R "k1i"%string ((power 5.0e-11 0.3) T)%R. { form T. }
  val en R "fc1"%string ((const 0.85) T)%R. { form T. }
  block en R "k10"%string "k1i"%string "fc1"%string "kr1"%string "nc1"%string "f1"%string "KMT01"%string.
  val en R "k20"%string ((per_air (power 1.30e-31 (-1.5))) T)%R. { form T. }
  val en R "k2i"%string ((power 2.30e-11 0.24) T)%R. { form T. }
  val en R "fc2"%string ((const 0.6) T)%R. { form T. }
  block en R "k20"%string "k2i"%string "fc2"%string "kr2"%string "nc2"%string "f2"%string "KMT02"%string.
  val en R "k30"%string ((per_air (power 3.60e-30 (-4.1))) T)%R. { form T. }
  val en R "k3i"%string ((power 1.90e-12 0.2) T)%R. { form T. }
  val en R "fc3"%string ((const 0.35) T)%R. { form T. }
  block en R "k30"%string "k3i"%string "fc3"%string "kr3"%string "nc3"%string "f3"%string "KMT03"%string.
  val en R "k40"%string ((per_air (fun T => power 1.30e-3 (-3.5) T * exp (- 11000 / T))) T)%R. { form T. }
  val en R "k4i"%string ((fun T => power 9.70e14 0.1 T * exp (- 11080 / T)) T)%R. { form T. }
  val en R "fc4"%string ((const 0.35) T)%R. { form T. }
  block en R "k40"%string "k4i"%string "fc4"%string "kr4"%string "nc4"%string "f4"%string "KMT04"%string.
  val en R "k70"%string ((per_air (power 7.40e-31 (-2.4))) T)%R. { form T. }
  val en R "k7i"%string ((power 3.30e-11 (-0.3)) T)%R. { form T. }
  val en R "fc7"%string ((const 0.81) T)%R. { form T. }
  block en R "k70"%string "k7i"%string "fc7"%string "kr7"%string "nc7"%string "f7"%string "KMT07"%string.
  val en R "k80"%string ((per_air (power 3.2e-30 (-4.5))) T)%R. { form T. }
  val en R "k8i"%string ((const 3.0e-11) T)%R. { form T. }
  val en R "fc8"%string ((const 0.41) T)%R. { form T. }
  block en R "k80"%string "k8i"%string "fc8"%string "kr8"%string "nc8"%string "f8"%string "KMT08"%string.
  val en R "k90"%string ((per_air (power 1.4e-31 (-3.1))) T)%R. { form T. }
  val en R "k9i"%string ((const 4.0e-12) T)%R. { form T. }
  val en R "fc9"%string ((const 0.4) T)%R. { form T. }
  block en R "k90"%string "k9i"%string "fc9"%string "kr9"%string "nc9"%string "f9"%string "KMT09"%string.
  val en R "k100"%string ((per_air (arrh 4.10e-5 (-10650))) T)%R. { form T. }
  val en R "k10i"%string ((arrh 6.0e15 (-11170)) T)%R. { form T. }
  val en R "fc10"%string ((const 0.4) T)%R. { form T. }
  block en R "k100"%string "k10i"%string "fc10"%string "kr10"%string "nc10"%string "f10"%string "KMT10"%string.
  val en R "k120"%string ((per_air (power 2.5e-31 (-2.6))) T)%R. { form T. }
  val en R "k12i"%string ((const 2.0e-12) T)%R. { form T. }
  val en R "fc12"%string ((const 0.53) T)%R. { form T. }
  block en R "k120"%string "k12i"%string "fc12"%string "kr12"%string "nc12"%string "f12"%string "KMT12"%string.
  val en R "k130"%string ((per_air (power 2.50e-30 (-5.5))) T)%R. { form T. }
  val en R "k13i"%string ((const 1.80e-11) T)%R. { form T. }
  val en R "fc13"%string ((const 0.36) T)%R. { form T. }
  block en R "k130"%string "k13i"%string "fc13"%string "kr13"%string "nc13"%string "f13"%string "KMT13"%string.
  val en R "k140"%string ((per_air (arrh 9.00e-5 (-9690))) T)%R. { form T. }
  val en R "k14i"%string ((arrh 1.10e16 (-10560)) T)%R. { form T. }
  val en R "fc14"%string ((const 0.36) T)%R. { form T. }
  block en R "k140"%string "k14i"%string "fc14"%string "kr14"%string "nc14"%string "f14"%string "KMT14"%string.
  val en R "k150"%string ((per_air (power 8.60e-29 (-3.1))) T)%R. { form T. }
  val en R "k15i"%string ((power 9.00e-12 (-0.85)) T)%R. { form T. }
  val en R "fc15"%string ((const 0.48) T)%R. { form T. }
  block en R "k150"%string "k15i"%string "fc15"%string "kr15"%string "nc15"%string "f15"%string "KMT15"%string.
  val en R "k160"%string ((per_air (power 8.00e-27 (-3.5))) T)%R. { form T. }
  val en R "k16i"%string ((power 3.00e-11 (-1.0)) T)%R. { form T. }
  val en R "fc16"%string ((const 0.5) T)%R. { form T. }
  block en R "k160"%string "k16i"%string "fc16"%string "kr16"%string "nc16"%string "f16"%string "KMT16"%string.
  val en R "k170"%string ((per_air (power 5.00e-30 (-1.5))) T)%R. { form T. }
  val en R "k17i"%string ((const 1.00e-12) T)%R. { form T. }
  val en R "fc17"%string ((fun T => Q2R 0.17 * exp (- 51 / T) + exp (- T / 204)) T)%R. { form T. }
  block en R "k170"%string "k17i"%string "fc17"%string "kr17"%string "nc17"%string "f17"%string "KMT17"%string.
  { apply fc17_ok, HT. }
  intros x k0 ki fc I.
  repeat (destruct I as [I|I]; [injection I as <- <- <- <-; split; [assumption|]; split; [posi|]; split; [posi|]; first [apply fc17_ok, HT | posi]|]).
  destruct I.
Qed.

Lemma plain_values ttime RO2 H2O T en : (0 < T)%R -> (0 <= H2O)%R ->
  run_stmts numba_lang numba_prog (numba_start ttime RO2 H2O T) = Some en ->
  forall x f, In (x, f) plain_table -> rvar en (s_ x) = Some (f T H2O).
Proof.
  intros HT HW R.
  assert (IT : rvar en (s_ "temp") = Some T).
  { rewrite (run_frame _ _ _ _ (s_ "temp") R); [reflexivity|]. apply inb_nIn. vm_compute. reflexivity. }
  assert (IW : rvar en (s_ "H2O") = Some H2O).
  { rewrite (run_frame _ _ _ _ (s_ "H2O") R); [reflexivity|]. apply inb_nIn. vm_compute. reflexivity. }
  vm_compute (s_ "temp") in IT. vm_compute (s_ "H2O") in IW.
  val en R "M"%string air. { reflexivity. }
  val en R "N2"%string (Q2R 0.79 * air)%R. { form T. }
  val en R "O2"%string oxygen. { form T. }
  val en R "KRONO2"%string (arrh 2.70e-12 360 T). { form T. }
  val en R "KRO2NO"%string (arrh 2.7e-12 360 T). { form T. }
  val en R "KRO2HO2"%string (arrh 2.91e-13 1300 T). { form T. }
  val en R "KAPHO2"%string (arrh 5.2e-13 980 T). { form T. }
  val en R "KAPNO"%string (arrh 7.5e-12 290 T). { form T. }
  val en R "KRO2NO3"%string (Q2R 2.3e-12). { form T. }
  val en R "KNO3AL"%string (arrh 1.4e-12 (-1860) T). { form T. }
  val en R "KDEC"%string (Q2R 1e6). { form T. }
  val en R "KROSEC"%string (arrh 2.50e-14 (-300) T). { form T. }
  val en R "KALKOXY"%string (arrh 3.70e-14 (-460) T * oxygen)%R. { form T. }
  val en R "KALKPXY"%string (arrh 1.80e-14 (-260) T * oxygen)%R. { form T. }
  val en R "KROPRIM"%string (arrh 2.50e-14 (-300) T). { form T. }
  val en R "KCH3O2"%string (arrh 1.03e-13 365 T). { form T. }
  val en R "K298CH3O2"%string (Q2R 3.5e-13). { form T. }
  val en R "K14ISOM1"%string (arrh 3.00e7 (-5300) T). { form T. }
  val en R "KPPN0"%string (air * arrh 1.7e-3 (-11280) T)%R. { form T. }
  val en R "KPPNI"%string (arrh 8.3e16 (-13940) T). { form T. }
  val en R "FCPPN"%string (Q2R 0.36). { form T. }
  assert (P0 : (0 < air * arrh 1.7e-3 (-11280) T)%R) by posi.
  assert (P1 : (0 < arrh 8.3e16 (-13940) T)%R) by posi.
  val en R "KBPPN"%string (air * arrh 1.7e-3 (-11280) T * arrh 8.3e16 (-13940) T / (air * arrh 1.7e-3 (-11280) T + arrh 8.3e16 (-13940) T) * Q2R 0.36)%R.
  { rewrite rdiv_ok by lra. f_equal. field. lra. }
  val en R "KMT05"%string (Q2R 1.44e-13 * (1 + air / Q2R 4.2e19))%R. { form T. }
  val en R "KMT06"%string (1 + arrh 1.40e-21 2200 T * H2O)%R. { form T. }
  val en R "k1"%string (arrh 2.40e-14 460 T). { form T. }
  val en R "k3"%string (arrh 6.50e-34 1335 T). { form T. }
  val en R "k4"%string (arrh 2.70e-17 2199 T). { form T. }
  assert (P2 : (0 < arrh 6.50e-34 1335 T * air)%R) by posi.
  assert (P3 : (0 < arrh 2.70e-17 2199 T)%R) by posi.
  assert (P4 : (0 < arrh 6.50e-34 1335 T * air / arrh 2.70e-17 2199 T)%R)
    by (apply Rmult_lt_0_compat; [exact P2|apply Rinv_0_lt_compat; exact P3]).
  val en R "k2"%string (arrh 6.50e-34 1335 T * air / (1 + arrh 6.50e-34 1335 T * air / arrh 2.70e-17 2199 T))%R.
  { rewrite (rdiv_ok _ (arrh 2.70e-17 2199 T)) by lra. cbn [obind].
    match goal with |- context [(Q2R ?q + _)%R] => replace (Q2R q) with 1%R by (q2r; lra) end.
    rewrite rdiv_ok by lra. reflexivity. }
  val en R "KMT11"%string (arrh 2.40e-14 460 T + arrh 6.50e-34 1335 T * air / (1 + arrh 6.50e-34 1335 T * air / arrh 2.70e-17 2199 T))%R.
  { reflexivity. }
  assert (P5 : (0 < arrh 7.5e-29 5610 T * oxygen)%R) by (unfold oxygen; posi).
  val en R "KMT18"%string (arrh 9.5e-39 5270 T * oxygen / (1 + arrh 7.5e-29 5610 T * oxygen))%R.
  { rewrite !(rdiv_ok _ T) by lra. cbn [obind].
    match goal with |- rdiv ?a ?b = Some (?c / ?d)%R =>
      replace a with c by (unfold arrh, oxygen, air; pows; q2r; field);
      replace b with d by (unfold arrh, oxygen, air; pows; q2r; field) end.
    apply rdiv_ok. lra. }
  intros x f I.
  repeat (destruct I as [I|I]; [injection I as <- <-; assumption|]). destruct I.
Qed.

(* ------------------------------------------------------------------ *)
(* C57 *)
(* Both modules give every pressure-dependent constant the value of the Troe
   formula with the MCM parameters, positive and below both limits. *)
Theorem C57_troe : forall ttime RO2 H2O T, (0 < T)%R -> (0 <= H2O)%R ->
  exists en_n en_f,
    numba_run ttime RO2 H2O T = Some en_n /\ fortran_run ttime RO2 H2O T = Some en_f /\
    forall x k0 ki fc, In (x, k0, ki, fc) troe_table ->
      let v := troe (k0 T) (ki T) (fc T) in
      rvar en_n (s_ x) = Some v /\ rvar en_f (lower (s_ x)) = Some v /\
      (0 < v < k0 T)%R /\ (v < ki T)%R.
Proof.
  intros t r w T HT HW. destruct (C56_partial t r w T HT HW) as (en & ef & N & F & E). exists en, ef.
  split; [exact N|]. split; [exact F|]. intros x k0 ki fc I v.
  destruct (numba_runs t r w T HT HW) as (en' & R & N' & _). rewrite N in N'. injection N' as <-.
  destruct (troe_values _ _ _ _ _ HT R x k0 ki fc I) as (V & P0 & Pi & Pc).
  assert (X : In (s_ x) numba_names /\ s_ x <> s_ "NCPPN" /\ s_ x <> s_ "FPPN").
  { clear - I. repeat (destruct I as [I|I]; [injection I as <- _ _ _; split; [apply inb_In; vm_compute; reflexivity|split; discriminate]|]).
    destruct I. }
  destruct (E _ (proj1 X) (proj1 (proj2 X)) (proj2 (proj2 X))) as (u & U & Uf). rewrite V in U. injection U as <-.
  split; [exact V|]. split; [exact Uf|]. apply troe_range; assumption.
Qed.
(* The other constants equal their MCM expressions. *)
Theorem C57_plain : forall ttime RO2 H2O T, (0 < T)%R -> (0 <= H2O)%R ->
  exists en_n en_f,
    numba_run ttime RO2 H2O T = Some en_n /\ fortran_run ttime RO2 H2O T = Some en_f /\
    forall x f, In (x, f) plain_table ->
      rvar en_n (s_ x) = Some (f T H2O) /\ rvar en_f (lower (s_ x)) = Some (f T H2O).
Proof.
  intros t r w T HT HW. destruct (C56_partial t r w T HT HW) as (en & ef & N & F & E). exists en, ef.
  split; [exact N|]. split; [exact F|]. intros x f I.
  destruct (numba_runs t r w T HT HW) as (en' & R & N' & _). rewrite N in N'. injection N' as <-.
  pose proof (plain_values _ _ _ _ _ HT HW R x f I) as V.
  assert (X : In (s_ x) numba_names /\ s_ x <> s_ "NCPPN" /\ s_ x <> s_ "FPPN").
  { clear - I. repeat (destruct I as [I|I]; [injection I as <- _; split; [apply inb_In; vm_compute; reflexivity|split; discriminate]|]).
    destruct I. }
  destruct (E _ (proj1 X) (proj1 (proj2 X)) (proj2 (proj2 X))) as (u & U & Uf). rewrite V in U. injection U as <-.
  split; assumption.
Qed.
(* Every constant named K... is in one of the tables, but for three
   intermediate quantities. *)
Example C57_covers : forall x, In x numba_names -> (exists y, x = "K"%char :: y) ->
  (exists k0 ki fc n, x = s_ n /\ In (n, k0, ki, fc) troe_table) \/ (exists n f, x = s_ n /\ In (n, f) plain_table) \/
  In x [s_ "KPPN0"; s_ "KPPNI"; s_ "KRPPN"].
Proof.
  assert (A : forallb (fun x => match x with
      | "K"%char :: _ => inb x (map (fun e => s_ (fst (fst (fst e)))) troe_table) || inb x (map (fun e => s_ (fst e)) plain_table)
                         || inb x [s_ "KPPN0"; s_ "KPPNI"; s_ "KRPPN"]
      | _ => true end) numba_names = true) by (vm_compute; reflexivity).
  intros x I [y ->]. rewrite forallb_forall in A. specialize (A _ I). cbv beta iota in A.
  apply orb_prop in A. destruct A as [A|A]; [apply orb_prop in A; destruct A as [A|A]|]; apply inb_In in A.
  - left. apply in_map_iff in A. destruct A as ([[[n k0] ki] fc] & <- & J). exists k0, ki, fc, n. auto.
  - right; left. apply in_map_iff in A. destruct A as ([n f] & <- & J). exists n, f. auto.
  - right; right. exact A.
Qed.
Print Assumptions C57_troe.
Print Assumptions C57_plain.
