(* Over any stretch of time there are finitely many sunrises and sunsets. *)
From Coq Require Import List Bool Arith Lia ZArith QArith Reals Qreals Lra.
From Verif Require Import Base SpecSun RateSun OdeExist.
Import ListNotations.
Open Scope R_scope.

(* D holds throughout the open interval, or nowhere in it. *)
Definition settled (D : R -> Prop) (a b : R) : Prop := (forall t, a < t < b -> D t) \/ (forall t, a < t < b -> ~ D t).

Lemma settled_sub D a b a' b' : a <= a' -> a' <= b' -> b' <= b -> settled D a b -> settled D a' b'.
Proof. intros H1 _ H2 [H|H]; [left | right]; intros t Ht; apply H; lra. Qed.

Lemma settled_down (D : R -> Prop) a b : a <= b -> (forall x y, a <= x -> x <= y -> y <= b -> D y -> D x) -> pieces (settled D) a b.
Proof.
  intros L Down. set (E := fun x => a <= x <= b /\ D x).
  destruct (Classical_Prop.classic (exists x, E x)) as [[x0 E0]|N].
  - destruct (completeness E) as [s [Ub Lb]]; [exists b; intros x [Hx _]; lra | exists x0; exact E0|].
    assert (S1 : x0 <= s) by (apply Ub, E0). assert (S2 : s <= b) by (apply Lb; intros x [Hx _]; lra). destruct E0 as [Hx0 D0].
    apply pieces_join with s; apply pieces_one; try lra.
    + left. intros t Ht. apply Classical_Prop.NNPP. intros Nt. assert (X : s <= t); [|lra]. apply Lb. intros x [Hx Dx].
      destruct (Rle_dec x t) as [|C]; [assumption|]. exfalso. apply Nt. apply (Down t x); [lra | lra | lra | exact Dx].
    + right. intros t Ht Dt. assert (X : t <= s); [|lra]. apply Ub. split; [lra | exact Dt].
  - apply pieces_one; [exact L|]. right. intros t Ht Dt. apply N. exists t. split; [lra | exact Dt].
Qed.
Lemma settled_not (D : R -> Prop) a b : settled (fun t => ~ D t) a b -> settled D a b.
Proof. intros [H|H]; [right; exact H | left]. intros t Ht. apply Classical_Prop.NNPP. exact (H t Ht). Qed.

Lemma cos_period_nat k x : cos (x + 2 * INR k * PI) = cos x.
Proof. apply cos_period. Qed.

Section Above.
Context (kappa : R).
Let D x := kappa < cos x.

Lemma above_half_1 k : pieces (settled D) (2 * INR k * PI) (2 * INR k * PI + PI).
Proof.
  assert (P := PI_RGT_0). apply settled_down; [lra|]. intros x y H1 H2 H3 Dy. unfold D in *. apply Rlt_le_trans with (1 := Dy).
  replace x with ((x - 2 * INR k * PI) + 2 * INR k * PI) by ring. replace y with ((y - 2 * INR k * PI) + 2 * INR k * PI) by ring.
  rewrite !cos_period_nat. apply cos_decr_1; lra.
Qed.
Lemma above_half_2 k : pieces (settled D) (2 * INR k * PI + PI) (2 * INR k * PI + 2 * PI).
Proof.
  assert (P := PI_RGT_0). apply (pieces_impl (settled (fun t => ~ D t))); [intros x y; apply settled_not|].
  apply settled_down; [lra|]. intros x y H1 H2 H3 Dy Dx. apply Dy. unfold D in *. apply Rlt_le_trans with (1 := Dx).
  replace x with ((x - 2 * INR k * PI) + 2 * INR k * PI) by ring. replace y with ((y - 2 * INR k * PI) + 2 * INR k * PI) by ring.
  rewrite !cos_period_nat. apply cos_incr_1; lra.
Qed.
Lemma above_turns k : pieces (settled D) 0 (2 * INR k * PI).
Proof.
  induction k as [|k IH].
  - cbn [INR]. replace (2 * 0 * PI) with 0 by ring. apply pieces_one; [lra|]. left. intros t Ht. lra.
  - rewrite S_INR. replace (2 * (INR k + 1) * PI) with (2 * INR k * PI + 2 * PI) by ring.
    apply pieces_join with (2 * INR k * PI); [exact IH|]. apply pieces_join with (2 * INR k * PI + PI); [apply above_half_1 | apply above_half_2].
Qed.
Lemma turns_enough x : exists k, x <= 2 * INR k * PI.
Proof.
  destruct (archimed (Rabs x)) as [Hk _]. set (k := Z.to_nat (up (Rabs x))). assert (A0 := Rabs_pos x).
  assert (Ek : INR k = IZR (up (Rabs x))) by (unfold k; rewrite INR_IZR_INZ, Z2Nat.id; [reflexivity|]; apply le_IZR; lra).
  exists k. assert (P : PI > 3) by (assert (X := PI2_3_2); lra). assert (Q := Rle_abs x).
  assert (R0 := pos_INR k). assert (INR k * (2 * PI) >= INR k * 1) by (apply Rmult_ge_compat_l; lra). lra.
Qed.
Lemma above_pieces a b : a <= b -> pieces (settled D) a b.
Proof.
  intros L. destruct (turns_enough (- a)) as [j Hj]. destruct (turns_enough (b + 2 * INR j * PI)) as [k Hk].
  assert (X : pieces (settled D) (a + 2 * INR j * PI) (b + 2 * INR j * PI)).
  { apply (pieces_sub (settled D) (fun a b a' b' H1 H2 H3 H => settled_sub D a b a' b' H1 H2 H3 H) 0 (2 * INR k * PI)); [apply above_turns | lra | lra | lra]. }
  assert (Y := pieces_map (settled D) (settled D) (fun x => x - 2 * INR j * PI) (fun x y H => ltac:(lra))).
  cbv beta in Y. specialize (Y ltac:(intros x y Hxy [H|H]; [left | right]; intros t Ht; specialize (H (t + 2 * INR j * PI) ltac:(lra)); unfold D in *; rewrite cos_period_nat in H; exact H) _ _ X).
  replace (a + 2 * INR j * PI - 2 * INR j * PI) with a in Y by ring. replace (b + 2 * INR j * PI - 2 * INR j * PI) with b in Y by ring. exact Y.
Qed.
End Above.

Definition phase : R := PI * (149 * 2 - (1 + 13/100 / 180)) + equation_of_time.
Lemma cos_zenith_wave t : cos_zenith t = sin SpecSun.latitude * sin declination + cos SpecSun.latitude * cos declination * cos (PI / 43200 * t + phase).
Proof.
  unfold cos_zenith, hour_angle, hour_of_day. rewrite <- (cos_hour_angle (149 + t / 86400) 0). unfold phase.
  replace (PI * ((149 + t / 86400 - 0) * 24 / 12 - (1 + 13 / 100 / 180)) + equation_of_time) with (PI / 43200 * t + (PI * (149 * 2 - (1 + 13 / 100 / 180)) + equation_of_time)) by field.
  reflexivity.
Qed.
Lemma cos_zenith_continuous t : continuity_pt cos_zenith t.
Proof.
  assert (K : forall c, continuity_pt (fun _ : R => c) t) by (intros c; apply continuity_pt_const; intros x y; reflexivity).
  assert (I : continuity_pt (fun t => PI / 43200 * t + phase) t).
  { apply (continuity_pt_plus (fun t => PI / 43200 * t) (fun _ => phase)); [|apply K]. apply (continuity_pt_mult (fun _ => PI / 43200) (fun t => t)); [apply K | apply derivable_continuous_pt, derivable_pt_id]. }
  assert (X : continuity_pt (fun t => sin SpecSun.latitude * sin declination + cos SpecSun.latitude * cos declination * cos (PI / 43200 * t + phase)) t).
  { apply (continuity_pt_plus (fun _ => sin SpecSun.latitude * sin declination) (fun t => cos SpecSun.latitude * cos declination * cos (PI / 43200 * t + phase))); [apply K|].
    apply (continuity_pt_mult (fun _ => cos SpecSun.latitude * cos declination) (fun t => cos (PI / 43200 * t + phase))); [apply K|].
    apply (continuity_pt_comp (fun t => PI / 43200 * t + phase) cos); [exact I | apply continuity_cos]. }
  intros e He. destruct (X e He) as (d & Pd & Hd). exists d. split; [exact Pd|]. intros x Hx. rewrite !cos_zenith_wave. exact (Hd x Hx).
Qed.

Definition sunny (t : R) : Prop := 1 / 10 ^ 30 < cos_zenith t.

(* The sun rises and sets finitely often between any two times. *)
Lemma sun_pieces a b : a <= b -> pieces (settled sunny) a b.
Proof.
  intros L. set (A := sin SpecSun.latitude * sin declination). set (C := cos SpecSun.latitude * cos declination).
  assert (P := PI_RGT_0). assert (W : 0 < PI / 43200) by lra.
  set (k := fun x => (x - phase) / (PI / 43200)).
  assert (K : forall x, PI / 43200 * k x + phase = x) by (intros x; unfold k; field; lra).
  assert (Kt : forall t, k (PI / 43200 * t + phase) = t) by (intros x; unfold k; field; lra).
  assert (Kle : forall x y, x <= y -> k x <= k y) by (intros x y H; unfold k; apply Rmult_le_compat_r; [left; apply Rinv_0_lt_compat, W | lra]).
  assert (Kin : forall x y t, k x < t < k y -> x < PI / 43200 * t + phase < y).
  { intros x y t [H1 H2]. rewrite <- (K x), <- (K y). split; apply Rplus_lt_compat_r; apply Rmult_lt_compat_l; assumption. }
  assert (Z : forall t, cos_zenith t = A + C * cos (PI / 43200 * t + phase)) by (intros t; apply cos_zenith_wave).
  assert (Lx : PI / 43200 * a + phase <= PI / 43200 * b + phase) by (apply Rplus_le_compat_r, Rmult_le_compat_l; lra).
  rewrite <- (Kt a), <- (Kt b). destruct (Rtotal_order C 0) as [HC|[HC|HC]].
  - (* the other way round; does not arise for this latitude and day *)
    apply (pieces_map (settled (fun x => (1 / 10 ^ 30 - A) / - C < cos (x + PI))) _ k Kle).
    + intros x y Hxy H. assert (Q : forall t, sunny t <-> (1 / 10 ^ 30 - A) / - C < cos (PI / 43200 * t + phase + PI)).
      { intros t. unfold sunny. rewrite Z, neg_cos. set (c := cos _). split; intros H'.
        - apply Rmult_lt_reg_r with (- C); [lra|]. replace ((1 / 10 ^ 30 - A) / - C * - C) with (1 / 10 ^ 30 - A) by (field; lra). lra.
        - apply Rmult_lt_compat_r with (r := - C) in H'; [|lra]. replace ((1 / 10 ^ 30 - A) / - C * - C) with (1 / 10 ^ 30 - A) in H' by (field; lra). lra. }
      destruct H as [H|H]; [left | right]; intros t Ht; [apply Q, H, Kin, Ht | intros S; apply (H _ (Kin _ _ _ Ht)), Q, S].
    + assert (Y := above_pieces ((1 / 10 ^ 30 - A) / - C) (PI / 43200 * a + phase + PI) (PI / 43200 * b + phase + PI) ltac:(lra)).
      assert (X := pieces_map (settled (fun x => (1 / 10 ^ 30 - A) / - C < cos x)) (settled (fun x => (1 / 10 ^ 30 - A) / - C < cos (x + PI))) (fun x => x - PI) (fun x y H => ltac:(lra))
        ltac:(intros x y Hxy [H|H]; [left | right]; intros t Ht; cbv beta; apply (H (t + PI)); lra) _ _ Y).
      cbv beta in X. replace (PI / 43200 * a + phase + PI - PI) with (PI / 43200 * a + phase) in X by ring.
      replace (PI / 43200 * b + phase + PI - PI) with (PI / 43200 * b + phase) in X by ring. exact X.
  - rewrite !Kt. apply pieces_one; [exact L|]. destruct (Rlt_dec (1 / 10 ^ 30) A) as [H|H]; [left | right]; intros t _; unfold sunny; rewrite Z, HC; lra.
  - apply (pieces_map (settled (fun x => (1 / 10 ^ 30 - A) / C < cos x)) _ k Kle); [|apply above_pieces, Lx].
    intros x y Hxy H. assert (Q : forall t, sunny t <-> (1 / 10 ^ 30 - A) / C < cos (PI / 43200 * t + phase)).
    { intros t. unfold sunny. rewrite Z. set (c := cos _). split; intros H'.
      - apply Rmult_lt_reg_r with C; [lra|]. replace ((1 / 10 ^ 30 - A) / C * C) with (1 / 10 ^ 30 - A) by (field; lra). lra.
      - apply Rmult_lt_compat_r with (r := C) in H'; [|lra]. replace ((1 / 10 ^ 30 - A) / C * C) with (1 / 10 ^ 30 - A) in H' by (field; lra). lra. }
    destruct H as [H|H]; [left | right]; intros t Ht; [apply Q, H, Kin, Ht | intros S; apply (H _ (Kin _ _ _ Ht)), Q, S].
Qed.
