(* Non-negativity of exact solutions when the equations are only known to work
   near the non-negative states. *)
From Coq Require Import List Bool Arith Lia ZArith Reals Lra.
From Verif Require Import Base SpecKin LangFacts SpecSolver OdeFacts SpecMethod SpecTraj OdeSign.
Import ListNotations.
Open Scope nat_scope.
Open Scope list_scope.

(* Gronwall where the estimate is only known while w is small. *)
Lemma gronwall_near (w w' : R -> R) (K T eta : R) : (0 <= T)%R -> (0 < eta)%R -> (forall t, continuity_pt w t) ->
  (forall t, (0 < t < T)%R -> derivable_pt_lim w t (w' t)) -> (forall t, (0 < t < T)%R -> (w t < eta)%R -> (w' t <= K * w t)%R) -> (w 0 <= 0)%R ->
  forall t, (0 <= t <= T)%R -> (w t <= 0)%R.
Proof.
  intros HT He C D B W0 t1 Ht1. destruct (Rle_dec (w t1) 0) as [G|G]; [exact G | exfalso].
  set (E := fun x => (0 <= x <= t1)%R /\ forall s, (0 <= s <= x)%R -> (w s <= 0)%R).
  assert (E0 : E 0%R) by (split; [lra|]; intros s Hs; replace s with 0%R by lra; exact W0).
  destruct (completeness E) as [a [Ub Lub]].
  { exists t1. intros x [Hx _]. lra. }
  { exists 0%R. exact E0. }
  assert (Pa : (0 <= a <= t1)%R) by (split; [apply Ub, E0 | apply Lub; intros x [Hx _]; lra]).
  assert (Bel : forall s, (0 <= s)%R -> (s < a)%R -> (w s <= 0)%R).
  { intros s Hs0 Hs. destruct (Rle_dec (w s) 0) as [X|X]; [exact X | exfalso]. assert (a <= s)%R; [|lra].
    apply Lub. intros x [Hx Hw]. destruct (Rle_dec x s) as [Y|Y]; [exact Y | exfalso]. apply X, Hw. lra. }
  assert (Cont : forall x e, (0 < e)%R -> exists d, (0 < d)%R /\ forall s, (Rabs (s - x) < d)%R -> (Rabs (w s - w x) < e)%R).
  { intros x e Pe. destruct (C x e Pe) as (d & Pd & Hd). exists d. split; [exact Pd|]. intros s Hs.
    destruct (Req_dec s x) as [->|Ne]; [replace (w x - w x)%R with 0%R by ring; rewrite Rabs_R0; exact Pe|].
    apply Hd. split; [split; [exact I | intros Q; apply Ne; symmetry; exact Q] | exact Hs]. }
  assert (Wa : (w a <= 0)%R).
  { destruct (Rle_dec (w a) 0) as [X|X]; [exact X | exfalso]. destruct (Req_dec a 0) as [->|Na]; [lra|].
    destruct (Cont a (w a) ltac:(lra)) as (d & Pd & Hd). set (s := Rmax (a / 2) (a - d / 2)).
    assert (Hs : (0 <= s < a)%R) by (unfold s, Rmax; destruct (Rle_dec _ _); lra).
    assert (X1 := Bel s (proj1 Hs) (proj2 Hs)).
    assert (X2 : (Rabs (s - a) < d)%R) by (unfold s, Rmax, Rabs; destruct (Rle_dec _ _), (Rcase_abs _); lra).
    specialize (Hd s X2). unfold Rabs in Hd. destruct (Rcase_abs _) in Hd; lra. }
  assert (La : (a < t1)%R) by (destruct (Req_dec a t1) as [->|]; lra).
  destruct (Cont a eta He) as (d & Pd & Hd). set (h := Rmin (d / 2) (t1 - a)).
  assert (Ph : (0 < h)%R) by (apply Rmin_glb_lt; lra).
  assert (Hh : (h < d /\ h <= t1 - a)%R) by (split; [apply Rle_lt_trans with (d / 2)%R; [apply Rmin_l | lra] | apply Rmin_r]).
  assert (Sh : forall s, (0 <= s <= h)%R -> (w (a + s) <= 0)%R).
  { apply (gronwall (fun s => w (a + s))%R (fun s => w' (a + s))%R K h ltac:(lra)).
    - intros s. apply (continuity_pt_comp (fun s => a + s)%R w); [|apply C]. apply derivable_continuous_pt. exists (0 + 1)%R.
      apply (derivable_pt_lim_plus (fct_cte a) id); [apply derivable_pt_lim_const | apply derivable_pt_lim_id].
    - intros s Hs. assert (X := derivable_pt_lim_comp (fun s => a + s)%R w s (0 + 1)%R (w' (a + s)%R)
        (derivable_pt_lim_plus (fct_cte a) id s 0 1 (derivable_pt_lim_const a s) (derivable_pt_lim_id s)) (D (a + s)%R ltac:(lra))).
      replace (w' (a + s) * (0 + 1))%R with (w' (a + s)%R) in X by ring. exact X.
    - intros s Hs. apply B; [lra|]. assert (Y : (Rabs (a + s - a) < d)%R) by (unfold Rabs; destruct (Rcase_abs _); lra).
      specialize (Hd _ Y). unfold Rabs in Hd. destruct (Rcase_abs _) in Hd; lra.
    - cbv beta. rewrite Rplus_0_r. exact Wa. }
  assert (X : (a + h <= a)%R); [|lra]. apply Ub. split; [lra|]. intros s Hs. destruct (Rlt_le_dec s a) as [L|L]; [apply Bel; lra|].
  replace s with (a + (s - a))%R by ring. apply Sh. lra.
Qed.

Lemma gronwall_near_jumps (w w' : R -> R) (K T eta : R) jumps : (0 <= T)%R -> (0 < eta)%R -> (forall t, continuity_pt w t) ->
  (forall t, (0 < t < T)%R -> ~ In t jumps -> derivable_pt_lim w t (w' t) /\ ((w t < eta)%R -> (w' t <= K * w t)%R)) -> (w 0 <= 0)%R ->
  forall t, (0 <= t <= T)%R -> (w t <= 0)%R.
Proof.
  intros HT He C. apply (decays_jumps w w' (fun t => (w t < eta)%R -> (w' t <= K * w t)%R)); [|exact HT]. intros a h Hh D Wa t Ht.
  replace t with (a + (t - a))%R by ring. apply (gronwall_near (fun s => w (a + s)%R) (fun s => w' (a + s)%R) K h eta Hh He).
  - intros s. apply shift_continuous, C.
  - intros s Hs. apply shift_derive, D. lra.
  - intros s Hs. apply D. lra.
  - rewrite Rplus_0_r. exact Wa.
  - lra.
Qed.

(* Sum of the squares of the negative parts. *)
Definition deficit (n : nat) (y : list R) : R := rsum (map (fun i => below (nth i y 0) * below (nth i y 0))%R (seq 0 n)).
Definition pull (n : nat) (y d : list R) : R := rsum (map (fun i => below (nth i y 0) * nth i d 0)%R (seq 0 n)).

Lemma deficit_nonneg n y : (0 <= deficit n y)%R.
Proof. apply rsum_nonneg. intros x Hx. apply in_map_iff in Hx as (i & <- & _). apply Rle_0_sqr. Qed.
Lemma deficit_one n y i : i < n -> (below (nth i y 0) * below (nth i y 0) <= deficit n y)%R.
Proof.
  intros Hi. unfold deficit. assert (In i (seq 0 n)) by (apply in_seq; lia). revert H. generalize (seq 0 n) as l.
  induction l as [|a l IH]; intros Hin; [contradiction|]. cbn [map rsum].
  assert (P : (0 <= rsum (map (fun i => below (nth i y 0) * below (nth i y 0))%R l))%R).
  { apply rsum_nonneg. intros x Hx. apply in_map_iff in Hx as (j & <- & _). apply Rle_0_sqr. }
  assert (Q := Rle_0_sqr (below (nth a y 0%R))). unfold Rsqr in Q. destruct Hin as [->|Hin]; [lra | specialize (IH Hin); lra].
Qed.

Theorem solution_nonneg_near f T u eps : (0 <= T)%R -> solves f T u -> (0 < eps)%R ->
  (forall M, (0 <= M)%R -> exists K, forall t y d, (0 <= t <= T)%R -> List.length y = List.length (u 0%R) ->
     (forall i, i < List.length (u 0%R) -> (- eps <= nth i y 0 <= M)%R) -> f t y = Some d ->
     (pull (List.length (u 0%R)) y d <= K * deficit (List.length (u 0%R)) y)%R) ->
  nonneg (u 0%R) -> forall t, (0 <= t <= T)%R -> nonneg (u t).
Proof.
  intros HT [U [jumps J]] He HK H0. set (n := List.length (u 0%R)) in *.
  destruct (sol_bounded_all T HT u U) as [M0 B0]. fold n in B0.
  destruct (HK (Rmax M0 0) (Rmax_r _ _)) as (K & Est).
  set (d := fun i t => below (comp T u i t)).
  set (w := fun t => rsum (map (fun i => d i t * d i t)%R (seq 0 n))).
  set (w' := fun t => rsum (map (fun i => 2 * d i t * nth i (slope f u t) 0)%R (seq 0 n))).
  assert (Eu : forall t, (0 <= t <= T)%R -> forall i, comp T u i t = nth i (u t) 0%R) by (intros t Ht i; unfold comp; rewrite clamp_id by exact Ht; reflexivity).
  assert (Cw : forall t, continuity_pt w t).
  { intros t. apply (rsum_continuous (fun i t => d i t * d i t)%R). intros i Hi. apply in_seq in Hi.
    apply (continuity_pt_comp (comp T u i) (fun z => below z * below z)%R); [apply (sol_continuous T HT u U); fold n; lia | apply below_sq_continuous]. }
  assert (Dw : forall t, (0 < t < T)%R -> ~ In t jumps -> derivable_pt_lim w t (w' t)).
  { intros t Ht Nt. destruct (J t ltac:(lra) Nt) as (dd & Ed & D). unfold w', slope. rewrite Ed. apply (rsum_derivable (fun i t => d i t * d i t)%R). intros i Hi. apply in_seq in Hi.
    apply (derivable_pt_lim_comp (comp T u i) (fun z => below z * below z)%R);
      [apply sol_derive; [exact Ht | apply D; lia] | apply below_sq_deriv]. }
  assert (Ew : forall t, (0 <= t <= T)%R -> w t = deficit n (u t)).
  { intros t Ht. apply rsum_ext. intros i _. unfold d. rewrite Eu by exact Ht. reflexivity. }
  assert (Bd : forall t, (0 < t < T)%R -> ~ In t jumps -> (w t < eps * eps)%R -> (w' t <= 2 * K * w t)%R).
  { intros t Ht Nt Hw. assert (Ht' : (0 <= t <= T)%R) by lra. rewrite (Ew t Ht') in *.
    assert (W2 : w' t = (2 * pull n (u t) (slope f u t))%R).
    { unfold w', pull. rewrite <- (rsum_mult (fun i => below (nth i (u t) 0) * nth i (slope f u t) 0)%R). apply rsum_ext.
      intros i _. unfold d. rewrite Eu by exact Ht'. ring. }
    rewrite W2. destruct (J t Ht' Nt) as (dd & Ed & _). assert (Lt := proj1 (U t Ht')).
    assert (X := Est t (u t) dd Ht' Lt). unfold slope. rewrite Ed.
    assert (Near : forall i, i < n -> (- eps <= nth i (u t) 0 <= Rmax M0 0)%R).
    { intros i Hi. split.
      - assert (Y := deficit_one n (u t) i Hi). destruct (Rle_dec (- eps) (nth i (u t) 0%R)) as [Z|Z]; [exact Z | exfalso].
        unfold below, Rmin in Y. destruct (Rle_dec _ _); [|lra]. assert (eps * eps < nth i (u t) 0 * nth i (u t) 0)%R by nra. lra.
      - rewrite <- (Eu t Ht'). apply Rle_trans with (2 := Rmax_l _ _). assert (Y := B0 i t Hi Ht'). assert (Z := Rle_abs (comp T u i t)). lra. }
    specialize (X Near Ed). lra. }
  assert (W0 : (w 0 <= 0)%R).
  { apply Req_le. apply rsum_zero. intros i Hi. apply in_seq in Hi. unfold d, comp. rewrite clamp_id by lra. unfold nonneg in H0. rewrite Forall_forall in H0.
    assert (X := H0 (nth i (u 0%R) 0%R) (nth_In _ _ (proj2 Hi))). unfold below, Rmin.
    destruct (Rle_dec _ _); [|ring]. replace (nth i (u 0%R) 0%R) with 0%R by lra. ring. }
  intros t Ht. assert (WT := gronwall_near_jumps w w' (2 * K) T (eps * eps) jumps HT ltac:(nra) Cw (fun s Hs Ns => conj (Dw s Hs Ns) (Bd s Hs Ns)) W0 t Ht).
  assert (Z := rsum_zero_all (fun i => d i t * d i t)%R (seq 0 n) (fun i _ => Rle_0_sqr (d i t)) WT).
  apply Forall_forall. intros x Hx. apply (In_nth _ _ 0%R) in Hx as (i & Hi & <-). rewrite (proj1 (U t Ht)) in Hi.
  specialize (Z i ltac:(apply in_seq; lia)). cbv beta in Z. apply Rmult_integral in Z. unfold d, comp, below, Rmin in Z. rewrite clamp_id in Z by exact Ht.
  destruct (Rle_dec _ _); lra.
Qed.

(* Equations that do not push a zero below zero obey the estimate. *)
Lemma quasi_estimate n (I : R -> Prop) (F : R -> list R -> list R) :
  (forall i, i < n -> ulip n I (fun t y => nth i (F t y) 0%R)) ->
  (forall t y i, I t -> List.length y = n -> nonneg y -> i < n -> nth i y 0%R = 0%R -> (0 <= nth i (F t y) 0)%R) ->
  forall M, (0 <= M)%R -> exists K, (0 <= K)%R /\ forall t y, I t -> bounded_by n M y -> (pull n y (F t y) <= K * deficit n y)%R.
Proof.
  intros HL HQ M HM. destruct (ulip_all n I (fun i t y => nth i (F t y) 0%R) HL M) as (L & PL & Lip).
  exists (L * INR n)%R. split; [apply Rmult_le_pos; [exact PL | apply pos_INR]|]. intros t y It By.
  assert (Bp : bounded_by n M (positive_part y)).
  { split; [unfold positive_part; rewrite map_length; apply By|]. intros i Hi. rewrite positive_part_nth. assert (X := proj2 By i Hi).
    unfold Rmax. destruct (Rle_dec _ _); [rewrite Rabs_R0; exact HM | exact X]. }
  set (D := dist1 n y (positive_part y)).
  assert (ED : D = rsum (map (fun i => Rabs (below (nth i y 0%R))) (seq 0 n))).
  { apply rsum_ext. intros i _. unfold below. rewrite positive_part_nth. unfold Rmax, Rmin, Rabs.
    repeat destruct (Rle_dec _ _); repeat destruct (Rcase_abs _); lra. }
  apply Rle_trans with (rsum (map (fun i => (L * D) * Rabs (below (nth i y 0)))%R (seq 0 n))).
  - apply rsum_le. intros i Hi. apply in_seq in Hi. cbn [Nat.add] in Hi.
    assert (Li := Lip i ltac:(lia) t y (positive_part y) It By Bp). cbv beta in Li. fold D in Li.
    unfold below. unfold Rmin. destruct (Rle_dec (nth i y 0%R) 0) as [Le|Gt].
    2:{ rewrite Rabs_R0. lra. }
    assert (Q : (0 <= nth i (F t (positive_part y)) 0)%R).
    { apply HQ; [exact It | apply Bp | apply positive_part_nonneg | lia|]. rewrite positive_part_nth. unfold Rmax. destruct (Rle_dec _ _); lra. }
    rewrite (Rabs_left1 (nth i y 0%R)) by exact Le.
    set (a := nth i (F t y) 0%R) in *. set (c := nth i (F t (positive_part y)) 0%R) in *. set (x := nth i y 0%R) in *.
    assert (G : (a - c >= - (L * D))%R) by (unfold Rabs in Li; destruct (Rcase_abs _); lra). nra.
  - rewrite (rsum_mult (fun i => Rabs (below (nth i y 0%R)))), ED.
    assert (Sq := square_sum (fun i => below (nth i y 0%R)) (seq 0 n)). cbv beta in Sq. rewrite seq_length in Sq. unfold deficit.
    rewrite !Rmult_assoc. apply Rmult_le_compat_l; [exact PL | exact Sq].
Qed.
