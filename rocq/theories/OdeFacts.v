(* Solutions of differential equations: joining two solutions, and at most one
   solution from every starting point. *)
From Coq Require Import List Bool Arith Lia ZArith Reals Lra.
From Verif Require Import Base SpecKin LangFacts SpecSolver.
Import ListNotations.
Open Scope nat_scope.
Open Scope list_scope.

Section Glue.
Context (f : list R -> list R).

Lemma trajectory_glue y0 a y1 c y2 : (0 <= a)%R -> (0 <= c)%R ->
  trajectory f y0 a y1 -> trajectory f y1 c y2 -> trajectory f y0 (a + c) y2.
Proof.
  intros Ha Hc (u & U0 & U1 & U) (v & V0 & V1 & V).
  set (w := fun t => if Rle_dec t a then u t else v (t - a)%R).
  assert (L1 : List.length y1 = List.length y0) by (rewrite <- U1; apply U; lra).
  assert (Wl : forall t, (t <= a)%R -> w t = u t) by (intros t Ht; unfold w; destruct (Rle_dec t a); [reflexivity | lra]).
  assert (Wr : forall t, (a <= t)%R -> w t = v (t - a)%R).
  { intros t Ht. unfold w. destruct (Rle_dec t a); [|reflexivity]. replace t with a by lra. replace (a - a)%R with 0%R by ring. rewrite U1, V0. reflexivity. }
  exists w. split; [rewrite Wl by lra; exact U0|]. split; [rewrite Wr by lra; replace (a + c - a)%R with c by ring; exact V1|].
  intros t Ht. split.
  - destruct (Rle_dec t a) as [H|H]; [rewrite Wl by lra; apply U; lra | rewrite Wr by lra; rewrite <- L1; apply V; lra].
  - intros i Hi eps He.
    assert (Left : (t <= a)%R -> exists d, (0 < d)%R /\ forall s, (0 <= s <= a)%R -> (Rabs (s - t) < d)%R ->
      (Rabs (nth i (w s) 0 - nth i (w t) 0 - nth i (f (w t)) 0 * (s - t)) <= eps * Rabs (s - t))%R).
    { intros H. destruct (proj2 (U t ltac:(lra)) i Hi eps He) as (d & Hd & D). exists d. split; [exact Hd|].
      intros s Hs Hst. rewrite !Wl by lra. apply D; lra. }
    assert (Right : (a <= t)%R -> exists d, (0 < d)%R /\ forall s, (a <= s <= a + c)%R -> (Rabs (s - t) < d)%R ->
      (Rabs (nth i (w s) 0 - nth i (w t) 0 - nth i (f (w t)) 0 * (s - t)) <= eps * Rabs (s - t))%R).
    { intros H. destruct (proj2 (V (t - a)%R ltac:(lra)) i ltac:(lia) eps He) as (d & Hd & D). exists d. split; [exact Hd|].
      intros s Hs Hst. rewrite !Wr by lra. assert (E : (s - t = (s - a) - (t - a))%R) by ring. rewrite E. apply D; [lra|].
      rewrite <- E. exact Hst. }
    destruct (Rtotal_order t a) as [H|[H|H]].
    + destruct (Left ltac:(lra)) as (d & Hd & D). exists (Rmin d (a - t)). split; [apply Rmin_pos; lra|].
      intros s Hs Hst. assert (M1 := Rmin_l d (a - t)). assert (M2 := Rmin_r d (a - t)).
      assert (A := Rabs_def2 _ _ Hst). apply D; lra.
    + destruct (Left ltac:(lra)) as (d & Hd & D). destruct (Right ltac:(lra)) as (d' & Hd' & D').
      exists (Rmin d d'). split; [apply Rmin_pos; lra|]. intros s Hs Hst.
      assert (M1 := Rmin_l d d'). assert (M2 := Rmin_r d d').
      destruct (Rle_dec s a); [apply D; lra | apply D'; lra].
    + destruct (Right ltac:(lra)) as (d & Hd & D). exists (Rmin d (t - a)). split; [apply Rmin_pos; lra|].
      intros s Hs Hst. assert (M1 := Rmin_l d (t - a)). assert (M2 := Rmin_r d (t - a)).
      assert (A := Rabs_def2 _ _ Hst). apply D; lra.
Qed.
End Glue.

(* ------------------------------------------------------------------ *)
(* Components of a trajectory, held constant outside [0,T]. *)
Definition clamp (T t : R) : R := Rmax 0 (Rmin t T).

Lemma clamp_in T t : (0 <= T)%R -> (0 <= clamp T t <= T)%R.
Proof.
  intros H. unfold clamp, Rmax, Rmin. destruct (Rle_dec t T); destruct (Rle_dec 0 _); lra.
Qed.
Lemma clamp_id T t : (0 <= t <= T)%R -> clamp T t = t.
Proof. intros H. unfold clamp, Rmax, Rmin. destruct (Rle_dec t T); destruct (Rle_dec 0 _); lra. Qed.
Lemma clamp_lip T s t : (0 <= T)%R -> (Rabs (clamp T s - clamp T t) <= Rabs (s - t))%R.
Proof.
  intros H. unfold clamp, Rmax, Rmin, Rabs.
  destruct (Rle_dec s T), (Rle_dec t T); repeat (destruct (Rle_dec 0 _)); repeat destruct (Rcase_abs _); lra.
Qed.

Section Solution.
Context (sl : R -> list R) (T : R) (HT : (0 <= T)%R) (n : nat) (u : R -> list R).
Context (U : forall t, (0 <= t <= T)%R -> List.length (u t) = n /\
      forall i, i < n -> forall eps, (0 < eps)%R -> exists delta, (0 < delta)%R /\
        forall s, (0 <= s <= T)%R -> (Rabs (s - t) < delta)%R ->
          (Rabs (nth i (u s) 0 - nth i (u t) 0 - nth i (sl t) 0 * (s - t)) <= eps * Rabs (s - t))%R).

Definition comp (i : nat) (t : R) : R := nth i (u (clamp T t)) 0%R.

Lemma comp_continuous i t : i < n -> continuity_pt (comp i) t.
Proof.
  intros Hi eps He. assert (Ct := clamp_in T t HT).
  destruct (proj2 (U _ Ct) i Hi 1%R ltac:(lra)) as (d & Hd & D).
  set (g := nth i (sl (clamp T t)) 0%R) in *. assert (G := Rabs_pos g).
  exists (Rmin d (eps / (Rabs g + 2))). split.
  - apply Rmin_pos; [exact Hd|]. apply Rdiv_lt_0_compat; lra.
  - intros s [_ Hs]. cbn [dist R_met Base] in *. unfold R_dist in *.
    assert (M1 := Rmin_l d (eps / (Rabs g + 2))). assert (M2 := Rmin_r d (eps / (Rabs g + 2))).
    assert (Cl := clamp_lip T s t HT). specialize (D (clamp T s) (clamp_in T s HT) ltac:(lra)). fold (comp i s) (comp i t) in D.
    set (h := (clamp T s - clamp T t)%R) in *.
    assert (B : (Rabs (comp i s - comp i t) <= (Rabs g + 1) * Rabs h)%R).
    { replace (comp i s - comp i t)%R with ((comp i s - comp i t - g * h) + g * h)%R by ring.
      apply Rle_trans with (1 := Rabs_triang _ _). rewrite (Rabs_mult g h). lra. }
    apply Rle_lt_trans with (1 := B). apply Rle_lt_trans with ((Rabs g + 1) * Rabs (s - t))%R; [apply Rmult_le_compat_l; lra|].
    apply Rle_lt_trans with ((Rabs g + 1) * (eps / (Rabs g + 2)))%R; [apply Rmult_le_compat_l; lra|].
    apply Rmult_lt_reg_r with (Rabs g + 2)%R; [lra|]. replace ((Rabs g + 1) * (eps / (Rabs g + 2)) * (Rabs g + 2))%R with ((Rabs g + 1) * eps)%R by (field; lra).
    nra.
Qed.

Lemma comp_derive i t : i < n -> (0 < t < T)%R -> derivable_pt_lim (comp i) t (nth i (sl t) 0%R).
Proof.
  intros Hi Ht eps He. destruct (proj2 (U t ltac:(lra)) i Hi (eps / 2)%R ltac:(lra)) as (d & Hd & D).
  set (g := nth i (sl t) 0%R) in *.
  assert (Pd : (0 < Rmin d (Rmin t (T - t)))%R) by (apply Rmin_pos; [lra | apply Rmin_pos; lra]).
  exists (mkposreal _ Pd). intros h Hh0 Hh. cbn [pos] in Hh.
  assert (M1 := Rmin_l d (Rmin t (T - t))). assert (M2 := Rmin_r d (Rmin t (T - t))).
  assert (M3 := Rmin_l t (T - t)). assert (M4 := Rmin_r t (T - t)). assert (A := Rabs_def2 _ _ Hh).
  unfold comp. rewrite !clamp_id by lra. specialize (D (t + h)%R ltac:(lra)).
  replace (t + h - t)%R with h in D by ring. specialize (D ltac:(lra)).
  assert (Ph : (0 < Rabs h)%R) by (apply Rabs_pos_lt; exact Hh0).
  replace ((nth i (u (t + h)) 0 - nth i (u t) 0) / h - g)%R with ((nth i (u (t + h)) 0 - nth i (u t) 0 - g * h) * / h)%R by (field; exact Hh0).
  rewrite Rabs_mult, Rabs_inv. apply Rmult_lt_reg_r with (Rabs h); [exact Ph|].
  rewrite Rmult_assoc, Rinv_l by lra. nra.
Qed.

Lemma comp_bounded i : i < n -> exists M, forall t, (0 <= t <= T)%R -> (Rabs (comp i t) <= M)%R.
Proof.
  intros Hi.
  destruct (continuity_ab_maj (comp i) 0 T HT (fun c _ => comp_continuous i c Hi)) as (p & Hp & _).
  destruct (continuity_ab_min (comp i) 0 T HT (fun c _ => comp_continuous i c Hi)) as (q & Hq & _).
  exists (Rmax (Rabs (comp i p)) (Rabs (comp i q))). intros t Ht. specialize (Hp t Ht). specialize (Hq t Ht).
  unfold Rmax, Rabs. destruct (Rle_dec _ _); repeat destruct (Rcase_abs _); lra.
Qed.

Lemma comp_bounded_all : exists M, forall i t, i < n -> (0 <= t <= T)%R -> (Rabs (comp i t) <= M)%R.
Proof.
  assert (H : forall k, k <= n -> exists M, forall i t, i < k -> (0 <= t <= T)%R -> (Rabs (comp i t) <= M)%R).
  { induction k as [|k IH]; intros Hk; [exists 0%R; intros; lia|].
    destruct (IH ltac:(lia)) as [M1 H1]. destruct (comp_bounded k ltac:(lia)) as [M2 H2].
    exists (Rmax M1 M2). intros i t Hi Ht. destruct (Nat.eq_dec i k) as [->|Ne].
    - apply Rle_trans with (2 := Rmax_r _ _). apply H2, Ht.
    - apply Rle_trans with (2 := Rmax_l _ _). apply H1; [lia | exact Ht]. }
  apply H. lia.
Qed.
End Solution.

(* ------------------------------------------------------------------ *)
(* Functions that satisfy a Lipschitz condition on every bounded set. *)
Definition dist1 (n : nat) (y y' : list R) : R := rsum (map (fun j => Rabs (nth j y 0 - nth j y' 0))%R (seq 0 n)).

Definition bounded_by (n : nat) (M : R) (y : list R) : Prop :=
  List.length y = n /\ forall i, i < n -> (Rabs (nth i y 0) <= M)%R.

Definition locally_lipschitz (n : nat) (g : list R -> R) : Prop :=
  forall M, exists L, (0 <= L)%R /\ forall y y', bounded_by n M y -> bounded_by n M y' -> (Rabs (g y - g y') <= L * dist1 n y y')%R.

Lemma dist1_nonneg n y y' : (0 <= dist1 n y y')%R.
Proof. apply rsum_nonneg. intros x Hx. apply in_map_iff in Hx as (j & <- & _). apply Rabs_pos. Qed.

(* The same constant for all components. *)
Lemma lipschitz_all n (g : nat -> list R -> R) : (forall i, i < n -> locally_lipschitz n (g i)) ->
  forall M, exists L, (0 <= L)%R /\ forall i, i < n -> forall y y', bounded_by n M y -> bounded_by n M y' ->
    (Rabs (g i y - g i y') <= L * dist1 n y y')%R.
Proof.
  intros H M. assert (G : forall k, k <= n -> exists L, (0 <= L)%R /\ forall i, i < k -> forall y y', bounded_by n M y -> bounded_by n M y' ->
    (Rabs (g i y - g i y') <= L * dist1 n y y')%R).
  { induction k as [|k IH]; intros Hk; [exists 0%R; split; [lra | intros; lia]|].
    destruct (IH ltac:(lia)) as (L1 & P1 & H1). destruct (H k ltac:(lia) M) as (L2 & P2 & H2).
    exists (L1 + L2)%R. split; [lra|]. intros i Hi y y' By By'. assert (D := dist1_nonneg n y y').
    destruct (Nat.eq_dec i k) as [->|Ne].
    - specialize (H2 y y' By By'). nra.
    - specialize (H1 i ltac:(lia) y y' By By'). nra. }
  apply G. lia.
Qed.

Lemma rsum_le {A} (f g : A -> R) l : (forall a, In a l -> (f a <= g a)%R) -> (rsum (map f l) <= rsum (map g l))%R.
Proof.
  induction l as [|a l IH]; intros H; cbn; [lra|]. assert (H1 := H a (or_introl eq_refl)).
  specialize (IH (fun x Hx => H x (or_intror Hx))). lra.
Qed.

(* (sum |d|) * (sum |d|) <= n * sum d^2 *)
Lemma square_sum (d : nat -> R) l :
  (rsum (map (fun i => Rabs (d i)) l) * rsum (map (fun j => Rabs (d j)) l) <=
   INR (List.length l) * rsum (map (fun i => d i * d i) l))%R.
Proof.
  induction l as [|a l IH]; [cbn; lra|]. cbn [map rsum List.length]. rewrite S_INR.
  set (A := rsum (map (fun i => Rabs (d i)) l)) in *. set (B := rsum (map (fun i => d i * d i)%R l)) in *.
  assert (P : (2 * Rabs (d a) * A <= INR (List.length l) * (d a * d a) + B)%R).
  { unfold A, B. clear. induction l as [|b l IH]; [cbn; lra|]. cbn [map rsum List.length]. rewrite S_INR.
    assert (Q : (0 <= (Rabs (d a) - Rabs (d b)) * (Rabs (d a) - Rabs (d b)))%R) by apply Rle_0_sqr.
    assert (S1 : (Rabs (d a) * Rabs (d a) = d a * d a)%R) by (rewrite <- Rabs_mult; apply Rabs_pos_eq, Rle_0_sqr).
    assert (S2 : (Rabs (d b) * Rabs (d b) = d b * d b)%R) by (rewrite <- Rabs_mult; apply Rabs_pos_eq, Rle_0_sqr).
    nra. }
  assert (S1 : (Rabs (d a) * Rabs (d a) = d a * d a)%R) by (rewrite <- Rabs_mult; apply Rabs_pos_eq, Rle_0_sqr).
  nra.
Qed.

Lemma rsum_continuous {A} (F : A -> R -> R) l x : (forall a, In a l -> continuity_pt (F a) x) ->
  continuity_pt (fun t => rsum (map (fun a => F a t) l)) x.
Proof.
  induction l as [|a l IH]; intros H; cbn.
  - apply continuity_pt_const. intros p q. reflexivity.
  - apply (continuity_pt_plus (F a)); [apply H; left; reflexivity | apply IH; intros b Hb; apply H; right; exact Hb].
Qed.
Lemma rsum_derivable {A} (F : A -> R -> R) (D : A -> R) l x : (forall a, In a l -> derivable_pt_lim (F a) x (D a)) ->
  derivable_pt_lim (fun t => rsum (map (fun a => F a t) l)) x (rsum (map D l)).
Proof.
  induction l as [|a l IH]; intros H; cbn.
  - apply derivable_pt_lim_const.
  - apply (derivable_pt_lim_plus (F a)); [apply H; left; reflexivity | apply IH; intros b Hb; apply H; right; exact Hb].
Qed.

Lemma rsum_zero_all {A} (f : A -> R) l : (forall a, In a l -> (0 <= f a)%R) -> (rsum (map f l) <= 0)%R -> forall a, In a l -> f a = 0%R.
Proof.
  induction l as [|b l IH]; intros H Hs a Ha; [contradiction|]. cbn in Hs.
  assert (Hb := H b (or_introl eq_refl)).
  assert (Hl : (0 <= rsum (map f l))%R).
  { apply rsum_nonneg. intros x Hx. apply in_map_iff in Hx as (c & <- & Hc). apply H. right; exact Hc. }
  destruct Ha as [->|Ha]; [lra | apply IH; [intros c Hc; apply H; right; exact Hc | lra | exact Ha]].
Qed.

Theorem trajectory_unique f n y0 T y1 y2 : (0 <= T)%R -> List.length y0 = n ->
  (forall i, i < n -> locally_lipschitz n (fun y => nth i (f y) 0%R)) ->
  trajectory f y0 T y1 -> trajectory f y0 T y2 -> y1 = y2.
Proof.
  intros HT Hn HL (u & U0 & U1 & U) (v & V0 & V1 & V). rewrite Hn in U, V.
  destruct (comp_bounded_all (fun t => f (u t)) T HT n u U) as [M1 B1]. destruct (comp_bounded_all (fun t => f (v t)) T HT n v V) as [M2 B2].
  destruct (lipschitz_all n (fun i y => nth i (f y) 0%R) HL (Rmax M1 M2)) as (L & PL & Lip).
  set (d := fun i t => (comp T u i t - comp T v i t)%R).
  set (w := fun t => rsum (map (fun i => d i t * d i t)%R (seq 0 n))).
  set (K := (2 * L * INR n)%R).
  set (h := fun t => (exp (- K * t) * w t)%R).
  set (w' := fun t => rsum (map (fun i => 2 * d i t * (nth i (f (u t)) 0 - nth i (f (v t)) 0))%R (seq 0 n))).
  assert (Dd : forall i t, i < n -> (0 < t < T)%R -> derivable_pt_lim (d i) t (nth i (f (u t)) 0 - nth i (f (v t)) 0)%R).
  { intros i t Hi Ht. apply (derivable_pt_lim_minus (comp T u i) (comp T v i)).
    - apply (comp_derive (fun t => f (u t)) T n u U i t Hi Ht).
    - apply (comp_derive (fun t => f (v t)) T n v V i t Hi Ht). }
  assert (Cd : forall i t, i < n -> continuity_pt (d i) t).
  { intros i t Hi. apply (continuity_pt_minus (comp T u i) (comp T v i)).
    - apply (comp_continuous (fun t => f (u t)) T HT n u U i t Hi).
    - apply (comp_continuous (fun t => f (v t)) T HT n v V i t Hi). }
  assert (Dw : forall t, (0 < t < T)%R -> derivable_pt_lim w t (w' t)).
  { intros t Ht. apply (rsum_derivable (fun i t => d i t * d i t)%R). intros i Hi. apply in_seq in Hi.
    replace (2 * d i t * (nth i (f (u t)) 0 - nth i (f (v t)) 0))%R with
      ((nth i (f (u t)) 0 - nth i (f (v t)) 0) * d i t + d i t * (nth i (f (u t)) 0 - nth i (f (v t)) 0))%R by ring.
    apply (derivable_pt_lim_mult (d i) (d i)); apply Dd; (lia || exact Ht). }
  assert (De : forall t, derivable_pt_lim (fun s => exp (- K * s))%R t (exp (- K * t) * - K)%R).
  { intros t. apply (derivable_pt_lim_comp (fun s => - K * s)%R exp); [|apply derivable_pt_lim_exp].
    assert (Hd := derivable_pt_lim_scal id (- K)%R t 1 (derivable_pt_lim_id t)). rewrite Rmult_1_r in Hd. exact Hd. }
  assert (Bd : forall t, (0 < t < T)%R -> (w' t <= K * w t)%R).
  { intros t Ht. unfold w'.
    assert (Eu : forall i, comp T u i t = nth i (u t) 0%R) by (intros i; unfold comp; rewrite clamp_id by lra; reflexivity).
    assert (Ev : forall i, comp T v i t = nth i (v t) 0%R) by (intros i; unfold comp; rewrite clamp_id by lra; reflexivity).
    assert (Bu : bounded_by n (Rmax M1 M2) (u t)).
    { split; [apply U; lra|]. intros i Hi. rewrite <- Eu. apply Rle_trans with (2 := Rmax_l _ _). apply B1; [exact Hi | lra]. }
    assert (Bv : bounded_by n (Rmax M1 M2) (v t)).
    { split; [apply V; lra|]. intros i Hi. rewrite <- Ev. apply Rle_trans with (2 := Rmax_r _ _). apply B2; [exact Hi | lra]. }
    set (D := dist1 n (u t) (v t)).
    assert (ED : D = rsum (map (fun i => Rabs (d i t)) (seq 0 n))).
    { apply rsum_ext. intros i _. unfold d. rewrite Eu, Ev. reflexivity. }
    apply Rle_trans with (rsum (map (fun i => (2 * L * D) * Rabs (d i t))%R (seq 0 n))).
    - apply rsum_le. intros i Hi. apply in_seq in Hi.
      assert (Li := Lip i ltac:(lia) (u t) (v t) Bu Bv). cbv beta in Li. fold D in Li.
      set (g := (nth i (f (u t)) 0 - nth i (f (v t)) 0)%R) in *.
      apply Rle_trans with (Rabs (2 * d i t * g)); [apply Rle_abs|]. rewrite !Rabs_mult, (Rabs_pos_eq 2) by lra.
      assert (Pd := Rabs_pos (d i t)). nra.
    - rewrite (rsum_mult (fun i => Rabs (d i t))), <- ED. rewrite ED.
      assert (Sq := square_sum (fun i => d i t) (seq 0 n)). cbv beta in Sq. rewrite seq_length in Sq. unfold K, w.
      assert (P2 : (0 <= 2 * L)%R) by lra.
      apply Rle_trans with (2 * L * (INR n * rsum (map (fun i => d i t * d i t)%R (seq 0 n))))%R; [|apply Req_le; ring].
      rewrite Rmult_assoc. apply Rmult_le_compat_l; [exact P2 | exact Sq]. }
  assert (Dh : forall t, (0 < t < T)%R -> derivable_pt_lim h t (exp (- K * t) * - K * w t + exp (- K * t) * w' t)%R).
  { intros t Ht. apply (derivable_pt_lim_mult (fun s => exp (- K * s))%R w); [apply De | apply Dw, Ht]. }
  assert (Ch : forall t, continuity_pt h t).
  { intros t. apply (continuity_pt_mult (fun s => exp (- K * s))%R w).
    - apply derivable_continuous_pt. exists (exp (- K * t) * - K)%R. apply De.
    - apply (rsum_continuous (fun i t => d i t * d i t)%R). intros i Hi. apply in_seq in Hi.
      apply (continuity_pt_mult (d i) (d i)); apply Cd; lia. }
  assert (W0 : w 0%R = 0%R).
  { apply rsum_zero. intros i _. unfold d, comp. rewrite clamp_id by lra. rewrite U0, V0. ring. }
  assert (WT : (w T <= 0)%R).
  { destruct (Req_dec T 0) as [->|Ne]; [rewrite W0; lra|].
    assert (PT : (0 < T)%R) by lra.
    destruct (MVT h id 0 T (fun c P => exist _ _ (Dh c P)) (fun c _ => derivable_pt_id c) PT (fun c _ => Ch c)
                (fun c _ => derivable_continuous_pt id c (derivable_pt_id c))) as (c & P & Eq).
    rewrite derive_pt_id in Eq. cbn [derive_pt proj1_sig] in Eq. unfold id in Eq.
    assert (E0 : h 0%R = 0%R) by (unfold h; rewrite W0; ring). rewrite E0 in Eq.
    assert (Ne' : (exp (- K * c) * - K * w c + exp (- K * c) * w' c <= 0)%R).
    { assert (Pe := exp_pos (- K * c)). specialize (Bd c P). nra. }
    assert (Hh : (h T <= 0)%R) by nra. unfold h in Hh. assert (Pe := exp_pos (- K * T)).
    destruct (Rle_dec (w T) 0) as [H|H]; [exact H | exfalso]. assert (0 < exp (- K * T) * w T)%R by (apply Rmult_lt_0_compat; lra). lra. }
  assert (Z := rsum_zero_all (fun i => d i T * d i T)%R (seq 0 n) (fun i _ => Rle_0_sqr (d i T)) WT).
  rewrite <- U1, <- V1. apply nth_ext with (d := 0%R) (d' := 0%R).
  - rewrite (proj1 (U T ltac:(lra))), (proj1 (V T ltac:(lra))). reflexivity.
  - intros i Hi. rewrite (proj1 (U T ltac:(lra))) in Hi. specialize (Z i ltac:(apply in_seq; lia)). cbv beta in Z.
    apply Rmult_integral in Z. unfold d, comp in Z. rewrite clamp_id in Z by lra. lra.
Qed.

(* ------------------------------------------------------------------ *)
(* Polynomials satisfy a Lipschitz condition on every bounded set. *)
Lemma lipschitz_ext n g g' : (forall y, g y = g' y) -> locally_lipschitz n g -> locally_lipschitz n g'.
Proof. intros E H M. destruct (H M) as (L & P & HL). exists L. split; [exact P|]. intros y y'. rewrite <- !E. apply HL. Qed.

Lemma lipschitz_const n c : locally_lipschitz n (fun _ => c).
Proof. intros M. exists 0%R. split; [lra|]. intros y y' _ _. replace (c - c)%R with 0%R by ring. rewrite Rabs_R0. lra. Qed.

Lemma lipschitz_nth n i : i < n -> locally_lipschitz n (fun y => nth i y 0%R).
Proof.
  intros Hi M. exists 1%R. split; [lra|]. intros y y' _ _. rewrite Rmult_1_l. unfold dist1.
  assert (Hin : In i (seq 0 n)) by (apply in_seq; lia). clear Hi. revert Hin. generalize (seq 0 n). intros l.
  induction l as [|a l IH]; intros Ha; [contradiction|]. cbn [map rsum].
  assert (Hp : (0 <= rsum (map (fun j => Rabs (nth j y 0 - nth j y' 0)) l))%R).
  { apply rsum_nonneg. intros x Hx. apply in_map_iff in Hx as (j & <- & _). apply Rabs_pos. }
  assert (Hq := Rabs_pos (nth a y 0 - nth a y' 0)%R).
  destruct Ha as [->|Ha]; [lra|]. specialize (IH Ha). lra.
Qed.

Lemma lipschitz_plus n g h : locally_lipschitz n g -> locally_lipschitz n h -> locally_lipschitz n (fun y => g y + h y)%R.
Proof.
  intros Hg Hh M. destruct (Hg M) as (L1 & P1 & H1). destruct (Hh M) as (L2 & P2 & H2). exists (L1 + L2)%R. split; [lra|].
  intros y y' By By'. specialize (H1 y y' By By'). specialize (H2 y y' By By').
  replace (g y + h y - (g y' + h y'))%R with ((g y - g y') + (h y - h y'))%R by ring.
  apply Rle_trans with (1 := Rabs_triang _ _). lra.
Qed.

(* Such a function is bounded on bounded sets. *)
Lemma lipschitz_bounded n g M : locally_lipschitz n g -> exists B, (0 <= B)%R /\ forall y, bounded_by n M y -> (Rabs (g y) <= B)%R.
Proof.
  intros H. destruct (Rle_dec 0 M) as [HM|HM].
  2:{ destruct n as [|n].
      - exists (Rabs (g [])). split; [apply Rabs_pos|]. intros [|a y] [Hy _]; [lra | discriminate].
      - exists 0%R. split; [lra|]. intros y [_ Hy]. exfalso. specialize (Hy 0 ltac:(lia)). assert (A := Rabs_pos (nth 0 y 0%R)). lra. }
  destruct (H M) as (L & P & HL). set (z := repeat 0%R n).
  assert (Bz : bounded_by n M z).
  { split; [apply repeat_length|]. intros i Hi. unfold z. rewrite nth_repeat, Rabs_R0. exact HM. }
  exists (Rabs (g z) + L * (INR n * M))%R. split.
  { assert (A := Rabs_pos (g z)). assert (I := pos_INR n). assert (0 <= L * (INR n * M))%R by (apply Rmult_le_pos; [exact P | apply Rmult_le_pos; assumption]). lra. }
  intros y By. specialize (HL y z By Bz). replace (g y) with (g z + (g y - g z))%R by ring.
  apply Rle_trans with (1 := Rabs_triang _ _). apply Rplus_le_compat_l. apply Rle_trans with (1 := HL).
  apply Rmult_le_compat_l; [exact P|]. unfold dist1.
  apply Rle_trans with (rsum (map (fun _ => M) (seq 0 n))).
  - apply rsum_le. intros i Hi. apply in_seq in Hi. unfold z. rewrite nth_repeat, Rminus_0_r. apply By. lia.
  - clear. apply Req_le. generalize 0. induction n as [|n IH]; intros a; [cbn; ring|]. cbn [seq map rsum]. rewrite IH, S_INR. ring.
Qed.

Lemma lipschitz_mult n g h : locally_lipschitz n g -> locally_lipschitz n h -> locally_lipschitz n (fun y => g y * h y)%R.
Proof.
  intros Hg Hh M. destruct (lipschitz_bounded n g M Hg) as (A & PA & HA). destruct (lipschitz_bounded n h M Hh) as (B & PB & HB).
  destruct (Hg M) as (L1 & P1 & H1). destruct (Hh M) as (L2 & P2 & H2). exists (A * L2 + B * L1)%R.
  split; [assert (0 <= A * L2)%R by (apply Rmult_le_pos; assumption); assert (0 <= B * L1)%R by (apply Rmult_le_pos; assumption); lra|].
  intros y y' By By'. specialize (H1 y y' By By'). specialize (H2 y y' By By'). specialize (HA y By). specialize (HB y' By').
  replace (g y * h y - g y' * h y')%R with (g y * (h y - h y') + h y' * (g y - g y'))%R by ring.
  apply Rle_trans with (1 := Rabs_triang _ _). rewrite !Rabs_mult. rewrite Rmult_plus_distr_r.
  apply Rplus_le_compat.
  - rewrite Rmult_assoc. apply Rmult_le_compat; auto using Rabs_pos.
  - rewrite Rmult_assoc. apply Rmult_le_compat; auto using Rabs_pos.
Qed.

Lemma lipschitz_pow n g k : locally_lipschitz n g -> locally_lipschitz n (fun y => g y ^ k)%R.
Proof. intros H. induction k as [|k IH]; cbn [pow]; [apply lipschitz_const | apply lipschitz_mult; assumption]. Qed.

Lemma lipschitz_rsum {A} n (g : A -> list R -> R) l : (forall a, In a l -> locally_lipschitz n (g a)) ->
  locally_lipschitz n (fun y => rsum (map (fun a => g a y) l)).
Proof.
  induction l as [|a l IH]; intros H; cbn; [apply lipschitz_const|].
  apply lipschitz_plus; [apply H; left; reflexivity | apply IH; intros b Hb; apply H; right; exact Hb].
Qed.
Lemma lipschitz_rprod {A} n (g : A -> list R -> R) l : (forall a, In a l -> locally_lipschitz n (g a)) ->
  locally_lipschitz n (fun y => rprod (map (fun a => g a y) l)).
Proof.
  induction l as [|a l IH]; intros H; cbn; [apply lipschitz_const|].
  apply lipschitz_mult; [apply H; left; reflexivity | apply IH; intros b Hb; apply H; right; exact Hb].
Qed.
