(* A solution that starts near a bounded one stays near it: the equations are
   only Lipschitz on bounded sets, and nothing is known of the second solution
   but where it starts. *)
From Coq Require Import List Bool Arith Lia ZArith Reals Lra.
From Verif Require Import Base SpecKin LangFacts SpecSolver OdeFacts SpecMethod SpecTraj OdeSign OdeClose.
Import ListNotations.
Open Scope nat_scope.
Open Scope list_scope.

(* A continuous function that is at most 1/2 whenever it has been at most 1 so far. *)
Lemma stays (d : R -> R) T : (0 <= T)%R -> (forall t, continuity_pt d t) -> (d 0 <= 1)%R ->
  (forall s, (0 <= s <= T)%R -> (forall r, (0 <= r <= s)%R -> (d r <= 1)%R) -> (d s <= 1 / 2)%R) ->
  forall t, (0 <= t <= T)%R -> (d t <= 1 / 2)%R.
Proof.
  intros HT C D0 H t1 Ht1.
  set (E := fun x => (0 <= x <= t1)%R /\ forall s, (0 <= s <= x)%R -> (d s <= 1)%R).
  assert (E0 : E 0%R) by (split; [lra|]; intros s Hs; replace s with 0%R by lra; exact D0).
  destruct (completeness E) as [a [Ub Lub]].
  { exists t1. intros x [Hx _]. lra. }
  { exists 0%R. exact E0. }
  assert (Pa : (0 <= a <= t1)%R) by (split; [apply Ub, E0 | apply Lub; intros x [Hx _]; lra]).
  assert (Bel : forall s, (0 <= s)%R -> (s < a)%R -> (d s <= 1)%R).
  { intros s Hs0 Hs. destruct (Rle_dec (d s) 1) as [X|X]; [exact X | exfalso]. assert (a <= s)%R; [|lra].
    apply Lub. intros x [Hx Hw]. destruct (Rle_dec x s) as [Y|Y]; [exact Y | exfalso]. apply X, Hw. lra. }
  assert (Cont : forall x e, (0 < e)%R -> exists h, (0 < h)%R /\ forall s, (Rabs (s - x) < h)%R -> (Rabs (d s - d x) < e)%R).
  { intros x e Pe. destruct (C x e Pe) as (h & Ph & Hh). exists h. split; [exact Ph|]. intros s Hs.
    destruct (Req_dec s x) as [->|Ne]; [replace (d x - d x)%R with 0%R by ring; rewrite Rabs_R0; exact Pe|].
    apply Hh. split; [split; [exact I | intros Q; apply Ne; symmetry; exact Q] | exact Hs]. }
  assert (Da : (d a <= 1)%R).
  { destruct (Rle_dec (d a) 1) as [X|X]; [exact X | exfalso]. destruct (Req_dec a 0) as [->|Na]; [lra|].
    destruct (Cont a (d a - 1)%R ltac:(lra)) as (h & Ph & Hh). set (s := Rmax (a / 2) (a - h / 2)).
    assert (Hs : (0 <= s < a)%R) by (unfold s, Rmax; destruct (Rle_dec _ _); lra).
    assert (X1 := Bel s (proj1 Hs) (proj2 Hs)).
    assert (X2 : (Rabs (s - a) < h)%R) by (unfold s, Rmax, Rabs; destruct (Rle_dec _ _), (Rcase_abs _); lra).
    specialize (Hh s X2). unfold Rabs in Hh. destruct (Rcase_abs _) in Hh; lra. }
  assert (Upto : forall r, (0 <= r <= a)%R -> (d r <= 1)%R).
  { intros r Hr. destruct (Req_dec r a) as [->|]; [exact Da | apply Bel; lra]. }
  assert (Ha := H a ltac:(lra) Upto).
  destruct (Req_dec a t1) as [<-|Ne]; [exact Ha|]. exfalso.
  destruct (Cont a (1 / 2)%R ltac:(lra)) as (h & Ph & Hh). set (x := (a + Rmin (h / 2) (t1 - a))%R).
  assert (Px : (0 < Rmin (h / 2) (t1 - a))%R) by (apply Rmin_pos; lra).
  assert (M1 := Rmin_l (h / 2) (t1 - a)). assert (M2 := Rmin_r (h / 2) (t1 - a)).
  assert (X : (x <= a)%R); [|unfold x in X; lra]. apply Ub. split; [unfold x; lra|]. intros s Hs. unfold x in Hs.
  destruct (Rle_dec s a) as [L|L]; [apply Upto; lra|].
  assert (Y : (Rabs (s - a) < h)%R) by (unfold Rabs; destruct (Rcase_abs _); lra). specialize (Hh s Y).
  unfold Rabs in Hh. destruct (Rcase_abs _) in Hh; lra.
Qed.

Lemma solves_upto f T s u : (0 <= s <= T)%R -> solves f T u -> solves f s u.
Proof.
  intros Hs [U (jumps & J)]. split.
  - intros t Ht. destruct (U t ltac:(lra)) as [L C]. split; [exact L|]. intros i Hi eps He. destruct (C i Hi eps He) as (h & Ph & H).
    exists h. split; [exact Ph|]. intros r Hr. apply H. lra.
  - exists jumps. intros t Ht Nt. destruct (J t ltac:(lra) Nt) as (d & Ed & D). exists d. split; [exact Ed|]. intros i Hi eps He.
    destruct (D i Hi eps He) as (h & Ph & H). exists h. split; [exact Ph|]. intros r Hr. apply H. lra.
Qed.

Section Near.
Context (n : nat) (F : R -> list R -> list R) (T : R) (HT : (0 <= T)%R).
Context (HL : forall i, i < n -> ulip n (fun t => 0 <= t <= T)%R (fun t y => nth i (F t y) 0%R)).

Lemma follows_upto s f u : (0 <= s <= T)%R -> follows n F T f u -> follows n F s f u.
Proof.
  intros Hs (L & S & A). split; [exact L|]. split; [eapply solves_upto; [exact Hs | exact S]|]. intros t d Ht. apply A. lra.
Qed.

Lemma dist1_entry y z i : i < n -> (Rabs (nth i y 0 - nth i z 0) <= dist1 n y z)%R.
Proof.
  intros Hi. unfold dist1. assert (H : In i (seq 0 n)) by (apply in_seq; lia). revert H. generalize (seq 0 n) as l.
  induction l as [|a l IH]; intros Hin; [contradiction|]. cbn [map rsum].
  assert (P : (0 <= rsum (map (fun j => Rabs (nth j y 0 - nth j z 0)) l))%R) by (apply rsum_nonneg; intros x Hx; apply in_map_iff in Hx as (j & <- & _); apply Rabs_pos).
  assert (Q := Rabs_pos (nth a y 0 - nth a z 0)%R). destruct Hin as [->|Hin]; [lra | specialize (IH Hin); lra].
Qed.

Lemma solution_near M : exists C D, (0 <= C)%R /\ (0 < D)%R /\ forall f g u v, follows n F T f u -> follows n F T g v ->
  (forall t, (0 <= t <= T)%R -> bounded_by n M (u t)) -> (dist1 n (u 0%R) (v 0%R) <= D)%R ->
  forall t, (0 <= t <= T)%R -> (dist1 n (u t) (v t) <= C * dist1 n (u 0%R) (v 0%R))%R.
Proof.
  destruct (ulip_all n _ (fun i t y => nth i (F t y) 0%R) HL (M + 1)) as (L & PL & Lip).
  set (C := (INR n * exp (2 * L * INR n * T))%R). assert (Pn := pos_INR n).
  assert (PC : (0 <= C)%R) by (apply Rmult_le_pos; [exact Pn | left; apply exp_pos]).
  exists C, (1 / (2 * (C + 1)))%R. split; [exact PC|]. split; [apply Rdiv_lt_0_compat; lra|].
  intros f g u v Hu Hv Bu H0. set (d0 := dist1 n (u 0%R) (v 0%R)) in *.
  assert (P0 : (0 <= d0)%R) by apply dist1_nonneg.
  assert (Hd0 : (d0 * (2 * (C + 1)) <= 1)%R).
  { apply Rmult_le_compat_r with (r := (2 * (C + 1))%R) in H0; [|lra]. unfold Rdiv in H0. rewrite Rmult_assoc, Rinv_l, Rmult_1_r in H0 by lra. exact H0. }
  assert (Step : forall s, (0 <= s <= T)%R -> (forall r, (0 <= r <= s)%R -> (dist1 n (u r) (v r) <= 1)%R) -> (dist1 n (u s) (v s) <= C * d0)%R).
  { intros s Hs Hr. apply Rle_trans with (INR n * exp (2 * L * INR n * s) * d0)%R.
    - apply (solution_close_by n F s (proj1 Hs) (M + 1) L PL) with (f := f) (g := g) (u := u) (v := v).
      + intros i Hi t y y' Ht B B'. apply (Lip i Hi t y y'); [lra | exact B | exact B'].
      + apply (follows_upto s f u Hs Hu).
      + apply (follows_upto s g v Hs Hv).
      + intros t Ht. destruct (Bu t ltac:(lra)) as [Lu Bt]. split; [exact Lu|]. intros i Hi. specialize (Bt i Hi). lra.
      + intros t Ht. destruct Hv as (Lv & [Cv _] & _). split; [rewrite (proj1 (Cv t ltac:(lra))); exact Lv|]. intros i Hi.
        assert (Q := dist1_entry (u t) (v t) i Hi). assert (Q1 := Hr t Ht). assert (Q2 := proj2 (Bu t ltac:(lra)) i Hi).
        assert (Q3 : (Rabs (nth i (v t) 0) <= Rabs (nth i (u t) 0) + Rabs (nth i (u t) 0 - nth i (v t) 0))%R).
        { rewrite Rabs_minus_sym. replace (nth i (v t) 0%R) with (nth i (u t) 0 + (nth i (v t) 0 - nth i (u t) 0))%R at 1 by ring. apply Rabs_triang. }
        lra.
      + lra.
    - apply Rmult_le_compat_r; [exact P0|]. unfold C. apply Rmult_le_compat_l; [exact Pn|].
      assert (Q : (0 <= 2 * L * INR n)%R) by (apply Rmult_le_pos; lra).
      assert (Q1 : (2 * L * INR n * s <= 2 * L * INR n * T)%R) by (apply Rmult_le_compat_l; lra).
      destruct (Req_dec (2 * L * INR n * s) (2 * L * INR n * T)) as [->|Ne]; [lra|]. left. apply exp_increasing. lra. }
  assert (CD : (C * d0 <= 1 / 2)%R).
  { assert (Q : (0 <= C * d0)%R) by (apply Rmult_le_pos; assumption). lra. }
  assert (D01 : (d0 <= 1)%R) by (assert (Q : (0 <= d0 * C)%R) by (apply Rmult_le_pos; assumption); lra).
  set (d := fun t => rsum (map (fun i => Rabs (comp T u i t - comp T v i t)) (seq 0 n))).
  assert (Ed : forall t, (0 <= t <= T)%R -> d t = dist1 n (u t) (v t)).
  { intros t Ht. apply rsum_ext. intros i _. unfold comp. rewrite clamp_id by exact Ht. reflexivity. }
  assert (Cd : forall t, continuity_pt d t).
  { intros t. apply (rsum_continuous (fun i t => Rabs (comp T u i t - comp T v i t))). intros i Hi. apply in_seq in Hi.
    destruct Hu as (Lu & [U _] & _). destruct Hv as (Lv & [V _] & _).
    apply (continuity_pt_comp (fun t => comp T u i t - comp T v i t)%R Rabs); [|apply Rcontinuity_abs].
    apply (continuity_pt_minus (comp T u i) (comp T v i)); [apply (sol_continuous T HT u U); rewrite Lu | apply (sol_continuous T HT v V); rewrite Lv]; lia. }
  assert (Half : forall t, (0 <= t <= T)%R -> (d t <= 1 / 2)%R).
  { apply (stays d T HT Cd); [rewrite Ed by lra; exact D01|]. intros s Hs Hr. rewrite Ed by exact Hs.
    eapply Rle_trans; [apply Step; [exact Hs|] | exact CD]. intros r Hr1. rewrite <- Ed by lra. apply Hr, Hr1. }
  intros t Ht. apply Step; [exact Ht|]. intros r Hr. rewrite <- Ed by lra. specialize (Half r ltac:(lra)). lra.
Qed.
End Near.
