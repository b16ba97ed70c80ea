(* Existence of solutions of y' = G(t,y) for right-hand sides that are bounded,
   Lipschitz in y and continuous along continuous functions (Picard). *)
From Coq Require Import List Bool Arith Lia ZArith Reals Lra.
From Verif Require Import SpecKin LangFacts OdeFacts OdeInt.
Import ListNotations.
Open Scope R_scope.

Definition path := R -> nat -> R.
Definition smooth (p : path) : Prop := forall i t, continuity_pt (fun s => p s i) t.
Definition away (n : nat) (x y : nat -> R) : R := rsum (map (fun j => Rabs (x j - y j)) (seq 0 n)).

Lemma away_le n x y e : (forall j, Rabs (x j - y j) <= e) -> away n x y <= INR n * e.
Proof.
  intros H. unfold away. assert (G : forall l, rsum (map (fun j => Rabs (x j - y j)) l) <= INR (length l) * e).
  { induction l as [|a l IH]; [cbn; lra|]. cbn [map rsum length]. rewrite S_INR. specialize (H a). lra. }
  rewrite <- (seq_length n 0) at 2. apply G.
Qed.

Section Picard.
Context (n : nat) (G : nat -> R -> (nat -> R) -> R) (L M a : R) (y0 : nat -> R).
Context (PL : 0 <= L) (PM : 0 <= M).
Context (GC : forall p i, smooth p -> forall t, continuity_pt (fun s => G i s (p s)) t).
Context (GL : forall i t x y, Rabs (G i t x - G i t y) <= L * away n x y).
Context (GM : forall i t x, Rabs (G i t x) <= M).

Fixpoint step (k : nat) : path :=
  match k with
  | O => fun _ i => y0 i
  | S k => fun t i => y0 i + integ (fun s => G i s (step k s)) a t
  end.

Lemma step_smooth k : smooth (step k).
Proof.
  induction k as [|k IH]; intros i t; cbn [step].
  - apply continuity_pt_const. intros x y. reflexivity.
  - apply (continuity_pt_plus (fun _ => y0 i) (integ (fun s => G i s (step k s)) a)); [apply continuity_pt_const; intros x y; reflexivity|].
    apply integ_continuous. apply GC, IH.
Qed.
Lemma step_lipschitz k i s t : a <= s -> a <= t -> Rabs (step k s i - step k t i) <= M * Rabs (s - t).
Proof.
  assert (W : forall s t, a <= s <= t -> Rabs (step k s i - step k t i) <= M * Rabs (s - t)).
  { intros p q H. destruct k as [|k]; cbn [step].
    - replace (y0 i - y0 i) with 0 by ring. rewrite Rabs_R0. apply Rmult_le_pos; [exact PM | apply Rabs_pos].
    - set (g := fun s => G i s (step k s)). assert (Cg : forall s, continuity_pt g s) by (apply GC, step_smooth).
      assert (D : forall x, derivable_pt_lim (fun x => M * x) x (M * 1)) by (intros x; apply (derivable_pt_lim_scal id M x 1), derivable_pt_lim_id).
      assert (A := slower (integ g a) g (fun x => M * x) (fun _ => M * 1) p q (proj2 H) (fun x _ => integ_derive g a x Cg) (fun x _ => D x)).
      assert (B := slower (- integ g a)%F (fun x => - g x) (fun x => M * x) (fun _ => M * 1) p q (proj2 H) (fun x _ => derivable_pt_lim_opp (integ g a) x (g x) (integ_derive g a x Cg)) (fun x _ => D x)).
      unfold opp_fct in B.
      assert (A' := A (fun x _ => Rle_trans _ _ _ (Rle_abs (g x)) (Rle_trans _ _ _ (GM i x (step k x)) (Req_le _ _ (eq_sym (Rmult_1_r M)))))).
      assert (B' : - integ g a q - - integ g a p <= M * q - M * p).
      { apply B. intros x _. apply Rle_trans with (1 := Rle_abs (- g x)). rewrite Rabs_Ropp, Rmult_1_r. apply GM. }
      rewrite (Rabs_minus_sym p q), (Rabs_pos_eq (q - p)) by lra.
      unfold Rabs. destruct (Rcase_abs _); lra. }
  intros Hs Ht. destruct (Rle_dec s t); [apply W; lra|]. rewrite Rabs_minus_sym, (Rabs_minus_sym s). apply W; lra.
Qed.

Let K := 2 * (INR n * L) + 1.
Lemma K_pos : 1 <= K.
Proof. unfold K. assert (0 <= INR n * L) by (apply Rmult_le_pos; [apply pos_INR | exact PL]). lra. Qed.
Let E := fun t => exp (K * (t - a)).
Lemma E_derive c t : derivable_pt_lim (fun t => c * E t) t (c * (K * E t)).
Proof.
  apply (derivable_pt_lim_scal E). replace (K * E t) with (exp (K * (t - a)) * (K * (1 - 0))) by (unfold E; ring).
  apply (derivable_pt_lim_comp (fun t => K * (t - a)) exp); [|apply derivable_pt_lim_exp].
  apply (derivable_pt_lim_scal (fun t => t - a)). apply (derivable_pt_lim_minus id (fun _ => a)); [apply derivable_pt_lim_id | apply derivable_pt_lim_const].
Qed.
Lemma E_pos t : 0 < E t. Proof. apply exp_pos. Qed.
Lemma half_pos k : 0 < (/ 2) ^ k. Proof. apply pow_lt. lra. Qed.

Lemma step_close k : forall i t, a <= t -> Rabs (step (S k) t i - step k t i) <= M * (/ 2) ^ k * E t.
Proof.
  induction k as [|k IH]; intros i t Ht.
  - cbn [step pow]. replace (y0 i + integ (fun s => G i s (fun i => y0 i)) a t - y0 i) with (integ (fun s => G i s (fun i => y0 i)) a t) by ring.
    assert (C : forall s, continuity_pt (fun s => G i s (fun i => y0 i)) s).
    { apply (GC (fun _ i => y0 i)). intros j s. apply continuity_pt_const. intros x y. reflexivity. }
    assert (B := integ_bound _ (fun x => M * E x) (fun x => M * (K * E x)) a t Ht C (fun s _ => E_derive M s)).
    apply Rle_trans with (M * E t - M * E a).
    + apply B. intros s Hs. apply Rle_trans with (1 := GM i s _). rewrite <- (Rmult_1_r M) at 1. apply Rmult_le_compat_l; [exact PM|].
      assert (1 <= E s).
      { unfold E. destruct (Req_dec (K * (s - a)) 0) as [->|Ne]; [rewrite exp_0; lra|]. left. rewrite <- exp_0. apply exp_increasing.
        assert (0 <= K * (s - a)) by (apply Rmult_le_pos; [assert (X := K_pos); lra | lra]). lra. }
      assert (X := K_pos). nra.
    + assert (X := E_pos a). assert (0 <= M * E a) by (apply Rmult_le_pos; lra). lra.
  - set (h := M * (/ 2) ^ S k).
    replace (step (S (S k)) t i - step (S k) t i) with (integ (fun s => G i s (step (S k) s)) a t - integ (fun s => G i s (step k s)) a t) by (cbn [step]; ring).
    assert (Ph : 0 <= h) by (apply Rmult_le_pos; [exact PM | left; apply half_pos]).
    apply Rle_trans with (h * E t - h * E a).
    + apply (integ_diff _ _ (fun x => h * E x) (fun x => h * (K * E x)) a t Ht); [apply GC, step_smooth | apply GC, step_smooth | intros s _; apply E_derive|].
      intros s Hs. apply Rle_trans with (1 := GL i s _ _).
      apply Rle_trans with (L * (INR n * (M * (/ 2) ^ k * E s))).
      * apply Rmult_le_compat_l; [exact PL|]. apply away_le. intros j. apply IH. lra.
      * unfold h. cbn [pow]. assert (P1 := half_pos k). assert (P2 := E_pos s). set (c := M * (/ 2) ^ k * E s).
        assert (Pc : 0 <= c) by (apply Rmult_le_pos; [apply Rmult_le_pos; lra | lra]).
        replace (M * (/ 2 * (/ 2) ^ k) * (K * E s)) with (/ 2 * K * c) by (unfold c; ring). unfold K. nra.
    + assert (X := E_pos a). assert (0 <= h * E a) by (apply Rmult_le_pos; lra). lra.
Qed.
Lemma step_far k p i t : a <= t -> Rabs (step (p + k) t i - step k t i) <= 2 * M * (/ 2) ^ k * E t * (1 - (/ 2) ^ p).
Proof.
  intros Ht. induction p as [|p IH].
  - cbn [Nat.add pow]. replace (step k t i - step k t i) with 0 by ring. rewrite Rabs_R0. right. ring.
  - cbn [Nat.add]. replace (step (S (p + k)) t i - step k t i) with ((step (S (p + k)) t i - step (p + k) t i) + (step (p + k) t i - step k t i)) by ring.
    apply Rle_trans with (1 := Rabs_triang _ _). apply Rle_trans with (M * (/ 2) ^ (p + k) * E t + 2 * M * (/ 2) ^ k * E t * (1 - (/ 2) ^ p)).
    + apply Rplus_le_compat; [apply step_close, Ht | exact IH].
    + right. rewrite pow_add. cbn [pow]. field.
Qed.
Lemma half_small e : 0 < e -> exists k, forall j, (k <= j)%nat -> (/ 2) ^ j < e.
Proof.
  intros He. destruct (pow_lt_1_zero (/ 2) ltac:(rewrite Rabs_pos_eq; lra) e He) as [k Hk]. exists k. intros j Hj.
  specialize (Hk j Hj). rewrite Rabs_pos_eq in Hk; [exact Hk | left; apply half_pos].
Qed.
Lemma step_far' k p i t : a <= t -> Rabs (step (p + k) t i - step k t i) <= 2 * M * (/ 2) ^ k * E t.
Proof.
  intros Ht. apply Rle_trans with (1 := step_far k p i t Ht). rewrite <- (Rmult_1_r (2 * M * (/ 2) ^ k * E t)) at 2.
  apply Rmult_le_compat_l; [|assert (X := half_pos p); lra].
  assert (X := half_pos k). assert (Y := E_pos t). apply Rmult_le_pos; [apply Rmult_le_pos; lra | lra].
Qed.
Lemma step_cauchy i t : a <= t -> Cauchy_crit (fun k => step k t i).
Proof.
  intros Ht e He. assert (PE := E_pos t). set (c := 2 * M * E t + 1). assert (Pc : 0 < c) by (unfold c; assert (0 <= M * E t) by (apply Rmult_le_pos; lra); lra).
  destruct (half_small (e / c) ltac:(apply Rdiv_lt_0_compat; lra)) as [k Hk]. exists k.
  assert (Q : forall p q, (k <= q <= p)%nat -> Rabs (step p t i - step q t i) < e).
  { intros p q H. replace p with ((p - q) + q)%nat by lia. apply Rle_lt_trans with (1 := step_far' q (p - q) i t Ht).
    specialize (Hk q ltac:(lia)). assert (Ph := half_pos q).
    apply Rle_lt_trans with ((/ 2) ^ q * c); [unfold c; nra|]. apply Rlt_le_trans with (e / c * c); [apply Rmult_lt_compat_r; assumption|]. right. field. lra. }
  intros p q Hp Hq. unfold R_dist. destruct (le_lt_dec q p); [apply Q; lia|]. rewrite Rabs_minus_sym. apply Q. lia.
Qed.

Definition limit : path := fun t i => proj1_sig (R_complete _ (step_cauchy i (Rmax a t) (Rmax_l a t))).

Lemma limit_cv t i : a <= t -> Un_cv (fun k => step k t i) (limit t i).
Proof. intros Ht. unfold limit. destruct (R_complete _ _) as [l Hl]. cbn [proj1_sig]. rewrite Rmax_right in Hl by exact Ht. exact Hl. Qed.
Lemma limit_close k t i : a <= t -> Rabs (limit t i - step k t i) <= 2 * M * (/ 2) ^ k * E t.
Proof.
  intros Ht. apply Rnot_lt_le. intros H. set (B := 2 * M * (/ 2) ^ k * E t) in *.
  destruct (limit_cv t i Ht (Rabs (limit t i - step k t i) - B) ltac:(lra)) as [q Hq].
  specialize (Hq (q + k)%nat ltac:(lia)). unfold R_dist in Hq. assert (F := step_far' k q i t Ht). fold B in F.
  assert (T := Rabs_triang (limit t i - step (q + k) t i) (step (q + k) t i - step k t i)).
  replace (limit t i - step (q + k) t i + (step (q + k) t i - step k t i)) with (limit t i - step k t i) in T by ring.
  rewrite (Rabs_minus_sym (limit t i) (step (q + k) t i)) in T. lra.
Qed.
Lemma cv_le (f : nat -> R) l c : Un_cv f l -> (forall k, Rabs (f k) <= c) -> Rabs l <= c.
Proof.
  intros H B. apply Rnot_lt_le. intros X. destruct (H (Rabs l - c) ltac:(lra)) as [q Hq]. specialize (Hq q ltac:(lia)). unfold R_dist in Hq. specialize (B q).
  assert (T := Rabs_triang (l - f q) (f q)). replace (l - f q + f q) with l in T by ring. rewrite (Rabs_minus_sym l) in T. lra.
Qed.
Lemma limit_lipschitz i s t : a <= s -> a <= t -> Rabs (limit s i - limit t i) <= M * Rabs (s - t).
Proof.
  intros Hs Ht. apply (cv_le (fun k => step k s i - step k t i)); [apply CV_minus; apply limit_cv; assumption|]. intros k. apply step_lipschitz; assumption.
Qed.
Lemma limit_before t i : t <= a -> limit t i = limit a i.
Proof.
  intros Ht. assert (C := limit_cv a i (Rle_refl a)). unfold limit in *. destruct (R_complete _ (step_cauchy i (Rmax a t) _)) as [l Hl]. destruct (R_complete _ _) as [l' Hl'].
  cbn [proj1_sig] in *. rewrite Rmax_left in Hl by exact Ht. exact (UL_sequence _ _ _ Hl C).
Qed.
Lemma limit_smooth : smooth limit.
Proof.
  assert (W : forall i s t, Rabs (limit s i - limit t i) <= M * Rabs (s - t)).
  { intros i s t. destruct (Rle_dec a s) as [Hs|Hs]; destruct (Rle_dec a t) as [Ht|Ht].
    - apply limit_lipschitz; assumption.
    - rewrite (limit_before t) by lra. apply Rle_trans with (1 := limit_lipschitz i s a Hs (Rle_refl a)). apply Rmult_le_compat_l; [exact PM|]. rewrite !Rabs_pos_eq by lra. lra.
    - rewrite (limit_before s) by lra. apply Rle_trans with (1 := limit_lipschitz i a t (Rle_refl a) Ht). apply Rmult_le_compat_l; [exact PM|].
      rewrite (Rabs_minus_sym a), (Rabs_minus_sym s), !Rabs_pos_eq by lra. lra.
    - rewrite (limit_before t), (limit_before s) by lra. replace (limit a i - limit a i) with 0 by ring. rewrite Rabs_R0. apply Rmult_le_pos; [exact PM | apply Rabs_pos]. }
  intros i t e He. exists (e / (M + 1)). split; [apply Rdiv_lt_0_compat; lra|]. intros x [_ Hx]. simpl in Hx |- *. unfold R_dist in *.
  apply Rle_lt_trans with (1 := W i x t). assert (P := Rabs_pos (x - t)).
  apply Rle_lt_trans with ((M + 1) * Rabs (x - t)); [nra|]. apply Rlt_le_trans with ((M + 1) * (e / (M + 1))); [apply Rmult_lt_compat_l; lra|]. right. field. lra.
Qed.
Lemma limit_integral i t : a <= t -> limit t i = y0 i + integ (fun s => G i s (limit s)) a t.
Proof.
  intros Ht. assert (PE := E_pos t). assert (PK := K_pos). set (c := 2 * M * E t + 1). assert (PME : 0 <= M * E t) by (apply Rmult_le_pos; lra). assert (Pc : 0 < c) by (unfold c; lra).
  assert (D : forall k, Rabs (limit t i - (y0 i + integ (fun s => G i s (limit s)) a t)) <= 2 * c * (/ 2) ^ k).
  { intros k. assert (Ph := half_pos k). assert (F := limit_close (S k) t i Ht).
    assert (Q : Rabs (step (S k) t i - (y0 i + integ (fun s => G i s (limit s)) a t)) <= c * (/ 2) ^ k).
    { cbn [step]. replace (y0 i + integ (fun s => G i s (step k s)) a t - (y0 i + integ (fun s => G i s (limit s)) a t))
        with (integ (fun s => G i s (step k s)) a t - integ (fun s => G i s (limit s)) a t) by ring.
      set (h := M * (/ 2) ^ k). assert (Pph : 0 <= h) by (apply Rmult_le_pos; lra).
      apply Rle_trans with (h * E t - h * E a).
      - apply (integ_diff _ _ (fun x => h * E x) (fun x => h * (K * E x)) a t Ht); [apply GC, step_smooth | apply GC, limit_smooth | intros s _; apply E_derive|].
        intros s Hs. apply Rle_trans with (1 := GL i s _ _).
        apply Rle_trans with (L * (INR n * (2 * M * (/ 2) ^ k * E s))).
        + apply Rmult_le_compat_l; [exact PL|]. apply away_le. intros j. rewrite Rabs_minus_sym. apply limit_close. lra.
        + assert (P2 := E_pos s). set (d := M * (/ 2) ^ k * E s).
          assert (Pd : 0 <= d) by (apply Rmult_le_pos; [apply Rmult_le_pos; lra | lra]).
          replace (h * (K * E s)) with (K * d) by (unfold d, h; ring). unfold K. replace (2 * M * (/ 2) ^ k * E s) with (2 * d) by (unfold d; ring). nra.
      - assert (X := E_pos a). assert (0 <= h * E a) by (apply Rmult_le_pos; lra). assert (h * E t <= c * (/ 2) ^ k) by (replace (h * E t) with (M * E t * (/ 2) ^ k) by (unfold h; ring); apply Rmult_le_compat_r; [lra | unfold c; lra]). lra. }
    assert (T := Rabs_triang (limit t i - step (S k) t i) (step (S k) t i - (y0 i + integ (fun s => G i s (limit s)) a t))).
    replace (limit t i - step (S k) t i + (step (S k) t i - (y0 i + integ (fun s => G i s (limit s)) a t))) with (limit t i - (y0 i + integ (fun s => G i s (limit s)) a t)) in T by ring.
    cbn [pow] in F. assert (2 * M * (/ 2 * (/ 2) ^ k) * E t <= c * (/ 2) ^ k) by (replace (2 * M * (/ 2 * (/ 2) ^ k) * E t) with (M * E t * (/ 2) ^ k) by field; apply Rmult_le_compat_r; [lra | unfold c; lra]). lra. }
  set (x := limit t i - (y0 i + integ (fun s => G i s (limit s)) a t)) in *.
  destruct (Req_dec x 0) as [Z|Z]; [unfold x in Z; lra|]. exfalso. assert (Px := Rabs_pos_lt x Z).
  destruct (half_small (Rabs x / (2 * c)) ltac:(apply Rdiv_lt_0_compat; lra)) as [k Hk]. specialize (Hk k ltac:(lia)). specialize (D k).
  assert (2 * c * (/ 2) ^ k < 2 * c * (Rabs x / (2 * c))) by (apply Rmult_lt_compat_l; lra). replace (2 * c * (Rabs x / (2 * c))) with (Rabs x) in H by (field; lra). lra.
Qed.

Theorem picard : exists u : path, (forall i, u a i = y0 i) /\ smooth u /\ forall i t, a < t -> derivable_pt_lim (fun s => u s i) t (G i t (u t)).
Proof.
  exists limit. split; [intros i; rewrite limit_integral by lra; rewrite integ_start; ring|]. split; [apply limit_smooth|].
  intros i t Ht. assert (C : forall s, continuity_pt (fun s => G i s (limit s)) s) by (apply GC, limit_smooth).
  assert (D : derivable_pt_lim (fun s => y0 i + integ (fun s => G i s (limit s)) a s) t (0 + G i t (limit t))).
  { apply (derivable_pt_lim_plus (fun _ => y0 i) (integ (fun s => G i s (limit s)) a)); [apply derivable_pt_lim_const | apply (integ_derive (fun s => G i s (limit s))), C]. }
  rewrite Rplus_0_l in D. intros e He. destruct (D e He) as [d Hd].
  assert (Pd : 0 < Rmin d (t - a)) by (apply Rmin_pos; [apply cond_pos | lra]). exists (mkposreal _ Pd). intros h Hh0 Hh. cbn in Hh.
  assert (H1 := Rmin_l d (t - a)). assert (H2 := Rmin_r d (t - a)).
  assert (H3 : a <= t + h) by (unfold Rabs in Hh; destruct (Rcase_abs h); lra).
  rewrite (limit_integral i (t + h) H3), (limit_integral i t) by lra. apply Hd; [exact Hh0 | lra].
Qed.
End Picard.
