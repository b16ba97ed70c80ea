(* Two exact solutions of the same equations: how far apart they can get. *)
From Coq Require Import List Bool Arith Lia ZArith Reals Lra.
From Verif Require Import Base SpecKin LangFacts SpecSolver OdeFacts SpecMethod SpecTraj OdeSign.
Import ListNotations.
Open Scope nat_scope.
Open Scope list_scope.

Lemma gronwall_growth (w w' : R -> R) (K T : R) jumps : (0 <= T)%R -> (0 <= K)%R -> (forall t, continuity_pt w t) ->
  (forall t, (0 < t < T)%R -> ~ In t jumps -> derivable_pt_lim w t (w' t) /\ (w' t <= K * w t)%R) -> (0 <= w 0)%R ->
  forall t, (0 <= t <= T)%R -> (w t <= w 0 * exp (K * T))%R.
Proof.
  intros HT HK C D W0 t Ht.
  set (E := fun s => exp (- K * s)%R).
  assert (DE : forall s, derivable_pt_lim E s (- K * E s)%R).
  { intros s. assert (X := derivable_pt_lim_comp (fun s => - K * s)%R exp s (- K * 1)%R _ (derivable_pt_lim_scal id (- K) s 1 (derivable_pt_lim_id s)) (derivable_pt_lim_exp (- K * s))).
    replace (- K * E s)%R with (exp (- K * s) * (- K * 1))%R by (unfold E; ring). exact X. }
  assert (CE : forall s, continuity_pt E s) by (intros s; apply derivable_continuous_pt; exists (- K * E s)%R; apply DE).
  assert (G : (w t * E t - w 0 <= 0)%R).
  { assert (W00 : (w 0 * E 0 - w 0%R <= 0)%R) by (unfold E; rewrite Rmult_0_r, exp_0; lra).
    pose (w0 := w 0%R). change (w 0 * E 0 - w0 <= 0)%R in W00. change (w t * E t - w0 <= 0)%R. clearbody w0. revert t Ht.
    apply (gronwall_jumps (fun t => w t * E t - w0)%R (fun t => w' t * E t + w t * (- K * E t))%R 0 T jumps HT).
    - intros t. apply (continuity_pt_minus (fun t => w t * E t)%R (fun _ => w0)); [apply (continuity_pt_mult w E); auto | apply continuity_pt_const; intros a b; reflexivity].
    - intros t Ht Nt. destruct (D t Ht Nt) as [D1 D2]. split.
      + assert (X := derivable_pt_lim_minus (fun t => w t * E t)%R (fct_cte w0) t _ 0 (derivable_pt_lim_mult w E t _ _ D1 (DE t)) (derivable_pt_lim_const w0 t)).
        rewrite Rminus_0_r in X. exact X.
      + assert (P : (0 < E t)%R) by apply exp_pos. nra.
    - exact W00. }
  assert (X : (exp (K * T) * E t >= 1)%R).
  { unfold E. rewrite <- exp_plus. destruct (Req_dec (K * T + - K * t) 0) as [->|Ne]; [rewrite exp_0; lra|].
    assert (Y : (0 <= K * (T - t))%R) by (apply Rmult_le_pos; lra). left. rewrite <- exp_0. apply exp_increasing. nra. }
  assert (P : (0 < E t)%R) by apply exp_pos. destruct (Rle_dec (w t) (w 0 * exp (K * T))%R) as [Q|Q]; [exact Q | exfalso].
  assert ((w 0 * exp (K * T)) * E t < w t * E t)%R by (apply Rmult_lt_compat_r; lra).
  assert (w 0 * (exp (K * T) * E t) >= w 0 * 1)%R by (apply Rmult_ge_compat_l; lra). lra.
Qed.

Section Two.
Context (n : nat) (F : R -> list R -> list R) (T : R) (HT : (0 <= T)%R).

(* f describes a solution u along which it agrees with F. *)
Definition follows (f : R -> list R -> option (list R)) (u : R -> list R) : Prop :=
  List.length (u 0%R) = n /\ solves f T u /\ forall t d, (0 <= t <= T)%R -> List.length (u t) = n -> f t (u t) = Some d -> d = F t (u t).

Lemma solution_close_by M L : (0 <= L)%R ->
  (forall i, i < n -> forall t y y', (0 <= t <= T)%R -> bounded_by n M y -> bounded_by n M y' -> (Rabs (nth i (F t y) 0 - nth i (F t y') 0) <= L * dist1 n y y')%R) ->
  forall f g u v, follows f u -> follows g v ->
  (forall t, (0 <= t <= T)%R -> bounded_by n M (u t)) -> (forall t, (0 <= t <= T)%R -> bounded_by n M (v t)) ->
  forall t, (0 <= t <= T)%R -> (dist1 n (u t) (v t) <= INR n * exp (2 * L * INR n * T) * dist1 n (u 0%R) (v 0%R))%R.
Proof.
  intros PL Lip.
  set (K := (2 * L * INR n)%R). assert (PK : (0 <= K)%R) by (apply Rmult_le_pos; [lra | apply pos_INR]).
  assert (Pe := exp_pos (K * T)).
  intros f g u v (Lu & [U [ju Ju]] & Fu) (Lv & [V [jv Jv]] & Fv) Bu Bv. rewrite Lu in *. rewrite Lv in *.
  assert (U' : forall t, (0 <= t <= T)%R -> List.length (u t) = List.length (u 0%R) /\ forall i, i < List.length (u 0%R) -> continuous_on T u t i) by (rewrite Lu; exact U).
  assert (V' : forall t, (0 <= t <= T)%R -> List.length (v t) = List.length (v 0%R) /\ forall i, i < List.length (v 0%R) -> continuous_on T v t i) by (rewrite Lv; exact V).
  set (d := fun i t => (comp T u i t - comp T v i t)%R).
  set (w := fun t => rsum (map (fun i => d i t * d i t)%R (seq 0 n))).
  set (w' := fun t => rsum (map (fun i => 2 * d i t * (nth i (F t (u t)) 0 - nth i (F t (v t)) 0))%R (seq 0 n))).
  assert (Cw : forall t, continuity_pt w t).
  { intros t. apply (rsum_continuous (fun i t => d i t * d i t)%R). intros i Hi. apply in_seq in Hi.
    assert (Cd : continuity_pt (d i) t).
    { apply (continuity_pt_minus (comp T u i) (comp T v i)); [apply (sol_continuous T HT u U') | apply (sol_continuous T HT v V')]; lia. }
    apply (continuity_pt_mult (d i) (d i)); exact Cd. }
  assert (ED : forall t, (0 <= t <= T)%R -> dist1 n (u t) (v t) = rsum (map (fun i => Rabs (d i t)) (seq 0 n))).
  { intros t Ht. apply rsum_ext. intros i _. unfold d, comp. rewrite clamp_id by exact Ht. reflexivity. }
  assert (Dw : forall t, (0 < t < T)%R -> ~ In t (ju ++ jv) -> derivable_pt_lim w t (w' t) /\ (w' t <= K * w t)%R).
  { intros t Ht Nt. assert (Nu : ~ In t ju) by (intros I; apply Nt, in_or_app; auto). assert (Nv : ~ In t jv) by (intros I; apply Nt, in_or_app; auto).
    destruct (Ju t ltac:(lra) Nu) as (du & Edu & Du). assert (du = F t (u t)) by (apply Fu; [lra | apply U; lra | exact Edu]). subst du.
    destruct (Jv t ltac:(lra) Nv) as (dv & Edv & Dv). assert (dv = F t (v t)) by (apply Fv; [lra | apply V; lra | exact Edv]). subst dv. split.
    - apply (rsum_derivable (fun i t => d i t * d i t)%R). intros i Hi. apply in_seq in Hi.
      replace (2 * d i t * (nth i (F t (u t)) 0 - nth i (F t (v t)) 0))%R with
        ((nth i (F t (u t)) 0 - nth i (F t (v t)) 0) * d i t + d i t * (nth i (F t (u t)) 0 - nth i (F t (v t)) 0))%R by ring.
      assert (Dd : derivable_pt_lim (d i) t (nth i (F t (u t)) 0 - nth i (F t (v t)) 0)%R).
      { apply (derivable_pt_lim_minus (comp T u i) (comp T v i)); apply sol_derive; try exact Ht; [apply Du | apply Dv]; lia. }
      apply (derivable_pt_lim_mult (d i) (d i)); exact Dd.
    - set (D := dist1 n (u t) (v t)). assert (EDt := ED t ltac:(lra)). fold D in EDt. unfold w'.
      apply Rle_trans with (rsum (map (fun i => (2 * L * D) * Rabs (d i t))%R (seq 0 n))).
      + apply rsum_le. intros i Hi. apply in_seq in Hi.
        assert (Li := Lip i ltac:(lia) t (u t) (v t) ltac:(lra) (Bu t ltac:(lra)) (Bv t ltac:(lra))). cbv beta in Li. fold D in Li.
        set (gg := (nth i (F t (u t)) 0 - nth i (F t (v t)) 0)%R) in *.
        apply Rle_trans with (Rabs (2 * d i t * gg)); [apply Rle_abs|]. rewrite !Rabs_mult, (Rabs_pos_eq 2) by lra.
        assert (Pd := Rabs_pos (d i t)). nra.
      + rewrite (rsum_mult (fun i => Rabs (d i t))), EDt.
        assert (Sq := square_sum (fun i => d i t) (seq 0 n)). cbv beta in Sq. rewrite seq_length in Sq. unfold K, w.
        apply Rle_trans with (2 * L * (INR n * rsum (map (fun i => d i t * d i t)%R (seq 0 n))))%R; [|apply Req_le; ring].
        rewrite Rmult_assoc. apply Rmult_le_compat_l; [lra | exact Sq]. }
  assert (Pw : forall t, (0 <= w t)%R).
  { intros t. apply rsum_nonneg. intros x Hx. apply in_map_iff in Hx as (i & <- & _). apply Rle_0_sqr. }
  intros t Ht. assert (G := gronwall_growth w w' K T (ju ++ jv) HT PK Cw Dw (Pw 0%R) t Ht).
  rewrite (ED t Ht), (ED 0%R ltac:(lra)).
  set (A := rsum (map (fun i => Rabs (d i t)) (seq 0 n))). set (A0 := rsum (map (fun i => Rabs (d i 0%R)) (seq 0 n))).
  assert (Sq := square_sum (fun i => d i t) (seq 0 n)). cbv beta in Sq. rewrite seq_length in Sq. fold A in Sq. fold (w t) in Sq.
  assert (Q0 : (w 0 <= A0 * A0)%R).
  { unfold w, A0. generalize (seq 0 n) as l. induction l as [|i l IH]; [cbn; lra|]. cbn [map rsum].
    assert (P1 : (0 <= rsum (map (fun i => Rabs (d i 0%R)) l))%R) by (apply rsum_nonneg; intros x Hx; apply in_map_iff in Hx as (j & <- & _); apply Rabs_pos).
    assert (P2 := Rabs_pos (d i 0%R)). assert (P3 : (Rabs (d i 0) * Rabs (d i 0) = d i 0 * d i 0)%R) by (rewrite <- Rabs_mult; apply Rabs_pos_eq, Rle_0_sqr). nra. }
  assert (PA0 : (0 <= A0)%R) by (apply rsum_nonneg; intros x Hx; apply in_map_iff in Hx as (j & <- & _); apply Rabs_pos).
  assert (PA : (0 <= A)%R) by (apply rsum_nonneg; intros x Hx; apply in_map_iff in Hx as (j & <- & _); apply Rabs_pos).
  destruct (Nat.eq_dec n 0) as [Z|Z]; [replace A with 0%R by (unfold A; rewrite Z; reflexivity); apply Rmult_le_pos; [apply Rmult_le_pos; [apply pos_INR | lra] | exact PA0]|].
  assert (N1 : (1 <= INR n)%R) by (replace 1%R with (INR 1) by reflexivity; apply le_INR; lia).
  assert (E1 : (1 <= exp (K * T))%R).
  { assert (Y : (0 <= K * T)%R) by (apply Rmult_le_pos; assumption). destruct (Req_dec (K * T) 0) as [->|Ne]; [rewrite exp_0; lra|]. left. rewrite <- exp_0. apply exp_increasing. lra. }
  set (E := exp (K * T)) in *. set (m := INR n) in *.
  assert (B1 : (A * A <= (m * E) * (A0 * A0))%R).
  { apply Rle_trans with (1 := Sq). rewrite Rmult_assoc. apply Rmult_le_compat_l; [lra|]. apply Rle_trans with (1 := G).
    rewrite Rmult_comm. apply Rmult_le_compat_l; lra. }
  assert (B2 : (1 <= m * E)%R) by nra.
  assert (B3 : (A * A <= (m * E * A0) * (m * E * A0))%R).
  { apply Rle_trans with (1 := B1). replace (m * E * A0 * (m * E * A0))%R with ((m * E) * ((m * E) * (A0 * A0)))%R by ring.
    assert (P4 : (0 <= A0 * A0)%R) by (apply Rmult_le_pos; lra). set (c := (m * E)%R) in *. assert (P5 : (0 <= c * (A0 * A0))%R) by (apply Rmult_le_pos; lra). nra. }
  apply Rsqr_incr_0; [exact B3 | exact PA | apply Rmult_le_pos; lra].
Qed.

Context (HL : forall i, i < n -> ulip n (fun t => 0 <= t <= T)%R (fun t y => nth i (F t y) 0%R)).

Lemma solution_close M : exists C, (0 <= C)%R /\ forall f g u v, follows f u -> follows g v ->
  (forall t, (0 <= t <= T)%R -> bounded_by n M (u t)) -> (forall t, (0 <= t <= T)%R -> bounded_by n M (v t)) ->
  forall t, (0 <= t <= T)%R -> (dist1 n (u t) (v t) <= C * dist1 n (u 0%R) (v 0%R))%R.
Proof.
  destruct (ulip_all n _ (fun i t y => nth i (F t y) 0%R) HL M) as (L & PL & Lip).
  exists (INR n * exp (2 * L * INR n * T))%R. assert (Pe := exp_pos (2 * L * INR n * T)). split; [apply Rmult_le_pos; [apply pos_INR | lra]|].
  exact (solution_close_by M L PL Lip).
Qed.

Lemma solution_unique f g u v : follows f u -> follows g v -> u 0%R = v 0%R -> forall t, (0 <= t <= T)%R -> u t = v t.
Proof.
  intros A B E t Ht. destruct A as (Lu & SU & Fu). destruct B as (Lv & SV & Fv).
  destruct (sol_bounded_all T HT u (proj1 SU)) as [M1 B1]. destruct (sol_bounded_all T HT v (proj1 SV)) as [M2 B2].
  rewrite Lu in B1. rewrite Lv in B2.
  assert (LU : forall s, (0 <= s <= T)%R -> List.length (u s) = n) by (intros s Hs; rewrite <- Lu; apply (proj1 SU s Hs)).
  assert (LV : forall s, (0 <= s <= T)%R -> List.length (v s) = n) by (intros s Hs; rewrite <- Lv; apply (proj1 SV s Hs)).
  destruct (solution_close (Rmax M1 M2)) as (C & PC & HC).
  assert (D : (dist1 n (u t) (v t) <= C * dist1 n (u 0%R) (v 0%R))%R).
  { apply (HC f g u v); [exact (conj Lu (conj SU Fu)) | exact (conj Lv (conj SV Fv)) | | | exact Ht].
    - intros s Hs. split; [apply LU, Hs|]. intros i Hi. apply Rle_trans with (2 := Rmax_l _ _). specialize (B1 i s Hi Hs). unfold comp in B1. rewrite clamp_id in B1 by exact Hs. exact B1.
    - intros s Hs. split; [apply LV, Hs|]. intros i Hi. apply Rle_trans with (2 := Rmax_r _ _). specialize (B2 i s Hi Hs). unfold comp in B2. rewrite clamp_id in B2 by exact Hs. exact B2. }
  rewrite E in D. assert (Z : dist1 n (v 0%R) (v 0%R) = 0%R) by (apply rsum_zero; intros i _; rewrite Rminus_eq_0, Rabs_R0; reflexivity).
  rewrite Z, Rmult_0_r in D. apply nth_ext with (d := 0%R) (d' := 0%R); [rewrite LU, LV by exact Ht; reflexivity|].
  intros i Hi. rewrite LU in Hi by exact Ht.
  assert (X := rsum_zero_all (fun j => Rabs (nth j (u t) 0 - nth j (v t) 0))%R (seq 0 n) (fun j _ => Rabs_pos _) D i ltac:(apply in_seq; lia)).
  cbv beta in X. destruct (Req_dec (nth i (u t) 0%R) (nth i (v t) 0%R)) as [Q|Q]; [exact Q|]. exfalso. apply (Rabs_no_R0 (nth i (u t) 0 - nth i (v t) 0)%R); [lra | exact X].
Qed.
End Two.

(* A quantity that every right-hand side lowers never exceeds its first value. *)
Lemma solution_loses f T u (q : quantity) : (0 <= T)%R -> solves f T u ->
  Forall (fun a => snd a < List.length (u 0%R)) q ->
  (forall t d, (0 <= t <= T)%R -> f t (u t) = Some d -> (amount_of q d <= 0)%R) ->
  forall t, (0 <= t <= T)%R -> (amount_of q (u t) <= amount_of q (u 0%R))%R.
Proof.
  intros HT [U [jumps J]] Hq Hz. set (n := List.length (u 0%R)) in *.
  set (w := fun t => rsum (map (fun p => fst p * comp T u (snd p) t)%R q)).
  assert (Ew : forall s, (0 <= s <= T)%R -> w s = amount_of q (u s)).
  { intros s Hsx. unfold w, amount_of. apply rsum_ext. intros p _. unfold comp. rewrite clamp_id by exact Hsx. reflexivity. }
  rewrite Forall_forall in Hq.
  assert (Cw : forall s, continuity_pt w s).
  { intros s. apply (rsum_continuous (fun p s => fst p * comp T u (snd p) s)%R). intros p Hp.
    apply (continuity_pt_mult (fun _ => fst p) (comp T u (snd p))); [apply continuity_pt_const; intros a b; reflexivity|].
    apply (sol_continuous T HT u U). apply (Hq p Hp). }
  set (w' := fun s => match f s (u s) with Some d => amount_of q d | None => 0%R end).
  assert (Dw : forall s, (0 < s < T)%R -> ~ In s jumps -> derivable_pt_lim w s (w' s) /\ (w' s <= 0)%R).
  { intros s Hsx Ns. destruct (J s ltac:(lra) Ns) as (d & Ed & D). unfold w'. rewrite Ed. split; [|apply (Hz s d); [lra | exact Ed]].
    apply (rsum_derivable (fun p s => fst p * comp T u (snd p) s)%R). intros p Hp.
    apply (derivable_pt_lim_scal (comp T u (snd p))). apply sol_derive; [exact Hsx | apply D, (Hq p Hp)]. }
  pose (w0 := w 0%R).
  assert (G : forall t, (0 <= t <= T)%R -> (w t - w0 <= 0)%R).
  { apply (gronwall_jumps (fun t => w t - w0)%R w' 0 T jumps HT).
    - intros t. apply (continuity_pt_minus w (fun _ => w0)); [apply Cw | apply continuity_pt_const; intros a b; reflexivity].
    - intros t Ht Nt. destruct (Dw t Ht Nt) as [D1 D2]. split; [|lra]. replace (w' t) with (w' t - 0)%R by ring.
      apply (derivable_pt_lim_minus w (fct_cte w0)); [exact D1 | apply derivable_pt_lim_const].
    - unfold w0. lra. }
  intros t Ht. rewrite <- (Ew t Ht), <- (Ew 0%R ltac:(lra)). specialize (G t Ht). unfold w0 in G. lra.
Qed.
