(* Existence of solutions over [0,T] when the right-hand side follows, on
   finitely many pieces of time, regimes that are continuous in time. *)
From Coq Require Import List Bool Arith Lia ZArith Reals Lra.
From Verif Require Import Base SpecKin LangFacts SpecSolver OdeFacts SpecMethod SpecTraj OdeSign OdeClose OdeInt OdePicard.
Import ListNotations.
Open Scope R_scope.
Open Scope list_scope.

(* [a,b] is cut into finitely many intervals with property P. *)
Inductive pieces (P : R -> R -> Prop) : R -> R -> Prop :=
| pieces_one a b : a <= b -> P a b -> pieces P a b
| pieces_join a c b : pieces P a c -> pieces P c b -> pieces P a b.

Lemma pieces_le (P : R -> R -> Prop) a b : pieces P a b -> a <= b.
Proof. induction 1; lra. Qed.
Lemma pieces_sub (P : R -> R -> Prop) : (forall a b a' b', a <= a' -> a' <= b' -> b' <= b -> P a b -> P a' b') ->
  forall a b, pieces P a b -> forall a' b', a <= a' -> a' <= b' -> b' <= b -> pieces P a' b'.
Proof.
  intros H a b Q. induction Q as [a b L Pab|a c b Q1 IH1 Q2 IH2]; intros a' b' H1 H2 H3.
  - apply pieces_one; [exact H2 | apply (H a b); assumption].
  - destruct (Rle_dec b' c); [apply IH1; lra|]. destruct (Rle_dec c a'); [apply IH2; lra|].
    apply pieces_join with c; [apply IH1 | apply IH2]; lra.
Qed.
Lemma pieces_map (P Q : R -> R -> Prop) (k : R -> R) : (forall x y, x <= y -> k x <= k y) -> (forall x y, x <= y -> P x y -> Q (k x) (k y)) ->
  forall a b, pieces P a b -> pieces Q (k a) (k b).
Proof.
  intros Hk HP a b H. induction H as [a b L Pab|a c b Q1 IH1 Q2 IH2]; [apply pieces_one; auto | apply pieces_join with (k c); assumption].
Qed.
Lemma pieces_impl (P Q : R -> R -> Prop) : (forall x y, P x y -> Q x y) -> forall a b, pieces P a b -> pieces Q a b.
Proof. intros H a b X. apply (pieces_map P Q (fun x => x)); auto. Qed.

(* ------------------------------------------------------------------ *)
Section Solvable.
Context (n : nat) (H : nat -> R -> (nat -> R) -> R).
Context (H_ext : forall i t x y, (forall j, (j < n)%nat -> x j = y j) -> H i t x = H i t y).
Definition solvable (a b : R) : Prop := forall y0 : nat -> R, exists u : path, (forall i, u a i = y0 i) /\ smooth u /\
  exists jumps : list R, forall t, a < t < b -> ~ In t jumps -> forall i, (i < n)%nat -> derivable_pt_lim (fun s => u s i) t (H i t (u t)).

Lemma local_derive f g t l d : 0 < d -> (forall s, Rabs (s - t) < d -> f s = g s) -> derivable_pt_lim f t l -> derivable_pt_lim g t l.
Proof.
  intros Pd E D e He. destruct (D e He) as [d1 H1]. assert (P : 0 < Rmin d d1) by (apply Rmin_pos; [exact Pd | apply cond_pos]).
  exists (mkposreal _ P). intros h Nh Hh. cbn in Hh. assert (A := Rmin_l d d1). assert (B := Rmin_r d d1).
  rewrite <- (E (t + h)), <- (E t); [apply H1; [exact Nh | lra] | replace (t - t) with 0 by ring; rewrite Rabs_R0; exact Pd | replace (t + h - t) with h by ring; lra].
Qed.

Lemma solvable_glue a c b : a <= c -> c <= b -> solvable a c -> solvable c b -> solvable a b.
Proof.
  intros Hac Hcb S1 S2 y0. destruct (S1 y0) as (u & U0 & Us & ju & Ju). destruct (S2 (u c)) as (v & V0 & Vs & jv & Jv).
  set (w := fun t i => u (Rmin t c) i + v (Rmax t c) i - u c i).
  assert (WL : forall t i, t <= c -> w t i = u t i) by (intros t i Ht; unfold w; rewrite Rmin_left, Rmax_right by exact Ht; rewrite V0; ring).
  assert (WR : forall t i, c <= t -> w t i = v t i) by (intros t i Ht; unfold w; rewrite Rmin_right, Rmax_left by exact Ht; ring).
  exists w. split; [intros i; rewrite WL by exact Hac; apply U0|]. split.
  - intros i t. assert (C1 : continuity_pt (fun s => Rmin s c) t).
    { intros e He. exists e. split; [exact He|]. intros x [_ Hx]. simpl in *. unfold R_dist in *. unfold Rmin, Rabs in *. repeat destruct (Rle_dec _ _); repeat destruct (Rcase_abs _); lra. }
    assert (C2 : continuity_pt (fun s => Rmax s c) t).
    { intros e He. exists e. split; [exact He|]. intros x [_ Hx]. simpl in *. unfold R_dist in *. unfold Rmax, Rabs in *. repeat destruct (Rle_dec _ _); repeat destruct (Rcase_abs _); lra. }
    unfold w. apply (continuity_pt_minus (fun s => u (Rmin s c) i + v (Rmax s c) i) (fun _ => u c i)); [|apply continuity_pt_const; intros x y; reflexivity].
    apply (continuity_pt_plus (fun s => u (Rmin s c) i) (fun s => v (Rmax s c) i)).
    + apply (continuity_pt_comp (fun s => Rmin s c) (fun s => u s i)); [exact C1 | apply Us].
    + apply (continuity_pt_comp (fun s => Rmax s c) (fun s => v s i)); [exact C2 | apply Vs].
  - exists (c :: ju ++ jv). intros t Ht Nt i Hi. assert (Ntc : t <> c) by (intros ->; apply Nt; left; reflexivity).
    assert (Nu : ~ In t ju) by (intros X; apply Nt; right; apply in_or_app; auto). assert (Nv : ~ In t jv) by (intros X; apply Nt; right; apply in_or_app; auto).
    destruct (Rlt_dec t c) as [Hlt|Hlt].
    + rewrite (H_ext i t (w t) (u t)) by (intros j _; apply WL; lra).
      apply (local_derive (fun s => u s i) _ t _ (c - t)); [lra | | apply Ju; [lra | exact Nu | exact Hi]].
      intros s Hs. symmetry. apply WL. unfold Rabs in Hs. destruct (Rcase_abs _); lra.
    + rewrite (H_ext i t (w t) (v t)) by (intros j _; apply WR; lra).
      apply (local_derive (fun s => v s i) _ t _ (t - c)); [lra | | apply Jv; [lra | exact Nv | exact Hi]].
      intros s Hs. symmetry. apply WR. unfold Rabs in Hs. destruct (Rcase_abs _); lra.
Qed.
Lemma solvable_pieces a b : pieces solvable a b -> solvable a b.
Proof.
  intros X. induction X as [a b L S|a c b Q1 IH1 Q2 IH2]; [exact S|]. apply (solvable_glue a c b); try assumption; eapply pieces_le; eassumption.
Qed.
End Solvable.

(* ------------------------------------------------------------------ *)
Definition as_list (n : nat) (x : nat -> R) : list R := map x (seq 0 n).
Definition cut (B v : R) : R := Rmax 0 (Rmin B v).
Definition clip (B : R) (y : list R) : list R := map (cut B) y.

Lemma as_list_length n x : length (as_list n x) = n.
Proof. unfold as_list. rewrite map_length, seq_length. reflexivity. Qed.
Lemma as_list_nth n x i : (i < n)%nat -> nth i (as_list n x) 0 = x i.
Proof. intros Hi. unfold as_list. rewrite (nth_indep _ 0 (x 0%nat)) by (rewrite map_length, seq_length; exact Hi). rewrite map_nth, seq_nth by exact Hi. reflexivity. Qed.
Lemma as_list_of y : as_list (length y) (fun i => nth i y 0) = y.
Proof. apply nth_ext with (d := 0) (d' := 0); [apply as_list_length|]. intros i Hi. rewrite as_list_length in Hi. apply as_list_nth, Hi. Qed.
Lemma cut_range B v : 0 <= B -> 0 <= cut B v <= B.
Proof. intros PB. unfold cut, Rmax, Rmin. repeat destruct (Rle_dec _ _); lra. Qed.
Lemma cut_id B v : 0 <= v <= B -> cut B v = v.
Proof. intros Hv. unfold cut, Rmax, Rmin. repeat destruct (Rle_dec _ _); lra. Qed.
Lemma cut_close B v w : 0 <= B -> Rabs (cut B v - cut B w) <= Rabs (v - w).
Proof. intros PB. unfold cut, Rmax, Rmin, Rabs. repeat destruct (Rle_dec _ _); repeat destruct (Rcase_abs _); lra. Qed.
Lemma clip_nth B y i : (i < length y)%nat -> nth i (clip B y) 0 = cut B (nth i y 0).
Proof. intros Hi. unfold clip. rewrite (nth_indep _ 0 (cut B 0)) by (rewrite map_length; exact Hi). apply map_nth. Qed.
Lemma clip_length B y : length (clip B y) = length y.
Proof. apply map_length. Qed.
Lemma clip_bounded B n y : 0 <= B -> length y = n -> bounded_by n B (clip B y).
Proof.
  intros PB Ly. split; [rewrite clip_length; exact Ly|]. intros i Hi. rewrite clip_nth by lia. destruct (cut_range B (nth i y 0) PB). rewrite Rabs_pos_eq; assumption.
Qed.
Lemma clip_nonneg B y : 0 <= B -> nonneg (clip B y).
Proof. intros PB. apply Forall_forall. intros x Hx. apply in_map_iff in Hx as (v & <- & _). apply cut_range, PB. Qed.
Lemma clip_id B y : (forall i, (i < length y)%nat -> 0 <= nth i y 0 <= B) -> clip B y = y.
Proof.
  intros Hy. apply nth_ext with (d := 0) (d' := 0); [apply clip_length|]. intros i Hi. rewrite clip_length in Hi. rewrite clip_nth by exact Hi. apply cut_id, Hy, Hi.
Qed.
Lemma clip_close B n x y : 0 <= B -> length x = n -> length y = n -> dist1 n (clip B x) (clip B y) <= dist1 n x y.
Proof.
  intros PB Lx Ly. unfold dist1. apply rsum_le. intros i Hi. apply in_seq in Hi. rewrite !clip_nth by lia. apply cut_close, PB.
Qed.
Lemma as_list_away n x y : dist1 n (as_list n x) (as_list n y) = away n x y.
Proof. unfold dist1, away. apply rsum_ext. intros i Hi. apply in_seq in Hi. rewrite !as_list_nth by lia. reflexivity. Qed.

(* A regime: Lipschitz on bounded sets, continuous along continuous functions. *)
Definition flowing (n : nat) (F : R -> list R -> R) : Prop :=
  forall tau (p : path), (forall t, continuity_pt tau t) -> smooth p -> forall t, continuity_pt (fun s => F (tau s) (as_list n (p s))) t.
Definition regime (n : nat) (T : R) (F : R -> list R -> list R) : Prop :=
  forall i, (i < n)%nat -> ulip n (fun t => 0 <= t <= T) (fun t y => nth i (F t y) 0) /\ flowing n (fun t y => nth i (F t y) 0).

Lemma clamp_continuous T t : continuity_pt (clamp T) t.
Proof.
  intros e He. exists e. split; [exact He|]. intros x [_ Hx]. simpl in *. unfold R_dist in *. unfold clamp, Rmax, Rmin, Rabs in *. repeat destruct (Rle_dec _ _); repeat destruct (Rcase_abs _); lra.
Qed.
Lemma cut_continuous B t : 0 <= B -> continuity_pt (cut B) t.
Proof.
  intros PB e He. exists e. split; [exact He|]. intros x [_ Hx]. simpl in *. unfold R_dist in *. apply Rle_lt_trans with (1 := cut_close B x t PB). exact Hx.
Qed.
Lemma clip_as_list B n x : clip B (as_list n x) = as_list n (fun i => cut B (x i)).
Proof. unfold clip, as_list. rewrite map_map. reflexivity. Qed.

(* A finite family of bounds. *)
Lemma ulip_bounds n I (g : nat -> R -> list R -> R) : (forall i, (i < n)%nat -> ulip n I (g i)) ->
  forall M, exists L, 0 <= L /\ forall i, (i < n)%nat -> forall t y y', I t -> bounded_by n M y -> bounded_by n M y' ->
    Rabs (g i t y) <= L /\ Rabs (g i t y - g i t y') <= L * dist1 n y y'.
Proof.
  intros H M. assert (G : forall k, (k <= n)%nat -> exists L, 0 <= L /\ forall i, (i < k)%nat -> forall t y y', I t -> bounded_by n M y -> bounded_by n M y' ->
    Rabs (g i t y) <= L /\ Rabs (g i t y - g i t y') <= L * dist1 n y y').
  { induction k as [|k IH]; intros Hk; [exists 0; split; [lra | intros; lia]|].
    destruct (IH ltac:(lia)) as (L1 & P1 & H1). destruct (H k ltac:(lia) M) as (L2 & P2 & H2). exists (L1 + L2). split; [lra|].
    intros i Hi t y y' It By By'. assert (D := dist1_nonneg n y y'). destruct (Nat.eq_dec i k) as [->|Ne].
    - destruct (H2 t y y' It By By'). split; [lra|]. nra.
    - destruct (H1 i ltac:(lia) t y y' It By By'). split; [lra|]. nra. }
  apply G. lia.
Qed.

Section Existence.
Context (n : nat) (F : R -> list R -> list R) (T B : R) (HT : 0 <= T) (PB : 0 <= B).
Let Fc (t : R) (y : list R) : list R := F t (clip B y).
Let H (i : nat) (t : R) (x : nat -> R) : R := nth i (Fc t (as_list n x)) 0.

Lemma regime_solvable a b Fr : 0 <= a -> b <= T -> regime n T Fr -> (forall t y, a < t < b -> length y = n -> F t y = Fr t y) -> solvable n H a b.
Proof.
  intros Ha Hb HR E y0. 
  destruct (ulip_bounds n (fun t => 0 <= t <= T) (fun i t y => nth i (Fr t y) 0) (fun i Hi => proj1 (HR i Hi)) B) as (L & PL & Lip).
  set (G := fun (i : nat) (t : R) (x : nat -> R) => if lt_dec i n then nth i (Fr (clamp T t) (clip B (as_list n x))) 0 else 0).
  destruct (picard n G L L a y0 PL PL) as (u & U0 & Us & D).
  - intros p i Sp t. unfold G. destruct (lt_dec i n) as [Hi|Hi]; [|apply continuity_pt_const; intros x y; reflexivity].
    assert (X := proj2 (HR i Hi) (clamp T) (fun s j => cut B (p s j)) (clamp_continuous T)). cbv beta in X.
    assert (Y : smooth (fun s j => cut B (p s j))).
    { intros j s. apply (continuity_pt_comp (fun s => p s j) (cut B)); [apply Sp | apply cut_continuous, PB]. }
    specialize (X Y t). intros e He. destruct (X e He) as (d & Pd & Hd). exists d. split; [exact Pd|]. intros x Hx. rewrite !clip_as_list. exact (Hd x Hx).
  - intros i t x y. unfold G. destruct (lt_dec i n) as [Hi|Hi].
    + rewrite <- as_list_away. assert (Bx := clip_bounded B n (as_list n x) PB (as_list_length n x)). assert (By := clip_bounded B n (as_list n y) PB (as_list_length n y)).
      destruct (Lip i Hi (clamp T t) _ _ (clamp_in T t HT) Bx By) as [_ Q]. apply Rle_trans with (1 := Q). apply Rmult_le_compat_l; [exact PL|].
      apply clip_close; [exact PB | apply as_list_length | apply as_list_length].
    + replace (0 - 0) with 0 by ring. rewrite Rabs_R0. apply Rmult_le_pos; [exact PL|]. rewrite <- as_list_away. apply dist1_nonneg.
  - intros i t x. unfold G. destruct (lt_dec i n) as [Hi|Hi]; [|rewrite Rabs_R0; exact PL].
    assert (Bx := clip_bounded B n (as_list n x) PB (as_list_length n x)). apply (Lip i Hi (clamp T t) _ _ (clamp_in T t HT) Bx Bx).
  - exists u. split; [exact U0|]. split; [exact Us|]. exists []. intros t Ht _ i Hi. assert (X := D i t (proj1 Ht)).
    unfold G in X. destruct (lt_dec i n) as [_|C]; [|contradiction]. rewrite clamp_id in X by lra.
    unfold H, Fc. rewrite E; [exact X | exact Ht | rewrite clip_length; apply as_list_length].
Qed.

Lemma slope_of T' (g : R -> list R) t i d f : (forall s, nth i (g s) 0 = f s) -> derivable_pt_lim f t d -> has_slope T' g t i d.
Proof.
  intros E D eps He. destruct (D eps He) as [de Hd]. exists de. split; [apply cond_pos|]. intros s _ Hs. rewrite !E.
  destruct (Req_dec (s - t) 0) as [E0|E0].
  - replace s with t by lra. replace (f t - f t - d * (t - t)) with 0 by ring. replace (t - t) with 0 by ring. rewrite Rabs_R0. lra.
  - specialize (Hd (s - t) E0 Hs). replace (t + (s - t)) with s in Hd by ring.
    assert (P : 0 < Rabs (s - t)) by (apply Rabs_pos_lt; exact E0).
    replace (f s - f t - d * (s - t)) with (((f s - f t) / (s - t) - d) * (s - t)) by (field; exact E0).
    rewrite Rabs_mult. apply Rmult_le_compat_r; lra.
Qed.

Lemma clipped_solution y0 : length y0 = n -> 
  pieces (fun a b => exists Fr, regime n T Fr /\ forall t y, a < t < b -> length y = n -> F t y = Fr t y) 0 T ->
  exists u, u 0 = y0 /\ solves (fun t y => Some (Fc t y)) T u.
Proof.
  intros L0 P.
  assert (Hext : forall i t x y, (forall j, (j < n)%nat -> x j = y j) -> H i t x = H i t y).
  { intros i t x y E. unfold H. replace (as_list n y) with (as_list n x); [reflexivity|]. apply map_ext_in. intros j Hj. apply in_seq in Hj. apply E. lia. }
  assert (S : solvable n H 0 T).
  { apply solvable_pieces; [exact Hext|]. revert P. assert (X : forall a b, pieces (fun a b => exists Fr, regime n T Fr /\ forall t y, a < t < b -> length y = n -> F t y = Fr t y) a b -> 0 <= a -> b <= T -> pieces (solvable n H) a b).
    { intros a b Q. induction Q as [a b Le (Fr & HR & E)|a c b Q1 IH1 Q2 IH2]; intros Ha Hb; [apply pieces_one; [exact Le | apply (regime_solvable a b Fr); assumption]|].
      assert (Y1 := pieces_le _ _ _ Q1). assert (Y2 := pieces_le _ _ _ Q2). apply pieces_join with c; [apply IH1 | apply IH2]; lra. }
    intros Q. apply X; [exact Q | lra | lra]. }
  destruct (S (fun i => nth i y0 0)) as (p & P0 & Ps & jumps & J).
  set (u := fun t => as_list n (p t)).
  assert (U0 : u 0 = y0).
  { unfold u. rewrite <- (as_list_of y0), L0. apply map_ext. exact P0. }
  exists u. split; [exact U0|]. split.
  - intros t Ht. rewrite U0, L0. split; [apply as_list_length|]. intros i Hi eps He. destruct (Ps i t eps He) as (d & Pd & Hd).
    exists d. split; [exact Pd|]. intros s Hs Hst. unfold u. rewrite !as_list_nth by exact Hi. destruct (Req_dec s t) as [->|Ne].
    + replace (p t i - p t i) with 0 by ring. rewrite Rabs_R0. lra.
    + left. apply (Hd s). split; [split; [exact I | intros X; apply Ne; symmetry; exact X]|]. exact Hst.
  - exists (0 :: T :: jumps). intros t Ht Nt. exists (Fc t (u t)). split; [reflexivity|]. rewrite U0, L0. intros i Hi.
    apply (slope_of T u t i _ (fun s => p s i)); [intros s; unfold u; apply as_list_nth, Hi|].
    assert (X := J t). apply X; [|intros Q; apply Nt; right; right; exact Q | exact Hi].
    split; [destruct (Req_dec t 0) as [->|]; [exfalso; apply Nt; left; reflexivity | lra] | destruct (Req_dec t T) as [->|]; [exfalso; apply Nt; right; left; reflexivity | lra]].
Qed.

(* The clipping is not active if the boundary repels and the quantities qs,
   none of which grows, bound the state by B. *)
Theorem solution_exists y0 (qs : list quantity) : length y0 = n -> nonneg y0 -> 
  pieces (fun a b => exists Fr, regime n T Fr /\ forall t y, a < t < b -> length y = n -> F t y = Fr t y) 0 T ->
  (forall i, (i < n)%nat -> ulip n (fun t => 0 <= t <= T) (fun t y => nth i (F t y) 0)) ->
  (forall t y i, 0 <= t <= T -> length y = n -> nonneg y -> (i < n)%nat -> nth i y 0 = 0 -> 0 <= nth i (F t y) 0) ->
  (forall t y q, 0 <= t <= T -> length y = n -> nonneg y -> In q qs -> amount_of q (F t y) <= 0) ->
  Forall (Forall (fun a => (snd a < n)%nat)) qs ->
  (forall y, length y = n -> nonneg y -> (forall q, In q qs -> amount_of q y <= amount_of q y0) -> forall i, (i < n)%nat -> nth i y 0 <= B) ->
  exists u, u 0 = y0 /\ solves (fun t y => Some (F t y)) T u /\ forall t, 0 <= t <= T -> nonneg (u t).
Proof.
  intros L0 N0 P HL HB HQ Hq HC. destruct (clipped_solution y0 L0 P) as (u & U0 & U). exists u. split; [exact U0|].
  assert (Lu : length (u 0) = n) by (rewrite U0; exact L0).
  assert (Lt : forall t, 0 <= t <= T -> length (u t) = n) by (intros t Ht; rewrite (proj1 (proj1 U t Ht)); exact Lu).
  assert (NN : forall t, 0 <= t <= T -> nonneg (u t)).
  { apply (solution_nonneg _ Fc T u HT U).
    - intros t d _ _ E. congruence.
    - rewrite Lu. intros i Hi M. destruct (HL i Hi B) as (L & PL & Lip). exists L. split; [exact PL|]. intros t y y' Ht [Ly _] [Ly' _].
      destruct (Lip t _ _ Ht (clip_bounded B n y PB Ly) (clip_bounded B n y' PB Ly')) as [A C]. split; [exact A|].
      apply Rle_trans with (1 := C). apply Rmult_le_compat_l; [exact PL | apply clip_close; assumption].
    - rewrite Lu. intros t y i Ht Ly Ny Hi Hz. apply HB; [exact Ht | rewrite clip_length; exact Ly | apply clip_nonneg, PB | lia|].
      rewrite clip_nth by exact Hi. rewrite Hz. apply cut_id. lra.
    - rewrite U0. exact N0. }
  assert (CC : forall t, 0 <= t <= T -> clip B (u t) = u t).
  { intros t Ht. apply clip_id. intros i Hi. rewrite (Lt t Ht) in Hi. split.
    - assert (Nt := NN t Ht). unfold nonneg in Nt. rewrite Forall_forall in Nt. apply Nt, nth_In. rewrite (Lt t Ht). exact Hi.
    - apply (HC (u t) (Lt t Ht) (NN t Ht)); [|exact Hi]. intros q Iq. rewrite <- U0. apply (solution_loses _ T u q HT U); [| |exact Ht].
      + rewrite Forall_forall in Hq. eapply Forall_impl; [|exact (Hq q Iq)]. intros a Ha. cbv beta in *. lia.
      + intros s d Hs E. assert (Ed : d = F s (clip B (u s))) by (unfold Fc in E; congruence). subst d.
        apply HQ; [exact Hs | rewrite clip_length; apply Lt, Hs | apply clip_nonneg, PB | exact Iq]. }
  split; [|exact NN]. eapply solves_ext; [|exact U]. intros t Ht. unfold Fc. cbv beta. rewrite CC by exact Ht. reflexivity.
Qed.
End Existence.
