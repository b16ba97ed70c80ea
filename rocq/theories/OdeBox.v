(* Solutions that stay in a box [0,B]^n: it is enough that the right-hand side
   is Lipschitz there.  The right-hand side is composed with the projection
   (clip) onto the box; inverses, exponentials and cube roots of functions that
   are Lipschitz and stay away from 0 are Lipschitz. *)
From Coq Require Import List Bool Arith Lia ZArith Reals Lra.
From Verif Require Import Base SpecKin LangFacts SpecSolver OdeFacts SpecMethod SpecTraj OdeSign OdeClose OdeInt OdePicard OdeExist PartBounds.
Import ListNotations.
Open Scope R_scope.
Open Scope list_scope.

Lemma ulip_clip n (I : R -> Prop) B g : 0 <= B -> ulip n I g -> ulip n I (fun t y => g t (clip B y)).
Proof.
  intros PB H M. destruct (H B) as (L & PL & X). exists L. split; [exact PL|]. intros t y y' It [Ly _] [Ly' _].
  destruct (X t _ _ It (clip_bounded B n y PB Ly) (clip_bounded B n y' PB Ly')) as [A C]. split; [exact A|].
  apply Rle_trans with (1 := C). apply Rmult_le_compat_l; [exact PL | apply clip_close; assumption].
Qed.

Lemma ulip_inv n (I : R -> Prop) g c : 0 < c -> (forall t y, I t -> length y = n -> c <= g t y) -> ulip n I g -> ulip n I (fun t y => / g t y).
Proof.
  intros Pc Low H M. destruct (H M) as (L & PL & X). exists (/ c + L * (/ c * / c)).
  assert (Ic : 0 < / c) by (apply Rinv_0_lt_compat, Pc). assert (Icc : 0 < / c * / c) by (apply Rmult_lt_0_compat; exact Ic).
  assert (PLc : 0 <= L * (/ c * / c)) by (apply Rmult_le_pos; lra). split; [lra|]. intros t y y' It By By'.
  destruct (X t y y' It By By') as [_ D]. assert (A := Low t y It (proj1 By)). assert (A' := Low t y' It (proj1 By')).
  assert (Dn := dist1_nonneg n y y').
  assert (IA : 0 < / g t y <= / c) by (split; [apply Rinv_0_lt_compat; lra | apply Rinv_le_contravar; lra]).
  assert (IA' : 0 < / g t y' <= / c) by (split; [apply Rinv_0_lt_compat; lra | apply Rinv_le_contravar; lra]). split.
  - rewrite Rabs_pos_eq by lra. lra.
  - replace (/ g t y - / g t y') with (- (g t y - g t y') * (/ g t y * / g t y')) by (field; lra). rewrite Rabs_mult, Rabs_Ropp.
    assert (PP : 0 < / g t y * / g t y') by (apply Rmult_lt_0_compat; lra). rewrite (Rabs_pos_eq (/ g t y * / g t y')) by lra.
    apply Rle_trans with (L * dist1 n y y' * (/ c * / c)).
    + apply Rmult_le_compat; [apply Rabs_pos | lra | exact D | apply Rmult_le_compat; lra].
    + assert (0 <= / c * dist1 n y y') by (apply Rmult_le_pos; lra). lra.
Qed.

Lemma exp_close L a b : Rabs a <= L -> Rabs b <= L -> Rabs (exp a - exp b) <= exp L * Rabs (a - b).
Proof.
  assert (W : forall a b, Rabs a <= L -> Rabs b <= L -> exp a - exp b <= exp L * Rabs (a - b)).
  { intros x y Hx Hy. assert (E := exp_ineq1_le (y - x)). assert (Px := exp_pos x).
    assert (Ey : exp y = exp x * exp (y - x)) by (rewrite <- exp_plus; apply f_equal; lra).
    assert (exp x - exp y <= exp x * (x - y)) by (rewrite Ey; nra).
    assert (exp x <= exp L). { assert (x <= L) by (apply Rle_trans with (2 := Hx), Rle_abs). destruct (Req_dec x L) as [->|]; [lra | left; apply exp_increasing; lra]. }
    apply Rle_trans with (1 := H). apply Rle_trans with (exp x * Rabs (x - y)); [apply Rmult_le_compat_l; [lra | apply Rle_abs] | apply Rmult_le_compat_r; [apply Rabs_pos | assumption]]. }
  intros Ha Hb. unfold Rabs at 1. destruct (Rcase_abs _); [|apply W; assumption].
  replace (- (exp a - exp b)) with (exp b - exp a) by ring. rewrite Rabs_minus_sym. apply W; assumption.
Qed.
Lemma ulip_exp n (I : R -> Prop) g : ulip n I g -> ulip n I (fun t y => exp (g t y)).
Proof.
  intros H M. destruct (H M) as (L & PL & X). assert (PE := exp_pos L). exists (exp L + exp L * L).
  assert (0 <= exp L * L) by (apply Rmult_le_pos; lra). split; [lra|]. intros t y y' It By By'.
  destruct (X t y y' It By By') as [A D]. destruct (X t y' y It By' By) as [A' _]. assert (Dn := dist1_nonneg n y y'). split.
  - rewrite Rabs_pos_eq by (left; apply exp_pos).
    assert (g t y <= L) by (apply Rle_trans with (2 := A), Rle_abs). assert (exp (g t y) <= exp L); [|lra].
    destruct (Req_dec (g t y) L) as [->|]; [lra | left; apply exp_increasing; lra].
  - apply Rle_trans with (1 := exp_close L _ _ A A'). apply Rle_trans with (exp L * (L * dist1 n y y')); [apply Rmult_le_compat_l; lra|].
    assert (0 <= exp L * dist1 n y y') by (apply Rmult_le_pos; lra). lra.
Qed.

Lemma root_cubed x : 0 < x -> Rpower x (1 / 3) ^ 3 = x.
Proof.
  intros Px. rewrite <- (Rpower_pow 3) by apply exp_pos. rewrite Rpower_mult. replace (1 / 3 * INR 3) with 1 by (cbn; lra). apply Rpower_1, Px.
Qed.
Lemma root_close c x y : 0 < c -> c <= x -> c <= y -> Rabs (Rpower x (1 / 3) - Rpower y (1 / 3)) <= / (Rmin 1 c * Rmin 1 c) * Rabs (x - y).
Proof.
  intros Pc Hx Hy. assert (Ex := root_cubed x ltac:(lra)). assert (Ey := root_cubed y ltac:(lra)).
  assert (Px : 0 < Rpower x (1 / 3)) by apply exp_pos. assert (Py : 0 < Rpower y (1 / 3)) by apply exp_pos.
  assert (Lx : Rmin 1 c <= Rpower x (1 / 3)) by (apply cube_low; [exact Px | exact Pc | lra]).
  assert (Ly : Rmin 1 c <= Rpower y (1 / 3)) by (apply cube_low; [exact Py | exact Pc | lra]).
  assert (Pm : 0 < Rmin 1 c) by (apply Rmin_glb_lt; lra). set (m := Rmin 1 c) in *.
  set (r := Rpower x (1 / 3)) in *. set (s := Rpower y (1 / 3)) in *. clearbody r s m.
  assert (Q : m * m <= r * r + r * s + s * s). { assert (m * m <= r * r) by (apply Rmult_le_compat; lra). assert (0 < r * s) by (apply Rmult_lt_0_compat; lra). assert (0 < s * s) by (apply Rmult_lt_0_compat; lra). lra. }
  assert (Pmm : 0 < m * m) by (apply Rmult_lt_0_compat; lra).
  apply Rmult_le_reg_l with (m * m); [exact Pmm|]. rewrite <- Rmult_assoc, Rinv_r, Rmult_1_l by lra.
  replace (x - y) with ((r * r + r * s + s * s) * (r - s)) by (rewrite <- Ex, <- Ey; ring). rewrite Rabs_mult.
  rewrite (Rabs_pos_eq (r * r + r * s + s * s)) by lra. apply Rmult_le_compat_r; [apply Rabs_pos | exact Q].
Qed.
Lemma ulip_root n (I : R -> Prop) g c : 0 < c -> (forall t y, I t -> length y = n -> c <= g t y) -> ulip n I g -> ulip n I (fun t y => Rpower (g t y) (1 / 3)).
Proof.
  intros Pc Low H M. destruct (H M) as (L & PL & X). set (k := / (Rmin 1 c * Rmin 1 c)).
  assert (Pm : 0 < Rmin 1 c) by (apply Rmin_glb_lt; lra).
  assert (Pk : 0 < k) by (apply Rinv_0_lt_compat, Rmult_lt_0_compat; exact Pm). exists (1 + L + k * L).
  assert (PkL : 0 <= k * L) by (apply Rmult_le_pos; lra). split; [lra|]. intros t y y' It By By'.
  destruct (X t y y' It By By') as [A D]. assert (Ay := Low t y It (proj1 By)). assert (Ay' := Low t y' It (proj1 By')). assert (Dn := dist1_nonneg n y y'). split.
  - assert (P : 0 < Rpower (g t y) (1 / 3)) by apply exp_pos. rewrite Rabs_pos_eq by lra.
    assert (Rpower (g t y) (1 / 3) <= 1 + g t y) by (apply cube_high; [exact P | rewrite root_cubed; lra]).
    assert (g t y <= L) by (apply Rle_trans with (2 := A), Rle_abs). lra.
  - apply Rle_trans with (1 := root_close c _ _ Pc Ay Ay'). fold k. apply Rle_trans with (k * (L * dist1 n y y')); [apply Rmult_le_compat_l; lra|].
    assert (0 <= (1 + L) * dist1 n y y') by (apply Rmult_le_pos; lra). lra.
Qed.

(* A function of the state that does not read the time is continuous along
   continuous paths. *)
Lemma still_flow n g : ulip n (fun _ => True) (fun _ y => g y) -> flowing n (fun _ y => g y).
Proof.
  intros H tau p _ Sp t. cbv beta.
  assert (K : forall d, 0 < d -> exists a, 0 < a /\ forall s, Rabs (s - t) < a -> dist1 n (as_list n (p s)) (as_list n (p t)) <= d).
  { intros d Pd. assert (N1 : 0 < INR n + 1) by (assert (X := pos_INR n); lra). set (e := d / (INR n + 1)).
    assert (Pe : 0 < e) by (apply Rdiv_lt_0_compat; lra).
    assert (G : forall k, exists a, 0 < a /\ forall s j, (j < k)%nat -> Rabs (s - t) < a -> Rabs (p s j - p t j) <= e).
    { induction k as [|k IH]; [exists 1; split; [lra | intros; lia]|]. destruct IH as (a1 & P1 & H1). destruct (Sp k t e Pe) as (a2 & P2 & H2).
      exists (Rmin a1 a2). split; [apply Rmin_glb_lt; assumption|]. intros s j Hj Hs. destruct (Nat.eq_dec j k) as [->|Ne].
      - destruct (Req_dec s t) as [->|Nst]; [replace (p t k - p t k) with 0 by ring; rewrite Rabs_R0; lra|]. left. apply (H2 s).
        split; [split; [exact I | intros E; apply Nst; symmetry; exact E]|]. apply Rlt_le_trans with (1 := Hs), Rmin_r.
      - apply H1; [lia|]. apply Rlt_le_trans with (1 := Hs), Rmin_l. }
    destruct (G n) as (a & Pa & Ha). exists a. split; [exact Pa|]. intros s Hs. rewrite as_list_away. unfold away.
    assert (W : forall l, (forall j, In j l -> (j < n)%nat) -> rsum (map (fun j => Rabs (p s j - p t j)) l) <= INR (length l) * e).
    { induction l as [|j l IH]; intros Hl; [cbn; lra|]. cbn [map length]. rewrite S_INR. assert (X := Ha s j (Hl j (or_introl eq_refl)) Hs).
      specialize (IH (fun i Hi => Hl i (or_intror Hi))). change (rsum (Rabs (p s j - p t j) :: map (fun j => Rabs (p s j - p t j)) l)) with (Rabs (p s j - p t j) + rsum (map (fun j => Rabs (p s j - p t j)) l)). lra. }
    apply Rle_trans with (1 := W (seq 0 n) ltac:(intros j Hj; apply in_seq in Hj; lia)). rewrite seq_length.
    assert (E : d = (INR n + 1) * e) by (unfold e; field; lra). rewrite E. lra. }
  assert (BD : exists M, forall x, length x = n -> dist1 n x (as_list n (p t)) <= 1 -> bounded_by n M x).
  { exists (1 + rsum (map (fun j => Rabs (p t j)) (seq 0 n))). intros x Lx Dx. split; [exact Lx|]. intros i Hi.
    assert (T : forall (f : nat -> R) l j, (forall k, 0 <= f k) -> In j l -> f j <= rsum (map f l)).
    { clear. intros f l j Pf. induction l as [|k l IH]; [intros []|]. assert (0 <= rsum (map f l)) by (apply rsum_nonneg; intros v Hv; apply in_map_iff in Hv as (k' & <- & _); apply Pf).
      assert (Z := Pf k). cbn [map]. change (rsum (f k :: map f l)) with (f k + rsum (map f l)). intros [->|Hj]; [lra | specialize (IH Hj); lra]. }
    assert (A := T (fun j => Rabs (p t j)) (seq 0 n) i (fun k => Rabs_pos _) ltac:(apply in_seq; lia)).
    assert (C := T (fun j => Rabs (nth j x 0 - nth j (as_list n (p t)) 0)) (seq 0 n) i (fun k => Rabs_pos _) ltac:(apply in_seq; lia)). cbv beta in A, C.
    unfold dist1 in Dx. rewrite as_list_nth in C by exact Hi.
    assert (Z := Rabs_triang (nth i x 0 - p t i) (p t i)). replace (nth i x 0 - p t i + p t i) with (nth i x 0) in Z by ring. lra. }
  destruct BD as [M BD]. destruct (H M) as (L & PL & X). intros e He. assert (PL1 : 0 < L + 1) by lra.
  destruct (K (Rmin 1 (e / (2 * (L + 1))))) as (a & Pa & Ha). { apply Rmin_glb_lt; [lra | apply Rdiv_lt_0_compat; lra]. }
  exists a. split; [exact Pa|]. intros s [_ Hs]. specialize (Ha s Hs). simpl. unfold R_dist.
  assert (D0 : dist1 n (as_list n (p t)) (as_list n (p t)) <= 1).
  { unfold dist1. rewrite (rsum_zero (fun j => Rabs (nth j (as_list n (p t)) 0 - nth j (as_list n (p t)) 0))); [lra|]. intros j _. replace (nth j (as_list n (p t)) 0 - nth j (as_list n (p t)) 0) with 0 by ring. apply Rabs_R0. }
  assert (B1 := BD _ (as_list_length n (p s)) (Rle_trans _ _ _ Ha (Rmin_l _ _))). assert (B2 := BD _ (as_list_length n (p t)) D0).
  destruct (X 0 _ _ I B1 B2) as [_ D]. apply Rle_lt_trans with (1 := D). assert (Q := Rle_trans _ _ _ Ha (Rmin_r _ _)).
  apply Rle_lt_trans with (L * (e / (2 * (L + 1)))); [apply Rmult_le_compat_l; assumption|].
  assert (E : (L + 1) * (e / (2 * (L + 1))) = e / 2) by (field; lra). assert (0 < e / (2 * (L + 1))) by (apply Rdiv_lt_0_compat; lra). lra.
Qed.

Section Box.
Context (n : nat) (F : R -> list R -> list R) (T B : R) (HT : 0 <= T) (PB : 0 <= B).
Definition in_box (y : list R) : Prop := length y = n /\ forall i, (i < n)%nat -> 0 <= nth i y 0 <= B.
Lemma box_clip y : in_box y -> clip B y = y.
Proof. intros [L H]. apply clip_id. intros i Hi. rewrite L in Hi. apply H, Hi. Qed.
Lemma clip_box y : length y = n -> in_box (clip B y).
Proof. intros L. split; [rewrite clip_length; exact L|]. intros i Hi. rewrite clip_nth by lia. apply cut_range, PB. Qed.

(* F restricted to the box is Lipschitz. *)
Context (HL : forall i, (i < n)%nat -> ulip n (fun t => 0 <= t <= T) (fun t y => nth i (F t (clip B y)) 0)).

Theorem box_exists y0 (qs : list quantity) : length y0 = n -> nonneg y0 ->
  pieces (fun a b => exists Fr, (forall i, (i < n)%nat -> ulip n (fun t => 0 <= t <= T) (fun t y => nth i (Fr t (clip B y)) 0) /\ flowing n (fun t y => nth i (Fr t (clip B y)) 0)) /\
     forall t y, a < t < b -> in_box y -> F t y = Fr t y) 0 T ->
  (forall t y i, 0 <= t <= T -> in_box y -> (i < n)%nat -> nth i y 0 = 0 -> 0 <= nth i (F t y) 0) ->
  (forall t y q, 0 <= t <= T -> in_box y -> In q qs -> amount_of q (F t y) <= 0) ->
  Forall (Forall (fun a => (snd a < n)%nat)) qs ->
  (forall y, length y = n -> nonneg y -> (forall q, In q qs -> amount_of q y <= amount_of q y0) -> forall i, (i < n)%nat -> nth i y 0 <= B) ->
  exists u, u 0 = y0 /\ solves (fun t y => Some (F t y)) T u /\ forall t, 0 <= t <= T -> in_box (u t).
Proof.
  intros L0 N0 P HB HQ Hq HC.
  destruct (solution_exists n (fun t y => F t (clip B y)) T B HT PB y0 qs L0 N0) as (u & U0 & U & NN); [| exact HL | | | exact Hq | exact HC |].
  - eapply pieces_impl; [|exact P]. intros a b (Fr & HR & E). exists (fun t y => Fr t (clip B y)). split; [exact HR|].
    intros t y Ht Ly. apply E; [exact Ht | apply clip_box, Ly].
  - intros t y i Ht Ly Ny Hi Hz. apply HB; [exact Ht | apply clip_box, Ly | exact Hi|]. rewrite clip_nth by lia. rewrite Hz. apply cut_id. lra.
  - intros t y q Ht Ly Ny Iq. apply HQ; [exact Ht | apply clip_box, Ly | exact Iq].
  - exists u. split; [exact U0|]. assert (Lu : length (u 0) = n) by (rewrite U0; exact L0).
    assert (Lt : forall t, 0 <= t <= T -> length (u t) = n) by (intros t Ht; rewrite (proj1 (proj1 U t Ht)); exact Lu).
    assert (BX : forall t, 0 <= t <= T -> in_box (u t)).
    { intros t Ht. split; [apply Lt, Ht|]. intros i Hi. split.
      - assert (Nt := NN t Ht). unfold nonneg in Nt. rewrite Forall_forall in Nt. apply Nt, nth_In. rewrite (Lt t Ht). exact Hi.
      - apply (HC (u t) (Lt t Ht) (NN t Ht)); [|exact Hi]. intros q Iq. rewrite <- U0. apply (solution_loses _ T u q HT U); [| |exact Ht].
        + rewrite Forall_forall in Hq. eapply Forall_impl; [|exact (Hq q Iq)]. intros a Ha. cbv beta in *. lia.
        + intros s d Hs E. assert (Ed : d = F s (clip B (u s))) by congruence. subst d. apply HQ; [exact Hs | apply clip_box, Lt, Hs | exact Iq]. }
    split; [|exact BX]. eapply solves_ext; [|exact U]. intros t Ht. cbv beta. rewrite (box_clip _ (BX t Ht)). reflexivity.
Qed.

(* Solutions in the box that start close stay close. *)
Theorem box_close : exists C, 0 <= C /\ forall f u v, solves f T u -> solves f T v ->
  (forall t, 0 <= t <= T -> in_box (u t)) -> (forall t, 0 <= t <= T -> in_box (v t)) ->
  (forall t y d, 0 <= t <= T -> in_box y -> f t y = Some d -> d = F t y) ->
  forall t, 0 <= t <= T -> dist1 n (u t) (v t) <= C * dist1 n (u 0) (v 0).
Proof.
  destruct (solution_close n (fun t y => F t (clip B y)) T HT HL B) as (C & PC & H). exists C. split; [exact PC|].
  intros f u v SU SV BU BV E t Ht.
  assert (Bd : forall y, in_box y -> bounded_by n B y).
  { intros y [L Hy]. split; [exact L|]. intros i Hi. rewrite Rabs_pos_eq; apply Hy, Hi. }
  assert (FW : forall w, solves f T w -> (forall t, 0 <= t <= T -> in_box (w t)) -> follows n (fun t y => F t (clip B y)) T f w).
  { intros w SW BW. split; [apply BW; lra|]. split; [exact SW|]. intros s d Hs _ Hd. rewrite (box_clip _ (BW s Hs)). apply (E s); [exact Hs | apply BW, Hs | exact Hd]. }
  apply (H f f u v (FW u SU BU) (FW v SV BV)); [| |exact Ht]; intros s Hs; apply Bd; [apply BU | apply BV]; exact Hs.
Qed.
Lemma dist1_same y : dist1 n y y = 0.
Proof. unfold dist1. apply rsum_zero. intros j _. replace (nth j y 0 - nth j y 0) with 0 by ring. apply Rabs_R0. Qed.
Lemma dist1_zero y y' : length y = n -> length y' = n -> dist1 n y y' <= 0 -> y = y'.
Proof.
  intros L L' D. apply nth_ext with (d := 0) (d' := 0); [lia|]. intros i Hi. rewrite L in Hi.
  assert (T0 : forall (f : nat -> R) l j, (forall k, 0 <= f k) -> In j l -> f j <= rsum (map f l)).
  { clear. intros f l j Pf. induction l as [|k l IH]; [intros []|]. assert (0 <= rsum (map f l)) by (apply rsum_nonneg; intros v Hv; apply in_map_iff in Hv as (k' & <- & _); apply Pf).
    assert (Z := Pf k). cbn [map]. change (rsum (f k :: map f l)) with (f k + rsum (map f l)). intros [->|Hj]; [lra | specialize (IH Hj); lra]. }
  assert (X := T0 (fun j => Rabs (nth j y 0 - nth j y' 0)) (seq 0 n) i (fun k => Rabs_pos _) ltac:(apply in_seq; lia)). cbv beta in X. unfold dist1 in D.
  assert (Z := Rabs_pos (nth i y 0 - nth i y' 0)). destruct (Req_dec (nth i y 0 - nth i y' 0) 0) as [E|E]; [lra|]. apply Rabs_pos_lt in E. lra.
Qed.
Theorem box_unique f u v : solves f T u -> solves f T v ->
  (forall t, 0 <= t <= T -> in_box (u t)) -> (forall t, 0 <= t <= T -> in_box (v t)) ->
  (forall t y d, 0 <= t <= T -> in_box y -> f t y = Some d -> d = F t y) -> u 0 = v 0 ->
  forall t, 0 <= t <= T -> u t = v t.
Proof.
  intros SU SV BU BV E U0 t Ht. destruct box_close as (C & PC & H). assert (X := H f u v SU SV BU BV E t Ht). rewrite U0, dist1_same in X.
  apply dist1_zero; [apply BU, Ht | apply BV, Ht | lra].
Qed.
End Box.
