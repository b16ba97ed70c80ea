(* Sign and conserved quantities of exact solutions. *)
From Coq Require Import List Bool Arith Lia ZArith Reals Lra.
From Verif Require Import Base SpecKin LangFacts SpecSolver OdeFacts SpecMethod SpecTraj.
Import ListNotations.
Open Scope nat_scope.
Open Scope list_scope.

Definition slope (f : R -> list R -> option (list R)) (u : R -> list R) (t : R) : list R :=
  match f t (u t) with Some d => d | None => [] end.

(* A slope everywhere is enough. *)
Definition everywhere (f : R -> list R -> option (list R)) (T : R) (u : R -> list R) : Prop :=
  forall t, (0 <= t <= T)%R -> List.length (u t) = List.length (u 0%R) /\
    exists d, f t (u t) = Some d /\ forall i, i < List.length (u 0%R) -> has_slope T u t i (nth i d 0%R).
Lemma solves_ext f g T u : (forall t, (0 <= t <= T)%R -> f t (u t) = g t (u t)) -> solves f T u -> solves g T u.
Proof. intros E [U (jumps & J)]. split; [exact U|]. exists jumps. intros t Ht Nt. rewrite <- (E t Ht). apply J; assumption. Qed.
Lemma solves_everywhere f T u : everywhere f T u -> solves f T u.
Proof.
  intros H. split; [|exists []; intros t Ht _; apply (H t Ht)]. intros t Ht. destruct (H t Ht) as (L & d & _ & D). split; [exact L|].
  intros i Hi eps He. destruct (D i Hi 1%R ltac:(lra)) as (de & Pde & Hd). set (g := nth i d 0%R) in *. assert (G := Rabs_pos g).
  exists (Rmin de (eps / (Rabs g + 2))). split; [apply Rmin_pos; [exact Pde | apply Rdiv_lt_0_compat; lra]|].
  intros s Hs Hst. assert (M1 := Rmin_l de (eps / (Rabs g + 2))). assert (M2 := Rmin_r de (eps / (Rabs g + 2))).
  specialize (Hd s Hs ltac:(lra)). set (h := (s - t)%R) in *.
  replace (nth i (u s) 0 - nth i (u t) 0)%R with ((nth i (u s) 0 - nth i (u t) 0 - g * h) + g * h)%R by ring.
  apply Rle_trans with (1 := Rabs_triang _ _). rewrite (Rabs_mult g h).
  apply Rle_trans with ((Rabs g + 2) * (eps / (Rabs g + 2)))%R; [|apply Req_le; field; lra].
  assert (P := Rabs_pos h). nra.
Qed.

Section Continuous.
Context (f : R -> list R -> option (list R)) (T : R) (HT : (0 <= T)%R) (u : R -> list R).
Let n := List.length (u 0%R).
Context (U : forall t, (0 <= t <= T)%R -> List.length (u t) = n /\ forall i, i < n -> continuous_on T u t i).

Lemma sol_continuous i t : i < n -> continuity_pt (comp T u i) t.
Proof.
  intros Hi eps He. assert (Ct := clamp_in T t HT). destruct (proj2 (U _ Ct) i Hi (eps / 2)%R ltac:(lra)) as (d & Hd & D).
  exists d. split; [exact Hd|]. intros s [_ Hs]. cbn [dist R_met Base] in *. unfold R_dist in *.
  assert (Cl := clamp_lip T s t HT). specialize (D (clamp T s) (clamp_in T s HT) ltac:(lra)). unfold comp. lra.
Qed.
Lemma sol_bounded i : i < n -> exists M, forall t, (0 <= t <= T)%R -> (Rabs (comp T u i t) <= M)%R.
Proof.
  intros Hi.
  destruct (continuity_ab_maj (comp T u i) 0 T HT (fun c _ => sol_continuous i c Hi)) as (p & Hp & _).
  destruct (continuity_ab_min (comp T u i) 0 T HT (fun c _ => sol_continuous i c Hi)) as (q & Hq & _).
  exists (Rmax (Rabs (comp T u i p)) (Rabs (comp T u i q))). intros t Ht. specialize (Hp t Ht). specialize (Hq t Ht).
  unfold Rmax, Rabs. destruct (Rle_dec _ _); repeat destruct (Rcase_abs _); lra.
Qed.
Lemma sol_bounded_all : exists M, forall i t, i < n -> (0 <= t <= T)%R -> (Rabs (comp T u i t) <= M)%R.
Proof.
  assert (H : forall k, k <= n -> exists M, forall i t, i < k -> (0 <= t <= T)%R -> (Rabs (comp T u i t) <= M)%R).
  { induction k as [|k IH]; intros Hk; [exists 0%R; intros; lia|].
    destruct (IH ltac:(lia)) as [M1 H1]. destruct (sol_bounded k ltac:(lia)) as [M2 H2].
    exists (Rmax M1 M2). intros i t Hi Ht. destruct (Nat.eq_dec i k) as [->|Ne].
    - apply Rle_trans with (2 := Rmax_r _ _). apply H2, Ht.
    - apply Rle_trans with (2 := Rmax_l _ _). apply H1; [lia | exact Ht]. }
  apply H. lia.
Qed.
End Continuous.

Lemma sol_derive T u i t g : (0 < t < T)%R -> has_slope T u t i g -> derivable_pt_lim (comp T u i) t g.
Proof.
  intros Ht Hg eps He. destruct (Hg (eps / 2)%R ltac:(lra)) as (d & Hd & D).
  assert (Pd : (0 < Rmin d (Rmin t (T - t)))%R) by (apply Rmin_pos; [lra | apply Rmin_pos; lra]).
  exists (mkposreal _ Pd). intros h Hh0 Hh. cbn [pos] in Hh.
  assert (M1 := Rmin_l d (Rmin t (T - t))). assert (M2 := Rmin_r d (Rmin t (T - t))).
  assert (M3 := Rmin_l t (T - t)). assert (M4 := Rmin_r t (T - t)). assert (A := Rabs_def2 _ _ Hh).
  unfold comp. rewrite !clamp_id by lra. specialize (D (t + h)%R ltac:(lra)).
  replace (t + h - t)%R with h in D by ring. specialize (D ltac:(lra)).
  assert (Ph : (0 < Rabs h)%R) by (apply Rabs_pos_lt; exact Hh0).
  replace ((nth i (u (t + h)) 0 - nth i (u t) 0) / h - g)%R with ((nth i (u (t + h)) 0 - nth i (u t) 0 - g * h) * / h)%R by (field; exact Hh0).
  rewrite Rabs_mult, Rabs_inv. apply Rmult_lt_reg_r with (Rabs h); [exact Ph|].
  rewrite Rmult_assoc, Rinv_l by lra. nra.
Qed.

Lemma gronwall (w w' : R -> R) (K T : R) : (0 <= T)%R -> (forall t, continuity_pt w t) ->
  (forall t, (0 < t < T)%R -> derivable_pt_lim w t (w' t)) -> (forall t, (0 < t < T)%R -> (w' t <= K * w t)%R) -> (w 0 <= 0)%R ->
  forall t, (0 <= t <= T)%R -> (w t <= 0)%R.
Proof.
  intros HT C D B W0 t Ht. destruct (Req_dec t 0) as [->|Ne]; [exact W0|].
  set (h := fun t => (exp (- K * t) * w t)%R).
  assert (De : forall t, derivable_pt_lim (fun s => exp (- K * s))%R t (exp (- K * t) * - K)%R).
  { intros s. apply (derivable_pt_lim_comp (fun s => - K * s)%R exp); [|apply derivable_pt_lim_exp].
    assert (Hd := derivable_pt_lim_scal id (- K)%R s 1 (derivable_pt_lim_id s)). rewrite Rmult_1_r in Hd. exact Hd. }
  assert (Dh : forall s, (0 < s < t)%R -> derivable_pt_lim h s (exp (- K * s) * - K * w s + exp (- K * s) * w' s)%R).
  { intros s Hs. apply (derivable_pt_lim_mult (fun s => exp (- K * s))%R w); [apply De | apply D; lra]. }
  assert (Ch : forall s, continuity_pt h s).
  { intros s. apply (continuity_pt_mult (fun s => exp (- K * s))%R w); [|apply C].
    apply derivable_continuous_pt. exists (exp (- K * s) * - K)%R. apply De. }
  destruct (MVT h id 0 t (fun c P => exist _ _ (Dh c P)) (fun c _ => derivable_pt_id c) ltac:(lra) (fun c _ => Ch c)
              (fun c _ => derivable_continuous_pt id c (derivable_pt_id c))) as (c & P & Eq).
  rewrite derive_pt_id in Eq. cbn [derive_pt proj1_sig] in Eq. unfold id in Eq.
  assert (E0 : (h 0 <= 0)%R) by (unfold h; rewrite Rmult_0_r, exp_0; lra).
  assert (Ne' : (exp (- K * c) * - K * w c + exp (- K * c) * w' c <= 0)%R).
  { assert (Pe := exp_pos (- K * c)). assert (Bc := B c ltac:(lra)). nra. }
  assert (Hh : (h t <= 0)%R) by nra. unfold h in Hh. assert (Pe := exp_pos (- K * t)).
  destruct (Rle_dec (w t) 0) as [H|H]; [exact H | exfalso]. assert (0 < exp (- K * t) * w t)%R by (apply Rmult_lt_0_compat; lra). lra.
Qed.

(* From one interval without exceptions to any interval with finitely many. *)
Definition decays (w w' : R -> R) (B : R -> Prop) : Prop :=
  forall a h, (0 <= h)%R -> (forall t, (a < t < a + h)%R -> derivable_pt_lim w t (w' t) /\ B t) -> (w a <= 0)%R ->
    forall t, (a <= t <= a + h)%R -> (w t <= 0)%R.
Lemma decays_jumps w w' B : decays w w' B -> forall jumps a b, (a <= b)%R ->
  (forall t, (a < t < b)%R -> ~ In t jumps -> derivable_pt_lim w t (w' t) /\ B t) -> (w a <= 0)%R ->
  forall t, (a <= t <= b)%R -> (w t <= 0)%R.
Proof.
  intros G. induction jumps as [|c jumps IH]; intros a b Hab H Wa t Ht.
  - apply (G a (b - a)%R ltac:(lra)); [|exact Wa|lra]. intros s Hs. apply H; [lra | intros []].
  - destruct (Rlt_dec a c) as [L|L]; [destruct (Rlt_dec c b) as [L'|L']|].
    + assert (A : forall s, (a <= s <= c)%R -> (w s <= 0)%R).
      { apply (IH a c ltac:(lra)); [|exact Wa]. intros s Hs Ns. apply H; [lra|]. intros [->|I]; [lra | contradiction]. }
      destruct (Rle_dec t c) as [Q|Q]; [apply A; lra|]. apply (IH c b ltac:(lra)); [|apply A; lra|lra].
      intros s Hs Ns. apply H; [lra|]. intros [->|I]; [lra | contradiction].
    + apply (IH a b Hab); [|exact Wa|exact Ht]. intros s Hs Ns. apply H; [exact Hs|]. intros [->|I]; [lra | contradiction].
    + apply (IH a b Hab); [|exact Wa|exact Ht]. intros s Hs Ns. apply H; [exact Hs|]. intros [->|I]; [lra | contradiction].
Qed.
Lemma shift_continuous w a s : (forall t, continuity_pt w t) -> continuity_pt (fun s => w (a + s)%R) s.
Proof.
  intros C. apply (continuity_pt_comp (fun s => a + s)%R w); [|apply C]. apply derivable_continuous_pt. exists (0 + 1)%R.
  apply (derivable_pt_lim_plus (fct_cte a) id); [apply derivable_pt_lim_const | apply derivable_pt_lim_id].
Qed.
Lemma shift_derive w a s l : derivable_pt_lim w (a + s)%R l -> derivable_pt_lim (fun s => w (a + s)%R) s l.
Proof.
  intros D. assert (X := derivable_pt_lim_comp (fun s => a + s)%R w s (0 + 1)%R l
    (derivable_pt_lim_plus (fct_cte a) id s 0 1 (derivable_pt_lim_const a s) (derivable_pt_lim_id s)) D).
  replace (l * (0 + 1))%R with l in X by ring. exact X.
Qed.
Lemma gronwall_jumps (w w' : R -> R) (K T : R) jumps : (0 <= T)%R -> (forall t, continuity_pt w t) ->
  (forall t, (0 < t < T)%R -> ~ In t jumps -> derivable_pt_lim w t (w' t) /\ (w' t <= K * w t)%R) -> (w 0 <= 0)%R ->
  forall t, (0 <= t <= T)%R -> (w t <= 0)%R.
Proof.
  intros HT C. apply decays_jumps; [|exact HT]. intros a h Hh D Wa t Ht.
  replace t with (a + (t - a))%R by ring. apply (gronwall (fun s => w (a + s)%R) (fun s => w' (a + s)%R) K h Hh).
  - intros s. apply shift_continuous, C.
  - intros s Hs. apply shift_derive, D. lra.
  - intros s Hs. apply D. lra.
  - rewrite Rplus_0_r. exact Wa.
  - lra.
Qed.

(* negative part *)
Definition below (x : R) : R := Rmin x 0.
Lemma below_sq_deriv x : derivable_pt_lim (fun z => below z * below z)%R x (2 * below x)%R.
Proof.
  intros eps He. exists (mkposreal _ He). intros h Hh0 Hh. cbn [pos] in Hh.
  assert (Ph : (0 < Rabs h)%R) by (apply Rabs_pos_lt; exact Hh0).
  assert (G : (Rabs (below (x + h) * below (x + h) - below x * below x - 2 * below x * h) <= Rabs h * Rabs h)%R).
  { unfold below, Rmin. destruct (Rle_dec (x + h) 0), (Rle_dec x 0); unfold Rabs; repeat destruct (Rcase_abs _); nra. }
  replace ((below (x + h) * below (x + h) - below x * below x) / h - 2 * below x)%R with
    ((below (x + h) * below (x + h) - below x * below x - 2 * below x * h) * / h)%R by (field; exact Hh0).
  rewrite Rabs_mult, Rabs_inv. apply Rmult_lt_reg_r with (Rabs h); [exact Ph|]. rewrite Rmult_assoc, Rinv_l by lra. nra.
Qed.
Lemma below_sq_continuous x : continuity_pt (fun z => below z * below z)%R x.
Proof. apply derivable_continuous_pt. exists (2 * below x)%R. apply below_sq_deriv. Qed.

Definition positive_part (y : list R) : list R := map (fun x => Rmax x 0) y.
Lemma positive_part_nonneg y : nonneg (positive_part y).
Proof. apply Forall_forall. intros x Hx. apply in_map_iff in Hx as (z & <- & _). apply Rmax_r. Qed.
Lemma positive_part_nth y i : nth i (positive_part y) 0%R = Rmax (nth i y 0%R) 0.
Proof.
  unfold positive_part. assert (M := map_nth (fun x => Rmax x 0) y 0%R i). cbv beta in M. rewrite <- M. f_equal.
  unfold Rmax. destruct (Rle_dec 0 0); lra.
Qed.

(* Lipschitz on bounded sets, uniformly in the time, and bounded there *)
Definition ulip (n : nat) (I : R -> Prop) (g : R -> list R -> R) : Prop :=
  forall M, exists L, (0 <= L)%R /\ forall t y y', I t -> bounded_by n M y -> bounded_by n M y' ->
    (Rabs (g t y) <= L)%R /\ (Rabs (g t y - g t y') <= L * dist1 n y y')%R.

Lemma ulip_all n I (g : nat -> R -> list R -> R) : (forall i, i < n -> ulip n I (g i)) ->
  forall M, exists L, (0 <= L)%R /\ forall i, i < n -> forall t y y', I t -> bounded_by n M y -> bounded_by n M y' ->
    (Rabs (g i t y - g i t y') <= L * dist1 n y y')%R.
Proof.
  intros H M. assert (G : forall k, k <= n -> exists L, (0 <= L)%R /\ forall i, i < k -> forall t y y', I t -> bounded_by n M y -> bounded_by n M y' ->
    (Rabs (g i t y - g i t y') <= L * dist1 n y y')%R).
  { induction k as [|k IH]; intros Hk; [exists 0%R; split; [lra | intros; lia]|].
    destruct (IH ltac:(lia)) as (L1 & P1 & H1). destruct (H k ltac:(lia) M) as (L2 & P2 & H2).
    exists (L1 + L2)%R. split; [lra|]. intros i Hi t y y' It By By'. assert (Dn := dist1_nonneg n y y').
    destruct (Nat.eq_dec i k) as [->|Ne].
    - destruct (H2 t y y' It By By') as [_ X]. nra.
    - assert (X := H1 i ltac:(lia) t y y' It By By'). nra. }
  apply (G n). lia.
Qed.

(* If the equations never push a zero concentration below zero, no
   concentration ever becomes negative. *)
Theorem solution_nonneg f (F : R -> list R -> list R) T u : (0 <= T)%R -> solves f T u ->
  (forall t d, (0 <= t <= T)%R -> List.length (u t) = List.length (u 0%R) -> f t (u t) = Some d -> d = F t (u t)) ->
  (forall i, i < List.length (u 0%R) -> ulip (List.length (u 0%R)) (fun t => 0 <= t <= T)%R (fun t y => nth i (F t y) 0%R)) ->
  (forall t y i, (0 <= t <= T)%R -> List.length y = List.length (u 0%R) -> nonneg y -> i < List.length y -> nth i y 0%R = 0%R -> (0 <= nth i (F t y) 0)%R) ->
  nonneg (u 0%R) -> forall t, (0 <= t <= T)%R -> nonneg (u t).
Proof.
  intros HT [U [jumps J]] HF HL HQ H0. set (n := List.length (u 0%R)) in *.
  destruct (sol_bounded_all T HT u U) as [M0 B0]. fold n in B0.
  destruct (ulip_all n _ (fun i t y => nth i (F t y) 0%R) HL (Rmax M0 0)) as (L & PL & Lip).
  set (d := fun i t => below (comp T u i t)).
  set (w := fun t => rsum (map (fun i => d i t * d i t)%R (seq 0 n))).
  set (w' := fun t => rsum (map (fun i => 2 * d i t * nth i (F t (u t)) 0)%R (seq 0 n))).
  assert (Cw : forall t, continuity_pt w t).
  { intros t. apply (rsum_continuous (fun i t => d i t * d i t)%R). intros i Hi. apply in_seq in Hi.
    apply (continuity_pt_comp (comp T u i) (fun z => below z * below z)%R); [apply (sol_continuous T HT u U); fold n; lia | apply below_sq_continuous]. }
  assert (Dw : forall t, (0 < t < T)%R -> ~ In t jumps -> derivable_pt_lim w t (w' t)).
  { intros t Ht Nt. destruct (J t ltac:(lra) Nt) as (dd & Ed & D). assert (Edd := HF t dd ltac:(lra) (proj1 (U t ltac:(lra))) Ed). subst dd.
    apply (rsum_derivable (fun i t => d i t * d i t)%R). intros i Hi. apply in_seq in Hi.
    apply (derivable_pt_lim_comp (comp T u i) (fun z => below z * below z)%R);
      [apply sol_derive; [exact Ht | apply D; lia] | apply below_sq_deriv]. }
  assert (Bd : forall t, (0 < t < T)%R -> (w' t <= 2 * L * INR n * w t)%R).
  { intros t Ht. unfold w'.
    assert (Eu : forall i, comp T u i t = nth i (u t) 0%R) by (intros i; unfold comp; rewrite clamp_id by lra; reflexivity).
    assert (Lu : List.length (u t) = n) by (apply U; lra).
    assert (Bu : bounded_by n (Rmax M0 0) (u t)).
    { split; [exact Lu|]. intros i Hi. rewrite <- Eu. apply Rle_trans with (2 := Rmax_l _ _). apply B0; [exact Hi | lra]. }
    assert (Bp : bounded_by n (Rmax M0 0) (positive_part (u t))).
    { split; [unfold positive_part; rewrite map_length; exact Lu|]. intros i Hi. rewrite positive_part_nth. assert (X := proj2 Bu i Hi).
      assert (Y := Rmax_r M0 0). set (B := Rmax M0 0) in *. clearbody B.
      unfold Rmax. destruct (Rle_dec _ _); [rewrite Rabs_R0; lra | exact X]. }
    set (D := dist1 n (u t) (positive_part (u t))).
    assert (ED : D = rsum (map (fun i => Rabs (d i t)) (seq 0 n))).
    { apply rsum_ext. intros i _. unfold d, below. rewrite Eu, positive_part_nth. unfold Rmax, Rmin, Rabs.
      repeat destruct (Rle_dec _ _); repeat destruct (Rcase_abs _); lra. }
    apply Rle_trans with (rsum (map (fun i => (2 * L * D) * Rabs (d i t))%R (seq 0 n))).
    - apply rsum_le. intros i Hi. apply in_seq in Hi. cbn [Nat.add] in Hi.
      assert (Li := Lip i ltac:(lia) t (u t) (positive_part (u t)) ltac:(lra) Bu Bp). cbv beta in Li. fold D in Li.
      unfold d, below. rewrite Eu. unfold Rmin. destruct (Rle_dec (nth i (u t) 0%R) 0) as [Le|Gt].
      2:{ rewrite Rabs_R0. lra. }
      assert (Q : (0 <= nth i (F t (positive_part (u t))) 0)%R).
      { apply HQ; [lra | apply Bp | apply positive_part_nonneg | rewrite (proj1 Bp); lia|]. rewrite positive_part_nth. unfold Rmax. destruct (Rle_dec _ _); lra. }
      rewrite (Rabs_left1 (nth i (u t) 0%R)) by exact Le.
      set (a := nth i (F t (u t)) 0%R) in *. set (c := nth i (F t (positive_part (u t))) 0%R) in *. set (x := nth i (u t) 0%R) in *.
      assert (G : (a - c >= - (L * D))%R) by (unfold Rabs in Li; destruct (Rcase_abs _); lra). nra.
    - rewrite (rsum_mult (fun i => Rabs (d i t))), ED.
      assert (Sq := square_sum (fun i => d i t) (seq 0 n)). cbv beta in Sq. rewrite seq_length in Sq. unfold w.
      apply Rle_trans with (2 * L * (INR n * rsum (map (fun i => d i t * d i t)%R (seq 0 n))))%R; [|apply Req_le; ring].
      rewrite Rmult_assoc. apply Rmult_le_compat_l; [lra | exact Sq]. }
  assert (W0 : (w 0 <= 0)%R).
  { apply Req_le. apply rsum_zero. intros i Hi. apply in_seq in Hi. unfold d, comp. rewrite clamp_id by lra. unfold nonneg in H0. rewrite Forall_forall in H0.
    assert (X := H0 (nth i (u 0%R) 0%R) (nth_In _ _ (proj2 Hi))). unfold below, Rmin.
    destruct (Rle_dec _ _); [|ring]. replace (nth i (u 0%R) 0%R) with 0%R by lra. ring. }
  intros t Ht. assert (WT := gronwall_jumps w w' (2 * L * INR n) T jumps HT Cw (fun s Hs Ns => conj (Dw s Hs Ns) (Bd s Hs)) W0 t Ht).
  assert (Z := rsum_zero_all (fun i => d i t * d i t)%R (seq 0 n) (fun i _ => Rle_0_sqr (d i t)) WT).
  apply Forall_forall. intros x Hx. apply (In_nth _ _ 0%R) in Hx as (i & Hi & <-). rewrite (proj1 (U t Ht)) in Hi.
  specialize (Z i ltac:(apply in_seq; lia)). cbv beta in Z. apply Rmult_integral in Z. unfold d, comp, below, Rmin in Z. rewrite clamp_id in Z by exact Ht.
  destruct (Rle_dec _ _); lra.
Qed.

(* What the equations conserve, the solution conserves. *)
Theorem solution_conserves f T u (q : quantity) : (0 <= T)%R -> solves f T u ->
  Forall (fun a => snd a < List.length (u 0%R)) q ->
  (forall t d, (0 <= t <= T)%R -> f t (u t) = Some d -> amount_of q d = 0%R) ->
  forall t, (0 <= t <= T)%R -> amount_of q (u t) = amount_of q (u 0%R).
Proof.
  intros HT [U [jumps J]] Hq Hz. set (n := List.length (u 0%R)) in *.
  set (w := fun t => rsum (map (fun p => fst p * comp T u (snd p) t)%R q)).
  assert (Ew : forall s, (0 <= s <= T)%R -> w s = amount_of q (u s)).
  { intros s Hsx. unfold w, amount_of. apply rsum_ext. intros p _. unfold comp. rewrite clamp_id by exact Hsx. reflexivity. }
  rewrite Forall_forall in Hq.
  assert (Cw : forall s, continuity_pt w s).
  { intros s. apply (rsum_continuous (fun p s => fst p * comp T u (snd p) s)%R). intros p Hp.
    apply (continuity_pt_mult (fun _ => fst p) (comp T u (snd p))); [apply continuity_pt_const; intros a b; reflexivity|].
    apply (sol_continuous T HT u U). apply (Hq p Hp). }
  assert (Dw : forall s, (0 < s < T)%R -> ~ In s jumps -> derivable_pt_lim w s 0%R).
  { intros s Hsx Ns. destruct (J s ltac:(lra) Ns) as (d & Ed & D). rewrite <- (Hz s d ltac:(lra) Ed).
    apply (rsum_derivable (fun p s => fst p * comp T u (snd p) s)%R). intros p Hp.
    apply (derivable_pt_lim_scal (comp T u (snd p))). apply sol_derive; [exact Hsx | apply D, (Hq p Hp)]. }
  assert (G : forall c, (c = 1 \/ c = -1)%R -> forall t, (0 <= t <= T)%R -> (c * (w t - w 0) <= 0)%R).
  { intros c Hc. apply (gronwall_jumps (fun t => c * (w t - w 0))%R (fun _ => 0)%R 0 T jumps HT).
    - intros t. apply (continuity_pt_mult (fun _ => c) (fun t => w t - w 0)%R); [apply continuity_pt_const; intros a b; reflexivity|].
      apply (continuity_pt_minus w (fun _ => w 0%R)); [apply Cw | apply continuity_pt_const; intros a b; reflexivity].
    - intros t Ht Nt. split; [|lra]. generalize (w 0%R) as w0. intros w0. assert (X : derivable_pt_lim (fun t => c * (w t - w0))%R t (c * (0 - 0))%R).
      { apply (derivable_pt_lim_scal (fun t => w t - w0)%R). apply (derivable_pt_lim_minus w (fct_cte w0)); [apply Dw; assumption | apply derivable_pt_lim_const]. }
      replace (c * (0 - 0))%R with 0%R in X by ring. exact X.
    - lra. }
  intros t Ht. assert (G1 := G 1%R (or_introl eq_refl) t Ht). assert (G2 := G (-1)%R (or_intror eq_refl) t Ht).
  rewrite <- (Ew t Ht), <- (Ew 0%R ltac:(lra)). lra.
Qed.

(* closure properties *)
Lemma ulip_ext n (I : R -> Prop) (g g' : R -> list R -> R) : (forall t y, I t -> List.length y = n -> g t y = g' t y) -> ulip n I g -> ulip n I g'.
Proof.
  intros E H M. destruct (H M) as (L & P & X). exists L. split; [exact P|]. intros t y y' It By By'.
  rewrite <- (E t y It (proj1 By)), <- (E t y' It (proj1 By')). apply X; assumption.
Qed.
Lemma ulip_const n I c : ulip n I (fun _ _ => c).
Proof.
  intros M. exists (Rabs c). split; [apply Rabs_pos|]. intros t y y' _ _ _. split; [lra|].
  replace (c - c)%R with 0%R by ring. rewrite Rabs_R0. apply Rmult_le_pos; [apply Rabs_pos | apply dist1_nonneg].
Qed.
Lemma ulip_nth n I i : i < n -> ulip n I (fun _ y => nth i y 0%R).
Proof.
  intros Hi M. destruct (lipschitz_nth n i Hi M) as (L & P & X). exists (L + Rabs M)%R. assert (A := Rabs_pos M). split; [lra|].
  intros t y y' _ By By'. assert (D := dist1_nonneg n y y'). split.
  - assert (Z := proj2 By i Hi). assert (Y := Rle_abs M). lra.
  - assert (Z := X y y' By By'). cbv beta in Z. nra.
Qed.
Lemma ulip_plus n I g h : ulip n I g -> ulip n I h -> ulip n I (fun t y => g t y + h t y)%R.
Proof.
  intros Hg Hh M. destruct (Hg M) as (L1 & P1 & H1). destruct (Hh M) as (L2 & P2 & H2). exists (L1 + L2)%R. split; [lra|].
  intros t y y' It By By'. destruct (H1 t y y' It By By') as [A1 B1]. destruct (H2 t y y' It By By') as [A2 B2]. split.
  - apply Rle_trans with (1 := Rabs_triang _ _). lra.
  - replace (g t y + h t y - (g t y' + h t y'))%R with ((g t y - g t y') + (h t y - h t y'))%R by ring.
    apply Rle_trans with (1 := Rabs_triang _ _). lra.
Qed.
Lemma ulip_mult n I g h : ulip n I g -> ulip n I h -> ulip n I (fun t y => g t y * h t y)%R.
Proof.
  intros Hg Hh M. destruct (Hg M) as (L1 & P1 & H1). destruct (Hh M) as (L2 & P2 & H2). exists (2 * L1 * L2)%R.
  assert (PP : (0 <= L1 * L2)%R) by (apply Rmult_le_pos; assumption). split; [lra|].
  intros t y y' It By By'. destruct (H1 t y y' It By By') as [A1 B1]. destruct (H2 t y y' It By By') as [A2 B2].
  destruct (H2 t y' y It By' By) as [A2' _]. split.
  - rewrite Rabs_mult. assert (X1 := Rabs_pos (g t y)). assert (X2 := Rabs_pos (h t y)). nra.
  - replace (g t y * h t y - g t y' * h t y')%R with (g t y * (h t y - h t y') + h t y' * (g t y - g t y'))%R by ring.
    apply Rle_trans with (1 := Rabs_triang _ _). rewrite !Rabs_mult. assert (D := dist1_nonneg n y y').
    apply Rle_trans with (L1 * (L2 * dist1 n y y') + L2 * (L1 * dist1 n y y'))%R; [|apply Req_le; ring].
    apply Rplus_le_compat; apply Rmult_le_compat; try apply Rabs_pos; assumption.
Qed.
Lemma ulip_pow n I g k : ulip n I g -> ulip n I (fun t y => g t y ^ k)%R.
Proof. intros H. induction k as [|k IH]; cbn [pow]; [apply ulip_const | apply ulip_mult; assumption]. Qed.
Lemma ulip_rsum {A} n I (g : A -> R -> list R -> R) l : (forall a, In a l -> ulip n I (g a)) ->
  ulip n I (fun t y => rsum (map (fun a => g a t y) l)).
Proof.
  induction l as [|a l IH]; intros H; cbn; [apply ulip_const|].
  apply ulip_plus; [apply H; left; reflexivity | apply IH; intros b Hb; apply H; right; exact Hb].
Qed.
Lemma ulip_rprod {A} n I (g : A -> R -> list R -> R) l : (forall a, In a l -> ulip n I (g a)) ->
  ulip n I (fun t y => rprod (map (fun a => g a t y) l)).
Proof.
  induction l as [|a l IH]; intros H; cbn; [apply ulip_const|].
  apply ulip_mult; [apply H; left; reflexivity | apply IH; intros b Hb; apply H; right; exact Hb].
Qed.
