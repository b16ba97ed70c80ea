(* Chemistry plus exchange: existence, uniqueness and stability of solutions in
   a box of non-negative states. *)
From Coq Require Import List Bool Arith Lia ZArith Permutation Reals Lra.
From Verif Require Import Base SpecKin LangFacts ModelExpr ModelSolver SpecSolver ModelPart SpecPart PartFacts PartValue PropsPart PartBounds
  ModelAero PropsAeroRun OdeFacts SpecMethod SpecTraj OdeSign OdeNear AeroPull OdeClose OdePicard OdeExist OdeBox PartLip.
Import ListNotations.
Open Scope nat_scope.
Open Scope list_scope.

Lemma flow_clip n B g : (0 <= B)%R -> flowing n g -> flowing n (fun t y => g t (clip B y)).
Proof.
  intros PB H tau p Ct Sp t. assert (X := H tau (fun s j => cut B (p s j)) Ct). cbv beta in X.
  assert (Y : smooth (fun s j => cut B (p s j))) by (intros j s; apply (continuity_pt_comp (fun s => p s j) (cut B)); [apply Sp | apply cut_continuous, PB]).
  specialize (X Y t). intros e He. destruct (X e He) as (dl & Pd & Hd). exists dl. split; [exact Pd|]. intros x Hx. rewrite !clip_as_list. exact (Hd x Hx).
Qed.
Lemma flow_same n (g g' : R -> list R -> R) : (forall t y, List.length y = n -> g t y = g' t y) -> flowing n g -> flowing n g'.
Proof.
  intros E H tau p Ct Sp t. specialize (H tau p Ct Sp t). intros e He. destruct (H e He) as (dl & Pd & Hd). exists dl. split; [exact Pd|].
  intros x Hx. rewrite <- !E by apply as_list_length. exact (Hd x Hx).
Qed.
Lemma flow_sum n g h : flowing n g -> flowing n h -> flowing n (fun t y => g t y + h t y)%R.
Proof. intros G H tau p Ct Sp t. apply (continuity_pt_plus (fun s => g (tau s) (as_list n (p s))) (fun s => h (tau s) (as_list n (p s)))); [apply G | apply H]; assumption. Qed.
Lemma map_seq_nth n (f : nat -> R) i : i < n -> nth i (map f (seq 0 n)) 0%R = f i.
Proof. intros Hi. rewrite (nth_indep _ 0%R (f 0)) by (rewrite map_length, seq_length; exact Hi). rewrite map_nth, seq_nth by exact Hi. reflexivity. Qed.

Section Coupled.
Context (d : prepared) (temp : R) (q : pc2).
Context (Hnc : d_nc d = List.length (d_include d)) (L1 : List.length (d_density d) = d_nc d) (L2 : List.length (d_mw d) = d_nc d)
  (L3 : List.length (d_vp d) = d_nc d) (Fb : Forall (fun g => g < d_ns d) (d_include d)) (Nd : NoDup (d_include d)) (Wnc : 1 <= d_nc d)
  (PD : Forall (Rlt 0) (d_density d)) (PM : Forall (Rlt 0) (d_mw d)) (Htemp : (0 < temp)%R)
  (Hq : Pure_component2 (d_nc d) (d_mw d) Rgas temp = Some q).
Context (nb : nat) (y_core nper : list R) (core_density core_mw diss : R).
Context (Lcore : List.length y_core = nb) (Lnper : List.length nper = nb).
Context (Pcore : Forall (Rlt 0) y_core) (Pnper : Forall (Rlt 0) nper) (Pcd : (0 < core_density)%R) (Pcm : (0 < core_mw)%R) (Pdiss : (0 < diss)%R).
Notation n := (d_ns d + d_nc d * nb).
Notation exchange := (exchange d temp q nb y_core nper core_density core_mw diss).
Context (G : R -> list R -> list R) (bins : R -> list R -> list nat) (PB : forall t y, Permutation (bins t y) (seq 0 nb)).
Context (T B : R) (HT : (0 <= T)%R) (HB : (0 <= B)%R).

Definition swap (t : R) (y : list R) : list R := match exchange (bins t y) y with Some e => e | None => [] end.
Definition joined (H : R -> list R -> list R) (t : R) (y : list R) : list R := map (fun i => nth i (H t y) 0 + nth i (swap t y) 0)%R (seq 0 n).
Lemma joined_nth H t y i : i < n -> nth i (joined H t y) 0%R = (nth i (H t y) 0 + nth i (swap t y) 0)%R.
Proof. apply (map_seq_nth n (fun i => nth i (H t y) 0 + nth i (swap t y) 0)%R). Qed.
Lemma swap_is t y : in_box n B y -> exchange (bins t y) y = Some (swap t y) /\ List.length (swap t y) = n.
Proof.
  intros By. destruct (proj1 (box_exchange d temp q Hnc L1 L2 L3 Fb Nd Wnc PD PM Htemp Hq nb y_core nper core_density core_mw diss Lcore Lnper Pcore Pnper Pcd Pcm Pdiss B HB) (bins t y) y (PB t y) By) as (e & E & L).
  unfold swap. rewrite E. auto.
Qed.

Lemma swap_part i : i < n -> exists g, (forall I, ulip n I (fun _ y => g y)) /\ forall t y, in_box n B y -> nth i (swap t y) 0%R = g y.
Proof.
  intros Hi. destruct (proj2 (box_exchange d temp q Hnc L1 L2 L3 Fb Nd Wnc PD PM Htemp Hq nb y_core nper core_density core_mw diss Lcore Lnper Pcore Pnper Pcd Pcm Pdiss B HB) i Hi) as (g & Lg & Eg).
  exists g. split; [exact Lg|]. intros t y By. apply (Eg (bins t y) y); [apply PB | exact By | apply swap_is, By].
Qed.
Lemma joined_lip H i : i < n -> ulip n (fun t => 0 <= t <= T)%R (fun t y => nth i (H t y) 0%R) ->
  ulip n (fun t => 0 <= t <= T)%R (fun t y => nth i (joined H t (clip B y)) 0%R).
Proof.
  intros Hi LH. destruct (swap_part i Hi) as (g & Lg & Eg).
  eapply (ulip_ext n _ (fun t y => nth i (H t (clip B y)) 0 + g (clip B y))%R).
  - intros t y _ Ly. rewrite (joined_nth H _ _ _ Hi). rewrite (Eg t) by (apply clip_box; [exact HB | exact Ly]). reflexivity.
  - apply ulip_plus; [apply (ulip_clip n _ B (fun t y => nth i (H t y) 0%R)); [exact HB | exact LH] | apply (ulip_clip n _ B (fun _ y => g y)); [exact HB | apply Lg]].
Qed.
Lemma joined_flow H i : i < n -> flowing n (fun t y => nth i (H t y) 0%R) -> flowing n (fun t y => nth i (joined H t (clip B y)) 0%R).
Proof.
  intros Hi FH. destruct (swap_part i Hi) as (g & Lg & Eg).
  eapply (flow_same n (fun t y => nth i (H t (clip B y)) 0 + g (clip B y))%R).
  - intros t y Ly. rewrite (joined_nth H _ _ _ Hi). rewrite (Eg t) by (apply clip_box; [exact HB | exact Ly]). reflexivity.
  - apply flow_sum; [apply (flow_clip n B (fun t y => nth i (H t y) 0%R)); [exact HB | exact FH]|].
    apply (still_flow n (fun y => g (clip B y))). apply (ulip_clip n _ B (fun _ y => g y)); [exact HB | apply Lg].
Qed.

Context (LG : forall i, i < n -> ulip n (fun t => 0 <= t <= T)%R (fun t y => nth i (G t y) 0%R)).

Lemma joined_exists y0 (qs : list quantity) : List.length y0 = n -> nonneg y0 ->
  pieces (fun a b => exists Gr, regime n T Gr /\ forall t y, (a < t < b)%R -> List.length y = n -> G t y = Gr t y) 0 T ->
  (forall t y i, (0 <= t <= T)%R -> in_box n B y -> i < n -> nth i y 0%R = 0%R -> (0 <= nth i (G t y) 0)%R) ->
  (forall t y q, (0 <= t <= T)%R -> in_box n B y -> In q qs -> (amount_of q (joined G t y) <= 0)%R) ->
  Forall (Forall (fun a => snd a < n)) qs ->
  (forall y, List.length y = n -> nonneg y -> (forall q, In q qs -> (amount_of q y <= amount_of q y0)%R) -> forall i, i < n -> (nth i y 0 <= B)%R) ->
  exists u, u 0%R = y0 /\ solves (fun t y => Some (joined G t y)) T u /\ forall t, (0 <= t <= T)%R -> in_box n B (u t).
Proof.
  intros L0 N0 P HZ HQ Hq' HC.
  apply (box_exists n (joined G) T B HT HB) with (qs := qs); try assumption.
  - intros i Hi. apply joined_lip; [exact Hi | apply LG, Hi].
  - eapply pieces_impl; [|exact P]. intros a b (Gr & HR & E). exists (joined Gr). split.
    + intros i Hi. split; [apply joined_lip | apply joined_flow]; try exact Hi; apply HR, Hi.
    + intros t y Ht [Ly _]. unfold joined. apply map_ext. intros i. rewrite (E t y Ht Ly). reflexivity.
  - intros t y i Ht By Hi Hz. rewrite (joined_nth G _ _ _ Hi). assert (X := HZ t y i Ht By Hi Hz).
    assert (Y := exchange_boundary d temp q Hnc L1 L2 L3 Fb Nd Wnc PD PM Htemp Hq nb y_core nper core_density core_mw diss Lcore Lnper Pcore Pnper Pcd Pcm Pdiss B (bins t y) y (swap t y) By HB (PB t y) (proj1 (swap_is t y By)) i Hi Hz). lra.
Qed.

Lemma joined_close : exists C, (0 <= C)%R /\ forall f u v, solves f T u -> solves f T v ->
  (forall t, (0 <= t <= T)%R -> in_box n B (u t)) -> (forall t, (0 <= t <= T)%R -> in_box n B (v t)) ->
  (forall t y dy, (0 <= t <= T)%R -> in_box n B y -> f t y = Some dy -> dy = joined G t y) ->
  forall t, (0 <= t <= T)%R -> (dist1 n (u t) (v t) <= C * dist1 n (u 0%R) (v 0%R))%R.
Proof. apply (box_close n (joined G) T B HT). intros i Hi. apply joined_lip; [exact Hi | apply LG, Hi]. Qed.
End Coupled.
