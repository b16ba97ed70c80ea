(* Integrals of continuous functions: what is needed of them. *)
From Coq Require Import List Bool Arith Lia ZArith Reals Lra.
From Coquelicot Require Import Coquelicot.
Open Scope R_scope.

Definition integ (g : R -> R) (a t : R) : R := RInt g a t.
Lemma integ_start g a : integ g a a = 0.
Proof. unfold integ. rewrite RInt_point. reflexivity. Qed.
Lemma integ_derive g a t : (forall s, continuity_pt g s) -> derivable_pt_lim (integ g a) t (g t).
Proof.
  intros C. apply is_derive_Reals. assert (C' : forall s, continuous g s) by (intros s; apply continuity_pt_filterlim, C).
  apply (is_derive_RInt g (integ g a) a t); [|apply C'].
  exists (mkposreal 1 Rlt_0_1). intros b _. unfold integ. apply (@RInt_correct R_CompleteNormedModule g a b). apply (ex_RInt_continuous g a b). intros z _. apply C'.
Qed.
Lemma integ_continuous g a t : (forall s, continuity_pt g s) -> continuity_pt (integ g a) t.
Proof. intros C. apply derivable_continuous_pt. exists (g t). apply integ_derive, C. Qed.

(* A function that starts below another one and grows more slowly. *)
Lemma slower (f f' h h' : R -> R) a t : a <= t -> (forall s, a <= s <= t -> derivable_pt_lim f s (f' s)) -> (forall s, a <= s <= t -> derivable_pt_lim h s (h' s)) ->
  (forall s, a <= s <= t -> f' s <= h' s) -> f t - f a <= h t - h a.
Proof.
  intros Hat F H Le. destruct (Req_dec a t) as [->|Ne]; [lra|].
  destruct (MVT_cor2 (fun s => h s - f s) (fun s => h' s - f' s) a t ltac:(lra)) as (c & E & Hc).
  - intros s Hs. apply (derivable_pt_lim_minus h f); auto.
  - assert (X := Le c ltac:(lra)). assert (0 <= (h' c - f' c) * (t - a)) by (apply Rmult_le_pos; lra). lra.
Qed.
Lemma integ_bound g h h' a t : a <= t -> (forall s, continuity_pt g s) -> (forall s, a <= s <= t -> derivable_pt_lim h s (h' s)) ->
  (forall s, a <= s <= t -> Rabs (g s) <= h' s) -> Rabs (integ g a t) <= h t - h a.
Proof.
  intros Hat C H Le.
  assert (A := slower (integ g a) g h h' a t Hat (fun s _ => integ_derive g a s C) H (fun s Hs => Rle_trans _ _ _ (Rle_abs _) (Le s Hs))).
  assert (B := slower (- integ g a)%F (fun s => - g s) h h' a t Hat (fun s _ => derivable_pt_lim_opp (integ g a) s (g s) (integ_derive g a s C)) H
    (fun s Hs => Rle_trans _ _ _ (Rle_trans _ _ _ (Rle_abs (- g s)) (Req_le _ _ (Rabs_Ropp (g s)))) (Le s Hs))).
  unfold opp_fct in B. rewrite integ_start in A, B. unfold Rabs. destruct (Rcase_abs _); lra.
Qed.
(* Two integrals. *)
Lemma integ_diff g1 g2 h h' a t : a <= t -> (forall s, continuity_pt g1 s) -> (forall s, continuity_pt g2 s) ->
  (forall s, a <= s <= t -> derivable_pt_lim h s (h' s)) -> (forall s, a <= s <= t -> Rabs (g1 s - g2 s) <= h' s) ->
  Rabs (integ g1 a t - integ g2 a t) <= h t - h a.
Proof.
  intros Hat C1 C2 H Le.
  assert (D : forall s, derivable_pt_lim (fun s => integ g1 a s - integ g2 a s) s (g1 s - g2 s)) by (intros s; apply (derivable_pt_lim_minus (integ g1 a) (integ g2 a)); apply integ_derive; assumption).
  assert (A := slower _ _ h h' a t Hat (fun s _ => D s) H (fun s Hs => Rle_trans _ _ _ (Rle_abs _) (Le s Hs))).
  assert (B := slower _ _ h h' a t Hat (fun s _ => derivable_pt_lim_opp _ s _ (D s)) H
    (fun s Hs => Rle_trans _ _ _ (Rle_trans _ _ _ (Rle_abs (- (g1 s - g2 s))) (Req_le _ _ (Rabs_Ropp (g1 s - g2 s)))) (Le s Hs))).
  cbv beta in A, B. unfold opp_fct in *. rewrite !integ_start in A, B. unfold Rabs. destruct (Rcase_abs _); lra.
Qed.
