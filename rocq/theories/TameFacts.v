(* Values of tame rate expressions as functions of time and peroxy radical. *)
From Coq Require Import List Bool Arith Lia Ascii String ZArith QArith Reals Qreals Lra.
From Verif Require Import Base PyStr SpecMech SpecSun SpecTroe ModelRate RateExpr SpecRate SpecRateValue SpecMcmEnv SpecTame
  RateSym RateBody RateSun PropsBody PropsTroe PropsRateValue SpecKin ModelSolver SpecTraj SpecRo2 SpecGas.
Import ListNotations.
Import Coq.Lists.List.
Open Scope nat_scope.
Open Scope list_scope.

Lemma means_mono var J var' J' : (forall x v, var x = Some v -> var' x = Some v) -> (forall k v, J k = Some v -> J' k = Some v) ->
  forall e v, means var J e v -> means var' J' e v.
Proof. intros HV HJ e v M. induction M; try (econstructor; eauto; fail). Qed.

Lemma find_key {A} (l : list (string * A)) x : In x (map fst l) -> exists v, find (fun e => eqb (s_ x) (s_ (fst e))) l = Some v.
Proof.
  intros I. apply in_map_iff in I as (p & <- & I). destruct (find _ l) as [q|] eqn:E; [eauto|].
  assert (X := find_none _ _ E _ I). cbn beta in X. rewrite eqb_refl in X. discriminate.
Qed.

Lemma mcm_var_other r r' w T x : x <> s_ "RO2" -> mcm_var r w T x = mcm_var r' w T x.
Proof.
  intros N. unfold mcm_var, mcm_names. cbn [app find fst]. destruct (eqb x (s_ "TEMP")); [reflexivity|].
  destruct (eqb x (s_ "H2O")); [reflexivity|]. destruct (eqb x (s_ "RO2")) eqn:E; [apply eqb_eq in E; contradiction|]. reflexivity.
Qed.
Lemma mcm_var_RO2 r w T : mcm_var r w T (s_ "RO2") = Some r.
Proof. reflexivity. Qed.

Lemma steady_anywhere w T e v r t : steady w T e v -> means (mcm_var r w T) (mcm_J t) e v.
Proof.
  apply means_mono; [|discriminate]. intros x u H. unfold steady_var in H. destruct (eqb x (s_ "RO2")) eqn:E; [discriminate|].
  rewrite <- H. apply mcm_var_other. intros ->. rewrite eqb_refl in E. discriminate.
Qed.

Lemma mcm_J_bounds : forall k, In k (map fst mcm_table) -> exists f l, (0 <= l)%R /\ forall t, mcm_J t k = Some (f t) /\ (0 <= f t <= l)%R.
Proof.
  intros k I. unfold mcm_J. apply in_map_iff in I as (p & E & I).
  destruct (find (fun r => Nat.eqb k (fst r)) mcm_table) as [[j [[l m] n]]|] eqn:F.
  - exists (fun t => photolysis (l, m, n) (cos_zenith t)), (Q2R l). apply find_some in F as [F _].
    destruct (table_positive _ _ _ _ F) as (P1 & P2 & P3). split; [lra|]. intros t. split; [reflexivity|].
    apply (photolysis_range l m n (cos_zenith t) P1 P2 P3 (cos_zenith_le_1 t)).
  - assert (X := find_none _ _ F _ I). cbn beta in X. rewrite E, Nat.eqb_refl in X. discriminate.
Qed.

(* f is bounded and Lipschitz in its second argument on bounded sets,
   uniformly in the first, and not negative for non-negative arguments. *)
Definition regular (f : R -> R -> R) : Prop :=
  (forall t x, (0 <= x)%R -> (0 <= f t x)%R) /\
  (forall M, exists L, (0 <= L)%R /\ forall t x x', (Rabs x <= M)%R -> (Rabs x' <= M)%R ->
     (Rabs (f t x) <= L)%R /\ (Rabs (f t x - f t x') <= L * Rabs (x - x'))%R).

Lemma regular_const (f : R -> R) l : (0 <= l)%R -> (forall t, 0 <= f t <= l)%R -> regular (fun t _ => f t).
Proof.
  intros Hl H. split; [intros; apply H|]. intros M. exists l. split; [exact Hl|]. intros t x x' _ _.
  split; [rewrite Rabs_pos_eq; apply H|]. rewrite Rminus_eq_0, Rabs_R0. apply Rmult_le_pos; [exact Hl | apply Rabs_pos].
Qed.
Lemma regular_id : regular (fun _ x => x).
Proof.
  split; [auto|]. intros M. exists (Rabs M + 1)%R. split; [pose proof (Rabs_pos M); lra|]. intros t x x' Hx _.
  pose proof (Rle_abs M). split; [lra|]. pose proof (Rabs_pos (x - x')). pose proof (Rabs_pos M).
  rewrite <- (Rmult_1_l (Rabs (x - x'))) at 1. apply Rmult_le_compat_r; lra.
Qed.
Lemma regular_add f g : regular f -> regular g -> regular (fun t x => f t x + g t x)%R.
Proof.
  intros [F0 F] [G0 G]. split; [intros t x Hx; specialize (F0 t x Hx); specialize (G0 t x Hx); lra|].
  intros M. destruct (F M) as (L & HL & HF). destruct (G M) as (L' & HL' & HG). exists (L + L')%R. split; [lra|].
  intros t x x' Hx Hx'. destruct (HF t x x' Hx Hx') as [A B]. destruct (HG t x x' Hx Hx') as [C D]. split.
  - eapply Rle_trans; [apply Rabs_triang|]. lra.
  - replace (f t x + g t x - (f t x' + g t x'))%R with ((f t x - f t x') + (g t x - g t x'))%R by ring.
    eapply Rle_trans; [apply Rabs_triang|]. rewrite Rmult_plus_distr_r. lra.
Qed.
Lemma regular_mul f g : regular f -> regular g -> regular (fun t x => f t x * g t x)%R.
Proof.
  intros [F0 F] [G0 G]. split; [intros t x Hx; specialize (F0 t x Hx); specialize (G0 t x Hx); apply Rmult_le_pos; lra|].
  intros M. destruct (F M) as (L & HL & HF). destruct (G M) as (L' & HL' & HG). exists (2 * (L * L'))%R.
  assert (LL : (0 <= L * L')%R) by (apply Rmult_le_pos; lra). split; [lra|].
  intros t x x' Hx Hx'. destruct (HF t x x' Hx Hx') as [A B]. destruct (HG t x x' Hx Hx') as [C D].
  destruct (HF t x' x Hx' Hx) as [A' _]. split.
  - rewrite Rabs_mult. apply Rle_trans with (L * L')%R; [|lra]. apply Rmult_le_compat; auto using Rabs_pos.
  - replace (f t x * g t x - f t x' * g t x')%R with ((f t x - f t x') * g t x + f t x' * (g t x - g t x'))%R by ring.
    eapply Rle_trans; [apply Rabs_triang|]. rewrite !Rabs_mult.
    apply Rle_trans with (L * Rabs (x - x') * L' + L * (L' * Rabs (x - x')))%R; [|lra].
    apply Rplus_le_compat; apply Rmult_le_compat; auto using Rabs_pos.
Qed.

(* A tame expression has a value at every time and peroxy radical, and the
   value is a regular function of them. *)
Lemma tame_value w T e : tame w T e ->
  exists f, regular f /\ forall t x, means (mcm_var x w T) (mcm_J t) e (f t x).
Proof.
  induction 1 as [e v S P| |k z D I|e H IH|a b Ha IHa Hb IHb|a b Ha IHa Hb IHb|a b v Ha IHa Sb P NI].
  - exists (fun _ _ => v). split; [apply (regular_const (fun _ => v) v); intros; lra|]. intros. apply steady_anywhere, S.
  - exists (fun _ x => x). split; [apply regular_id|]. intros. apply m_var, mcm_var_RO2.
  - destruct (mcm_J_bounds _ I) as (f & l & Hl & Hf). exists (fun t _ => f t). split; [apply (regular_const f l Hl); intros; apply Hf|].
    intros t x. apply (m_phot _ _ k z _ D). apply Hf.
  - destruct IH as (f & R1 & F). exists f. split; [exact R1|]. intros. apply m_paren, F.
  - destruct IHa as (f & R1 & F). destruct IHb as (g & R2 & G). exists (fun t x => f t x + g t x)%R. split; [apply regular_add; assumption|].
    intros. apply m_add; auto.
  - destruct IHa as (f & R1 & F). destruct IHb as (g & R2 & G). exists (fun t x => f t x * g t x)%R. split; [apply regular_mul; assumption|].
    intros. apply m_mul; auto.
  - destruct IHa as (f & R1 & F). exists (fun t x => f t x * / v)%R. split.
    + assert (Q : (0 <= / v)%R) by (left; apply Rinv_0_lt_compat, P).
      apply (regular_mul f (fun _ _ => / v)%R R1). apply (regular_const (fun _ => / v)%R (/ v)%R Q). intros; lra.
    + intros t x. apply (m_div _ _ a b (f t x) v); [apply F | apply steady_anywhere, Sb | lra | exact NI].
Qed.

Lemma finite_choice {A} (d : A) (P : nat -> A -> Prop) n : (forall k, k < n -> exists a, P k a) -> exists f, forall k, k < n -> P k (f k).
Proof.
  induction n as [|n IH]; intros H; [exists (fun _ => d); lia|]. destruct IH as [f F]; [intros; apply H; lia|].
  destruct (H n ltac:(lia)) as [a Ha]. exists (fun k => if Nat.eqb k n then a else f k). intros k Hk.
  destruct (Nat.eqb k n) eqn:E; [apply Nat.eqb_eq in E; subst; exact Ha | apply F; apply Nat.eqb_neq in E; lia].
Qed.

Lemma regular_all n (k : nat -> R -> R -> R) : (forall r, r < n -> regular (k r)) -> forall from until, regular_rates n k from until.
Proof.
  intros H from until. split; [intros r t x Hr _ Hx; apply (H r Hr); exact Hx|]. intros M. revert H. induction n as [|n IH]; intros H.
  - exists 0%R. split; [lra|]. intros; lia.
  - destruct IH as (L & HL & Q); [intros; apply H; lia|]. destruct (proj2 (H n ltac:(lia)) M) as (L' & HL' & Q').
    exists (L + L')%R. split; [lra|]. intros r t x x' Hr Ht Hx Hx'. pose proof (Rabs_pos (x - x')).
    destruct (Nat.eq_dec r n) as [->|N].
    + destruct (Q' t x x' Hx Hx') as [A B]. split; [lra|]. eapply Rle_trans; [exact B|]. apply Rmult_le_compat_r; lra.
    + destruct (Q r t x x' ltac:(lia) Ht Hx Hx') as [A B]. split; [lra|]. eapply Rle_trans; [exact B|]. apply Rmult_le_compat_r; lra.
Qed.

(* ------------------------------------------------------------------ *)
(* The class read off the text. *)
Lemma constant_positive w T x : (0 < T)%R -> (0 <= w)%R -> In x ("TEMP"%string :: constant_names) ->
  exists v, steady_var w T (s_ x) = Some v /\ (0 < v)%R.
Proof.
  intros HT HW [<-|I]; [exists T; split; [reflexivity | exact HT]|].
  assert (A : forallb (fun x => negb (eqb (s_ x) (s_ "RO2")) && existsb (String.eqb x) rate_constants) constant_names = true) by (vm_compute; reflexivity).
  rewrite forallb_forall in A. specialize (A _ I). apply andb_prop in A as [N C]. apply existsb_exists in C as (x' & C & E).
  apply String.eqb_eq in E. subst x'. unfold steady_var. destruct (eqb (s_ x) (s_ "RO2")); [discriminate|].
  destruct (find_key (mcm_names 0 w T) x) as [p F].
  { unfold mcm_names, constant_names in *. rewrite !map_app. apply in_or_app. right. rewrite !map_map. apply in_app_or in I as [I|I].
    - apply in_or_app. left. apply in_map_iff in I as (q & <- & I). apply in_map_iff. exists q. split; [destruct q as [[[? ?] ?] ?]; reflexivity | exact I].
    - apply in_or_app. right. exact I. }
  assert (V : mcm_var 0 w T (s_ x) = Some (snd p)) by (unfold mcm_var; rewrite F; reflexivity).
  exists (snd p). split; [exact V|].
  destruct (mcm_env 0 0 w T HT HW) as (en & ef & En & _ & HV & _). destruct (HV _ _ V) as [Vn _].
  destruct (C52_positive 0 0 w T HT HW) as (en' & ef' & En' & _ & HP). rewrite En in En'. injection En' as <-.
  destruct (HP x C) as [(v & Hv & Pv) _]. rewrite Vn in Hv. injection Hv as ->. exact Pv.
Qed.

Scheme plus_mut := Induction for plus Sort Prop with calculable_mut := Induction for calculable Sort Prop.
Combined Scheme plus_calculable from plus_mut, calculable_mut.

Lemma Q2R_pos q : (0 < q)%Q -> (0 < Q2R q)%R.
Proof. intros H. rewrite <- RMicromega.Q2R_0. apply Qlt_Rlt, H. Qed.
Lemma Q2R_nonneg q : (0 <= q)%Q -> (0 <= Q2R q)%R.
Proof. intros H. rewrite <- RMicromega.Q2R_0. apply Qle_Rle, H. Qed.

Lemma calculable_steady w T : (0 < T)%R -> (0 <= w)%R ->
  (forall e, plus e -> exists v, steady w T e v /\ (0 < v)%R) /\ (forall e, calculable e -> exists v, steady w T e v).
Proof.
  intros HT HW. unfold steady.
  apply (plus_calculable (fun e _ => exists v, means (steady_var w T) (fun _ => None) e v /\ (0 < v)%R)
                         (fun e _ => exists v, means (steady_var w T) (fun _ => None) e v)).
  - intros m ex q H P. exists (Q2R q). split; [apply m_lit, H | apply Q2R_pos, P].
  - intros x I. destruct (constant_positive w T x HT HW I) as (v & V & P). exists v. split; [apply m_var, V | exact P].
  - intros e _ (v & V) NI. exists (exp v). split; [apply m_exp; assumption | apply exp_pos].
  - intros e _ (v & V & P). exists v. split; [apply m_paren, V | exact P].
  - intros a b _ (x & A & P) _ (y & B & Q). exists (x + y)%R. split; [apply m_add; assumption | lra].
  - intros a b _ (x & A & P) _ (y & B & Q). exists (x * y)%R. split; [apply m_mul; assumption | apply Rmult_lt_0_compat; assumption].
  - intros a b _ (x & A & P) _ (y & B & Q) NI. exists (x / y)%R. split; [apply m_div; [assumption|assumption|lra|exact NI] | apply Rdiv_lt_0_compat; assumption].
  - intros a b _ (x & A & P) _ (y & B) NI. exists (Rpower x y). split; [apply m_pow; assumption | apply exp_pos].
  - intros e _ (v & V & _). eauto.
  - intros m ex q H. exists (Q2R q). apply m_lit, H.
  - exists w. apply m_var. reflexivity.
  - intros e _ (v & V). exists v. apply m_paren, V.
  - intros e _ (v & V). eexists. apply m_neg, V.
  - intros a b _ (x & A) _ (y & B). eexists. apply m_add; eassumption.
  - intros a b _ (x & A) _ (y & B). eexists. apply m_sub; eassumption.
  - intros a b _ (x & A) _ (y & B). eexists. apply m_mul; eassumption.
  - intros a b _ (x & A) _ (y & B & P) NI. exists (x / y)%R. apply m_div; [assumption|assumption|lra|exact NI].
Qed.

Lemma usual_tame w T e : (0 < T)%R -> (0 <= w)%R -> usual e -> tame w T e.
Proof.
  intros HT HW. destruct (calculable_steady w T HT HW) as [HP _]. induction 1 as [e P|m ex q H P|x I|k z D I|e H IH|a b Ha IHa Hb IHb|a b Ha IHa Hb IHb|a b Ha IHa Pb NI].
  - destruct (HP _ P) as (v & V & Q). apply (tame_steady _ _ _ v V). lra.
  - apply (tame_steady _ _ _ (Q2R q)); [apply m_lit, H | apply Q2R_nonneg, P].
  - destruct I as [<-|[<-|[]]]; [apply tame_RO2|]. apply (tame_steady _ _ _ w); [apply m_var; reflexivity | exact HW].
  - apply (tame_phot _ _ k z D I).
  - apply tame_paren, IH.
  - apply tame_add; assumption.
  - apply tame_mul; assumption.
  - destruct (HP _ Pb) as (v & V & Q). apply (tame_div _ _ a b v IHa V Q NI).
Qed.
