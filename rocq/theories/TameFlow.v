(* Tame rate coefficients are continuous by day and continuous by night, and so
   is the right-hand side made from them. *)
From Coq Require Import List Bool Arith Lia Ascii String ZArith QArith Reals Qreals Lra.
From Verif Require Import Base PyStr PyDict ModelParse SpecMech ParseStruct ParseTables ParseWritten ModelLang ModelGen ModelRhs GenReact GenLossGain GenParsed GenSparse PropsKin PropsRhs
  SpecKin LangFacts SpecSun SpecTroe ModelRate RateExpr SpecRate SpecRateValue SpecMcmEnv SpecTame
  RateSun PropsRateValue SpecTraj SpecRo2 SpecGas TameFacts OdeFacts OdeSign PropsTraj OdePicard OdeExist SunPieces.
Import ListNotations.
Import Coq.Lists.List.
Open Scope nat_scope.
Open Scope list_scope.
Local Arguments eqb : simpl never.

(* f is continuous along continuous functions of time. *)
Definition flows (f : R -> R -> R) : Prop := forall tau x : R -> R, (forall t, continuity_pt tau t) -> (forall t, continuity_pt x t) ->
  forall t, continuity_pt (fun s => f (tau s) (x s)) t.

Lemma flows_const (f : R -> R) : (forall t, continuity_pt f t) -> flows (fun t _ => f t).
Proof. intros H tau x Ht _ t. apply (continuity_pt_comp tau f); [apply Ht | apply H]. Qed.
Lemma continuous_const c t : continuity_pt (fun _ => c) t.
Proof. apply continuity_pt_const. intros x y. reflexivity. Qed.
Lemma flows_add f g : flows f -> flows g -> flows (fun t x => f t x + g t x)%R.
Proof. intros F G tau x Ht Hx t. apply (continuity_pt_plus (fun s => f (tau s) (x s)) (fun s => g (tau s) (x s))); [apply F | apply G]; assumption. Qed.
Lemma flows_mul f g : flows f -> flows g -> flows (fun t x => f t x * g t x)%R.
Proof. intros F G tau x Ht Hx t. apply (continuity_pt_mult (fun s => f (tau s) (x s)) (fun s => g (tau s) (x s))); [apply F | apply G]; assumption. Qed.

(* By day: the photolysis rate with the zenith angle kept off the horizon. *)
Definition kept (t : R) : R := Rmax (cos_zenith t) (1 / 10 ^ 30).
Definition by_day (l m n : Q) (t : R) : R := (Q2R l * Rpower (kept t) (Q2R m) * exp (- (Q2R n / kept t)))%R.

Lemma kept_pos t : (0 < 1 / 10 ^ 30 <= kept t)%R.
Proof. split; [apply Rdiv_lt_0_compat; [lra | apply pow_lt; lra] | apply Rmax_r]. Qed.
Lemma kept_le t : (kept t <= 1)%R.
Proof.
  unfold kept. apply Rmax_lub; [apply cos_zenith_le_1|]. apply Rmult_le_reg_r with (10 ^ 30)%R; [apply pow_lt; lra|].
  unfold Rdiv. rewrite Rmult_assoc, Rinv_l by (apply pow_nonzero; lra). rewrite !Rmult_1_l. apply pow_R1_Rle. lra.
Qed.
Lemma kept_continuous t : continuity_pt kept t.
Proof.
  intros e He. destruct (cos_zenith_continuous t e He) as (d & Pd & Hd). exists d. split; [exact Pd|]. intros x Hx. specialize (Hd x Hx).
  simpl in *. unfold R_dist in *. unfold kept. set (c := (1 / 10 ^ 30)%R) in *. 
  assert (X : forall a b, (Rabs (Rmax a c - Rmax b c) <= Rabs (a - b))%R) by (intros a b; unfold Rmax, Rabs; repeat destruct (Rle_dec _ _); repeat destruct (Rcase_abs _); lra).
  apply Rle_lt_trans with (1 := X _ _). exact Hd.
Qed.
Lemma by_day_continuous l m n t : continuity_pt (by_day l m n) t.
Proof.
  assert (P := kept_pos t). unfold by_day.
  apply (continuity_pt_mult (fun t => Q2R l * Rpower (kept t) (Q2R m))%R (fun t => exp (- (Q2R n / kept t)))).
  - apply (continuity_pt_mult (fun _ => Q2R l) (fun t => Rpower (kept t) (Q2R m))); [apply continuous_const|].
    apply (continuity_pt_comp kept (fun x => Rpower x (Q2R m))); [apply kept_continuous|].
    apply derivable_continuous_pt. eexists. apply derivable_pt_lim_power. lra.
  - apply (continuity_pt_comp (fun t => - (Q2R n / kept t))%R exp); [|apply derivable_continuous_pt, derivable_pt_exp].
    apply (continuity_pt_opp (fun t => Q2R n / kept t)%R). apply (continuity_pt_mult (fun _ => Q2R n) (fun t => / kept t)%R); [apply continuous_const|].
    apply (continuity_pt_inv kept); [apply kept_continuous | lra].
Qed.
Lemma by_day_range l m n t : (0 < Q2R l)%R -> (0 < Q2R m)%R -> (0 < Q2R n)%R -> (0 <= by_day l m n t <= Q2R l)%R.
Proof.
  intros Pl Pm Pn. unfold by_day. assert (P := kept_pos t). assert (K := kept_le t).
  assert (A : (0 < Rpower (kept t) (Q2R m) <= 1)%R).
  { split; [apply exp_pos|]. destruct K as [K|K]; [|rewrite K; unfold Rpower; rewrite ln_1, Rmult_0_r, exp_0; lra].
    left. unfold Rpower. rewrite <- exp_0. apply exp_increasing. assert (L := ln_increasing (kept t) 1 ltac:(lra) K). rewrite ln_1 in L. nra. }
  assert (B : (0 < exp (- (Q2R n / kept t)) <= 1)%R).
  { split; [apply exp_pos|]. left. rewrite <- exp_0. apply exp_increasing. assert (0 < Q2R n / kept t)%R by (apply Rdiv_lt_0_compat; lra). lra. }
  set (a := Rpower _ _) in *. set (b := exp _) in *. split.
  - apply Rmult_le_pos; [apply Rmult_le_pos|]; lra.
  - rewrite Rmult_assoc. rewrite <- (Rmult_1_r (Q2R l)) at 2. apply Rmult_le_compat_l; [lra|]. rewrite <- (Rmult_1_r 1). apply Rmult_le_compat; lra.
Qed.
Lemma by_day_sunny l m n t : sunny t -> photolysis (l, m, n) (cos_zenith t) = by_day l m n t.
Proof.
  unfold sunny, photolysis, by_day, kept. intros S. destruct (Rle_dec _ _) as [C|C]; [lra|]. rewrite Rmax_left by lra. reflexivity.
Qed.
Lemma by_night l m n t : ~ sunny t -> photolysis (l, m, n) (cos_zenith t) = 0%R.
Proof. unfold sunny, photolysis. intros S. destruct (Rle_dec _ _) as [C|C]; [reflexivity | lra]. Qed.

(* What a tame expression means, by day and by night. *)
Definition in_regimes (f fd fn : R -> R -> R) : Prop :=
  regular fd /\ flows fd /\ regular fn /\ flows fn /\ forall t x, (sunny t -> f t x = fd t x) /\ (~ sunny t -> f t x = fn t x).

Lemma regimes_same f : regular f -> flows f -> in_regimes f f f.
Proof. intros H1 H2. unfold in_regimes. auto 10. Qed.
Lemma regimes_add f fd fn g gd gn : in_regimes f fd fn -> in_regimes g gd gn ->
  in_regimes (fun t x => f t x + g t x)%R (fun t x => fd t x + gd t x)%R (fun t x => fn t x + gn t x)%R.
Proof.
  intros (A1 & A2 & A3 & A4 & A5) (B1 & B2 & B3 & B4 & B5).
  refine (conj (regular_add _ _ A1 B1) (conj (flows_add _ _ A2 B2) (conj (regular_add _ _ A3 B3) (conj (flows_add _ _ A4 B4) _)))).
  intros t x. destruct (A5 t x) as [C1 C2]. destruct (B5 t x) as [D1 D2]. split; intros S; [rewrite C1, D1 | rewrite C2, D2]; auto.
Qed.
Lemma regimes_mul f fd fn g gd gn : in_regimes f fd fn -> in_regimes g gd gn ->
  in_regimes (fun t x => f t x * g t x)%R (fun t x => fd t x * gd t x)%R (fun t x => fn t x * gn t x)%R.
Proof.
  intros (A1 & A2 & A3 & A4 & A5) (B1 & B2 & B3 & B4 & B5).
  refine (conj (regular_mul _ _ A1 B1) (conj (flows_mul _ _ A2 B2) (conj (regular_mul _ _ A3 B3) (conj (flows_mul _ _ A4 B4) _)))).
  intros t x. destruct (A5 t x) as [C1 C2]. destruct (B5 t x) as [D1 D2]. split; intros S; [rewrite C1, D1 | rewrite C2, D2]; auto.
Qed.

Lemma tame_flow w T e : tame w T e ->
  exists f fd fn, regular f /\ (forall t x, means (mcm_var x w T) (mcm_J t) e (f t x)) /\ in_regimes f fd fn.
Proof.
  induction 1 as [e v S P| |k z D I|e H IH|a b Ha IHa Hb IHb|a b Ha IHa Hb IHb|a b v Ha IHa Sb P NI].
  - assert (X : regular (fun _ _ => v)) by (apply (regular_const (fun _ => v) v); intros; lra).
    exists (fun _ _ => v), (fun _ _ => v), (fun _ _ => v). split; [exact X|]. split; [intros; apply steady_anywhere, S|].
    apply regimes_same; [exact X|]. intros tau x _ _ t. apply continuous_const.
  - exists (fun _ x => x), (fun _ x => x), (fun _ x => x). split; [apply regular_id|]. split; [intros; apply m_var, mcm_var_RO2|].
    apply regimes_same; [apply regular_id|]. intros tau x _ Hx t. apply Hx.
  - assert (I' := I). apply in_map_iff in I' as (p & E & I'). destruct (find (fun r => Nat.eqb (Z.to_nat z) (fst r)) mcm_table) as [[j [[l m] n]]|] eqn:F.
    2:{ assert (X := find_none _ _ F _ I'). cbn beta in X. rewrite E, Nat.eqb_refl in X. discriminate. }
    assert (Fin := proj1 (find_some _ _ F)). destruct (table_positive _ _ _ _ Fin) as (P1 & P2 & P3).
    exists (fun t _ => photolysis (l, m, n) (cos_zenith t)), (fun t _ => by_day l m n t), (fun _ _ => 0%R).
    split; [apply (regular_const (fun t => photolysis (l, m, n) (cos_zenith t)) (Q2R l)); [lra|]; intros t; apply (photolysis_range l m n (cos_zenith t) P1 P2 P3 (cos_zenith_le_1 t))|].
    split; [intros t x; apply (m_phot _ _ k z _ D); unfold mcm_J; rewrite F; reflexivity|].
    refine (conj _ (conj _ (conj _ (conj _ _)))).
    + apply (regular_const (by_day l m n) (Q2R l)); [lra|]. intros t. apply by_day_range; assumption.
    + apply flows_const. apply by_day_continuous.
    + apply (regular_const (fun _ => 0%R) 0); intros; lra.
    + intros tau x _ _ t. apply continuous_const.
    + intros t x. split; [apply by_day_sunny | apply by_night].
  - destruct IH as (f & fd & fn & R1 & F & G). exists f, fd, fn. split; [exact R1|]. split; [intros; apply m_paren, F | exact G].
  - destruct IHa as (f & fd & fn & R1 & F & G). destruct IHb as (f' & fd' & fn' & R1' & F' & G'). eexists _, _, _. split; [exact (regular_add _ _ R1 R1')|].
    split; [intros; apply m_add; auto | exact (regimes_add _ _ _ _ _ _ G G')].
  - destruct IHa as (f & fd & fn & R1 & F & G). destruct IHb as (f' & fd' & fn' & R1' & F' & G'). eexists _, _, _. split; [exact (regular_mul _ _ R1 R1')|].
    split; [intros; apply m_mul; auto | exact (regimes_mul _ _ _ _ _ _ G G')].
  - destruct IHa as (f & fd & fn & R1 & F & G). assert (Q : (0 <= / v)%R) by (left; apply Rinv_0_lt_compat, P).
    assert (X : regular (fun _ _ => / v)%R) by (apply (regular_const (fun _ => / v)%R (/ v)%R Q); intros; lra).
    assert (Y : in_regimes (fun _ _ => / v)%R (fun _ _ => / v)%R (fun _ _ => / v)%R) by (apply regimes_same; [exact X|]; intros tau x _ _ t; apply continuous_const).
    eexists _, _, _. split; [exact (regular_mul _ _ R1 X)|]. split; [|exact (regimes_mul _ _ _ _ _ _ G Y)].
    intros t x. apply (m_div _ _ a b (f t x) v); [apply F | apply steady_anywhere, Sb | lra | exact NI].
Qed.

Lemma tame_regimes m e w T : tame_rates m e w T ->
  exists k kd kn, (forall from until, regular_rates (List.length m) k from until) /\
    (forall t x, coefficients m e t x w T (fun r => k r t x)) /\
    (forall from until, regular_rates (List.length m) kd from until) /\ (forall from until, regular_rates (List.length m) kn from until) /\
    (forall r, r < List.length m -> flows (kd r) /\ flows (kn r)) /\
    (forall r t x, r < List.length m -> (sunny t -> k r t x = kd r t x) /\ (~ sunny t -> k r t x = kn r t x)).
Proof.
  intros H.
  destruct (finite_choice (fun _ _ : R => 0%R, fun _ _ : R => 0%R, fun _ _ : R => 0%R)
    (fun r p => regular (fst (fst p)) /\ (forall t x, means (mcm_var x w T) (mcm_J t) (e r) (fst (fst p) t x)) /\ in_regimes (fst (fst p)) (snd (fst p)) (snd p)) (List.length m)) as [k K].
  { intros r Hr. destruct (nth_error m r) as [rx|] eqn:E; [|apply nth_error_None in E; lia].
    destruct (H r rx E) as (_ & _ & _ & _ & Tm). destruct (tame_flow w T (e r) Tm) as (f & fd & fn & F). exists (f, fd, fn). exact F. }
  exists (fun r => fst (fst (k r))), (fun r => snd (fst (k r))), (fun r => snd (k r)).
  split; [apply regular_all; intros r Hr; apply (K r Hr)|].
  split. { intros t x r rx E. destruct (H r rx E) as (A1 & A2 & A3 & A4 & _). repeat (split; [assumption|]). apply K. apply nth_error_Some. congruence. }
  split; [apply regular_all; intros r Hr; apply (K r Hr)|]. split; [apply regular_all; intros r Hr; apply (K r Hr)|].
  split; [intros r Hr; destruct (K r Hr) as (_ & _ & _ & A & _ & B & _); split; assumption|].
  intros r t x Hr. destruct (K r Hr) as (_ & _ & _ & _ & _ & _ & X). apply X.
Qed.

(* ------------------------------------------------------------------ *)
Lemma flow_ext n (g g' : R -> list R -> R) : (forall t y, List.length y = n -> g t y = g' t y) -> flowing n g -> flowing n g'.
Proof.
  intros E H tau p Ht Hp t. assert (X := H tau p Ht Hp t). intros e He. destruct (X e He) as (d & Pd & Hd). exists d. split; [exact Pd|]. intros x Hx.
  rewrite <- !E by apply as_list_length. exact (Hd x Hx).
Qed.
Lemma flow_const n c : flowing n (fun _ _ => c).
Proof. intros tau p _ _ t. apply continuous_const. Qed.
Lemma flow_nth n i : i < n -> flowing n (fun _ y => nth i y 0%R).
Proof.
  intros Hi tau p _ Hp t. intros e He. destruct (Hp i t e He) as (d & Pd & Hd). exists d. split; [exact Pd|]. intros x Hx. rewrite !as_list_nth by exact Hi. exact (Hd x Hx).
Qed.
Lemma flow_plus n g h : flowing n g -> flowing n h -> flowing n (fun t y => g t y + h t y)%R.
Proof. intros G H tau p Ht Hp t. apply (continuity_pt_plus (fun s => g (tau s) (as_list n (p s))) (fun s => h (tau s) (as_list n (p s)))); [apply G | apply H]; assumption. Qed.
Lemma flow_mult n g h : flowing n g -> flowing n h -> flowing n (fun t y => g t y * h t y)%R.
Proof. intros G H tau p Ht Hp t. apply (continuity_pt_mult (fun s => g (tau s) (as_list n (p s))) (fun s => h (tau s) (as_list n (p s)))); [apply G | apply H]; assumption. Qed.
Lemma flow_pow n g k : flowing n g -> flowing n (fun t y => g t y ^ k)%R.
Proof. intros H. induction k as [|k IH]; cbn [pow]; [apply flow_const | apply flow_mult; assumption]. Qed.
Lemma flow_rsum {A} n (g : A -> R -> list R -> R) l : (forall a, In a l -> flowing n (g a)) -> flowing n (fun t y => rsum (map (fun a => g a t y) l)).
Proof.
  induction l as [|a l IH]; intros H; [exact (flow_const n 0%R)|]. apply (flow_plus n (g a) (fun t y => rsum (map (fun a => g a t y) l))); [apply H; left; reflexivity|].
  apply IH. intros b Hb. apply H. right. exact Hb.
Qed.
Lemma flow_rprod {A} n (g : A -> R -> list R -> R) l : (forall a, In a l -> flowing n (g a)) -> flowing n (fun t y => rprod (map (fun a => g a t y) l)).
Proof.
  induction l as [|a l IH]; intros H; [exact (flow_const n 1%R)|]. apply (flow_mult n (g a) (fun t y => rprod (map (fun a => g a t y) l))); [apply H; left; reflexivity|].
  apply IH. intros b Hb. apply H. right. exact Hb.
Qed.

Section Mechanism.
Context (m : mech).
Let N := List.length (species m).

Lemma conc_flow s : flowing N (fun _ y => conc_of (p_sp2a (interp m)) y s).
Proof.
  apply (flow_ext N (fun _ y => match dget s (p_sp2a (interp m)) with Some i => nth i y 0%R | None => 0%R end)).
  { intros t y _. symmetry. apply conc_of_dget. }
  destruct (dget s (p_sp2a (interp m))) as [j|] eqn:Ej; [|apply flow_const]. apply flow_nth. apply interp_sp2a in Ej. unfold N. apply nth_error_Some. congruence.
Qed.
Lemma products_flow k : whole m -> flowing N (fun _ y => nth k (products m zeros (conc_of (p_sp2a (interp m)) y)) 0%R).
Proof.
  intros Hw. destruct (nth_error m k) as [r|] eqn:Er.
  2:{ apply (flow_ext N (fun _ _ => 0%R)); [|apply flow_const]. intros t y _. symmetry. apply nth_overflow. unfold products. rewrite array_length. apply nth_error_None, Er. }
  apply (flow_ext N (fun _ y => if only_light (lhs r) then 0%R else written_product (conc_of (p_sp2a (interp m)) y) (lhs r))).
  { intros t y _. symmetry. apply nth_error_nth. unfold products. rewrite nth_error_array by (apply nth_error_Some; congruence). rewrite Er. reflexivity. }
  destruct (only_light (lhs r)); [apply flow_const|]. unfold written_product.
  apply (flow_rprod N (fun s _ y => SpecKin.rpow (conc_of (p_sp2a (interp m)) y s) (total s (lhs r)))). intros s Hs.
  destruct (Hw r s (nth_error_In _ _ Er) Hs) as [n En]. unfold SpecKin.rpow. rewrite En. apply flow_pow. apply conc_flow.
Qed.
Lemma peroxy_flow : flowing N (fun _ y => peroxy_total (species m) (conc_of (p_sp2a (interp m)) y)).
Proof.
  unfold peroxy_total. apply (flow_rsum N (fun s _ y => if is_peroxy s then conc_of (p_sp2a (interp m)) y s else 0%R)). intros s _.
  destruct (is_peroxy s); [apply conc_flow | apply flow_const].
Qed.

Context (k : nat -> R -> R -> R) (start : R) (Hk : forall r, r < List.length m -> flows (k r)).
Lemma rate_flow r : r < List.length m -> flowing N (fun t y => k r (start + t)%R (peroxy_total (species m) (conc_of (p_sp2a (interp m)) y))).
Proof.
  intros Hr tau p Ht Hp t. apply (Hk r Hr (fun s => start + tau s)%R (fun s => peroxy_total (species m) (conc_of (p_sp2a (interp m)) (as_list N (p s))))).
  - intros s. apply (continuity_pt_plus (fun _ => start) tau); [apply continuous_const | apply Ht].
  - intros s. apply (peroxy_flow tau p Ht Hp).
Qed.
Lemma generated_flow i : whole m -> flowing N (fun t y => nth i (generated m (rates_at m k start t y) y) 0%R).
Proof.
  intros Hw. destruct (nth_error (species m) i) as [s|] eqn:Es.
  2:{ apply (flow_ext N (fun _ _ => 0%R)); [|apply flow_const]. intros t y _. symmetry. apply nth_overflow. unfold generated. rewrite map_length. apply nth_error_None, Es. }
  apply (flow_ext N (fun t y => if inb s bath then 0%R else table_rate Q2R (p_loss (interp m)) (p_gain (interp m)) (multiply (products m zeros (conc_of (p_sp2a (interp m)) y)) (rates_at m k start t y)) s)).
  { intros t y _. symmetry. apply nth_error_nth. unfold generated. rewrite nth_error_map, Es. reflexivity. }
  destruct (inb s bath); [apply flow_const|]. unfold table_rate.
  assert (G : forall row : list (nat * Q), flowing N (fun t y => rsum (map (fun kq => Q2R (snd kq) * nth (fst kq) (multiply (products m zeros (conc_of (p_sp2a (interp m)) y)) (rates_at m k start t y)) 0)%R row))).
  { intros row. apply (flow_rsum N (fun kq t y => Q2R (snd kq) * nth (fst kq) (multiply (products m zeros (conc_of (p_sp2a (interp m)) y)) (rates_at m k start t y)) 0)%R). intros [r q] _. cbn [fst snd].
    apply (flow_mult N (fun _ _ => Q2R q)); [apply flow_const|].
    apply (flow_ext N (fun t y => nth r (products m zeros (conc_of (p_sp2a (interp m)) y)) 0 * nth r (rates_at m k start t y) 0)%R).
    { intros t y _. rewrite multiply_nth; [reflexivity|]. unfold products, rates_at. rewrite array_length, map_length, seq_length. reflexivity. }
    apply (flow_mult N (fun _ y => nth r (products m zeros (conc_of (p_sp2a (interp m)) y)) 0%R)); [apply products_flow, Hw|].
    destruct (Nat.lt_ge_cases r (List.length m)) as [Hr|Hr].
    - apply (flow_ext N (fun t y => k r (start + t)%R (peroxy_total (species m) (conc_of (p_sp2a (interp m)) y)))); [|apply rate_flow; assumption].
      intros t y _. symmetry. apply nth_error_nth. unfold rates_at. rewrite nth_error_map, (nth_error_nth' _ 0) by (rewrite seq_length; exact Hr). rewrite seq_nth by exact Hr. reflexivity.
    - apply (flow_ext N (fun _ _ => 0%R)); [|apply flow_const]. intros t y _. symmetry. apply nth_overflow. unfold rates_at. rewrite map_length, seq_length. exact Hr. }
  assert (X := flow_plus N _ _ (G (srow s (p_gain (interp m)))) (flow_mult N _ _ (flow_const N (-1)%R) (G (srow s (p_loss (interp m)))))).
  eapply flow_ext; [|exact X]. intros t y _. cbv beta. ring.
Qed.
End Mechanism.
