(* On a box of non-negative states the exchange with the particles is a
   Lipschitz function of the state. *)
From Coq Require Import List Bool Arith Lia ZArith Permutation Reals Lra.
From Verif Require Import Base SpecKin LangFacts ModelExpr ModelSolver SpecSolver ModelPart SpecPart PartFacts PartValue PropsPart PartBounds
  ModelAero PropsAeroRun OdeFacts SpecMethod SpecTraj OdeSign OdeNear AeroPull OdeClose OdePicard OdeExist OdeBox.
Import ListNotations.
Open Scope nat_scope.
Open Scope list_scope.

Section Growth.
Context (ns nc nb : nat) (inp : inputs) (ph : physical ns nc nb inp) (include : list nat).
Context (Linc : List.length include = nc) (Binc : Forall (fun g => g < ns) include).
Context (B : R) (PB : (0 <= B)%R) (I : R -> Prop).
Notation n := (ns + nc * nb).
Definition at_box (y : list R) : inputs := at_state inp (clip B y) (map (fun g => nth g (clip B y) 0%R) include).

Lemma near_clip eps y : (0 <= eps)%R -> List.length y = n -> near ns nc nb eps B (clip B y).
Proof. intros He Ly b j Hb Hj. rewrite clip_nth by (rewrite Ly; unfold slot; nia). assert (X := cut_range B (nth (slot ns nc b j) y 0%R) PB). lra. Qed.

Lemma clip_part i : i < n -> ulip n I (fun _ y => nth i (clip B y) 0%R).
Proof. intros Hi. apply (ulip_clip n I B (fun _ y => nth i y 0%R) PB). apply ulip_nth, Hi. Qed.
Lemma sum_lip (w : nat -> R) b c : b < nb -> ulip n I (fun _ y => rsum (map (fun j => nth (slot ns nc b j) (clip B y) 0 * w j) (seq 0 nc)) + c)%R.
Proof.
  intros Hb. apply ulip_plus; [|apply ulip_const]. apply (ulip_rsum n I (fun j _ y => nth (slot ns nc b j) (clip B y) 0 * w j)%R). intros j Hj. apply in_seq in Hj.
  apply (ulip_mult n I (fun _ y => nth (slot ns nc b j) (clip B y) 0%R) (fun _ _ => w j)); [apply clip_part; unfold slot; nia | apply ulip_const].
Qed.

Section Bin.
Context (b : nat) (Hb : b < nb).
Lemma total_lip : ulip n I (fun _ y => total_amount ns nc (at_box y) b).
Proof. eapply ulip_ext; [|apply (sum_lip (fun _ => 1%R) b (core_amount inp b) Hb)]. intros t y _ _. symmetry. unfold at_box. apply total_at. Qed.
Lemma mass_lip : ulip n I (fun _ y => particle_mass ns nc (at_box y) b).
Proof. eapply ulip_ext; [|apply (sum_lip (w_mass inp) b (nth b (i_core_mass inp) 0%R) Hb)]. intros t y _ _. symmetry. unfold at_box. apply mass_at. Qed.
Lemma volume_lip : ulip n I (fun _ y => particle_volume ns nc (at_box y) b).
Proof. eapply ulip_ext; [|apply (sum_lip (w_vol inp) b (core_volume inp b) Hb)]. intros t y _ _. symmetry. unfold at_box. apply volume_at. Qed.

Lemma box_low y : List.length y = n ->
  (core_amount inp b / 2 <= total_amount ns nc (at_box y) b)%R /\ (nth b (i_core_mass inp) 0 / 2 <= particle_mass ns nc (at_box y) b)%R /\
  (core_volume inp b / 2 <= particle_volume ns nc (at_box y) b <= B * rsum (map (w_vol inp) (seq 0 nc)) + core_volume inp b)%R.
Proof.
  intros Ly. destruct (near_margin ns nc nb inp ph) as (eps & He & Hm). apply (Hm B); [apply near_clip; [lra | exact Ly] | exact Hb].
Qed.
Lemma core_pos' : (0 < core_amount inp b /\ 0 < nth b (i_core_mass inp) 0 /\ 0 < core_volume inp b)%R.
Proof. apply (core_pos ns nc nb inp ph b Hb). Qed.

Lemma nper_pos : (0 < nth b (i_nper inp) 0)%R.
Proof. apply (Forall_nth_pos (i_nper inp) b nb); [apply ph | apply (lens_nb ns nc nb inp (physical_workable _ _ _ _ ph)); cbn; tauto | exact Hb]. Qed.

Definition cube_factor : R := (1000 * 3 / (4 * Pi * (nth b (i_nper inp) 0 * 1000000)))%R.
Lemma cube_factor_pos : (0 < cube_factor)%R.
Proof. assert (P := Pi_pos). assert (N := nper_pos). apply Rdiv_lt_0_compat; [lra|]. apply Rmult_lt_0_compat; lra. Qed.
Lemma radius_lip : ulip n I (fun _ y => radius ns nc (at_box y) b).
Proof.
  assert (K := cube_factor_pos). destruct core_pos' as (_ & _ & C3).
  eapply (ulip_ext n I (fun _ y => Rpower (particle_volume ns nc (at_box y) b * cube_factor) (1 / 3))).
  - intros t y _ _. unfold radius, cube, cube_factor, at_box. cbn [i_nper at_state]. f_equal. unfold Rdiv. ring.
  - apply (ulip_root n I _ (core_volume inp b / 2 * cube_factor)); [apply Rmult_lt_0_compat; lra | |].
    + intros t y _ Ly. apply Rmult_le_compat_r; [lra|]. apply box_low, Ly.
    + apply (ulip_mult n I (fun _ y => particle_volume ns nc (at_box y) b) (fun _ _ => cube_factor)); [exact volume_lip | apply ulip_const].
Qed.
Definition radius_low : R := Rmin 1 (core_volume inp b / 2 * cube_factor).
Lemma radius_low_pos : (0 < radius_low)%R.
Proof. assert (K := cube_factor_pos). destruct core_pos' as (_ & _ & C3). apply Rmin_glb_lt; [lra | apply Rmult_lt_0_compat; lra]. Qed.
Lemma radius_ge y : List.length y = n -> (radius_low <= radius ns nc (at_box y) b)%R.
Proof.
  intros Ly. assert (K := cube_factor_pos). destruct core_pos' as (_ & _ & C3). destruct (box_low y Ly) as (_ & _ & V & _).
  apply cube_low; [apply exp_pos | apply Rmult_lt_0_compat; lra|]. unfold radius. rewrite root_cubed.
  - replace (cube ns nc (at_box y) b) with (particle_volume ns nc (at_box y) b * cube_factor)%R; [apply Rmult_le_compat_r; lra|].
    unfold cube, cube_factor, at_box. cbn [i_nper at_state]. unfold Rdiv. ring.
  - assert (Np := nper_pos). assert (P := Pi_pos). unfold cube. cbn [at_box i_nper at_state]. apply Rdiv_lt_0_compat; [lra|]. apply Rmult_lt_0_compat; lra.
Qed.
Lemma inverse_radius_lip : ulip n I (fun _ y => / radius ns nc (at_box y) b)%R.
Proof. apply (ulip_inv n I _ radius_low); [apply radius_low_pos | intros t y _ Ly; apply radius_ge, Ly | apply radius_lip]. Qed.

Section Component.
Context (j : nat) (Hj : j < nc).
Lemma comp_pos (l : list R) : In l [i_dstar inp; i_gamma inp; i_mw inp; i_density inp] -> (0 < nth j l 0)%R.
Proof.
  intros Hl. destruct (ph_comp _ _ _ _ ph) as (P1 & P2 & P3 & P4). apply (Forall_nth_pos l j nc); [| |exact Hj].
  - destruct Hl as [<-|[<-|[<-|[<-|[]]]]]; assumption.
  - apply (lens_nc ns nc nb inp (physical_workable _ _ _ _ ph)). destruct Hl as [<-|[<-|[<-|[<-|[]]]]]; cbn; tauto.
Qed.

Lemma fuchs_lip : ulip n I (fun _ y => fuchs_sutugin (nth j (i_gamma inp) 0 / radius ns nc (at_box y) b) (nth j (i_alpha inp) 0))%R.
Proof.
  assert (G : (0 < nth j (i_gamma inp) 0)%R) by (apply comp_pos; cbn; tauto).
  destruct (alpha_range ns nc nb inp (physical_workable _ _ _ _ ph) j Hj) as [A0 A1].
  set (g := nth j (i_gamma inp) 0%R) in *. set (a := nth j (i_alpha inp) 0%R) in *. set (k := (4 * (1 - a) / (3 * a))%R).
  assert (Pk : (0 <= k)%R) by (apply Rmult_le_pos; [lra | left; apply Rinv_0_lt_compat; lra]).
  set (r := fun y => radius ns nc (at_box y) b).
  set (x := fun y => (r y * / g)%R). set (p := fun y => ((1.33 + 0.71 * x y) * / (1 + x y) + k)%R).
  assert (Rp : forall y, (0 < r y)%R) by (intros y; apply exp_pos).
  assert (Xp : forall y, (0 < x y)%R) by (intros y; apply Rmult_lt_0_compat; [apply Rp | apply Rinv_0_lt_compat, G]).
  assert (Pp : forall y, (0 < p y)%R).
  { intros y. assert (X := Xp y). unfold p. assert (0 < (1.33 + 0.71 * x y) * / (1 + x y))%R by (apply Rmult_lt_0_compat; [lra | apply Rinv_0_lt_compat; lra]). lra. }
  assert (Qp : forall y, (0 < p y * (g * / r y))%R) by (intros y; apply Rmult_lt_0_compat; [apply Pp | apply Rmult_lt_0_compat; [exact G | apply Rinv_0_lt_compat, Rp]]).
  assert (Lx : ulip n I (fun _ y => x y)) by (apply (ulip_mult n I (fun _ y => r y) (fun _ _ => / g)%R); [exact radius_lip | apply ulip_const]).
  assert (L1x : forall c, ulip n I (fun _ y => c + x y)%R) by (intros c; apply (ulip_plus n I (fun _ _ => c) (fun _ y => x y)); [apply ulip_const | exact Lx]).
  assert (Lp : ulip n I (fun _ y => p y)).
  { apply (ulip_plus n I (fun _ y => (1.33 + 0.71 * x y) * / (1 + x y))%R (fun _ _ => k)); [|apply ulip_const].
    apply (ulip_mult n I (fun _ y => 1.33 + 0.71 * x y)%R (fun _ y => / (1 + x y))%R).
    - apply (ulip_plus n I (fun _ _ => 1.33%R) (fun _ y => 0.71 * x y)%R); [apply ulip_const|].
      apply (ulip_mult n I (fun _ _ => 0.71%R) (fun _ y => x y)); [apply ulip_const | exact Lx].
    - apply (ulip_inv n I (fun _ y => 1 + x y)%R 1); [lra | intros t y _ _; assert (X := Xp y); lra | apply L1x]. }
  eapply (ulip_ext n I (fun _ y => / (1 + p y * (g * / r y)))%R).
  - intros t y _ _. assert (R0 := Rp y). assert (X0 := Xp y). unfold fuchs_sutugin. fold (r y).
    assert (E1 : (0.71 / (g / r y) = 0.71 * x y)%R) by (unfold x; field; lra).
    assert (E2 : (1 / (g / r y) = x y)%R) by (unfold x; field; lra). rewrite E1, E2. unfold p, k, Rdiv. rewrite Rmult_1_l. reflexivity.
  - apply (ulip_inv n I (fun _ y => 1 + p y * (g * / r y))%R 1); [lra | intros t y _ _; assert (X := Qp y); lra|].
    apply (ulip_plus n I (fun _ _ => 1%R) (fun _ y => p y * (g * / r y))%R); [apply ulip_const|].
    apply (ulip_mult n I (fun _ y => p y) (fun _ y => g * / r y)%R); [exact Lp|].
    apply (ulip_mult n I (fun _ _ => g) (fun _ y => / r y)%R); [apply ulip_const | exact inverse_radius_lip].
Qed.

Lemma transfer_lip : ulip n I (fun _ y => transfer (at_box y) b (radius ns nc (at_box y) b) j).
Proof.
  eapply (ulip_ext n I (fun _ y => (4 * Pi * 100 * nth b (i_nper inp) 0 * nth j (i_dstar inp) 0) * (radius ns nc (at_box y) b *
     fuchs_sutugin (nth j (i_gamma inp) 0 / radius ns nc (at_box y) b) (nth j (i_alpha inp) 0)))%R).
  - intros t y _ _. unfold transfer. cbn [at_box i_nper i_dstar i_gamma i_alpha at_state]. ring.
  - apply (ulip_mult n I (fun _ _ => _) (fun _ y => radius ns nc (at_box y) b * fuchs_sutugin (nth j (i_gamma inp) 0 / radius ns nc (at_box y) b) (nth j (i_alpha inp) 0))%R); [apply ulip_const|].
    apply (ulip_mult n I (fun _ y => radius ns nc (at_box y) b)); [exact radius_lip | exact fuchs_lip].
Qed.

Lemma density_low : exists c, (0 < c)%R /\ forall y, List.length y = n -> (c <= mean_density ns nc (at_box y) b)%R.
Proof.
  destruct core_pos' as (C1 & C2 & C3). set (V := (B * rsum (map (w_vol inp) (seq 0 nc)) + core_volume inp b)%R).
  assert (PV : (0 < V)%R).
  { destruct (box_low (repeat 0%R n) (repeat_length _ _)) as (_ & _ & A1 & A2). fold V in A2. lra. }
  exists (nth b (i_core_mass inp) 0 / 2 / V)%R. split; [apply Rdiv_lt_0_compat; lra|]. intros y Ly. destruct (box_low y Ly) as (_ & M & V1 & V2). fold V in V2.
  unfold mean_density, Rdiv at 1 3. apply Rmult_le_compat; [lra | left; apply Rinv_0_lt_compat, PV | exact M | apply Rinv_le_contravar; lra].
Qed.

Lemma equilibrium_lip : ulip n I (fun _ y => equilibrium ns nc (at_box y) b (radius ns nc (at_box y) b) j).
Proof.
  destruct core_pos' as (C1 & C2 & C3). destruct (ph_const _ _ _ _ ph) as (_ & PN & PR & PT).
  destruct density_low as (dlo & Pd & Hd). assert (Rl := radius_low_pos).
  assert (Ld : ulip n I (fun _ y => mean_density ns nc (at_box y) b)).
  { apply (ulip_mult n I (fun _ y => particle_mass ns nc (at_box y) b) (fun _ y => / particle_volume ns nc (at_box y) b)%R); [exact mass_lip|].
    apply (ulip_inv n I _ (core_volume inp b / 2)); [lra | intros t y _ Ly; apply box_low, Ly | exact volume_lip]. }
  assert (RT : (0 < i_Rgas inp * i_temp inp)%R) by (apply Rmult_lt_0_compat; assumption).
  assert (Lk : ulip n I (fun _ y => / (i_Rgas inp * i_temp inp * (mean_density ns nc (at_box y) b * radius ns nc (at_box y) b)))%R).
  { apply (ulip_inv n I _ (i_Rgas inp * i_temp inp * (dlo * radius_low))%R).
    - apply Rmult_lt_0_compat; [exact RT | apply Rmult_lt_0_compat; assumption].
    - intros t y _ Ly. apply Rmult_le_compat_l; [lra|]. apply Rmult_le_compat; [lra | lra | apply Hd, Ly | apply radius_ge, Ly].
    - apply (ulip_mult n I (fun _ _ => (i_Rgas inp * i_temp inp)%R) (fun _ y => mean_density ns nc (at_box y) b * radius ns nc (at_box y) b)%R); [apply ulip_const|].
      apply (ulip_mult n I (fun _ y => mean_density ns nc (at_box y) b)); [exact Ld | exact radius_lip]. }
  eapply (ulip_ext n I (fun _ y => (nth j (i_psat inp) 0 * 101325 * (i_NA inp / (8314459.8 * i_temp inp))) *
    (nth (slot ns nc b j) (clip B y) 0 * / total_amount ns nc (at_box y) b *
     exp ((2 * (nth j (i_mw inp) 0 / 1000) * i_sigma inp) * / (i_Rgas inp * i_temp inp * (mean_density ns nc (at_box y) b * radius ns nc (at_box y) b)))))%R).
  - intros t y _ _. unfold equilibrium, mole_fraction, amount. cbn [at_box i_y i_psat i_mw i_sigma i_Rgas i_temp i_NA at_state].
    unfold Rdiv. rewrite (Rmult_assoc (i_Rgas inp * i_temp inp) (mean_density ns nc (at_box y) b)). ring.
  - apply (ulip_mult n I (fun _ _ => _) (fun _ y => nth (slot ns nc b j) (clip B y) 0 * / total_amount ns nc (at_box y) b *
      exp ((2 * (nth j (i_mw inp) 0 / 1000) * i_sigma inp) * / (i_Rgas inp * i_temp inp * (mean_density ns nc (at_box y) b * radius ns nc (at_box y) b))))%R); [apply ulip_const|].
    apply (ulip_mult n I (fun _ y => nth (slot ns nc b j) (clip B y) 0 * / total_amount ns nc (at_box y) b)%R (fun _ y => exp _)).
    + apply (ulip_mult n I (fun _ y => nth (slot ns nc b j) (clip B y) 0%R) (fun _ y => / total_amount ns nc (at_box y) b)%R); [apply clip_part; unfold slot; nia|].
      apply (ulip_inv n I _ (core_amount inp b / 2)); [lra | intros t y _ Ly; apply box_low, Ly | exact total_lip].
    + apply ulip_exp. apply (ulip_mult n I (fun _ _ => _) (fun _ y => / (i_Rgas inp * i_temp inp * (mean_density ns nc (at_box y) b * radius ns nc (at_box y) b)))%R); [apply ulip_const | exact Lk].
Qed.

Lemma growth_lip : ulip n I (fun _ y => growth ns nc (at_box y) b (radius ns nc (at_box y) b) j).
Proof.
  apply (ulip_mult n I (fun _ y => transfer (at_box y) b (radius ns nc (at_box y) b) j) (fun _ y => nth j (i_cg (at_box y)) 0 - equilibrium ns nc (at_box y) b (radius ns nc (at_box y) b) j)%R); [exact transfer_lip|].
  eapply (ulip_ext n I (fun _ y => nth (nth j include 0%nat) (clip B y) 0 + (-1) * equilibrium ns nc (at_box y) b (radius ns nc (at_box y) b) j)%R).
  - intros t y _ _. cbn [at_box i_cg at_state]. rewrite (nth_indep (map _ include) 0%R (nth 0 (clip B y) 0%R)) by (rewrite map_length; lia).
    rewrite (map_nth (fun g => nth g (clip B y) 0%R)). unfold at_box. ring.
  - apply (ulip_plus n I (fun _ y => nth (nth j include 0%nat) (clip B y) 0%R) (fun _ y => (-1) * equilibrium ns nc (at_box y) b (radius ns nc (at_box y) b) j)%R).
    + apply clip_part. assert (nth j include 0 < ns); [|lia]. apply (proj1 (Forall_forall _ _) Binc), nth_In. lia.
    + apply (ulip_mult n I (fun _ _ => -1)%R (fun _ y => equilibrium ns nc (at_box y) b (radius ns nc (at_box y) b) j)); [apply ulip_const | exact equilibrium_lip].
Qed.
End Component.
End Bin.
End Growth.

Lemma front_nth k (y : list R) i : i < k -> nth i (firstn k y) 0%R = nth i y 0%R.
Proof. revert i y. induction k as [|k IH]; intros [|i] [|x y] Hi; cbn; try reflexivity; try lia. apply IH. lia. Qed.

Section Exchange.
Context (d : prepared) (temp : R) (q : pc2).
Context (Hnc : d_nc d = List.length (d_include d)) (L1 : List.length (d_density d) = d_nc d) (L2 : List.length (d_mw d) = d_nc d)
  (L3 : List.length (d_vp d) = d_nc d) (Fb : Forall (fun g => g < d_ns d) (d_include d)) (Nd : NoDup (d_include d)) (Wnc : 1 <= d_nc d)
  (PD : Forall (Rlt 0) (d_density d)) (PM : Forall (Rlt 0) (d_mw d)) (Htemp : (0 < temp)%R)
  (Hq : Pure_component2 (d_nc d) (d_mw d) Rgas temp = Some q).
Context (nb : nat) (y_core nper : list R) (core_density core_mw diss : R).
Context (Lcore : List.length y_core = nb) (Lnper : List.length nper = nb).
Context (Pcore : Forall (Rlt 0) y_core) (Pnper : Forall (Rlt 0) nper) (Pcd : (0 < core_density)%R) (Pcm : (0 < core_mw)%R) (Pdiss : (0 < diss)%R).
Notation n := (d_ns d + d_nc d * nb).
Notation exchange := (exchange d temp q nb y_core nper core_density core_mw diss).

Lemma inputs_at : exists inp, physical (d_ns d) (d_nc d) nb inp /\ Forall (Rle 0) (i_psat inp) /\
  forall y, List.length y = n -> partition_inputs d q y_core nper core_density core_mw diss temp y = Some (at_state inp y (map (fun g => nth g y 0%R) (d_include d))).
Proof.
  set (z := repeat 0%R n).
  destruct (prepared_physical d temp Hnc L1 L2 L3 Fb Wnc PD PM Htemp nb y_core nper core_density core_mw diss z Lcore Lnper) as
    (q' & inp & Hq' & Hinp & ph & _); try assumption.
  { apply repeat_length. }
  { intros b j _ _. unfold z. destruct (Nat.lt_ge_cases (slot (d_ns d) (d_nc d) b j) n) as [G|G]; [rewrite nth_repeat; lra | rewrite nth_overflow by (rewrite repeat_length; exact G); lra]. }
  rewrite Hq in Hq'. injection Hq' as <-. exists inp. split; [exact ph|]. split.
  - unfold partition_inputs in Hinp. destruct (omap _ (d_include d)); [|discriminate]. cbn [obind] in Hinp. injection Hinp as <-. cbn [i_psat].
    apply Forall_forall. intros x Hx. apply in_map_iff in Hx as (v & <- & _). left. apply exp_pos.
  - intros y Ly. unfold partition_inputs in *. destruct (omap (nth_error (firstn (d_ns d) z)) (d_include d)) as [cg0|]; [|discriminate]. cbn [obind] in Hinp. injection Hinp as <-.
    rewrite (omap_map _ (fun g => nth g y 0%R)); [reflexivity|]. intros g Hg. rewrite Forall_forall in Fb. specialize (Fb g Hg).
    rewrite (nth_error_nth' _ 0%R) by (rewrite firstn_length; lia). rewrite front_nth by lia. reflexivity.
Qed.

Lemma box_exchange B : (0 <= B)%R ->
  (forall bins y, Permutation bins (seq 0 nb) -> in_box n B y -> exists e, exchange bins y = Some e /\ List.length e = n) /\
  forall i, i < n -> exists g, (forall I, ulip n I (fun _ y => g y)) /\
    forall bins y e, Permutation bins (seq 0 nb) -> in_box n B y -> exchange bins y = Some e -> nth i e 0%R = g y.
Proof.
  intros PB. destruct inputs_at as (inp & ph & PS & HI). 
  destruct (exchange_bounds (d_ns d) (d_nc d) nb inp ph PS) as (eps & He & HB). destruct (HB B PB) as (BB & _ & HB').
  assert (SB : forall b j, b < nb -> j < d_nc d -> slot (d_ns d) (d_nc d) b j < n) by (intros b j Hb Hj; unfold slot; nia).
  assert (V : forall bins y, Permutation bins (seq 0 nb) -> in_box n B y -> exists soa aw size e, 
    dydt_partition (d_ns d) (d_nc d) nb (d_include d) (at_state inp y (map (fun g => nth g y 0%R) (d_include d))) bins = Some (soa, aw, size, e) /\
    exchange bins y = Some e /\ forall b j, b < nb -> j < d_nc d -> nth (slot (d_ns d) (d_nc d) b j) e 0%R =
      growth (d_ns d) (d_nc d) (at_box inp (d_include d) B y) b (radius (d_ns d) (d_nc d) (at_box inp (d_include d) B y) b) j).
  { intros bins y Pb By. destruct By as [Ly Hy]. set (cg := map (fun g => nth g y 0%R) (d_include d)).
    destruct (HB' y cg Ly) as [wk _]. { unfold cg. rewrite map_length. symmetry. exact Hnc. } { intros b j Hb Hj. assert (X := Hy _ (SB b j Hb Hj)). lra. }
    destruct (partition_value (d_ns d) (d_nc d) nb (d_include d) _ bins wk (eq_sym Hnc) Fb Pb) as (soa & aw & size & e & EP & V).
    exists soa, aw, size, e. split; [exact EP|]. split.
    - unfold AeroPull.exchange. rewrite (HI y Ly). cbn [obind]. fold cg. rewrite EP. reflexivity.
    - intros b j Hb Hj. rewrite (proj2 (V b Hb) j Hj). unfold at_box. rewrite (box_clip n B y (conj Ly Hy)). reflexivity. }
  split.
  - intros bins y Pb By. destruct (V bins y Pb By) as (soa & aw & size & e & EP & EE & _). exists e. split; [exact EE|]. apply (C40_untouched_partial _ _ _ _ _ _ _ _ _ _ Pb EP).
  - set (G := fun b j y => growth (d_ns d) (d_nc d) (at_box inp (d_include d) B y) b (radius (d_ns d) (d_nc d) (at_box inp (d_include d) B y) b) j).
    assert (GL : forall b j I, b < nb -> j < d_nc d -> ulip n I (fun _ y => G b j y)).
    { intros b j I Hb Hj. apply (growth_lip (d_ns d) (d_nc d) nb inp ph (d_include d) (eq_sym Hnc) Fb B PB I b Hb j Hj). }
    intros i Hi. destruct (Nat.lt_ge_cases i (d_ns d)) as [Gi|Gi].
    + destruct (in_dec Nat.eq_dec i (d_include d)) as [Hin|Hout].
      * apply In_nth_error in Hin as [j Ej]. assert (Hj : j < d_nc d) by (rewrite Hnc; apply nth_error_Some; congruence).
        exists (fun y => (-1) * rsum (map (fun b => G b j y) (seq 0 nb)))%R. split.
        { intros I. apply (ulip_mult n I (fun _ _ => -1)%R (fun _ y => rsum (map (fun b => G b j y) (seq 0 nb)))); [apply ulip_const|].
          apply (ulip_rsum n I (fun b _ y => G b j y)). intros b Hb. apply in_seq in Hb. apply GL; lia. }
        intros bins y e Pb By Ee. destruct (V bins y Pb By) as (soa & aw & size & e' & EP & EE & HV). rewrite Ee in EE. injection EE as <-.
        assert (X := C39_partial _ _ _ _ _ _ _ _ _ _ Nd (eq_sym Hnc) Pb EP j i Ej Gi).
        rewrite (rsum_ext (fun b => nth (slot (d_ns d) (d_nc d) b j) e 0%R) (fun b => G b j y)) in X; [lra|]. intros b Hb. apply in_seq in Hb. apply HV; lia.
      * exists (fun _ => 0%R). split; [intros I; apply ulip_const|]. intros bins y e Pb By Ee. destruct (V bins y Pb By) as (soa & aw & size & e' & EP & EE & _). rewrite Ee in EE. injection EE as <-.
        apply (C40_untouched_partial _ _ _ _ _ _ _ _ _ _ Pb EP); assumption.
    + set (b := (i - d_ns d) / d_nc d). set (j := (i - d_ns d) mod d_nc d).
      assert (Ei : i - d_ns d = d_nc d * b + j) by apply (Nat.div_mod (i - d_ns d) (d_nc d) ltac:(lia)).
      assert (Hj : j < d_nc d) by (apply Nat.mod_upper_bound; lia). assert (Hb : b < nb) by nia.
      assert (Es : i = slot (d_ns d) (d_nc d) b j) by (unfold slot; nia). exists (G b j). split; [intros I; apply GL; assumption|].
      intros bins y e Pb By Ee. destruct (V bins y Pb By) as (soa & aw & size & e' & EP & EE & HV). rewrite Ee in EE. injection EE as <-. rewrite Es. apply HV; assumption.
Qed.

(* An amount that is zero is not taken from. *)
Lemma exchange_boundary B bins y e : in_box n B y -> (0 <= B)%R -> Permutation bins (seq 0 nb) -> exchange bins y = Some e ->
  forall i, i < n -> nth i y 0%R = 0%R -> (0 <= nth i e 0)%R.
Proof.
  intros [Ly Hy] PB Pb Ee i Hi Hz. destruct inputs_at as (inp & ph & PS & HI). 
  destruct (exchange_bounds (d_ns d) (d_nc d) nb inp ph PS) as (eps & He & HB). destruct (HB B PB) as (BB & _ & HB').
  assert (SB : forall b j, b < nb -> j < d_nc d -> slot (d_ns d) (d_nc d) b j < n) by (intros b j Hb Hj; unfold slot; nia).
  set (cg := map (fun g => nth g y 0%R) (d_include d)) in *.
  destruct (HB' y cg Ly) as [wk Bnd]. { unfold cg. rewrite map_length. symmetry. exact Hnc. } { intros b j Hb Hj. assert (X := Hy _ (SB b j Hb Hj)). lra. }
  destruct (partition_value (d_ns d) (d_nc d) nb (d_include d) _ bins wk (eq_sym Hnc) Fb Pb) as (soa & aw & size & e' & EP & V).
  assert (E : e' = e). { unfold AeroPull.exchange in Ee. rewrite (HI y Ly) in Ee. cbn [obind] in Ee. fold cg in Ee. rewrite EP in Ee. cbn in Ee. congruence. } subst e'.
  assert (Cg : forall j, j < d_nc d -> nth j cg 0%R = nth (nth j (d_include d) 0) y 0%R).
  { intros j Hj. unfold cg. rewrite (nth_indep (map _ (d_include d)) 0%R (nth 0 y 0%R)) by (rewrite map_length; lia). apply (map_nth (fun g => nth g y 0%R)). }
  assert (Inc : forall j, j < d_nc d -> nth j (d_include d) 0 < d_ns d) by (intros j Hj; apply (proj1 (Forall_forall _ _) Fb), nth_In; lia).
  destruct (Nat.lt_ge_cases i (d_ns d)) as [Gi|Gi].
  - destruct (in_dec Nat.eq_dec i (d_include d)) as [Hin|Hout].
    + apply In_nth_error in Hin as [j Ej]. assert (Hj : j < d_nc d) by (rewrite Hnc; apply nth_error_Some; congruence).
      assert (X := C39_partial _ _ _ _ _ _ _ _ _ _ Nd (eq_sym Hnc) Pb EP j i Ej Gi).
      assert (S : (rsum (map (fun b => nth (slot (d_ns d) (d_nc d) b j) e 0) (seq 0 nb)) <= 0)%R); [|lra].
      assert (W : forall l, (forall b, In b l -> b < nb) -> (rsum (map (fun b => nth (slot (d_ns d) (d_nc d) b j) e 0) l) <= 0)%R).
      { induction l as [|b l IH]; intros Hl; [cbn; lra|]. specialize (IH (fun c Hc => Hl c (or_intror Hc))). assert (Hb := Hl b (or_introl eq_refl)).
        change (nth (slot (d_ns d) (d_nc d) b j) e 0 + rsum (map (fun b => nth (slot (d_ns d) (d_nc d) b j) e 0) l) <= 0)%R.
        destruct (Bnd b j Hb Hj) as [[T0 _] (A & [A0 _] & EA)]. rewrite (proj2 (V b Hb) j Hj). unfold growth. rewrite EA. cbn [i_cg at_state].
        rewrite (Cg j Hj), (nth_error_nth _ _ 0 Ej), Hz. assert (Y := proj1 (Hy _ (SB b j Hb Hj))).
        assert (0 <= A * nth (slot (d_ns d) (d_nc d) b j) y 0)%R by (apply Rmult_le_pos; assumption).
        set (t := transfer _ _ _ _) in *. set (s := (A * _)%R) in *. assert (0 <= t * s)%R by (apply Rmult_le_pos; assumption). lra. }
      apply W. intros b Hb. apply in_seq in Hb. lia.
    + right. symmetry. apply (C40_untouched_partial _ _ _ _ _ _ _ _ _ _ Pb EP); assumption.
  - set (b := (i - d_ns d) / d_nc d). set (j := (i - d_ns d) mod d_nc d).
    assert (Ei : i - d_ns d = d_nc d * b + j) by apply (Nat.div_mod (i - d_ns d) (d_nc d) ltac:(lia)).
    assert (Hj : j < d_nc d) by (apply Nat.mod_upper_bound; lia). assert (Hb : b < nb) by nia.
    assert (Es : i = slot (d_ns d) (d_nc d) b j) by (unfold slot; nia). rewrite Es in *. rewrite (proj2 (V b Hb) j Hj).
    destruct (Bnd b j Hb Hj) as [[T0 _] (A & _ & EA)]. unfold growth. rewrite EA, Hz. cbn [i_cg at_state]. rewrite (Cg j Hj), Rmult_0_r, Rminus_0_r.
    apply Rmult_le_pos; [exact T0|]. apply Hy. assert (X := Inc j Hj). lia.
Qed.

(* Nothing is made or lost by the exchange. *)
Lemma exchange_total bins y e : Permutation bins (seq 0 nb) -> List.length y = n -> exchange bins y = Some e -> rsum (map (fun i => nth i e 0%R) (seq 0 n)) = 0%R.
Proof.
  intros Pb Ly Ee. destruct inputs_at as (inp & _ & _ & HI). unfold AeroPull.exchange in Ee. rewrite (HI y Ly) in Ee. cbn [obind] in Ee.
  destruct (dydt_partition _ _ _ _ _ bins) as [[[[soa aw] size] e']|] eqn:EP; [|discriminate]. cbn in Ee. injection Ee as ->.
  assert (X := weighted_total (fun _ => 1%R) _ _ _ _ _ _ _ _ _ _ Nd (eq_sym Hnc) Pb Fb EP). cbv beta in X.
  rewrite (rsum_ext (fun i => 1 * nth i e 0)%R (fun i => nth i e 0%R)) in X by (intros; ring). rewrite X. apply rsum_zero. intros j _. apply rsum_zero. intros b _. ring.
Qed.
End Exchange.
