(* Near the states with no negative amount the partitioning routine works, and
   its exchange coefficients are bounded. *)
From Coq Require Import List Bool Arith Lia Permutation Reals Lra.
From Verif Require Import Base SpecKin LangFacts ModelExpr ModelPart SpecPart PartFacts PartValue PropsPart.
Import ListNotations.
Open Scope nat_scope.
Open Scope list_scope.

(* The same inputs at another state. *)
Definition at_state (inp : inputs) (y cg : list R) : inputs :=
  Inputs y (i_ycore inp) (i_diss inp) (i_core_mass inp) (i_density inp) (i_core_density inp) (i_mw inp) (i_psat inp)
    (i_dstar inp) (i_alpha inp) cg (i_nper inp) (i_gamma inp) (i_sigma inp) (i_NA inp) (i_Rgas inp) (i_temp inp).

Lemma sum_low (w a : nat -> R) eps l : (forall j, In j l -> 0 <= w j /\ - eps <= a j)%R ->
  (- (eps * rsum (map w l)) <= rsum (map (fun j => a j * w j)%R l))%R.
Proof.
  induction l as [|j l IH]; intros H; cbn; [lra|]. destruct (H j (or_introl eq_refl)) as [H1 H2].
  specialize (IH (fun k Hk => H k (or_intror Hk))).
  change (- (eps * (w j + rsum (map w l))) <= a j * w j + rsum (map (fun j => a j * w j)%R l))%R. nra.
Qed.
Lemma sum_high (w a : nat -> R) M l : (forall j, In j l -> 0 <= w j /\ a j <= M)%R ->
  (rsum (map (fun j => a j * w j)%R l) <= M * rsum (map w l))%R.
Proof.
  induction l as [|j l IH]; intros H; cbn; [lra|]. destruct (H j (or_introl eq_refl)) as [H1 H2].
  specialize (IH (fun k Hk => H k (or_intror Hk))).
  change (a j * w j + rsum (map (fun j => a j * w j)%R l) <= M * (w j + rsum (map w l)))%R. nra.
Qed.

(* One margin for finitely many requirements. *)
Lemma margin (l : list (R * R)) : (forall p, In p l -> 0 <= fst p /\ 0 < snd p)%R ->
  exists eps, (0 < eps)%R /\ forall p, In p l -> (eps * fst p <= snd p / 2)%R.
Proof.
  induction l as [|[w c] l IH]; intros H; [exists 1%R; split; [lra | intros p []]|].
  destruct (IH (fun p Hp => H p (or_intror Hp))) as (e & He & Hl). destruct (H _ (or_introl eq_refl)) as [Hw Hc]. cbn [fst snd] in *.
  exists (Rmin e (c / 2 / (1 + w))). assert (Q : (0 < c / 2 / (1 + w))%R) by (apply Rdiv_lt_0_compat; lra). split.
  - apply Rmin_glb_lt; assumption.
  - intros p [<-|Hp]; cbn [fst snd].
    + apply Rle_trans with (c / 2 / (1 + w) * w)%R; [apply Rmult_le_compat_r; [exact Hw | apply Rmin_r]|].
      assert (E : (c / 2 / (1 + w) * (1 + w) = c / 2)%R) by (field; lra). nra.
    + specialize (Hl p Hp). destruct (H p (or_intror Hp)) as [Hf _]. apply Rle_trans with (2 := Hl). apply Rmult_le_compat_r; [exact Hf | apply Rmin_l].
Qed.
Lemma uniform_bound (n : nat) (P : nat -> R -> Prop) : (forall i B B', (B <= B')%R -> P i B -> P i B') ->
  (forall i, i < n -> exists B, P i B) -> exists B, (0 <= B)%R /\ forall i, i < n -> P i B.
Proof.
  intros Mono H. induction n as [|n IH]; [exists 0%R; split; [lra | intros; lia]|].
  destruct (IH (fun i Hi => H i (Nat.lt_lt_succ_r _ _ Hi))) as (B1 & P1 & H1). destruct (H n (Nat.lt_succ_diag_r n)) as (B2 & H2).
  exists (Rmax B1 B2). split; [apply Rle_trans with (1 := P1), Rmax_l|]. intros i Hi. destruct (Nat.eq_dec i n) as [->|Ne].
  - apply (Mono _ B2); [apply Rmax_r | exact H2].
  - apply (Mono _ B1); [apply Rmax_l | apply H1; lia].
Qed.

Lemma fuchs_le_1 Kn a : (0 < Kn -> 0 < a <= 1 -> fuchs_sutugin Kn a <= 1)%R.
Proof.
  intros HK Ha. unfold fuchs_sutugin.
  assert (0 < / Kn)%R by (apply Rinv_0_lt_compat; exact HK).
  assert (0 < (1.33 + 0.71 / Kn) / (1 + 1 / Kn))%R by (apply Rdiv_lt_0_compat; unfold Rdiv; lra).
  assert (0 <= 4 * (1 - a) / (3 * a))%R by (apply Rmult_le_pos; [lra | left; apply Rinv_0_lt_compat; lra]).
  assert (X : (0 < ((1.33 + 0.71 / Kn) / (1 + 1 / Kn) + 4 * (1 - a) / (3 * a)) * Kn)%R) by (apply Rmult_lt_0_compat; lra).
  set (z := (((1.33 + 0.71 / Kn) / (1 + 1 / Kn) + 4 * (1 - a) / (3 * a)) * Kn)%R) in *.
  apply Rmult_le_reg_r with (1 + z)%R; [lra|]. unfold Rdiv. rewrite Rmult_assoc, Rinv_l by lra. lra.
Qed.

Section Bounds.
Context (ns nc nb : nat) (inp : inputs) (ph : physical ns nc nb inp) (PS : Forall (Rle 0) (i_psat inp)).

Definition near (eps M : R) (y : list R) : Prop := forall b j, b < nb -> j < nc -> (- eps <= nth (slot ns nc b j) y 0 <= M)%R.
Definition w_mass (j : nat) : R := (nth j (i_mw inp) 0 / i_NA inp)%R.
Definition w_vol (j : nat) : R := (nth j (i_mw inp) 0 / i_NA inp / nth j (i_density inp) 0)%R.

Ltac pos := match goal with
  | |- (0 < nth ?j ?l 0)%R => apply (Forall_nth_pos l j nc); [apply ph | apply (lens_nc ns nc nb inp ph); cbn; tauto | assumption]
  | |- (0 < nth ?j ?l 0)%R => apply (Forall_nth_pos l j nb); [apply ph | apply (lens_nb ns nc nb inp ph); cbn; tauto | assumption]
  end.
Lemma w_mass_pos j : j < nc -> (0 <= w_mass j)%R.
Proof. intros Hj. unfold w_mass. left. apply Rdiv_lt_0_compat; [pos | apply (ph_const _ _ _ _ ph)]. Qed.
Lemma w_vol_pos j : j < nc -> (0 <= w_vol j)%R.
Proof. intros Hj. unfold w_vol. left. apply Rdiv_lt_0_compat; [|pos]. apply Rdiv_lt_0_compat; [pos | apply (ph_const _ _ _ _ ph)]. Qed.

Definition core_amount (b : nat) : R := (nth b (i_ycore inp) 0 * i_diss inp)%R.
Definition core_volume (b : nat) : R := (nth b (i_core_mass inp) 0 / nth b (i_core_density inp) 0)%R.
Lemma core_pos b : b < nb -> (0 < core_amount b /\ 0 < nth b (i_core_mass inp) 0 /\ 0 < core_volume b)%R.
Proof.
  intros Hb. unfold core_amount, core_volume. split; [apply Rmult_lt_0_compat; [pos | apply (ph_const _ _ _ _ ph)]|].
  split; [pos | apply Rdiv_lt_0_compat; pos].
Qed.

Lemma total_at y cg b : total_amount ns nc (at_state inp y cg) b = (rsum (map (fun j => nth (slot ns nc b j) y 0 * 1) (seq 0 nc)) + core_amount b)%R.
Proof. unfold total_amount, core_amount, amount. cbn [i_y i_ycore i_diss at_state]. f_equal. apply rsum_ext. intros j _. ring. Qed.
Lemma mass_at y cg b : particle_mass ns nc (at_state inp y cg) b = (rsum (map (fun j => nth (slot ns nc b j) y 0 * w_mass j) (seq 0 nc)) + nth b (i_core_mass inp) 0)%R.
Proof. unfold particle_mass, mass_of, amount, w_mass. cbn [i_y i_NA i_mw i_core_mass at_state]. f_equal. apply rsum_ext. intros j _. unfold Rdiv. ring. Qed.
Lemma volume_at y cg b : particle_volume ns nc (at_state inp y cg) b = (rsum (map (fun j => nth (slot ns nc b j) y 0 * w_vol j) (seq 0 nc)) + core_volume b)%R.
Proof. unfold particle_volume, mass_of, amount, w_vol, core_volume. cbn [i_y i_NA i_mw i_density i_core_mass i_core_density at_state]. f_equal. apply rsum_ext. intros j _. unfold Rdiv. ring. Qed.

Lemma near_margin : exists eps, (0 < eps)%R /\ forall M y cg b, near eps M y -> b < nb ->
  (core_amount b / 2 <= total_amount ns nc (at_state inp y cg) b)%R /\
  (nth b (i_core_mass inp) 0 / 2 <= particle_mass ns nc (at_state inp y cg) b)%R /\
  (core_volume b / 2 <= particle_volume ns nc (at_state inp y cg) b <= M * rsum (map w_vol (seq 0 nc)) + core_volume b)%R.
Proof.
  assert (Pm : forall j, In j (seq 0 nc) -> (0 <= w_mass j)%R) by (intros j Hj; apply in_seq in Hj; apply w_mass_pos; lia).
  assert (Pv : forall j, In j (seq 0 nc) -> (0 <= w_vol j)%R) by (intros j Hj; apply in_seq in Hj; apply w_vol_pos; lia).
  assert (NN : forall (w : nat -> R), (forall j, In j (seq 0 nc) -> (0 <= w j)%R) -> (0 <= rsum (map w (seq 0 nc)))%R).
  { intros w Hw. apply rsum_nonneg. intros x Hx. apply in_map_iff in Hx as (j & <- & Hj). apply Hw, Hj. }
  destruct (margin (flat_map (fun b => [(rsum (map (fun _ => 1) (seq 0 nc)), core_amount b); (rsum (map w_mass (seq 0 nc)), nth b (i_core_mass inp) 0); (rsum (map w_vol (seq 0 nc)), core_volume b)]%R) (seq 0 nb)))
    as (eps & He & Hm).
  { intros p Hp. apply in_flat_map in Hp as (b & Hb & Hp). apply in_seq in Hb. destruct (core_pos b ltac:(lia)) as (C1 & C2 & C3).
    destruct Hp as [<-|[<-|[<-|[]]]]; cbn [fst snd]; (split; [apply NN; assumption || (intros; lra) | assumption]). }
  exists eps. split; [exact He|]. intros M y cg b Hn Hb.
  assert (Low : forall w, (forall j, In j (seq 0 nc) -> (0 <= w j)%R) -> (- (eps * rsum (map w (seq 0 nc))) <= rsum (map (fun j => nth (slot ns nc b j) y 0 * w j) (seq 0 nc)))%R).
  { intros w Hw. apply sum_low. intros j Hj. split; [apply Hw, Hj|]. apply in_seq in Hj. apply Hn; lia. }
  assert (In3 : forall p, In p [(rsum (map (fun _ => 1) (seq 0 nc)), core_amount b); (rsum (map w_mass (seq 0 nc)), nth b (i_core_mass inp) 0); (rsum (map w_vol (seq 0 nc)), core_volume b)]%R -> (eps * fst p <= snd p / 2)%R).
  { intros p Hp. apply Hm. apply in_flat_map. exists b. split; [apply in_seq; lia | exact Hp]. }
  assert (I1 := In3 _ (or_introl eq_refl)). assert (I2 := In3 _ (or_intror (or_introl eq_refl))). assert (I3 := In3 _ (or_intror (or_intror (or_introl eq_refl)))). cbn [fst snd] in I1, I2, I3.
  rewrite total_at, mass_at, volume_at. assert (L1 := Low (fun _ => 1%R) ltac:(intros; lra)). assert (L2 := Low w_mass Pm). assert (L3 := Low w_vol Pv). cbv beta in L1.
  split; [lra|]. split; [lra|]. split; [lra|]. apply Rplus_le_compat_r. apply sum_high. intros j Hj. split; [apply Pv, Hj|]. apply in_seq in Hj. apply Hn; lia.
Qed.

(* The part of the equilibrium concentration that does not depend on the
   amount itself. *)
Definition volatility (y cg : list R) (b : nat) (r : R) (j : nat) : R :=
  (/ total_amount ns nc (at_state inp y cg) b * (nth j (i_psat inp) 0 * 101325) *
   exp (2 * (nth j (i_mw inp) 0 / 1000) * i_sigma inp / (i_Rgas inp * i_temp inp * mean_density ns nc (at_state inp y cg) b * r)) *
   (i_NA inp / (8314459.8 * i_temp inp)))%R.
Lemma equilibrium_at y cg b r j : equilibrium ns nc (at_state inp y cg) b r j = (volatility y cg b r j * nth (slot ns nc b j) y 0)%R.
Proof. unfold equilibrium, volatility, mole_fraction, amount. cbn [i_y i_psat i_mw i_sigma i_Rgas i_temp i_NA at_state]. unfold Rdiv. ring. Qed.

Lemma cube_low r c : (0 < r -> 0 < c -> c <= r ^ 3 -> Rmin 1 c <= r)%R.
Proof.
  intros Hr Hc H. destruct (Rle_dec 1 r) as [H1|H1]; [apply Rle_trans with 1%R; [apply Rmin_l | exact H1]|].
  apply Rle_trans with c; [apply Rmin_r|]. apply Rle_trans with (1 := H). assert (0 < r * r)%R by nra. cbn [pow]. nra.
Qed.
Lemma cube_high r c : (0 < r -> r ^ 3 <= c -> r <= 1 + c)%R.
Proof. intros Hr H. destruct (Rle_dec r 1) as [H1|H1]; [|cbn [pow] in H; assert (r <= r * (r * (r * 1)))%R by nra; lra]. assert (0 < r ^ 3)%R by (apply pow_lt; exact Hr). lra. Qed.

Theorem exchange_bounds : exists eps, (0 < eps)%R /\ forall M, (0 <= M)%R -> exists B, (0 <= B)%R /\
  forall y cg, List.length y = ns + nc * nb -> List.length cg = nc -> near eps M y ->
    workable ns nc nb (at_state inp y cg) /\
    forall b j, b < nb -> j < nc -> let r := radius ns nc (at_state inp y cg) b in
      (0 <= transfer (at_state inp y cg) b r j <= B)%R /\
      exists A, (0 <= A <= B)%R /\ equilibrium ns nc (at_state inp y cg) b r j = (A * nth (slot ns nc b j) y 0)%R.
Proof.
  destruct near_margin as (eps & He & Hm). exists eps. split; [exact He|]. intros M HM.
  assert (Wk : forall y cg, List.length y = ns + nc * nb -> List.length cg = nc -> near eps M y -> workable ns nc nb (at_state inp y cg)).
  { intros y cg Ly Lcg Hn. constructor; cbn [i_y i_ycore i_diss i_core_mass i_density i_core_density i_mw i_psat i_dstar i_alpha i_cg i_nper i_gamma i_NA i_Rgas i_temp at_state]; try apply ph.
    - exact Ly.
    - apply Forall_forall. intros l [<-|[<-|[<-|[<-|[<-|[<-|[<-|[]]]]]]]]; try exact Lcg; apply (lens_nc ns nc nb inp ph); cbn; tauto.
    - intros b Hb. destruct (Hm M y cg b Hn Hb) as (T1 & T2 & T3 & _). destruct (core_pos b Hb) as (C1 & C2 & C3). lra. }
  assert (PPi := Pi_pos). destruct (ph_const _ _ _ _ ph) as (Pd & PN & PR & PT).
  assert (One : forall b, b < nb -> forall j, j < nc -> exists B, forall y cg, List.length y = ns + nc * nb -> List.length cg = nc -> near eps M y ->
    (transfer (at_state inp y cg) b (radius ns nc (at_state inp y cg) b) j <= B)%R /\ (volatility y cg b (radius ns nc (at_state inp y cg) b) j <= B)%R).
  { intros b Hb j Hj. destruct (core_pos b Hb) as (C1 & C2 & C3).
    assert (HN : (0 < nth b (i_nper inp) 0)%R) by pos. assert (HD : (0 < nth j (i_dstar inp) 0)%R) by pos. assert (HG : (0 < nth j (i_gamma inp) 0)%R) by pos.
    assert (HW : (0 < nth j (i_mw inp) 0)%R) by pos.
    assert (HP : (0 <= nth j (i_psat inp) 0)%R).
    { apply (proj1 (Forall_forall _ _) PS), nth_In. rewrite (lens_nc ns nc nb inp ph (i_psat inp)) by (cbn; tauto). exact Hj. }
    set (K := (1000 * 3 / (4 * Pi * (nth b (i_nper inp) 0 * 1000000)))%R).
    assert (HK : (0 < K)%R) by (apply Rdiv_lt_0_compat; [lra|]; apply Rmult_lt_0_compat; lra).
    assert (SV : (0 <= rsum (map w_vol (seq 0 nc)))%R).
    { apply rsum_nonneg. intros x Hx. apply in_map_iff in Hx as (i & <- & Hi). apply in_seq in Hi. apply w_vol_pos. lia. }
    set (V := (M * rsum (map w_vol (seq 0 nc)) + core_volume b)%R). assert (HV : (0 < V)%R) by (unfold V; assert (0 <= M * rsum (map w_vol (seq 0 nc)))%R by (apply Rmult_le_pos; assumption); lra).
    set (rlo := Rmin 1 (core_volume b / 2 * K)). assert (Prlo : (0 < rlo)%R) by (apply Rmin_glb_lt; [lra | apply Rmult_lt_0_compat; lra]).
    set (rhi := (1 + V * K)%R).
    set (dlo := (nth b (i_core_mass inp) 0 / 2 / V)%R). assert (Pdlo : (0 < dlo)%R) by (apply Rdiv_lt_0_compat; lra).
    set (X := (2 * (nth j (i_mw inp) 0 / 1000) * Rabs (i_sigma inp) / (i_Rgas inp * i_temp inp * dlo * rlo))%R).
    set (BT := (4 * Pi * (100 * rhi) * nth b (i_nper inp) 0 * (nth j (i_dstar inp) 0 * 1))%R).
    set (BA := (2 / core_amount b * (nth j (i_psat inp) 0 * 101325) * exp X * (i_NA inp / (8314459.8 * i_temp inp)))%R).
    exists (Rmax BT BA). intros y cg Ly Lcg Hn. destruct (Hm M y cg b Hn Hb) as (T1 & T2 & T3 & T4). fold V in T4.
    assert (wk := Wk y cg Ly Lcg Hn). set (I := at_state inp y cg) in *. set (r := radius ns nc I b).
    assert (Rp : (0 < r)%R) by apply exp_pos.
    assert (Rc : (r ^ 3 = particle_volume ns nc I b * K)%R).
    { unfold r. rewrite (radius_cubed ns nc nb I wk b Hb). unfold cube, K, I. cbn [i_nper at_state]. unfold Rdiv. ring. }
    assert (Rlo : (rlo <= r)%R).
    { apply cube_low; [exact Rp | apply Rmult_lt_0_compat; lra|]. rewrite Rc. apply Rmult_le_compat_r; lra. }
    assert (Rhi : (r <= rhi)%R) by (apply cube_high; [exact Rp|]; rewrite Rc; apply Rmult_le_compat_r; lra).
    split.
    - apply Rle_trans with (2 := Rmax_l _ _). unfold transfer, BT, I. cbn [i_nper i_dstar i_gamma i_alpha at_state].
      assert (Al := alpha_range ns nc nb inp ph j Hj).
      assert (F1 := fuchs_le_1 (nth j (i_gamma inp) 0 / r)%R (nth j (i_alpha inp) 0)%R (Rdiv_lt_0_compat _ _ HG Rp) Al).
      assert (F0 := fuchs_pos (nth j (i_gamma inp) 0 / r)%R (nth j (i_alpha inp) 0)%R (Rdiv_lt_0_compat _ _ HG Rp) Al).
      apply Rmult_le_compat; [apply Rmult_le_pos; [apply Rmult_le_pos|]; lra | apply Rmult_le_pos; lra | | apply Rmult_le_compat_l; lra].
      apply Rmult_le_compat_r; [lra|]. apply Rmult_le_compat_l; lra.
    - apply Rle_trans with (2 := Rmax_r _ _). unfold volatility, BA. fold I.
      assert (TP : (0 < total_amount ns nc I b)%R) by lra.
      assert (VP : (0 < particle_volume ns nc I b)%R) by lra. assert (MP : (0 < particle_mass ns nc I b)%R) by lra.
      assert (Dn : (dlo <= mean_density ns nc I b)%R).
      { unfold dlo, mean_density, Rdiv at 1 3. apply Rmult_le_compat; [lra | left; apply Rinv_0_lt_compat; exact HV | exact T2 | apply Rinv_le_contravar; assumption]. }
      assert (NN : (0 < i_NA inp / (8314459.8 * i_temp inp))%R) by (apply Rdiv_lt_0_compat; lra).
      assert (Inv : (/ total_amount ns nc I b <= 2 / core_amount b)%R).
      { replace (2 / core_amount b)%R with (/ (core_amount b / 2))%R by (field; lra). apply Rinv_le_contravar; lra. }
      assert (IP : (0 < / total_amount ns nc I b)%R) by (apply Rinv_0_lt_compat, TP).
      apply Rmult_le_compat_r; [lra|].
      assert (EX : (exp (2 * (nth j (i_mw inp) 0 / 1000) * i_sigma inp / (i_Rgas inp * i_temp inp * mean_density ns nc I b * r)) <= exp X)%R).
      { assert (Q : forall a c, (a <= c -> exp a <= exp c)%R) by (intros a c [H|H]; [left; apply exp_increasing, H | right; congruence]). apply Q.
        assert (RT : (0 < i_Rgas inp * i_temp inp)%R) by (apply Rmult_lt_0_compat; assumption).
        assert (D1 : (0 < i_Rgas inp * i_temp inp * dlo * rlo)%R) by (apply Rmult_lt_0_compat; [apply Rmult_lt_0_compat; assumption | exact Prlo]).
        assert (D2 : (i_Rgas inp * i_temp inp * dlo * rlo <= i_Rgas inp * i_temp inp * mean_density ns nc I b * r)%R).
        { apply Rmult_le_compat; [apply Rmult_le_pos; lra | lra | apply Rmult_le_compat_l; lra | exact Rlo]. }
        unfold X, Rdiv at 1 3. apply Rle_trans with (2 * (nth j (i_mw inp) 0 / 1000) * Rabs (i_sigma inp) * / (i_Rgas inp * i_temp inp * mean_density ns nc I b * r))%R.
        - apply Rmult_le_compat_r; [left; apply Rinv_0_lt_compat; lra|]. apply Rmult_le_compat_l; [lra | apply Rle_abs].
        - apply Rmult_le_compat_l; [apply Rmult_le_pos; [lra | apply Rabs_pos] | apply Rinv_le_contravar; assumption]. }
      apply Rmult_le_compat; [apply Rmult_le_pos; lra | left; apply exp_pos | apply Rmult_le_compat_r; lra | exact EX]. }
  destruct (uniform_bound nb (fun b B => forall j, j < nc -> forall y cg, List.length y = ns + nc * nb -> List.length cg = nc -> near eps M y ->
    (transfer (at_state inp y cg) b (radius ns nc (at_state inp y cg) b) j <= B)%R /\ (volatility y cg b (radius ns nc (at_state inp y cg) b) j <= B)%R)) as (B & PB & HB).
  { intros b B B' Le H j Hj y cg Ly Lcg Hn. destruct (H j Hj y cg Ly Lcg Hn). split; lra. }
  { intros b Hb. destruct (uniform_bound nc (fun j B => forall y cg, List.length y = ns + nc * nb -> List.length cg = nc -> near eps M y ->
      (transfer (at_state inp y cg) b (radius ns nc (at_state inp y cg) b) j <= B)%R /\ (volatility y cg b (radius ns nc (at_state inp y cg) b) j <= B)%R)) as (B & _ & HB).
    - intros j B B' Le H y cg Ly Lcg Hn. destruct (H y cg Ly Lcg Hn). split; lra.
    - intros j Hj. apply (One b Hb j Hj).
    - exists B. exact HB. }
  exists B. split; [exact PB|]. intros y cg Ly Lcg Hn. assert (wk := Wk y cg Ly Lcg Hn). split; [exact wk|]. intros b j Hb Hj r.
  destruct (HB b Hb j Hj y cg Ly Lcg Hn) as [HT HA]. fold r in HT, HA. split.
  - split; [left; apply (transfer_pos ns nc nb); try assumption; apply exp_pos | exact HT].
  - exists (volatility y cg b r j). split; [|apply equilibrium_at]. split; [|exact HA]. unfold volatility.
    assert (TP := total_pos ns nc nb _ wk b Hb).
    assert (HP : (0 <= nth j (i_psat inp) 0)%R).
    { apply (proj1 (Forall_forall _ _) PS), nth_In. rewrite (lens_nc ns nc nb inp ph (i_psat inp)) by (cbn; tauto). exact Hj. }
    apply Rmult_le_pos; [|left; apply Rdiv_lt_0_compat; lra]. apply Rmult_le_pos; [|left; apply exp_pos]. apply Rmult_le_pos; [left; apply Rinv_0_lt_compat, TP | lra].
Qed.
End Bounds.
