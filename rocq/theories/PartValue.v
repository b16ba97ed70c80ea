(* The values one iteration of the partitioning loop computes. *)
From Coq Require Import List Bool Arith Lia Permutation Reals Lra.
From Verif Require Import Base SpecKin LangFacts ModelExpr ModelRhs ModelOmp OmpFacts ModelPart SpecPart PartFacts.
Import ListNotations.
Open Scope nat_scope.
Open Scope list_scope.

Lemma omap_map {A B} (f : A -> option B) (g : A -> B) l : (forall a, In a l -> f a = Some (g a)) -> omap f l = Some (map g l).
Proof.
  induction l as [|a l IH]; intros H; [reflexivity|]. cbn. rewrite (H a (or_introl eq_refl)). cbn.
  rewrite (IH (fun x Hx => H x (or_intror Hx))). reflexivity.
Qed.
Lemma rdiv_Some x y : y <> 0%R -> rdiv x y = Some (x / y)%R.
Proof. intros H. unfold rdiv. destruct (Req_EM_T y 0); [contradiction | reflexivity]. Qed.
Lemma list_as_map (l : list R) : l = map (fun j => nth j l 0%R) (seq 0 (List.length l)).
Proof.
  induction l as [|x l IH]; [reflexivity|]. cbn [List.length seq map nth]. f_equal. rewrite <- seq_shift, map_map. exact IH.
Qed.
Lemma combine_map2 {A B C} (f : A -> B) (g : A -> C) l : combine (map f l) (map g l) = map (fun a => (f a, g a)) l.
Proof. induction l as [|a l IH]; [reflexivity|]. cbn. rewrite IH. reflexivity. Qed.
Lemma Forall_nth_pos l j n : Forall (Rlt 0) l -> List.length l = n -> j < n -> (0 < nth j l 0)%R.
Proof. intros H <- Hj. apply (proj1 (Forall_forall _ _) H), nth_In, Hj. Qed.
Lemma rsum_pos_tail l x : (forall y, In y l -> (0 <= y)%R) -> (0 < x)%R -> (0 < rsum l + x)%R.
Proof. intros H Hx. assert (G := rsum_nonneg l H). lra. Qed.

Section Value.
Context (ns nc nb : nat) (inp : inputs).
Notation amount := (amount ns nc inp).
Notation mass_of := (mass_of ns nc inp).
Notation total_amount := (total_amount ns nc inp).
Notation particle_mass := (particle_mass ns nc inp).
Notation particle_volume := (particle_volume ns nc inp).
Notation temp_array := (temp_array ns nc inp).

Lemma temp_array_map b : List.length (i_y inp) = ns + nc * nb -> b < nb -> temp_array b = map (amount b) (seq 0 nc).
Proof.
  intros L Hb. unfold ModelPart.temp_array. assert (Lt : nc + b * nc <= nc * nb) by nia.
  rewrite (list_as_map (firstn nc (skipn (ns + b * nc) (i_y inp)))).
  rewrite firstn_length, skipn_length. replace (Nat.min nc _) with nc by lia.
  apply map_ext_in. intros j Hj. apply in_seq in Hj. unfold SpecPart.amount, slot.
  assert (Ef : forall k (l : list R), j < k -> nth j (firstn k l) 0%R = nth j l 0%R).
  { clear. intros k l. revert j k. induction l as [|x l IH]; intros [|j] [|k] H; cbn; try lia; try reflexivity. apply IH. lia. }
  rewrite Ef by lia.
  rewrite <- (firstn_skipn (ns + b * nc) (i_y inp)) at 2. rewrite app_nth2; rewrite firstn_length; [|lia].
  f_equal. lia.
Qed.

(* What the routine needs of its inputs: the amounts may be negative as long as
   every particle keeps a positive amount, mass and volume. *)
Record workable : Prop := {
  wk_len_y : List.length (i_y inp) = ns + nc * nb;
  wk_len_nb : Forall (fun l => List.length l = nb) [i_ycore inp; i_core_mass inp; i_core_density inp; i_nper inp];
  wk_len_nc : Forall (fun l => List.length l = nc) [i_density inp; i_dstar inp; i_alpha inp; i_gamma inp; i_cg inp; i_mw inp; i_psat inp];
  wk_water : 1 <= nc;
  wk_bins : forall b, b < nb -> (0 < total_amount b)%R /\ (0 < particle_mass b)%R /\ (0 < particle_volume b)%R;
  wk_core : Forall (Rlt 0) (i_ycore inp) /\ Forall (Rlt 0) (i_core_mass inp) /\ Forall (Rlt 0) (i_core_density inp) /\ Forall (Rlt 0) (i_nper inp);
  wk_comp : Forall (Rlt 0) (i_density inp) /\ Forall (Rlt 0) (i_dstar inp) /\ Forall (Rlt 0) (i_gamma inp) /\ Forall (Rlt 0) (i_mw inp);
  wk_alpha : Forall (fun a => 0 < a <= 1)%R (i_alpha inp);
  wk_const : (0 < i_diss inp)%R /\ (0 < i_NA inp)%R /\ (0 < i_Rgas inp)%R /\ (0 < i_temp inp)%R }.

Section Physical.
Context (ph : physical ns nc nb inp) (b : nat) (Hb : b < nb).
Ltac pos := match goal with
  | |- (0 < nth ?j ?l 0)%R => apply (Forall_nth_pos l j nc); [apply ph | apply (proj1 (Forall_forall _ _) (ph_len_nc _ _ _ _ ph)); cbn; tauto | assumption]
  | |- (0 < nth ?j ?l 0)%R => apply (Forall_nth_pos l j nb); [apply ph | apply (proj1 (Forall_forall _ _) (ph_len_nb _ _ _ _ ph)); cbn; tauto | assumption]
  end.
Lemma amount_nonneg j : j < nc -> (0 <= amount b j)%R.
Proof. intros Hj. apply (ph_amounts _ _ _ _ ph); assumption. Qed.
Lemma mass_nonneg j : j < nc -> (0 <= mass_of b j)%R.
Proof.
  intros Hj. unfold SpecPart.mass_of. assert (A := amount_nonneg j Hj). destruct (ph_const _ _ _ _ ph) as (_ & HNA & _).
  assert (0 < nth j (i_mw inp) 0)%R by pos. assert (0 < / i_NA inp)%R by (apply Rinv_0_lt_compat; assumption).
  unfold Rdiv. apply Rmult_le_pos; [apply Rmult_le_pos; lra | lra].
Qed.
Lemma total_pos_ph : (0 < total_amount b)%R.
Proof.
  unfold SpecPart.total_amount. apply rsum_pos_tail.
  - intros y Hy. apply in_map_iff in Hy as (j & <- & Hj). apply in_seq in Hj. apply amount_nonneg. lia.
  - apply Rmult_lt_0_compat; [pos | apply (ph_const _ _ _ _ ph)].
Qed.
Lemma mass_pos_ph : (0 < particle_mass b)%R.
Proof.
  unfold SpecPart.particle_mass. apply rsum_pos_tail; [|pos].
  intros y Hy. apply in_map_iff in Hy as (j & <- & Hj). apply in_seq in Hj. apply mass_nonneg. lia.
Qed.
Lemma volume_pos_ph : (0 < particle_volume b)%R.
Proof.
  unfold SpecPart.particle_volume. apply rsum_pos_tail.
  - intros y Hy. apply in_map_iff in Hy as (j & <- & Hj). apply in_seq in Hj. assert (j < nc) by lia.
    assert (0 < nth j (i_density inp) 0)%R by pos. apply Rmult_le_pos; [apply mass_nonneg; assumption|].
    left. apply Rinv_0_lt_compat. assumption.
  - apply Rdiv_lt_0_compat; pos.
Qed.
End Physical.

Lemma physical_workable : physical ns nc nb inp -> workable.
Proof.
  intros ph. constructor; try apply ph. intros b Hb.
  split; [|split]; [apply total_pos_ph | apply mass_pos_ph | apply volume_pos_ph]; assumption.
Qed.

Context (ph : workable).

Lemma lens_nb l : In l [i_ycore inp; i_core_mass inp; i_core_density inp; i_nper inp] -> List.length l = nb.
Proof. apply (proj1 (Forall_forall _ _) (wk_len_nb ph)). Qed.
Lemma lens_nc l : In l [i_density inp; i_dstar inp; i_alpha inp; i_gamma inp; i_cg inp; i_mw inp; i_psat inp] -> List.length l = nc.
Proof. apply (proj1 (Forall_forall _ _) (wk_len_nc ph)). Qed.

Lemma dims : dims_ok ns nc nb inp = true.
Proof.
  unfold dims_ok. rewrite !andb_true_iff. split; [split|].
  - apply Nat.eqb_eq, (wk_len_y ph).
  - apply forallb_forall. intros l Hl. apply Nat.eqb_eq, lens_nb, Hl.
  - apply forallb_forall. intros l Hl. apply Nat.eqb_eq, lens_nc, Hl.
Qed.

Section Bin.
Context (b : nat) (Hb : b < nb).

Ltac pos := match goal with
  | |- (0 < nth ?j ?l 0)%R => apply (Forall_nth_pos l j nc); [apply ph | apply lens_nc; cbn; tauto | assumption]
  | |- (0 < nth ?j ?l 0)%R => apply (Forall_nth_pos l j nb); [apply ph | apply lens_nb; cbn; tauto | assumption]
  end.

Lemma total_pos : (0 < total_amount b)%R.
Proof. apply (wk_bins ph b Hb). Qed.
Lemma mass_pos : (0 < particle_mass b)%R.
Proof. apply (wk_bins ph b Hb). Qed.
Lemma volume_pos : (0 < particle_volume b)%R.
Proof. apply (wk_bins ph b Hb). Qed.

Lemma total_moles_eq : total_moles ns nc inp b = total_amount b.
Proof. unfold total_moles. rewrite (temp_array_map b (wk_len_y ph) Hb). reflexivity. Qed.
Lemma fractions_eq : y_mole_fractions ns nc inp b = Some (map (mole_fraction ns nc inp b) (seq 0 nc)).
Proof.
  unfold y_mole_fractions. rewrite total_moles_eq, (temp_array_map b (wk_len_y ph) Hb).
  rewrite (omap_map _ (fun t => t / total_amount b)%R).
  - rewrite map_map. reflexivity.
  - intros t _. apply rdiv_Some. assert (P := total_pos). lra.
Qed.
Lemma mass_array_eq : mass_array ns nc inp b = Some (map (mass_of b) (seq 0 nc) ++ [nth b (i_core_mass inp) 0%R]).
Proof.
  unfold mass_array. rewrite (temp_array_map b (wk_len_y ph) Hb).
  rewrite (list_as_map (i_mw inp)) at 1. rewrite (lens_nc (i_mw inp)) by (cbn; tauto). rewrite combine_map2.
  rewrite (omap_map _ (fun p => fst p / i_NA inp * snd p)%R).
  - cbn [obind]. rewrite map_map. reflexivity.
  - intros p _. rewrite rdiv_Some; [reflexivity|]. destruct (wk_const ph) as (_ & HNA & _). lra.
Qed.
Notation masses := (map (mass_of b) (seq 0 nc) ++ [nth b (i_core_mass inp) 0%R]).
Lemma masses_sum : rsum masses = particle_mass b.
Proof. rewrite rsum_app. cbn. unfold SpecPart.particle_mass. lra. Qed.

Lemma combine_app {A B} (l1 : list A) (m1 : list B) l2 m2 : List.length l1 = List.length m1 ->
  combine (l1 ++ l2) (m1 ++ m2) = combine l1 m1 ++ combine l2 m2.
Proof. revert m1; induction l1 as [|x l1 IH]; intros [|y m1] H; try discriminate; cbn; [reflexivity|]. f_equal. apply IH. cbn in H. lia. Qed.

Lemma density_eq : bin_density inp b masses = Some (mean_density ns nc inp b).
Proof.
  assert (MP := mass_pos). assert (VP := volume_pos).
  unfold bin_density. rewrite masses_sum. rewrite (omap_map _ (fun m => m / particle_mass b)%R) by (intros; apply rdiv_Some; lra).
  cbn [obind]. unfold density_array. rewrite map_app, map_map. cbn [map].
  rewrite combine_app by (rewrite map_length, seq_length, (lens_nc (i_density inp)) by (cbn; tauto); reflexivity).
  rewrite (list_as_map (i_density inp)) at 1. rewrite (lens_nc (i_density inp)) by (cbn; tauto). rewrite combine_map2. cbn [combine].
  rewrite (omap_map _ (fun p => fst p / snd p)%R).
  - cbn [obind]. rewrite map_app, map_map. cbn [map fst snd].
    assert (E : rsum (map (fun x => (mass_of b x / particle_mass b / nth x (i_density inp) 0)%R) (seq 0 nc) ++
        [(nth b (i_core_mass inp) 0 / particle_mass b / at_ (i_core_density inp) b)%R]) = (particle_volume b / particle_mass b)%R).
    { rewrite rsum_app. cbn [rsum fold_right]. unfold SpecPart.particle_volume.
      rewrite (rsum_ext _ (fun j => / particle_mass b * (mass_of b j / nth j (i_density inp) 0))%R).
      - rewrite rsum_mult. unfold at_, Rdiv. ring.
      - intros j _. unfold Rdiv. ring. }
    rewrite E. rewrite rdiv_Some.
    + unfold mean_density. f_equal. field. split; lra.
    + assert (0 < particle_volume b / particle_mass b)%R by (apply Rdiv_lt_0_compat; lra). lra.
  - intros p Hp. apply rdiv_Some. apply in_app_iff in Hp as [Hp|[<-|[]]].
    + apply in_map_iff in Hp as (j & <- & Hj). apply in_seq in Hj. assert (j < nc) by lia. cbn [snd].
      assert (0 < nth j (i_density inp) 0)%R by pos. lra.
    + cbn [snd]. unfold at_. assert (0 < nth b (i_core_density inp) 0)%R by pos. lra.
Qed.

Lemma Pi_pos : (0 < Pi)%R.
Proof. unfold Pi. lra. Qed.

Definition cube : R := (particle_volume b * 1000 * 3 / (4 * Pi * (nth b (i_nper inp) 0 * 1000000)))%R.
Lemma cube_pos : (0 < cube)%R.
Proof.
  unfold cube. assert (V := volume_pos). assert (P := Pi_pos). assert (0 < nth b (i_nper inp) 0)%R by pos.
  apply Rdiv_lt_0_compat; [lra|]. repeat apply Rmult_lt_0_compat; lra.
Qed.
Definition radius : R := Rpower cube (1 / 3).
Lemma radius_cubed : (radius ^ 3 = cube)%R.
Proof.
  unfold radius. rewrite <- (Rpower_pow 3) by apply exp_pos. rewrite Rpower_mult. replace (1 / 3 * INR 3)%R with 1%R by (cbn; lra).
  apply Rpower_1, cube_pos.
Qed.
Lemma radius_is : is_radius ns nc inp b radius.
Proof.
  split; [apply exp_pos|]. rewrite radius_cubed. unfold cube. assert (P := Pi_pos). assert (0 < nth b (i_nper inp) 0)%R by pos.
  field. split; lra.
Qed.
Lemma radius_unique r : is_radius ns nc inp b r -> r = radius.
Proof.
  intros [Hr E]. assert (P := Pi_pos). assert (HN : (0 < nth b (i_nper inp) 0)%R) by pos.
  assert (C : (r ^ 3 = cube)%R).
  { unfold cube. rewrite <- E. field. split; lra. }
  unfold radius. rewrite <- C. rewrite <- (Rpower_pow 3) by exact Hr. rewrite Rpower_mult.
  replace (INR 3 * (1 / 3))%R with 1%R by (cbn; lra). symmetry. apply Rpower_1, Hr.
Qed.

Lemma size_eq : bin_size inp b masses (mean_density ns nc inp b) = Some radius.
Proof.
  unfold bin_size. rewrite masses_sum. assert (HN : (0 < nth b (i_nper inp) 0)%R) by pos.
  assert (MP := mass_pos). assert (VP := volume_pos). assert (P := Pi_pos).
  assert (D : (0 < mean_density ns nc inp b)%R) by (apply Rdiv_lt_0_compat; lra).
  rewrite rdiv_Some by (unfold at_; lra). cbn [obind]. rewrite rdiv_Some.
  - cbn [obind]. unfold ModelExpr.rpow.
    assert (E : (3 * (particle_mass b * 1000 / (at_ (i_nper inp) b * 1000000)) / (4 * Pi * mean_density ns nc inp b) = cube)%R).
    { unfold cube, mean_density, at_. field. repeat split; lra. }
    rewrite E. destruct (Rlt_dec 0 cube) as [_|n]; [reflexivity | destruct n; apply cube_pos].
  - assert (0 < 4 * Pi * mean_density ns nc inp b)%R by (apply Rmult_lt_0_compat; [lra | exact D]). lra.
Qed.

Lemma alpha_range j : j < nc -> (0 < nth j (i_alpha inp) 0 <= 1)%R.
Proof. intros Hj. apply (proj1 (Forall_forall _ _) (wk_alpha ph)), nth_In. rewrite (lens_nc (i_alpha inp)) by (cbn; tauto). exact Hj. Qed.

Lemma fuchs_denominator Kn a : (0 < Kn -> 0 < a <= 1 -> 0 < 1 + ((1.33 + 0.71 / Kn) / (1 + 1 / Kn) + 4 * (1 - a) / (3 * a)) * Kn)%R.
Proof.
  intros HK Ha.
  assert (0 < / Kn)%R by (apply Rinv_0_lt_compat; exact HK).
  assert (0 < (1.33 + 0.71 / Kn) / (1 + 1 / Kn))%R by (apply Rdiv_lt_0_compat; unfold Rdiv; lra).
  assert (0 <= 4 * (1 - a) / (3 * a))%R by (apply Rmult_le_pos; [lra | left; apply Rinv_0_lt_compat; lra]).
  assert (0 < ((1.33 + 0.71 / Kn) / (1 + 1 / Kn) + 4 * (1 - a) / (3 * a)) * Kn)%R by (apply Rmult_lt_0_compat; lra). lra.
Qed.
Lemma fuchs_pos Kn a : (0 < Kn -> 0 < a <= 1 -> 0 < fuchs_sutugin Kn a)%R.
Proof. intros HK Ha. unfold fuchs_sutugin. apply Rdiv_lt_0_compat; [lra | apply fuchs_denominator; assumption]. Qed.

Lemma correction_eq r j : (0 < r)%R -> j < nc ->
  correction inp r j = Some (fuchs_sutugin (nth j (i_gamma inp) 0%R / r) (nth j (i_alpha inp) 0%R)).
Proof.
  intros Hr Hj. unfold correction, at_. assert (G : (0 < nth j (i_gamma inp) 0)%R) by pos. assert (A := alpha_range j Hj).
  rewrite rdiv_Some by lra. cbn [obind]. set (Kn := (nth j (i_gamma inp) 0 / r)%R).
  assert (HK : (0 < Kn)%R) by (apply Rdiv_lt_0_compat; assumption). rewrite rdiv_Some by lra. cbn [obind].
  assert (HI : (0 < / Kn)%R) by (apply Rinv_0_lt_compat; exact HK). rewrite rdiv_Some by (unfold Rdiv; lra). cbn [obind].
  rewrite rdiv_Some by lra. cbn [obind].
  assert (F := fuchs_denominator Kn _ HK A). unfold fuchs_sutugin.
  replace (133 / 100 + 71 / 100 * (1 / Kn))%R with (1.33 + 0.71 / Kn)%R by (unfold Rdiv; lra).
  apply rdiv_Some. lra.
Qed.

Lemma dm_eq r j : (0 < r)%R -> j < nc ->
  dm_dt1 inp b r (mean_density ns nc inp b) (map (mole_fraction ns nc inp b) (seq 0 nc)) j = Some (growth ns nc inp b r j).
Proof.
  intros Hr Hj. unfold dm_dt1. rewrite correction_eq by assumption. cbn [obind].
  assert (MP := mass_pos). assert (VP := volume_pos).
  assert (D : (0 < mean_density ns nc inp b)%R) by (apply Rdiv_lt_0_compat; lra).
  destruct (wk_const ph) as (_ & HNA & HR & HT).
  assert (DP : (0 < i_Rgas inp * i_temp inp * mean_density ns nc inp b * r)%R) by (apply Rmult_lt_0_compat; [apply Rmult_lt_0_compat; [apply Rmult_lt_0_compat; assumption | exact D] | exact Hr]).
  unfold Cstar_i_m_t, kelvin_factor. rewrite rdiv_Some by nra. cbn [obind]. rewrite rdiv_Some by lra. cbn [obind].
  f_equal. unfold growth, transfer, equilibrium, at_.
  assert (Em : nth j (map (mole_fraction ns nc inp b) (seq 0 nc)) 0%R = mole_fraction ns nc inp b j).
  { rewrite (nth_indep _ 0%R (mole_fraction ns nc inp b 0)) by (rewrite map_length, seq_length; exact Hj). rewrite map_nth, seq_nth by exact Hj. reflexivity. }
  rewrite Em.
  replace (4 * nth j (i_mw inp) 0 * / 1000 * i_sigma inp / (i_Rgas inp * i_temp inp * r * 2 * mean_density ns nc inp b))%R
    with (2 * (nth j (i_mw inp) 0 / 1000) * i_sigma inp / (i_Rgas inp * i_temp inp * mean_density ns nc inp b * r))%R by (field; repeat split; lra).
  replace (83144598 / 10)%R with 8314459.8%R by lra. ring.
Qed.

Lemma bin_value : exists o, bin_compute ns nc inp b = Some o /\ o_size o = radius /\ o_aw o = mole_fraction ns nc inp b (nc - 1) /\
  o_soa o = rsum (map (mass_of b) (seq 0 (nc - 1))) /\ o_dm o = map (growth ns nc inp b radius) (seq 0 nc).
Proof.
  unfold bin_compute. rewrite fractions_eq. cbn [obind]. rewrite mass_array_eq. cbn [obind].
  rewrite total_moles_eq. rewrite rdiv_Some by (assert (P := total_pos); lra). cbn [obind].
  rewrite density_eq. cbn [obind]. rewrite size_eq. cbn [obind].
  rewrite (omap_map _ (growth ns nc inp b radius)) by (intros j Hj; apply in_seq in Hj; apply dm_eq; [apply exp_pos | lia]).
  cbn [obind]. assert (W := wk_water ph). eexists. split; [reflexivity|]. cbn [o_size o_aw o_soa o_dm]. repeat split.
  - unfold mole_fraction. f_equal. rewrite (temp_array_map b (wk_len_y ph) Hb). unfold at_.
    rewrite (nth_indep _ 0%R (amount b 0)) by (rewrite map_length, seq_length; lia). rewrite map_nth, seq_nth by lia. reflexivity.
  - f_equal. rewrite firstn_app, map_length, seq_length. replace (nc - 1 - nc) with 0 by lia. cbn [firstn]. rewrite app_nil_r.
    rewrite firstn_map. f_equal. replace nc with (nc - 1 + 1) at 2 by lia. rewrite seq_app, firstn_app, seq_length, Nat.sub_diag. cbn [firstn].
    rewrite app_nil_r. rewrite firstn_all2 by (rewrite seq_length; lia). reflexivity.
Qed.
End Bin.
End Value.

Coercion physical_workable : physical >-> workable.
