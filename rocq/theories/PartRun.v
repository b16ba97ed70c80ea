(* Running the program that is read from Partitioning.f90. *)
From Coq Require Import List Bool Arith Lia Ascii String ZArith QArith Reals Lra Qreals.
From Verif Require Import Base PyStr SpecKin SpecRate ModelExpr ModelRhs ModelSource ModelPart SpecPart PartValue ModelFort PartRead PartProg.
Import ListNotations.
Import Coq.Lists.List.
Open Scope nat_scope.
Open Scope list_scope.
Local Arguments eqb : simpl never.
Local Arguments s_ : simpl never.
Ltac yes := vm_compute; reflexivity.

(* ------------------------------------------------------------------ *)
(* Stores *)
Lemma look_same {A} x (v : A) m : look x (put x v m) = Some v.
Proof. cbn [look put]. rewrite eqb_refl. reflexivity. Qed.
Lemma look_other {A} z x (v : A) m : eqb z x = false -> look z (put x v m) = look z m.
Proof. intros H. cbn [look put]. rewrite H. reflexivity. Qed.

(* m' is m with x set to v. *)
Definition set_to (m m' : store) (x : str) (v : value) : Prop := st_int m' = st_int m /\ st_val m' = put x v (st_val m).
Definition seti_to (m m' : store) (x : str) (z : Z) : Prop := st_val m' = st_val m /\ st_int m' = put x z (st_int m).

(* Numerals *)
Definition num (q : Q) : R := match Qden q with 1%positive => IZR (Qnum q) | d => (IZR (Qnum q) / IZR (Zpos d))%R end.
Lemma num_ok q : Q2R q = num q.
Proof. unfold Q2R, num. destruct q as [n d]. cbn [Qnum Qden]. destruct d; try reflexivity. lra. Qed.

Section Eval.
Context (m : store).
Lemma ev_num q : feval m (FNum q) = Some (VS (num q)).
Proof. cbn [feval]. rewrite num_ok. reflexivity. Qed.
Lemma ev_name x v : look x (st_val m) = Some v -> feval m (FName x) = Some v.
Proof. intros H. exact H. Qed.
Lemma ev_all x l : look x (st_val m) = Some (VV l) -> feval m (FPart x [SAll]) = Some (VV l).
Proof. intros H. cbn [feval]. rewrite H. reflexivity. Qed.
Lemma ev_at x i l z k v : look x (st_val m) = Some (VV l) -> ieval (st_int m) i = Some z -> cell_of (List.length l) z = Some k -> nth_error l k = Some v ->
  feval m (FPart x [SAt i]) = Some (VS v).
Proof. intros H Hi Hc Hv. cbn [feval]. rewrite H. cbn [obind part_of]. rewrite Hi. cbn [obind]. rewrite Hc. cbn [obind]. rewrite Hv. reflexivity. Qed.
Lemma ev_range x i j l a b s n : look x (st_val m) = Some (VV l) -> ieval (st_int m) i = Some a -> ieval (st_int m) j = Some b ->
  range_of (List.length l) a b = Some (s, n) -> feval m (FPart x [SFromTo i j]) = Some (VV (firstn n (skipn s l))).
Proof. intros H Hi Hj Hr. cbn [feval]. rewrite H. cbn [obind part_of]. rewrite Hi. cbn [obind]. rewrite Hj. cbn [obind]. rewrite Hr. reflexivity. Qed.
Lemma ev_add a b x y z : feval m a = Some x -> feval m b = Some y -> lift2 (total Rplus) x y = Some z -> feval m (FAdd a b) = Some z.
Proof. intros A B L. cbn [feval]. rewrite A. cbn [obind]. rewrite B. exact L. Qed.
Lemma ev_sub a b x y z : feval m a = Some x -> feval m b = Some y -> lift2 (total Rminus) x y = Some z -> feval m (FSub a b) = Some z.
Proof. intros A B L. cbn [feval]. rewrite A. cbn [obind]. rewrite B. exact L. Qed.
Lemma ev_mul a b x y z : feval m a = Some x -> feval m b = Some y -> lift2 (total Rmult) x y = Some z -> feval m (FMul a b) = Some z.
Proof. intros A B L. cbn [feval]. rewrite A. cbn [obind]. rewrite B. exact L. Qed.
Lemma ev_div a b x y z : feval m a = Some x -> feval m b = Some y -> lift2 rdiv x y = Some z -> feval m (FDiv a b) = Some z.
Proof. intros A B L. cbn [feval]. rewrite A. cbn [obind]. rewrite B. exact L. Qed.
Lemma ev_pow a b x y z : feval m a = Some x -> feval m b = Some y -> lift2 ModelExpr.rpow x y = Some z -> feval m (FPow a b) = Some z.
Proof. intros A B L. cbn [feval]. rewrite A. cbn [obind]. rewrite B. exact L. Qed.
Lemma ev_exp a n f : feval m a = Some (VV (array n f)) -> feval m (FExp a) = Some (VV (array n (fun j => exp (f j)))).
Proof. intros A. cbn [feval]. rewrite A. cbn [obind]. unfold array. rewrite map_map. reflexivity. Qed.
Lemma ev_sum a l : feval m a = Some (VV l) -> feval m (FSum a) = Some (VS (rsum l)).
Proof. intros A. cbn [feval]. rewrite A. reflexivity. Qed.
Lemma ev_to e v v' : feval m e = Some v -> v = v' -> feval m e = Some v'.
Proof. congruence. Qed.
End Eval.

Lemma traverse_omap {A B} (f : A -> option B) l : traverse f l = omap f l.
Proof. induction l as [|a l IH]; [reflexivity|]. cbn. rewrite IH. reflexivity. Qed.
Lemma zip_omap f l l' : List.length l = List.length l' -> zip_with f l l' = omap (fun p => f (fst p) (snd p)) (combine l l').
Proof. revert l'; induction l as [|a l IH]; intros [|b l'] H; try discriminate; [reflexivity|]. cbn in *. rewrite IH by lia. reflexivity. Qed.
Lemma traverse_array f n g h : (forall j, j < n -> f (g j) = Some (h j)) -> traverse f (array n g) = Some (array n h).
Proof.
  intros H. rewrite traverse_omap. unfold array. transitivity (omap (fun j => f (g j)) (seq 0 n)).
  - induction (seq 0 n) as [|a l IH]; [reflexivity|]. cbn. rewrite IH. reflexivity.
  - apply omap_map. intros j I. apply in_seq in I. apply H. lia.
Qed.
Lemma zip_array f n g g' h : (forall j, j < n -> f (g j) (g' j) = Some (h j)) -> zip_with f (array n g) (array n g') = Some (array n h).
Proof.
  intros H. rewrite zip_omap by (unfold array; rewrite !map_length; reflexivity). unfold array. rewrite combine_map2.
  transitivity (omap (fun j => f (g j) (g' j)) (seq 0 n)).
  - induction (seq 0 n) as [|a l IH]; [reflexivity|]. cbn. rewrite IH. reflexivity.
  - apply omap_map. intros j I. apply in_seq in I. apply H. lia.
Qed.
Section Lift.
Context (o : R -> R -> R).
Lemma lift_ss x y : lift2 (total o) (VS x) (VS y) = Some (VS (o x y)).
Proof. reflexivity. Qed.
Lemma lift_sv x n f : lift2 (total o) (VS x) (VV (array n f)) = Some (VV (array n (fun j => o x (f j)))).
Proof. cbn [lift2]. rewrite (traverse_array _ n f (fun j => o x (f j))); reflexivity. Qed.
Lemma lift_vs y n f : lift2 (total o) (VV (array n f)) (VS y) = Some (VV (array n (fun j => o (f j) y))).
Proof. cbn [lift2]. rewrite (traverse_array _ n f (fun j => o (f j) y)); reflexivity. Qed.
Lemma lift_vv n f g : lift2 (total o) (VV (array n f)) (VV (array n g)) = Some (VV (array n (fun j => o (f j) (g j)))).
Proof. cbn [lift2]. rewrite (zip_array _ n f g (fun j => o (f j) (g j))); reflexivity. Qed.
End Lift.
Lemma div_ss x y : y <> 0%R -> lift2 rdiv (VS x) (VS y) = Some (VS (x / y)%R).
Proof. intros H. cbn [lift2]. rewrite rdiv_Some by exact H. reflexivity. Qed.
Lemma div_sv x n f : (forall j, j < n -> f j <> 0%R) -> lift2 rdiv (VS x) (VV (array n f)) = Some (VV (array n (fun j => x / f j)%R)).
Proof. intros H. cbn [lift2]. rewrite (traverse_array _ n f (fun j => x / f j)%R); [reflexivity|]. intros j Hj. apply rdiv_Some, H, Hj. Qed.
Lemma div_vs y n f : y <> 0%R -> lift2 rdiv (VV (array n f)) (VS y) = Some (VV (array n (fun j => f j / y)%R)).
Proof. intros H. cbn [lift2]. rewrite (traverse_array _ n f (fun j => f j / y)%R); [reflexivity|]. intros j Hj. apply rdiv_Some, H. Qed.
Lemma div_vv n f g : (forall j, j < n -> g j <> 0%R) -> lift2 rdiv (VV (array n f)) (VV (array n g)) = Some (VV (array n (fun j => f j / g j)%R)).
Proof. intros H. cbn [lift2]. rewrite (zip_array _ n f g (fun j => f j / g j)%R); [reflexivity|]. intros j Hj. apply rdiv_Some, H, Hj. Qed.

Lemma cell_ok n z k : z = (Z.of_nat k + 1)%Z -> k < n -> cell_of n z = Some k.
Proof.
  intros -> H. unfold cell_of. replace ((1 <=? Z.of_nat k + 1) && (Z.of_nat k + 1 <=? Z.of_nat n))%Z with true; [apply f_equal; lia|].
  symmetry. apply andb_true_intro. split; apply Z.leb_le; lia.
Qed.
Lemma range_ok n a b s k : a = (Z.of_nat s + 1)%Z -> b = (Z.of_nat s + Z.of_nat k)%Z -> s + k <= n -> s = 0 \/ 0 < k -> range_of n a b = Some (s, k).
Proof.
  intros -> -> H1 H2. unfold range_of. destruct (Z.ltb_spec (Z.of_nat s + Z.of_nat k) (Z.of_nat s + 1)) as [L|L].
  - assert (k = 0) by lia. assert (s = 0) by lia. subst. reflexivity.
  - replace ((1 <=? Z.of_nat s + 1) && (Z.of_nat s + Z.of_nat k <=? Z.of_nat n))%Z with true; [apply f_equal, f_equal2; lia|].
    symmetry. apply andb_true_intro. split; apply Z.leb_le; lia.
Qed.
Lemma array_len n f : List.length (array n f) = n.
Proof. unfold array. rewrite map_length, seq_length. reflexivity. Qed.
Lemma array_at n f k : k < n -> nth_error (array n f) k = Some (f k).
Proof. intros H. unfold array. apply map_nth_error. rewrite (nth_error_nth' _ 0) by (rewrite seq_length; exact H). rewrite seq_nth by exact H. reflexivity. Qed.
Lemma array_same n f g : (forall j, j < n -> f j = g j) -> array n f = array n g.
Proof. intros H. apply map_ext_in. intros j I. apply in_seq in I. apply H. lia. Qed.
Lemma replace_array k v n f : k < n -> replace_at k v (array n f) = array n (upd f k v).
Proof.
  intros H. unfold replace_at, array. replace n with (k + S (n - S k)) by lia. rewrite seq_app. cbn [seq]. rewrite !map_app. cbn [map].
  rewrite firstn_app, map_length, seq_length, Nat.sub_diag. cbn [firstn]. rewrite app_nil_r, firstn_all2 by (rewrite map_length, seq_length; lia).
  rewrite skipn_app, map_length, seq_length. rewrite skipn_all2 by (rewrite map_length, seq_length; lia). replace (S k - k) with 1 by lia. cbn [skipn app].
  f_equal; [|f_equal].
  - apply map_ext_in. intros j I. apply in_seq in I. unfold upd. destruct (Nat.eqb_spec j k); [lia | reflexivity].
  - unfold upd. rewrite Nat.add_0_l, Nat.eqb_refl. reflexivity.
  - apply map_ext_in. intros j I. apply in_seq in I. unfold upd. destruct (Nat.eqb_spec j k); [lia | reflexivity].
Qed.

(* ------------------------------------------------------------------ *)
(* Statements *)
Section Run.
Context (P : store -> Prop).
Definition ends (l : list fstmt) (m : store) : Prop := exists m', run_fstmts l m = Some m' /\ P m'.
Lemma ends_nil m : P m -> ends [] m.
Proof. intros H. exists m. split; [reflexivity | exact H]. Qed.
Lemma run_all x e l l' rest m : feval m e = Some (VV l') -> look x (st_val m) = Some (VV l) -> List.length l = List.length l' ->
  (forall m', set_to m m' x (VV l') -> ends rest m') -> ends (FSet x [SAll] e :: rest) m.
Proof.
  intros E K L H. unfold ends. cbn [run_fstmts run_fstmt]. rewrite E. cbn [obind]. rewrite K. cbn [obind store_part]. rewrite (proj2 (Nat.eqb_eq _ _) L). cbn [obind].
  apply H. split; reflexivity.
Qed.
Lemma run_scalar x e r0 r rest m : feval m e = Some (VS r) -> look x (st_val m) = Some (VS r0) ->
  (forall m', set_to m m' x (VS r) -> ends rest m') -> ends (FSet x [] e :: rest) m.
Proof. intros E K H. unfold ends. cbn [run_fstmts run_fstmt]. rewrite E. cbn [obind]. rewrite K. cbn [obind store_part]. apply H. split; reflexivity. Qed.
Lemma run_at x i e l z k r rest m : feval m e = Some (VS r) -> look x (st_val m) = Some (VV l) -> ieval (st_int m) i = Some z -> cell_of (List.length l) z = Some k ->
  (forall m', set_to m m' x (VV (replace_at k r l)) -> ends rest m') -> ends (FSet x [SAt i] e :: rest) m.
Proof.
  intros E K I C H. unfold ends. cbn [run_fstmts run_fstmt]. rewrite E. cbn [obind]. rewrite K. cbn [obind store_part]. rewrite I. cbn [obind]. rewrite C. cbn [obind].
  apply H. split; reflexivity.
Qed.
Lemma run_range x i j e l l' a b s n rest m : feval m e = Some (VV l') -> look x (st_val m) = Some (VV l) -> ieval (st_int m) i = Some a -> ieval (st_int m) j = Some b ->
  range_of (List.length l) a b = Some (s, n) -> n = List.length l' ->
  (forall m', set_to m m' x (VV (firstn s l ++ l' ++ skipn (s + n) l)) -> ends rest m') -> ends (FSet x [SFromTo i j] e :: rest) m.
Proof.
  intros E K I J C L H. unfold ends. cbn [run_fstmts run_fstmt]. rewrite E. cbn [obind]. rewrite K. cbn [obind store_part]. rewrite I. cbn [obind]. rewrite J. cbn [obind].
  rewrite C. cbn [obind fst snd]. rewrite (proj2 (Nat.eqb_eq _ _) L). cbn [obind]. apply H. split; reflexivity.
Qed.
Lemma run_int x e z0 z rest m : ieval (st_int m) e = Some z -> look x (st_int m) = Some z0 ->
  (forall m', seti_to m m' x z -> ends rest m') -> ends (FSetI x e :: rest) m.
Proof. intros E K H. unfold ends. cbn [run_fstmts run_fstmt]. rewrite K. cbn [obind]. rewrite E. cbn [obind]. apply H. split; reflexivity. Qed.
Lemma run_clear x l q rest m : look x (st_val m) = Some (VV l) ->
  (forall m', set_to m m' x (VV (map (fun _ => num q) l)) -> ends rest m') -> ends (FSet x [SAll] (FNum q) :: rest) m.
Proof. intros K H. unfold ends. cbn [run_fstmts run_fstmt]. rewrite ev_num. cbn [obind]. rewrite K. cbn [obind store_part]. apply H. split; reflexivity. Qed.
Lemma run_clear2 x rows q rest m : look x (st_val m) = Some (VM rows) ->
  (forall m', set_to m m' x (VM (map (map (fun _ => num q)) rows)) -> ends rest m') -> ends (FSet x [SAll; SAll] (FNum q) :: rest) m.
Proof. intros K H. unfold ends. cbn [run_fstmts run_fstmt]. rewrite ev_num. cbn [obind]. rewrite K. cbn [obind store_part]. apply H. split; reflexivity. Qed.
End Run.
Lemma run_app a b m : run_fstmts (a ++ b) m = obind (run_fstmts a m) (run_fstmts b).
Proof. revert m; induction a as [|s a IH]; intros m; [reflexivity|]. cbn [app run_fstmts]. destruct (run_fstmt s m); [apply IH | reflexivity]. Qed.

(* ------------------------------------------------------------------ *)
(* The contents of memory during a call. *)
Section Call.
Context (ns nc nb : nat) (inp : inputs).
Definition real_is (m : store) (x : string) (v : value) : Prop := look (s_ x) (st_val m) = Some v.
Definition int_is (m : store) (x : string) (z : Z) : Prop := look (s_ x) (st_int m) = Some z.
(* arguments and constants *)
Record base (m : store) : Prop := {
  b_y : real_is m "y" (VV (i_y inp));
  b_ycore : real_is m "ycore" (VV (array nb (at_ (i_ycore inp))));
  b_core_mass : real_is m "core_mass_array" (VV (array nb (at_ (i_core_mass inp))));
  b_core_density : real_is m "core_density_array" (VV (array nb (at_ (i_core_density inp))));
  b_nper : real_is m "n_perbin" (VV (array nb (at_ (i_nper inp))));
  b_density : real_is m "density_input" (VV (array nc (at_ (i_density inp))));
  b_dstar : real_is m "dstar_org" (VV (array nc (at_ (i_dstar inp))));
  b_alpha : real_is m "alpha_d_org" (VV (array nc (at_ (i_alpha inp))));
  b_gamma : real_is m "gamma_gas" (VV (array nc (at_ (i_gamma inp))));
  b_cg : real_is m "c_g_i_t" (VV (array nc (at_ (i_cg inp))));
  b_mw : real_is m "mw_array" (VV (array nc (at_ (i_mw inp))));
  b_psat : real_is m "psat" (VV (array nc (at_ (i_psat inp))));
  b_diss : real_is m "core_diss" (VS (i_diss inp));
  b_sigma : real_is m "sigma" (VS (i_sigma inp));
  b_NA : real_is m "na" (VS (i_NA inp));
  b_Rgas : real_is m "r_gas" (VS (i_Rgas inp));
  b_temp : real_is m "model_temp" (VS (i_temp inp));
  b_pi : real_is m "pi" (VS Pi);
  b_ns : int_is m "num_species" (Z.of_nat ns);
  b_nc : int_is m "num_species_condensed" (Z.of_nat nc) }.
(* work space: only the shapes are known *)
Definition has_vec (m : store) (n : nat) (x : string) : Prop := exists l, real_is m x (VV l) /\ List.length l = n.
Definition has_scalar (m : store) (x : string) : Prop := exists r, real_is m x (VS r).
Definition has_int (m : store) (x : string) : Prop := exists z, int_is m x z.
Definition vec_names : list string := ["temp_array"; "y_mole_fractions"; "kn"; "inverse_kn"; "correction_part1"; "correction_part2"; "correction_part3"; "correction";
  "kelvin_factor"; "pressure_eq"; "cstar_i_m_t"; "k_i_m_t_part1"; "k_i_m_t"; "dm_dt"]%string.
Definition mass_names : list string := ["mass_array"; "density_array"; "mass_fractions_array"]%string.
Definition scalar_names : list string := ["total_moles"; "total_mass"; "density"; "total_water_cond_mass"; "total_soa_mass"]%string.
Definition int_names : list string := ["index1"; "index2"]%string.
Record shapes (m : store) : Prop := {
  sh_vec : Forall (has_vec m nc) vec_names; sh_mass : Forall (has_vec m (nc + 1)) mass_names;
  sh_scalar : Forall (has_scalar m) scalar_names; sh_int : Forall (has_int m) int_names }.
(* what the loop leaves *)
Record rel (mm : mem) (m : store) : Prop := {
  r_soa : real_is m "total_soa_mass_array" (VV (array nb (m_soa mm)));
  r_aw : real_is m "aw_array" (VV (array nb (m_aw mm)));
  r_size : real_is m "size_array" (VV (array nb (m_size mm)));
  r_gas : real_is m "dy_dt_gas_matrix" (VM (map (fun i => array nb (m_gas mm i)) (seq 0 ns)));
  r_dy : real_is m "dy_dt" (VV (array (ns + nc * nb) (m_dy mm))) }.
End Call.

(* Facts about m carried over to m', m with x set. *)
Lemma carry_real m m' x v : set_to m m' (s_ x) v -> real_is m' x v.
Proof. intros [_ E]. unfold real_is. rewrite E. apply look_same. Qed.
Lemma carry_other m m' x v z w : set_to m m' (s_ x) v -> eqb (s_ z) (s_ x) = false -> real_is m z w -> real_is m' z w.
Proof. intros [_ E] N H. unfold real_is. rewrite E, look_other by exact N. exact H. Qed.
Lemma carry_int m m' x v z w : set_to m m' (s_ x) v -> int_is m z w -> int_is m' z w.
Proof. intros [E _] H. unfold int_is. rewrite E. exact H. Qed.
Lemma carryi_real m m' x v z w : seti_to m m' (s_ x) v -> real_is m z w -> real_is m' z w.
Proof. intros [E _] H. unfold real_is. rewrite E. exact H. Qed.
Lemma carryi_same m m' x v : seti_to m m' (s_ x) v -> int_is m' x v.
Proof. intros [_ E]. unfold int_is. rewrite E. apply look_same. Qed.
Lemma carryi_other m m' x v z w : seti_to m m' (s_ x) v -> eqb (s_ z) (s_ x) = false -> int_is m z w -> int_is m' z w.
Proof. intros [_ E] N H. unfold int_is. rewrite E, look_other by exact N. exact H. Qed.
Ltac carry m m' C := lazymatch type of C with
  | set_to _ _ (s_ ?x) _ =>
      repeat match goal with
        | H : int_is m ?z _ |- _ => apply (carry_int _ _ _ _ _ _ C) in H
        | H : real_is m ?z _ |- _ => first [eapply (carry_other _ _ _ _ _ _ C) in H; [|vm_compute; reflexivity] | clear H]
        end; apply carry_real in C; clear m
  | seti_to _ _ (s_ ?x) _ =>
      repeat match goal with
        | H : real_is m ?z _ |- _ => apply (carryi_real _ _ _ _ _ _ C) in H
        | H : int_is m ?z _ |- _ => first [eapply (carryi_other _ _ _ _ _ _ C) in H; [|vm_compute; reflexivity] | clear H]
        end; apply carryi_same in C; clear m
  end.
Ltac lk := match goal with H : real_is ?m ?x _ |- look (s_ ?x) (st_val ?m) = _ => exact H end.
Ltac li := cbn [ieval]; repeat match goal with H : int_is ?m ?x _ |- context [look (s_ ?x) (st_int ?m)] => rewrite (H : look (s_ x) (st_int m) = _) end; cbn [obind]; reflexivity.
Ltac lift := lazymatch goal with
  | |- lift2 (total _) (VS _) (VS _) = _ => apply lift_ss
  | |- lift2 (total _) (VS _) (VV (array _ _)) = _ => apply lift_sv
  | |- lift2 (total _) (VV (array _ _)) (VS _) = _ => apply lift_vs
  | |- lift2 (total _) (VV (array _ _)) (VV (array _ _)) = _ => apply lift_vv
  | |- lift2 rdiv (VS _) (VS _) = _ => apply div_ss
  | |- lift2 rdiv (VS _) (VV (array _ _)) = _ => apply div_sv
  | |- lift2 rdiv (VV (array _ _)) (VS _) = _ => apply div_vs
  | |- lift2 rdiv (VV (array _ _)) (VV (array _ _)) = _ => apply div_vv
  end.
Lemma array_upd_at n f k v : k < n -> nth_error (array n (upd f k v)) k = Some v.
Proof. intros H. rewrite array_at by exact H. unfold upd. rewrite Nat.eqb_refl. reflexivity. Qed.
Ltac cell := rewrite ?array_len; lazymatch goal with
  | |- cell_of _ (Z.of_nat (S ?k)) = _ => apply (cell_ok _ _ k); [lia | assumption || lia]
  | |- cell_of _ (Z.of_nat ?n) = _ => apply (cell_ok _ _ (n - 1)); [lia | assumption || lia]
  | |- cell_of _ (Z.of_nat ?n + Z.of_nat 1)%Z = _ => apply (cell_ok _ _ n); [lia | assumption || lia]
  end.
Ltac ev := lazymatch goal with
  | |- feval _ (FNum _) = _ => apply ev_num
  | |- feval _ (FName _) = _ => apply ev_name; lk
  | |- feval _ (FPart _ [SAll]) = _ => apply ev_all; lk
  | |- feval _ (FPart _ [SAt _]) = _ => eapply ev_at; [lk | li | cell | first [apply array_upd_at | apply array_at]; assumption || lia]
  | |- feval _ (FAdd _ _) = _ => eapply ev_add; [ev | ev | lift]
  | |- feval _ (FSub _ _) = _ => eapply ev_sub; [ev | ev | lift]
  | |- feval _ (FMul _ _) = _ => eapply ev_mul; [ev | ev | lift]
  | |- feval _ (FDiv _ _) = _ => eapply ev_div; [ev | ev | lift]
  | |- feval _ (FExp _) = _ => eapply ev_exp; ev
  | |- feval _ (FSum _) = _ => eapply ev_sum; ev
  | |- _ => idtac
  end.

(* ------------------------------------------------------------------ *)
(* One bin: the statements up to dm_dt. *)
Section Bin.
Context (ns nc nb : nat) (inp : inputs) (ph : workable ns nc nb inp) (b : nat) (Hb : b < nb).
Ltac pos := match goal with
  | |- (0 < nth ?j ?l 0)%R => apply (Forall_nth_pos l j nc); [apply ph | apply (lens_nc ns nc nb inp ph); cbn; tauto | assumption]
  | |- (0 < nth ?j ?l 0)%R => apply (Forall_nth_pos l j nb); [apply ph | apply (lens_nb ns nc nb inp ph); cbn; tauto | assumption]
  end.
Notation amount := (amount ns nc inp).
Notation mass_of := (mass_of ns nc inp).
Notation density := (mean_density ns nc inp b).
Notation radius := (radius ns nc inp b).
Definition masses : list R := array nc (mass_of b) ++ [at_ (i_core_mass inp) b].
Definition densities : list R := array nc (at_ (i_density inp)) ++ [at_ (i_core_density inp) b].
Open Scope R_scope.
Definition f_kn j := at_ (i_gamma inp) j / radius.
Definition f_inv j := 1 / f_kn j.
Definition f_part1 j := (133 / 100 + 71 / 100 * f_inv j) / (1 + f_inv j).
Definition f_part2 j := (4 * (1 - at_ (i_alpha inp) j)) / (3 * at_ (i_alpha inp) j).
Definition f_part3 j := 1 + (f_part1 j + f_part2 j) * f_kn j.
Definition f_corr j := 1 / f_part3 j.
Definition f_kelvin j := exp ((4 * at_ (i_mw inp) j * (1 / 1000) * i_sigma inp) / (i_Rgas inp * i_temp inp * radius * 2 * density)).
Definition f_peq j := f_kelvin j * mole_fraction ns nc inp b j * at_ (i_psat inp) j * 101325.
Definition f_cstar j := f_peq j * (i_NA inp / (41572299 / 5 * i_temp inp)).
Definition f_k1 j := at_ (i_dstar inp) j * f_corr j.
Definition f_k j := 4 * Pi * radius * 100 * at_ (i_nper inp) b * f_k1 j.
Definition f_dm j := f_k j * (at_ (i_cg inp) j - f_cstar j).
Lemma radius_pos : 0 < radius. Proof. apply exp_pos. Qed.
Lemma kn_pos j : (j < nc)%nat -> 0 < f_kn j.
Proof. intros Hj. unfold f_kn, at_. apply Rdiv_lt_0_compat; [pos | apply radius_pos]. Qed.
Lemma inv_pos j : (j < nc)%nat -> 0 < f_inv j.
Proof. intros Hj. unfold f_inv. apply Rdiv_lt_0_compat; [lra | apply kn_pos; exact Hj]. Qed.
Lemma part3_pos j : (j < nc)%nat -> 0 < f_part3 j.
Proof.
  intros Hj. pose proof (fuchs_denominator (f_kn j) (at_ (i_alpha inp) j) (kn_pos j Hj) (alpha_range ns nc nb inp ph j Hj)) as F.
  unfold f_part3, f_part1, f_part2, f_inv. replace (133 / 100 + 71 / 100 * (1 / f_kn j)) with (1.33 + 0.71 / f_kn j) by (unfold Rdiv; lra). exact F.
Qed.
Lemma density_pos : 0 < density.
Proof. apply Rdiv_lt_0_compat; apply (wk_bins _ _ _ _ ph b Hb). Qed.
Lemma kelvin_pos : 0 < i_Rgas inp * i_temp inp * radius * 2 * density.
Proof.
  destruct (wk_const _ _ _ _ ph) as (_ & _ & HR & HT). pose proof radius_pos. pose proof density_pos.
  apply Rmult_lt_0_compat; [|assumption]. apply Rmult_lt_0_compat; [|lra]. apply Rmult_lt_0_compat; [|assumption]. apply Rmult_lt_0_compat; assumption.
Qed.
Lemma dm_growth j : (j < nc)%nat -> f_dm j = growth ns nc inp b radius j.
Proof.
  intros Hj. pose proof (dm_eq ns nc nb inp ph b Hb radius j radius_pos Hj) as E. unfold dm_dt1 in E.
  assert (E1 : correction inp radius j = Some (f_corr j)).
  { unfold correction. pose proof (kn_pos j Hj). pose proof (inv_pos j Hj). pose proof (part3_pos j Hj).
    pose proof (alpha_range ns nc nb inp ph j Hj). pose proof radius_pos.
    rewrite rdiv_Some by lra. cbn [obind]. fold (f_kn j). rewrite rdiv_Some by lra. cbn [obind]. fold (f_inv j). rewrite rdiv_Some by lra. cbn [obind].
    fold (f_part1 j). rewrite rdiv_Some by (unfold at_; lra). cbn [obind]. fold (f_part2 j). fold (f_part3 j). rewrite rdiv_Some by lra. reflexivity. }
  rewrite E1 in E. cbn [obind] in E.
  assert (E2 : Cstar_i_m_t inp radius density (map (mole_fraction ns nc inp b) (seq 0 nc)) j = Some (f_cstar j)).
  { unfold Cstar_i_m_t, kelvin_factor. pose proof kelvin_pos. rewrite rdiv_Some by lra. cbn [obind]. destruct (wk_const _ _ _ _ ph) as (_ & _ & _ & HT).
    rewrite rdiv_Some by lra. cbn [obind]. unfold f_cstar, f_peq, f_kelvin. apply f_equal.
    assert (Em : at_ (map (mole_fraction ns nc inp b) (seq 0 nc)) j = mole_fraction ns nc inp b j).
    { unfold at_. rewrite (nth_indep _ 0%R (mole_fraction ns nc inp b 0)) by (rewrite map_length, seq_length; exact Hj). rewrite map_nth, seq_nth by exact Hj. reflexivity. }
    rewrite Em. replace (/ 1000) with (1 / 1000) by lra. replace (83144598 / 10) with (41572299 / 5) by lra. reflexivity. }
  rewrite E2 in E. cbn [obind] in E. injection E as E. rewrite <- E. reflexivity.
Qed.
Close Scope R_scope.
Lemma temp_ok : firstn nc (skipn (ns + b * nc) (i_y inp)) = array nc (amount b).
Proof. exact (temp_array_map ns nc nb inp b (wk_len_y _ _ _ _ ph) Hb). Qed.
Lemma total_ok : (rsum (array nc (amount b)) + at_ (i_ycore inp) b * i_diss inp)%R = total_amount ns nc inp b.
Proof. reflexivity. Qed.

Definition after_bin (mm : mem) : mem :=
  Mem (upd (m_soa mm) b (rsum (map (mass_of b) (seq 0 (nc - 1))))) (upd (m_aw mm) b (mole_fraction ns nc inp b (nc - 1))) (upd (m_size mm) b radius)
    (m_gas mm) (m_dy mm) (m_index1 mm) (m_index2 mm).
Definition done_bin (mm : mem) (m : store) : Prop :=
  base ns nc nb inp m /\ shapes nc m /\ rel ns nc nb mm m /\ int_is m "size_step" (Z.of_nat (S b)) /\ real_is m "dm_dt" (VV (array nc (growth ns nc inp b radius))).

Ltac open_shapes H := destruct H as [Hv Hm Hs Hi]; unfold vec_names, mass_names, scalar_names, int_names in Hv, Hm, Hs, Hi;
  repeat match goal with
  | F : Forall ?P (?x :: ?l) |- _ => let A := fresh "K" in pose proof (Forall_inv F) as A; apply Forall_inv_tail in F; lazymatch type of A with has_vec _ _ _ => destruct A as (? & A & ?) | _ => destruct A as [? A] end
  | F : Forall ?P [] |- _ => clear F
  end.

Lemma fill_last (l l' : list R) v n : List.length l' = n -> List.length l = n + 1 -> replace_at n v (firstn 0 l ++ l' ++ skipn (0 + n) l) = l' ++ [v].
Proof.
  intros L1 L2. cbn [firstn app Nat.add]. unfold replace_at.
  rewrite firstn_app, L1, Nat.sub_diag. cbn [firstn]. rewrite app_nil_r, firstn_all2 by lia.
  rewrite skipn_app, L1. rewrite skipn_all2 by lia. cbn [app]. rewrite skipn_all2; [reflexivity|]. rewrite skipn_length. lia.
Qed.
Lemma range_length (l l' : list R) n : List.length l' = n -> List.length l = n + 1 -> List.length (firstn 0 l ++ l' ++ skipn (0 + n) l) = n + 1.
Proof. intros L1 L2. cbn [firstn app Nat.add]. rewrite app_length, skipn_length. lia. Qed.
Lemma masses_len : List.length masses = nc + 1.
Proof. unfold masses. rewrite app_length, array_len. reflexivity. Qed.
Lemma densities_len : List.length densities = nc + 1.
Proof. unfold densities. rewrite app_length, array_len. reflexivity. Qed.
Lemma organic_ok : firstn (nc - 1) (skipn 0 masses) = map (mass_of b) (seq 0 (nc - 1)).
Proof.
  assert (W := wk_water _ _ _ _ ph). cbn [skipn]. unfold masses, array. rewrite firstn_app, map_length, seq_length.
  replace (nc - 1 - nc) with 0 by lia. cbn [firstn]. rewrite app_nil_r, firstn_map. f_equal.
  replace nc with (nc - 1 + 1) at 2 by lia. rewrite seq_app, firstn_app, seq_length, Nat.sub_diag. cbn [firstn].
  rewrite app_nil_r. apply firstn_all2. rewrite seq_length. lia.
Qed.
Lemma densities_ok : density_array inp b = densities.
Proof.
  unfold density_array, densities. f_equal. rewrite (list_as_map (i_density inp)) at 1.
  rewrite (lens_nc ns nc nb inp ph (i_density inp)) by (cbn; tauto). reflexivity.
Qed.
Lemma fractions_run : exists mf q, lift2 rdiv (VV masses) (VS (rsum masses)) = Some (VV mf) /\ List.length mf = nc + 1 /\
  lift2 rdiv (VV mf) (VV densities) = Some (VV q) /\ rdiv 1 (rsum q) = Some density.
Proof.
  pose proof (density_eq ns nc nb inp ph b Hb) as E. change (map (mass_of b) (seq 0 nc) ++ [nth b (i_core_mass inp) 0%R]) with masses in E.
  unfold bin_density in E. rewrite densities_ok in E.
  destruct (omap (fun m => rdiv m (rsum masses)) masses) as [mf|] eqn:E1; [|discriminate]. cbn [obind] in E.
  assert (L : List.length mf = nc + 1).
  { rewrite <- masses_len. clear - E1. revert mf E1. generalize (rsum masses). intros t. induction masses as [|x l IH]; intros mf E; cbn in E.
    - injection E as <-. reflexivity.
    - destruct (rdiv x t); [|discriminate]. cbn [obind] in E. destruct (omap (fun m => rdiv m t) l) as [l2|]; [|discriminate]. injection E as <-. cbn [List.length]. f_equal. apply IH. reflexivity. }
  destruct (omap (fun p => rdiv (fst p) (snd p)) (combine mf densities)) as [q|] eqn:E2; [|discriminate]. cbn [obind] in E.
  exists mf, q. split; [cbn [lift2]; rewrite traverse_omap, E1; reflexivity|]. split; [exact L|]. split; [|exact E].
  cbn [lift2]. rewrite zip_omap by (rewrite L, densities_len; reflexivity). rewrite E2. reflexivity.
Qed.
Lemma size_run : exists q v, rdiv (rsum masses * 1000) (at_ (i_nper inp) b * 1000000) = Some q /\ rdiv (3 * q) (4 * Pi * density) = Some v /\ ModelExpr.rpow v (1 / 3) = Some radius.
Proof.
  pose proof (size_eq ns nc nb inp ph b Hb) as E. change (map (mass_of b) (seq 0 nc) ++ [nth b (i_core_mass inp) 0%R]) with masses in E.
  unfold bin_size in E. destruct (rdiv (rsum masses * 1000) (at_ (i_nper inp) b * 1000000)) as [q|] eqn:E1; [|discriminate]. cbn [obind] in E.
  destruct (rdiv (3 * q) (4 * Pi * density)) as [v|] eqn:E2; [|discriminate]. cbn [obind] in E. exists q, v. auto.
Qed.
Ltac vec F := eapply (run_all _ _ _ _ (array nc F)); [eapply ev_to; [ev | reflexivity] | lk | rewrite array_len; assumption |].
Lemma run_bin mm m : base ns nc nb inp m -> shapes nc m -> rel ns nc nb mm m -> int_is m "size_step" (Z.of_nat (S b)) -> ends (done_bin (after_bin mm)) part_body m.
Proof.
  intros [] Sh [] Hstep. open_shapes Sh.
  assert (W := wk_water _ _ _ _ ph). assert (Ly := wk_len_y _ _ _ _ ph).
  unfold part_body.
  eapply (run_all _ _ _ _ (array nc (amount b))).
  { eapply ev_to; [eapply ev_range; [lk | li | li | apply (range_ok _ _ _ (ns + b * nc) nc); [lia | lia | rewrite Ly; nia | lia]]|].
    apply f_equal. apply temp_ok. }
  { lk. }
  { rewrite array_len. assumption. }
  intros m1 C1. carry m m1 C1.
  eapply (run_scalar _ _ _ _ (total_amount ns nc inp b)); [eapply ev_to; [ev | reflexivity] | lk |]. intros m2 C2. carry m1 m2 C2.
  destruct (wk_bins _ _ _ _ ph b Hb) as (Tp & Mp & Vp).
  vec (mole_fraction ns nc inp b).
  { lra. }
  intros m3 C3. carry m2 m3 C3.
  destruct (wk_const _ _ _ _ ph) as (Dp & Np & Rp & Tmp).
  (* masses and densities *)
  eapply (run_range _ _ _ _ _ _ (array nc (mass_of b)) _ _ 0 nc).
  { eapply ev_to; [ev; lra | reflexivity]. }
  { lk. } { li. } { li. } { apply range_ok; lia. } { rewrite array_len. reflexivity. }
  intros m4 C4. carry m3 m4 C4.
  eapply run_at.
  { ev. } { lk. } { li. } { rewrite range_length by (rewrite ?array_len; assumption || reflexivity). apply (cell_ok _ _ nc); lia. }
  intros m5 C5. carry m4 m5 C5. rewrite fill_last in C5 by (rewrite ?array_len; assumption || reflexivity). fold masses in C5.
  eapply (run_range _ _ _ _ _ _ (array nc (at_ (i_density inp))) _ _ 0 nc).
  { eapply ev_to; [eapply ev_range; [lk | li | li | apply (range_ok _ _ _ 0 nc); rewrite ?array_len; lia]|]. cbn [skipn]. rewrite firstn_all2 by (rewrite array_len; lia). reflexivity. }
  { lk. } { li. } { li. } { apply range_ok; lia. } { rewrite array_len. reflexivity. }
  intros m6 C6. carry m5 m6 C6.
  eapply run_at.
  { ev. } { lk. } { li. } { rewrite range_length by (rewrite ?array_len; assumption || reflexivity). apply (cell_ok _ _ nc); lia. }
  intros m7 C7. carry m6 m7 C7. rewrite fill_last in C7 by (rewrite ?array_len; assumption || reflexivity). fold densities in C7.
  (* mass without water, water, water activity *)
  eapply run_at.
  { eapply ev_to; [apply ev_sum; eapply ev_range; [lk | li | li | apply (range_ok _ _ _ 0 (nc - 1)); rewrite ?masses_len; lia]|]. rewrite organic_ok. reflexivity. }
  { lk. } { li. } { cell. }
  intros m8 C8. carry m7 m8 C8. rewrite replace_array in C8 by exact Hb.
  assert (Ew : exists w, nth_error masses (nc - 1) = Some w).
  { destruct (nth_error masses (nc - 1)) as [w|] eqn:E; [eauto|]. apply nth_error_None in E. rewrite masses_len in E. lia. }
  destruct Ew as [w Ew].
  eapply run_scalar.
  { eapply ev_add; [ev | eapply ev_at; [lk | li | rewrite masses_len; cell | exact Ew] | lift]. }
  { lk. }
  intros m9 C9. carry m8 m9 C9.
  eapply (run_at _ _ _ _ _ _ _ (mole_fraction ns nc inp b (nc - 1))).
  { eapply ev_to; [ev; lra | reflexivity]. } { lk. } { li. } { cell. }
  intros m10 C10. carry m9 m10 C10. rewrite replace_array in C10 by exact Hb.
  (* mass fractions and density *)
  eapply run_scalar; [ev | lk |]. intros m11 C11. carry m10 m11 C11.
  destruct fractions_run as (mf & q & F1 & F2 & F3 & F4).
  eapply run_all; [eapply ev_div; [ev | ev | exact F1] | lk | rewrite F2; assumption |]. intros m12 C12. carry m11 m12 C12.
  eapply (run_scalar _ _ _ _ density).
  { eapply ev_div; [ev | apply ev_sum; eapply ev_div; [ev | ev | exact F3] | cbn [lift2]]. change (num 1) with 1%R. rewrite F4. reflexivity. }
  { lk. }
  intros m13 C13. carry m12 m13 C13.
  (* size *)
  destruct size_run as (q1 & v1 & G1 & G2 & G3).
  eapply (run_at _ _ _ _ _ _ _ radius).
  { eapply ev_pow; [eapply ev_div; [eapply ev_mul; [ev | eapply ev_div; [ev | ev | cbn [lift2]] | ] | ev | ] | ev; change (3%R <> 0%R); lra | ].
    - change (num 1000) with 1000%R. change (num 1000000) with 1000000%R. rewrite G1. reflexivity.
    - lift.
    - cbn [lift2]. change (num 3) with 3%R. change (num 4) with 4%R. rewrite G2. reflexivity.
    - cbn [lift2]. change (num 1 / num 3)%R with (1 / 3)%R. rewrite G3. reflexivity. }
  { lk. } { li. } { cell. }
  intros m14 C14. carry m13 m14 C14. rewrite replace_array in C14 by exact Hb.
  (* transfer *)
  pose proof radius_pos as Rad. pose proof kelvin_pos as Kp.
  vec f_kn. { lra. } intros m15 C15. carry m14 m15 C15.
  vec f_inv. { intros j Hj. pose proof (kn_pos j Hj). lra. } intros m16 C16. carry m15 m16 C16.
  vec f_part1. { intros j Hj. pose proof (inv_pos j Hj). change (num 1) with 1%R. lra. } intros m17 C17. carry m16 m17 C17.
  vec f_part2. { intros j Hj. pose proof (alpha_range ns nc nb inp ph j Hj). change (num 3) with 3%R. unfold at_. lra. } intros m18 C18. carry m17 m18 C18.
  vec f_part3. intros m19 C19. carry m18 m19 C19.
  vec f_corr. { intros j Hj. pose proof (part3_pos j Hj). lra. } intros m20 C20. carry m19 m20 C20.
  vec f_kelvin. { change (num 2) with 2%R. lra. } intros m21 C21. carry m20 m21 C21.
  vec f_peq. intros m22 C22. carry m21 m22 C22.
  vec f_cstar. { change (num (41572299 # 5)) with (41572299 / 5)%R. lra. } intros m23 C23. carry m22 m23 C23.
  vec f_k1. intros m24 C24. carry m23 m24 C24.
  vec f_k. intros m25 C25. carry m24 m25 C25.
  vec f_dm. intros m26 C26. carry m25 m26 C26.
  rewrite (array_same nc f_dm (growth ns nc inp b radius) dm_growth) in C26.
  apply ends_nil. unfold done_bin.
  split; [constructor; assumption|]. split; [|split; [constructor; assumption|]; split; assumption].
  constructor; unfold vec_names, mass_names, scalar_names, int_names; repeat (apply Forall_cons; [|]); try apply Forall_nil;
    try (eexists; eassumption); eexists; (split; [eassumption | rewrite ?array_len, ?masses_len, ?densities_len; assumption || reflexivity]).
Qed.
End Bin.

(* ------------------------------------------------------------------ *)
(* One iteration of the loop does the steps of the model (ModelPart.bin_steps). *)
Lemma replace_map {A} k (v : A) n F : k < n -> replace_at k v (map F (seq 0 n)) = map (fun i => if i =? k then v else F i) (seq 0 n).
Proof.
  intros H. unfold replace_at. replace n with (k + S (n - S k)) by lia. rewrite seq_app. cbn [seq]. rewrite !map_app. cbn [map].
  rewrite firstn_app, map_length, seq_length, Nat.sub_diag. cbn [firstn]. rewrite app_nil_r, firstn_all2 by (rewrite map_length, seq_length; lia).
  rewrite skipn_app, map_length, seq_length. rewrite skipn_all2 by (rewrite map_length, seq_length; lia). replace (S k - k) with 1 by lia. cbn [skipn app].
  apply f_equal2; [|apply f_equal2].
  - apply map_ext_in. intros j I. apply in_seq in I. destruct (Nat.eqb_spec j k); [lia | reflexivity].
  - rewrite Nat.add_0_l, Nat.eqb_refl. reflexivity.
  - apply map_ext_in. intros j I. apply in_seq in I. destruct (Nat.eqb_spec j k); [lia | reflexivity].
Qed.
Lemma run_element P x i j e rows z z' k k' row r rest m : feval m e = Some (VS r) -> look x (st_val m) = Some (VM rows) ->
  ieval (st_int m) i = Some z -> ieval (st_int m) j = Some z' -> cell_of (List.length rows) z = Some k -> nth_error rows k = Some row -> cell_of (List.length row) z' = Some k' ->
  (forall m', set_to m m' x (VM (replace_at k (replace_at k' r row) rows)) -> ends P rest m') -> ends P (FSet x [SAt i; SAt j] e :: rest) m.
Proof.
  intros E K I J C N C' H. unfold ends. cbn [run_fstmts run_fstmt]. rewrite E. cbn [obind]. rewrite K. cbn [obind store_part]. rewrite I. cbn [obind]. rewrite J. cbn [obind].
  rewrite C. cbn [obind]. rewrite N. cbn [obind]. rewrite C'. cbn [obind]. apply H. split; reflexivity.
Qed.
Lemma ends_app P Q l l' m : ends Q l m -> (forall m', Q m' -> ends P l' m') -> ends P (l ++ l') m.
Proof. intros (m1 & E & H) K. unfold ends. rewrite run_app, E. apply K. exact H. Qed.

(* What a change of memory leaves alone. *)
Definition frame (m m' : store) (xs is : list string) : Prop :=
  (forall x, In x xs -> look (s_ x) (st_val m') = look (s_ x) (st_val m)) /\ (forall x, In x is -> look (s_ x) (st_int m') = look (s_ x) (st_int m)).
Lemma frame_set m m' x v xs is : set_to m m' (s_ x) v -> forallb (fun z => negb (eqb (s_ z) (s_ x))) xs = true -> frame m m' xs is.
Proof.
  intros [E1 E2] F. split; intros z I; [|rewrite E1; reflexivity]. rewrite E2, look_other; [reflexivity|].
  rewrite forallb_forall in F. specialize (F z I). apply negb_true_iff in F. exact F.
Qed.
Lemma frame_seti m m' x v xs is : seti_to m m' (s_ x) v -> forallb (fun z => negb (eqb (s_ z) (s_ x))) is = true -> frame m m' xs is.
Proof.
  intros [E1 E2] F. split; intros z I; [rewrite E1; reflexivity|]. rewrite E2, look_other; [reflexivity|].
  rewrite forallb_forall in F. specialize (F z I). apply negb_true_iff in F. exact F.
Qed.
Definition base_names : list string := ["y"; "ycore"; "core_mass_array"; "core_density_array"; "n_perbin"; "density_input"; "dstar_org"; "alpha_d_org"; "gamma_gas"; "c_g_i_t";
  "mw_array"; "psat"; "core_diss"; "sigma"; "na"; "r_gas"; "model_temp"; "pi"]%string.
Definition base_ints : list string := ["num_species"; "num_species_condensed"]%string.
Definition rel_names : list string := ["total_soa_mass_array"; "aw_array"; "size_array"; "dy_dt_gas_matrix"; "dy_dt"]%string.
Ltac by_frame F := unfold real_is, int_is in *; first [rewrite (proj1 F) by (cbn; tauto) | rewrite (proj2 F) by (cbn; tauto)]; assumption.
Lemma base_frame ns nc nb inp m m' : frame m m' base_names base_ints -> base ns nc nb inp m -> base ns nc nb inp m'.
Proof. intros F []. constructor; by_frame F. Qed.
Lemma rel_frame ns nc nb mm m m' is : frame m m' rel_names is -> rel ns nc nb mm m -> rel ns nc nb mm m'.
Proof. intros F []. constructor; by_frame F. Qed.
Lemma frame_real m m' xs is x v : frame m m' xs is -> In x xs -> real_is m x v -> real_is m' x v.
Proof. intros F I H. unfold real_is. rewrite (proj1 F x I). exact H. Qed.
Lemma frame_int m m' xs is x v : frame m m' xs is -> In x is -> int_is m x v -> int_is m' x v.
Proof. intros F I H. unfold int_is. rewrite (proj2 F x I). exact H. Qed.
Lemma frame_Forall {A} (P P' : A -> Prop) l : (forall x, In x l -> P x -> P' x) -> Forall P l -> Forall P' l.
Proof. intros H F. apply Forall_forall. intros x I. apply (H x I). exact (proj1 (Forall_forall _ _) F x I). Qed.
Lemma shapes_frame nc m m' : frame m m' (vec_names ++ mass_names ++ scalar_names) int_names -> shapes nc m -> shapes nc m'.
Proof.
  intros F [A B C D]. constructor.
  - refine (frame_Forall _ _ _ _ A). intros x I (l & H & L). exists l. split; [|exact L]. eapply frame_real; [exact F | apply in_or_app; auto | exact H].
  - refine (frame_Forall _ _ _ _ B). intros x I (l & H & L). exists l. split; [|exact L]. eapply frame_real; [exact F | rewrite !in_app_iff; auto | exact H].
  - refine (frame_Forall _ _ _ _ C). intros x I (r & H). exists r. eapply frame_real; [exact F | rewrite !in_app_iff; auto | exact H].
  - refine (frame_Forall _ _ _ _ D). intros x I (z & H). exists z. eapply frame_int; [exact F | exact I | exact H].
Qed.

Section Iteration.
Context (ns nc nb : nat) (inp : inputs) (ph : workable ns nc nb inp) (b : nat) (Hb : b < nb).
Notation radius := (radius ns nc inp b).
Notation gr := (growth ns nc inp b radius).
Definition gas_after (p : nat * nat) (mm : mem) : mem :=
  Mem (m_soa mm) (m_aw mm) (m_size mm) (fun x => if x =? fst p then upd (m_gas mm (fst p)) b (gr (snd p)) else m_gas mm x) (m_dy mm) (m_index1 mm) (m_index2 mm).
Lemma run_gas l : Forall (fun p => fst p < ns /\ snd p < nc) l -> forall mm m, done_bin ns nc nb inp b mm m ->
  ends (done_bin ns nc nb inp b (fold_left (fun mm p => gas_after p mm) l mm)) (map gas_stmt l) m.
Proof.
  induction 1 as [|[g s] l [Hg Hs] _ IH]; intros mm m D; [apply ends_nil; exact D|]. cbn [fst snd] in *.
  cbn [map fold_left]. unfold gas_stmt at 1. cbn [fst snd].
  destruct D as (Ba & Sh & Re & Hstep & Hdm). pose proof (r_gas _ _ _ _ _ Re) as Hgas.
  eapply (run_element _ _ _ _ _ _ (Z.of_nat (g + 1)) _ g b (array nb (m_gas mm g)) (gr s)).
  - eapply ev_at; [lk | reflexivity | rewrite array_len; apply (cell_ok _ _ s); lia | apply array_at; exact Hs].
  - lk.
  - reflexivity.
  - li.
  - rewrite map_length, seq_length. apply cell_ok; lia.
  - apply (map_nth_error (fun i => array nb (m_gas mm i))). rewrite (nth_error_nth' _ 0) by (rewrite seq_length; exact Hg). rewrite seq_nth by exact Hg. reflexivity.
  - rewrite array_len. apply (cell_ok _ _ b); lia.
  - intros m1 C. rewrite (replace_map g _ ns (fun i => array nb (m_gas mm i))) in C by exact Hg. rewrite replace_array in C by exact Hb.
    apply IH. split; [apply (base_frame _ _ _ _ m); [eapply frame_set; [exact C | yes] | exact Ba]|].
    split; [apply (shapes_frame _ m); [eapply frame_set; [exact C | yes] | exact Sh]|]. split; [|split].
    + destruct Re. constructor; cbn [m_soa m_aw m_size m_gas m_dy gas_after fst snd]; try (eapply carry_other; [exact C | yes | assumption]).
      apply carry_real in C. unfold real_is in *. rewrite C. apply f_equal, f_equal, map_ext. intros i. destruct (i =? g); reflexivity.
    + eapply carry_int; [exact C | exact Hstep].
    + eapply carry_other; [exact C | yes | exact Hdm].
Qed.
(* the model's steps for these stores *)
Lemma steps_gas l : Forall (fun p => fst p < ns /\ snd p < nc) l -> forall mm rest, exists gas,
  omap (fun p => obind (nth_error (array nc gr) (snd p)) (fun v => Some (WGas (fst p + 1) b v))) l = Some gas /\
  run_steps ns nc nb (gas ++ rest) mm = run_steps ns nc nb rest (fold_left (fun mm p => gas_after p mm) l mm).
Proof.
  induction 1 as [|[g s] l [Hg Hs] _ IH]; intros mm rest; [exists []; split; reflexivity|]. cbn [fst snd] in *.
  destruct (IH (gas_after (g, s) mm) rest) as (gas & E & R). exists (WGas (g + 1) b (gr s) :: gas). cbn [omap fst snd]. rewrite array_at by exact Hs. cbn [obind].
  rewrite E. cbn [obind]. split; [reflexivity|]. cbn [app run_steps run_step]. rewrite Nat.add_1_r. rewrite (proj2 (Nat.ltb_lt _ _) Hg). cbn [obind fold_left]. exact R.
Qed.

Definition sliced (mm : mem) : mem :=
  Mem (m_soa mm) (m_aw mm) (m_size mm) (m_gas mm)
    (fun x => if (ns + b * nc <=? x) && (x <? ns + b * nc + nc) then nth (x - (ns + b * nc)) (array nc gr) 0%R else m_dy mm x) (ns + 1 + b * nc) (ns + (b + 1) * nc).
Lemma steps_store mm : run_steps ns nc nb [WIndex1 (ns + 1 + b * nc); WIndex2 (ns + (b + 1) * nc); WSlice (array nc gr)] mm = Some (sliced mm).
Proof.
  assert (W := wk_water _ _ _ _ ph). cbn [run_steps run_step obind m_index1 m_index2 m_soa m_aw m_size m_gas m_dy]. rewrite array_len.
  replace ((1 <=? ns + 1 + b * nc) && (ns + (b + 1) * nc <=? ns + nc * nb) && (ns + (b + 1) * nc + 1 - (ns + 1 + b * nc) =? nc)) with true.
  - cbn [obind]. unfold sliced. replace (ns + 1 + b * nc - 1) with (ns + b * nc) by lia. reflexivity.
  - symmetry. rewrite !andb_true_iff. split; [split|]; [apply Nat.leb_le; nia | apply Nat.leb_le; nia | apply Nat.eqb_eq; nia].
Qed.
Lemma slice_array s k n f l : s + k <= n -> List.length l = k ->
  firstn s (array n f) ++ l ++ skipn (s + k) (array n f) = array n (fun x => if (s <=? x) && (x <? s + k) then nth (x - s) l 0%R else f x).
Proof.
  intros H L. apply (nth_ext _ _ 0%R 0%R).
  - rewrite !app_length, firstn_length, skipn_length, !array_len, L. lia.
  - intros i Hi. rewrite !app_length, firstn_length, skipn_length, !array_len, L in Hi.
    assert (Na : forall g j, j < n -> nth j (array n g) 0%R = g j) by (intros g j Hj; apply nth_error_nth, array_at, Hj).
    rewrite Na by lia. destruct (Nat.leb_spec s i) as [Hs|Hs]; cbn [andb].
    + rewrite app_nth2 by (rewrite firstn_length, array_len; lia). rewrite firstn_length, array_len. replace (Nat.min s n) with s by lia.
      destruct (Nat.ltb_spec i (s + k)) as [Hk|Hk].
      * rewrite app_nth1 by lia. reflexivity.
      * rewrite app_nth2 by lia. rewrite L.
        transitivity (nth i (array n f) 0%R); [|apply nth_error_nth, array_at; lia].
        rewrite <- (firstn_skipn (s + k) (array n f)) at 2. rewrite (app_nth2 (firstn (s + k) (array n f))) by (rewrite firstn_length, array_len; lia).
        rewrite firstn_length, array_len. f_equal. lia.
    + rewrite app_nth1 by (rewrite firstn_length, array_len; lia).
      transitivity (nth i (array n f) 0%R); [|apply nth_error_nth, array_at; lia].
      rewrite <- (firstn_skipn s (array n f)) at 2. rewrite app_nth1 by (rewrite firstn_length, array_len; lia). reflexivity.
Qed.
Lemma run_store mm m : done_bin ns nc nb inp b mm m ->
  ends (fun m' => base ns nc nb inp m' /\ shapes nc m' /\ rel ns nc nb (sliced mm) m') part_store m.
Proof.
  intros (Ba & Sh & Re & Hstep & Hdm). assert (W := wk_water _ _ _ _ ph). unfold part_store.
  pose proof (b_ns _ _ _ _ _ Ba) as Ens. pose proof (b_nc _ _ _ _ _ Ba) as Enc. pose proof (r_dy _ _ _ _ _ Re) as Edy.
  destruct (Forall_inv (sh_int _ _ Sh)) as [z1 K1]. destruct (Forall_inv (Forall_inv_tail (sh_int _ _ Sh))) as [z2 K2].
  eapply run_int; [li | exact K1 |]. intros m1 C1.
  pose proof (base_frame _ _ _ _ _ _ (frame_seti _ _ _ _ base_names base_ints C1 ltac:(yes)) Ba) as Ba1.
  pose proof (rel_frame _ _ _ _ _ _ [] (frame_seti _ _ _ _ rel_names [] C1 ltac:(yes)) Re) as Re1.
  assert (Sh1 : shapes nc m1).
  { destruct Sh as [A B C D]. destruct C1 as [E1 E2]. constructor.
    - refine (frame_Forall _ _ _ _ A). intros x _ (l & H & L). exists l. split; [|exact L]. unfold real_is. rewrite E1. exact H.
    - refine (frame_Forall _ _ _ _ B). intros x _ (l & H & L). exists l. split; [|exact L]. unfold real_is. rewrite E1. exact H.
    - refine (frame_Forall _ _ _ _ C). intros x _ (r & H). exists r. unfold real_is. rewrite E1. exact H.
    - apply Forall_cons; [eexists; unfold int_is; rewrite E2; apply look_same|]. apply Forall_cons; [|apply Forall_nil].
      exists z2. unfold int_is. rewrite E2, look_other by yes. exact K2. }
  pose proof (carryi_other _ _ _ _ "size_step" _ C1 ltac:(yes) Hstep) as Hstep1. pose proof (carryi_real _ _ _ _ _ _ C1 Hdm) as Hdm1.
  pose proof (carryi_other _ _ _ _ "index2" _ C1 ltac:(yes) K2) as K21. apply carryi_same in C1.
  clear Ens Enc Edy K1 K2 Hstep Hdm. pose proof (b_ns _ _ _ _ _ Ba1) as Ens. pose proof (b_nc _ _ _ _ _ Ba1) as Enc.
  eapply run_int; [li | exact K21 |]. intros m2 C2.
  pose proof (base_frame _ _ _ _ _ _ (frame_seti _ _ _ _ base_names base_ints C2 ltac:(yes)) Ba1) as Ba2.
  pose proof (rel_frame _ _ _ _ _ _ [] (frame_seti _ _ _ _ rel_names [] C2 ltac:(yes)) Re1) as Re2.
  pose proof (carryi_other _ _ _ _ "index1" _ C2 ltac:(yes) C1) as C12. pose proof (carryi_real _ _ _ _ _ _ C2 Hdm1) as Hdm2.
  assert (Sh2 : shapes nc m2).
  { destruct Sh1 as [A B C D]. destruct C2 as [E1 E2]. constructor.
    - refine (frame_Forall _ _ _ _ A). intros x _ (l & H & L). exists l. split; [|exact L]. unfold real_is. rewrite E1. exact H.
    - refine (frame_Forall _ _ _ _ B). intros x _ (l & H & L). exists l. split; [|exact L]. unfold real_is. rewrite E1. exact H.
    - refine (frame_Forall _ _ _ _ C). intros x _ (r & H). exists r. unfold real_is. rewrite E1. exact H.
    - apply Forall_cons; [eexists; exact C12|]. apply Forall_cons; [|apply Forall_nil]. eexists. unfold int_is. rewrite E2. apply look_same. }
  apply carryi_same in C2. clear Ens Enc. pose proof (b_nc _ _ _ _ _ Ba2) as Enc. pose proof (r_dy _ _ _ _ _ Re2) as Edy.
  eapply (run_range _ _ _ _ _ _ (array nc gr) _ _ (ns + b * nc) nc).
  { eapply ev_to; [eapply ev_range; [lk | li | li | apply (range_ok _ _ _ 0 nc); rewrite ?array_len; lia]|]. cbn [skipn]. rewrite firstn_all2 by (rewrite array_len; lia). reflexivity. }
  { lk. } { li. } { li. }
  { rewrite array_len. apply range_ok; [lia | lia | nia | lia]. }
  { rewrite array_len. reflexivity. }
  intros m3 C3. rewrite slice_array in C3 by (rewrite ?array_len; nia). apply ends_nil.
  split; [eapply base_frame; [eapply frame_set; [exact C3 | yes] | exact Ba2]|].
  split; [eapply shapes_frame; [eapply frame_set; [exact C3 | yes] | exact Sh2]|].
  destruct Re2. constructor; cbn [m_soa m_aw m_size m_gas m_dy sliced]; try (eapply carry_other; [exact C3 | yes | assumption]). apply carry_real in C3. exact C3.
Qed.

Context (tl : nat) (include : list nat) (Fi : Forall (fun g => g < ns) include) (Li : List.length include <= nc).
Lemma pairs_ok : Forall (fun p => fst p < ns /\ snd p < nc) (gas_pairs include).
Proof.
  apply Forall_forall. intros p I. apply gas_pairs_In in I. split.
  - apply (proj1 (Forall_forall _ _) Fi). apply nth_error_In in I. exact I.
  - assert (snd p < List.length include) by (apply nth_error_Some; congruence). lia.
Qed.
Lemma iteration_ok mm m : base ns nc nb inp m -> shapes nc m -> rel ns nc nb mm m -> exists steps mm' m',
  bin_steps ns nc include inp b = Some steps /\ run_steps ns nc nb steps mm = Some mm' /\
  iteration (partition_sub tl nb ns nc include) b m = Some m' /\ base ns nc nb inp m' /\ shapes nc m' /\ rel ns nc nb mm' m'.
Proof.
  intros Ba Sh Re. destruct (bin_value ns nc nb inp ph b Hb) as (o & Ho & O1 & O2 & O3 & O4).
  unfold iteration. cbn [fs_body fs_var partition_sub].
  set (m0 := Store (put (s_ "size_step") (Z.of_nat (S b)) (st_int m)) (st_val m)).
  assert (C0 : seti_to m m0 (s_ "size_step") (Z.of_nat (S b))) by (split; reflexivity).
  assert (Ba0 : base ns nc nb inp m0) by (eapply base_frame; [eapply frame_seti; [exact C0 | yes] | exact Ba]).
  assert (Sh0 : shapes nc m0) by (eapply shapes_frame; [eapply frame_seti; [exact C0 | yes] | exact Sh]).
  assert (Re0 : rel ns nc nb mm m0) by (eapply rel_frame; [apply (frame_seti _ _ _ _ _ [] C0); yes | exact Re]).
  assert (St : int_is m0 "size_step" (Z.of_nat (S b))) by (eapply carryi_same; exact C0). clearbody m0. clear C0.
  set (mm1 := after_bin ns nc inp b mm). set (mm2 := fold_left (fun mm p => gas_after p mm) (gas_pairs include) mm1).
  assert (R : ends (fun m' => base ns nc nb inp m' /\ shapes nc m' /\ rel ns nc nb (sliced mm2) m') (part_body ++ map gas_stmt (gas_pairs include) ++ part_store) m0).
  { eapply ends_app; [apply (run_bin ns nc nb inp ph b Hb mm); assumption|]. intros m1 D1.
    eapply ends_app; [apply (run_gas _ pairs_ok _ _ D1)|]. intros m2 D2. exact (run_store _ _ D2). }
  destruct R as (m' & R1 & R2 & R3 & R4).
  destruct (steps_gas _ pairs_ok mm1 [WIndex1 (ns + 1 + b * nc); WIndex2 (ns + (b + 1) * nc); WSlice (array nc gr)]) as (gas & G1 & G2).
  exists ([WSoa b (o_soa o); WAw b (o_aw o); WSize b (o_size o)] ++ gas ++ [WIndex1 (ns + 1 + b * nc); WIndex2 (ns + (b + 1) * nc); WSlice (array nc gr)]), (sliced mm2), m'.
  split; [|split; [|split; [exact R1 | split; [exact R2 | split; [exact R3 | exact R4]]]]].
  - unfold bin_steps. rewrite Ho. cbn [obind]. rewrite O4. fold (gas_pairs include). unfold array in G1. rewrite G1. reflexivity.
  - cbn [app run_steps run_step obind m_soa m_aw m_size m_gas m_dy m_index1 m_index2]. rewrite O1, O2, O3.
    change (run_steps ns nc nb (gas ++ [WIndex1 (ns + 1 + b * nc); WIndex2 (ns + (b + 1) * nc); WSlice (array nc gr)]) mm1 = Some (sliced mm2)).
    rewrite G2. apply steps_store.
Qed.
End Iteration.
