(* C86: Partitioning.f90 as it stands on disk, compiled and called, computes the
   physics of partitioning.

   C39-C41, C60 and C61 are about the model of the routine; here the text of the
   file is read as Fortran and run, statement by statement, in memory that holds
   arbitrary values before the call. *)
From Coq Require Import List Bool Arith Lia Ascii String ZArith QArith Reals Lra Permutation.
From Verif Require Import Base PyStr SpecKin ModelExpr ModelRhs ModelSource SpecSource SourceRead ModelPart SpecPart PartValue PropsPart ModelPartText ModelFort PartRead PartProg PartRun PartCall.
Import ListNotations.
Import Coq.Lists.List.
Open Scope nat_scope.
Open Scope list_scope.

(* What a call should return, from the physics: results in the order of the
   intent(out) arguments. *)
Definition partitions (ns nc nb : nat) (include : list nat) (inp : inputs) (results : list value) : Prop :=
  exists soa aw size dy, results = [VS soa; VV aw; VV size; VV dy] /\
    List.length aw = nb /\ List.length size = nb /\ List.length dy = ns + nc * nb /\
    (* micrograms of organic mass per m3 *)
    soa = organic_mass ns nc nb inp /\
    (forall b, b < nb ->
      (* the water activity is the mole fraction of the last component *)
      nth b aw 0%R = mole_fraction ns nc inp b (nc - 1) /\
      (* the radius fits the volume, and each component grows as it should *)
      is_radius ns nc inp b (nth b size 0%R) /\
      forall j, j < nc -> nth (slot ns nc b j) dy 0%R = growth ns nc inp b (nth b size 0%R) j) /\
    (* the gas loses what the particles take up; other gases do not change *)
    (forall j g, nth_error include j = Some g -> nth g dy 0%R = (- rsum (map (fun b => growth ns nc inp b (nth b size 0%R) j) (seq 0 nb)))%R) /\
    (forall g, g < ns -> ~ In g include -> nth g dy 0%R = 0%R).

(* Called as the driver calls it, on one thread that takes the bins in any order. *)
Theorem C86_partial : forall date ns nc nb include inp u bins garbage_before garbage_private,
  one_line date -> (ns + nc * nb) + nb + ns + nc + 1 < 10 ^ 20 ->
  NoDup include -> List.length include = nc -> Forall (fun g => g < ns) include ->
  physical ns nc nb inp -> List.length (u_ignore u) = ns -> List.length (u_latent u) = nc ->
  Permutation bins (seq 0 nb) ->
  exists p results, read_fsub (partition_text date (ns + nc * nb) nb ns nc include) = Some p /\
    fs_name p = s_ "dydt_partition" /\ fs_bound p = nb /\
    call_fsub p bins garbage_before garbage_private (actuals inp u) = Some results /\
    partitions ns nc nb include inp results.
Proof.
  intros date ns nc nb include inp u bins g g' D W Nd L F ph Ui Ul P.
  exists (partition_sub (ns + nc * nb) nb ns nc include).
  assert (Hb : Forall (fun b => b < nb) bins) by (apply Forall_forall; intros b I; apply (Permutation_in _ P), in_seq in I; lia).
  destruct (call_partition nb ns nc include inp u ph Ui Ul F ltac:(lia) bins g g' Hb) as (soa & aw & size & dy & E & C).
  exists [VS soa; VV aw; VV size; VV dy].
  split; [apply reads_partition; [exact D | exact W | lia | exact F]|]. split; [reflexivity|]. split; [reflexivity|]. split; [exact C|].
  destruct (C61_outputs ns nc nb include inp bins soa aw size dy ph P E) as (O1 & _ & O2 & O3 & O4).
  destruct (C40_untouched_partial ns nc nb include inp bins soa aw size dy P E) as (U1 & U2).
  destruct (C41_direction ns nc nb include inp bins ph L F P) as (soa' & aw' & size' & dy' & E' & HB). rewrite E in E'. injection E' as <- <- <- <-.
  assert (Gr : forall b, b < nb -> forall j, j < nc -> nth (slot ns nc b j) dy 0%R = growth ns nc inp b (nth b size 0%R) j).
  { intros b B j J. destruct (HB b B) as (r & _ & _ & -> & HJ). apply (HJ j J). }
  exists soa, aw, size, dy. split; [reflexivity|]. split; [exact O2|]. split; [exact O3|]. split; [exact U1|]. split; [exact O1|]. split; [|split].
  - intros b B. destruct (O4 b B) as (A1 & _ & A3). split; [exact A1|]. split; [exact A3|]. exact (Gr b B).
  - intros j k J. assert (Hk : k < ns) by exact (proj1 (Forall_forall _ _) F k (nth_error_In _ _ J)).
    assert (Hj : j < nc) by (rewrite <- L; apply nth_error_Some; congruence).
    pose proof (C39_partial ns nc nb include inp bins soa aw size dy Nd L P E j k J Hk) as S.
    replace (map (fun b => growth ns nc inp b (nth b size 0%R) j) (seq 0 nb)) with (map (fun b => nth (slot ns nc b j) dy 0%R) (seq 0 nb)); [lra|].
    apply map_ext_in. intros b I. apply in_seq in I. apply Gr; lia.
  - exact U2.
Qed.

(* On several threads: a scalar that the loop assigns and that is not private is
   written by all of them.  The text has exactly three. *)
Definition assigns (s : fstmt) : str := match s with FSetI x _ => x | FSet x _ _ => x end.
Definition contended (p : fsub) (x : str) : Prop :=
  In x (map assigns (fs_body p)) /\ ~ In x (fs_private p) /\ exists d, In d (fs_decls p) /\ v_name d = x /\ v_dims d = [].
Theorem C86_contended : forall date ns nc nb include, one_line date -> (ns + nc * nb) + nb + ns + nc + 1 < 10 ^ 20 ->
  List.length include <= nc -> Forall (fun g => g < ns) include ->
  exists p, read_fsub (partition_text date (ns + nc * nb) nb ns nc include) = Some p /\
    forall x, contended p x <-> In x (map s_ ["index1"; "index2"; "total_water_cond_mass"]%string).
Proof.
  intros date ns nc nb include D W L F. exists (partition_sub (ns + nc * nb) nb ns nc include).
  split; [apply reads_partition; assumption|]. intros x.
  set (ds := part_vdecls (ns + nc * nb) nb ns nc).
  set (test := fun x => negb (inb x (map s_ part_private)) && existsb (fun d => eqb (v_name d) x && match v_dims d with [] => true | _ => false end) ds).
  assert (T : forall x, test x = true <-> ~ In x (map s_ part_private) /\ exists d, In d ds /\ v_name d = x /\ v_dims d = []).
  { intros z. unfold test. rewrite andb_true_iff, negb_true_iff, existsb_exists. split.
    - intros [A (d & I & B)]. apply andb_prop in B as [B1 B2]. apply eqb_eq in B1. split.
      + intros H. apply In_inb in H. congruence.
      + exists d. split; [exact I|]. split; [exact B1|]. destruct (v_dims d); [reflexivity | discriminate].
    - intros [A (d & I & B1 & B2)]. split.
      + destruct (inb z (map s_ part_private)) eqn:E; [apply inb_In in E; contradiction | reflexivity].
      + exists d. split; [exact I|]. rewrite B1, B2, eqb_refl. reflexivity. }
  assert (N : filter test (map assigns (part_body ++ part_store)) = map s_ ["total_water_cond_mass"; "index1"; "index2"]%string) by (vm_compute; reflexivity).
  assert (G : test (s_ "dy_dt_gas_matrix") = false) by (vm_compute; reflexivity).
  unfold contended. cbn [fs_body fs_private fs_decls partition_sub]. fold ds. rewrite <- T, <- filter_In, !map_app, !filter_app.
  replace (filter test (map assigns (map gas_stmt (gas_pairs include)))) with (@nil str).
  - cbn [app]. rewrite <- filter_app, <- map_app, N. cbn [map In]. tauto.
  - symmetry. rewrite map_map. clear N. induction (gas_pairs include) as [|q l IH]; [reflexivity|]. cbn [map filter]. unfold gas_stmt at 1. cbn [assigns]. rewrite G. exact IH.
Qed.

(* Non-vacuity: one gas, which is the one component, and two bins. *)
Example C86_case : forall g g', exists p soa aw size dy,
  read_fsub (partition_text (s_ "2018-11-02 10:31:07.520331") 3 2 1 1 [0]) = Some p /\
  call_fsub p [1; 0] g g' (actuals two_bins (Unused [0%Z] [0%R] 0 0 0 0 0 0 0)) = Some [VS soa; VV aw; VV size; VV dy] /\
  nth 0 dy 0%R = (- (nth 1 dy 0 + nth 2 dy 0))%R /\ (0 < nth 0 size 0)%R.
Proof.
  intros g g'. assert (P : Permutation [1; 0] (seq 0 2)) by apply perm_swap.
  assert (D : one_line (s_ "2018-11-02 10:31:07.520331")) by (apply calm_one_line; repeat constructor).
  assert (W : (1 + 1 * 2) + 2 + 1 + 1 + 1 < 10 ^ 20).
  { apply (Nat.lt_le_trans _ (10 ^ 1)); [cbn; lia|]. apply Nat.pow_le_mono_r; lia. }
  destruct (C86_partial (s_ "2018-11-02 10:31:07.520331") 1 1 2 [0] two_bins (Unused [0%Z] [0%R] 0 0 0 0 0 0 0) [1; 0] g g' D W
    ltac:(repeat constructor; cbn; tauto) eq_refl ltac:(repeat constructor) two_bins_physical eq_refl eq_refl P)
    as (p & res & E & _ & _ & C & (soa & aw & size & dy & -> & _ & _ & _ & _ & HB & HG & _)).
  exists p, soa, aw, size, dy. split; [exact E|]. split; [exact C|]. split.
  - rewrite (HG 0 0 eq_refl). pose proof (proj2 (proj2 (HB 0 ltac:(lia))) 0 ltac:(lia)) as A. pose proof (proj2 (proj2 (HB 1 ltac:(lia))) 0 ltac:(lia)) as B.
    change (slot 1 1 0 0) with 1 in A. change (slot 1 1 1 0) with 2 in B. rewrite A, B. cbn [seq map rsum fold_right]. lra.
  - apply (proj1 (proj2 (HB 0 ltac:(lia)))).
Qed.
Print Assumptions C86_partial.
Print Assumptions C86_contended.
