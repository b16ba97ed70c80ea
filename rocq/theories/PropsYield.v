(* C66-C69: the fixed yield driver. *)
From Coq Require Import String List Bool Arith Lia ZArith Reals Lra Permutation Sorted.
From Flocq Require Import Core BinarySingleNaN.
From Verif Require Import Base PyStr PyDict SpecMech ParseTables SpecKin LangFacts ModelExpr ModelSolver SpecSolver SolverFacts PropsSolver ModelPart SpecPart PartFacts PartValue PropsPart
  ModelAero SpecAero AeroFacts PropsAero PropsAeroRun ModelSpecies SpecSpecies PropsSpecies ModelYield SpecMethod PropsMethod ModelSplit PropsSplit.
Import ListNotations.
Import Coq.Lists.List.
Open Scope nat_scope.
Open Scope list_scope.
Local Arguments eqb : simpl never.

Section Setup.
Context (rd : str -> res chem) (fl : str -> res R) (rows : list (str * str)) (text : str) (cv : str -> R) (ov : str -> chem).
Context (Hf : yield_file rows text).
Context (Hv : forall s n, first_number rows s = Some n -> fl n = Ok (cv s) /\ rd s = Ok (ov s)).
Notation sp := (first_seen (map fst rows)).
Notation N := (List.length sp).
Notation triples := (map (fun s => (s, cv s, ov s)) sp).
Notation ys := (tables triples).

Lemma ll : List.length triples = N. Proof. apply map_length. Qed.
Lemma names_l : map (fun x : str * R * chem => fst (fst x)) triples = sp. Proof. rewrite map_map. cbn [fst]. apply map_id. Qed.

Lemma sp2a_iff x k : dget x (y_sp2a ys) = Some k <-> nth_error sp k = Some x.
Proof.
  unfold tables. cbn [y_sp2a]. rewrite names_l, ll, dget_combine_l by apply first_seen_NoDup. rewrite Nat.sub_0_r. intuition lia.
Qed.
Lemma number_is : y_number ys = N. Proof. unfold tables. cbn [y_number]. apply ll. Qed.
Lemma dvals_is : dvals (y_species ys) = sp.
Proof. rewrite tables_names. apply names_l. Qed.
Lemma smiles_is x : In x sp -> dget x (y_smiles ys) = Some x.
Proof.
  intros H. unfold tables. cbn [y_smiles]. rewrite names_l. apply dget_In; [rewrite keys_combine by reflexivity; apply first_seen_NoDup|].
  revert H. generalize sp. intros q H. induction q as [|a q IH]; [contradiction|]. destruct H as [->|H]; [left; reflexivity | right; apply IH, H].
Qed.
Lemma objects_list : y_objects ys = map (fun p => (fst p, Obj (snd p) (ov (fst p)))) (combine sp (seq 0 N)).
Proof.
  unfold tables. cbn [y_objects]. rewrite names_l, ll, map_map. cbn [snd]. generalize 0. generalize sp. intros q. induction q as [|a q IH]; intros k; [reflexivity|].
  cbn [List.length seq map combine fst snd]. rewrite IH. reflexivity.
Qed.
Lemma object_is x k : nth_error sp k = Some x -> In (x, Obj k (ov x)) (y_objects ys).
Proof.
  intros H. rewrite objects_list. apply in_map_iff. exists (x, k). split; [reflexivity|]. apply (nth_error_In _ k). apply nth_error_combine_pair; [exact H|].
  assert (k < N) by (apply nth_error_Some; congruence). rewrite (nth_error_nth' _ 0) by (rewrite seq_length; assumption). rewrite seq_nth by assumption. reflexivity.
Qed.
Lemma object_keys : map fst (y_objects ys) = sp.
Proof. rewrite objects_list, map_map. cbn [fst]. apply (map_fst_combine sp (seq 0 N)). rewrite seq_length. reflexivity. Qed.
Lemma molecules_is x : In x sp -> dget x (molecules (y_objects ys)) = Some (ov x).
Proof.
  intros H. apply In_nth_error in H as [k H]. unfold molecules. apply dget_In.
  - unfold dkeys. rewrite map_map. cbn [fst]. change (NoDup (map fst (y_objects ys))). rewrite object_keys. apply first_seen_NoDup.
  - apply in_map_iff. exists (x, Obj k (ov x)). split; [reflexivity|]. apply object_is, H.
Qed.
Lemma conc_is x k : nth_error sp k = Some x -> dget k (y_conc ys) = Some (cv x).
Proof.
  intros H. unfold tables. cbn [y_conc]. rewrite <- (map_length (fun x => snd (fst x)) triples). apply dget_combine_seq. rewrite Nat.sub_0_r. split; [lia|].
  rewrite map_map, nth_error_map, H. reflexivity.
Qed.

Notation mol := (molecule (y_smiles ys) (molecules (y_objects ys))).
Lemma mol_is x : In x sp -> mol x = Some (ov x).
Proof. intros H. unfold molecule. rewrite (smiles_is x H). apply molecules_is, H. Qed.

(* y_gas *)
Lemma gas_loop voc suf : forall k y, sp = firstn k sp ++ suf -> k + List.length suf = N -> List.length y = N ->
  exists y', foldM (set_product (y_sp2a ys) (y_conc ys) voc) (map (fun p => (fst p, Obj (snd p) (ov (fst p)))) (combine suf (seq k (List.length suf)))) y = Ok y' /\
    List.length y' = N /\ forall i, nth i y' 0%R = if k <=? i then match nth_error suf (i - k) with Some s => (cv s * voc * 24600000000)%R | None => nth i y 0%R end else nth i y 0%R.
Proof.
  induction suf as [|s suf IH]; intros k y E L Ly.
  - cbn [List.length seq combine map foldM]. exists y. split; [reflexivity|]. split; [exact Ly|]. intros i. destruct (k <=? i); [|reflexivity]. destruct (i - k); reflexivity.
  - cbn [List.length seq combine map foldM fst snd]. cbn in L.
    assert (Hk : nth_error sp k = Some s).
    { rewrite E, nth_error_app2; rewrite firstn_length, Nat.min_l by lia; [|lia]. rewrite Nat.sub_diag. reflexivity. }
    assert (E1 : set_product (y_sp2a ys) (y_conc ys) voc y (s, Obj k (ov s)) = Ok (set_nth k (cv s * voc * 24600000000)%R y)).
    { unfold set_product. cbn [o_id fst snd]. rewrite (conc_is s k Hk). cbn [bind]. unfold lookup. rewrite (proj2 (sp2a_iff s k) Hk). cbn [bind].
      apply store_Ok. lia. }
    rewrite E1. cbn [bind].
    destruct (IH (S k) (set_nth k (cv s * voc * 24600000000)%R y)) as (y' & Hy & Ly' & V); [|lia | rewrite set_nth_len; exact Ly|].
    { rewrite E at 1. assert (F : firstn (S k) sp = firstn k sp ++ [s]).
      { clear - Hk. revert k Hk. generalize sp. intros q; induction q as [|z q IHl]; intros [|k] Hk; try discriminate; cbn in *; [injection Hk as <-; reflexivity | rewrite (IHl k Hk); reflexivity]. }
      rewrite F, <- app_assoc. reflexivity. }
    exists y'. split; [exact Hy|]. split; [exact Ly'|]. intros i. rewrite V, nth_set_nth by lia.
    destruct (Nat.leb_spec k i), (Nat.leb_spec (S k) i); try lia.
    + replace (i - k) with (S (i - S k)) by lia. cbn [nth_error]. destruct (nth_error suf (i - S k)); [reflexivity|]. rewrite (proj2 (Nat.eqb_neq i k)) by lia. reflexivity.
    + assert (i = k) by lia. subst i. rewrite Nat.sub_diag, Nat.eqb_refl. reflexivity.
    + rewrite (proj2 (Nat.eqb_neq i k)) by lia. reflexivity.
Qed.

Lemma gas_is voc : exists y, yield_gas N (y_sp2a ys) (y_objects ys) (y_conc ys) voc = Ok y /\ List.length y = N /\
  forall i s, nth_error sp i = Some s -> nth i y 0%R = (cv s * voc * 24600000000)%R.
Proof.
  unfold yield_gas. rewrite objects_list. destruct (gas_loop voc sp 0 (repeat 0%R N) eq_refl eq_refl (repeat_length _ _)) as (y & Hy & Ly & V).
  exists y. split; [exact Hy|]. split; [exact Ly|]. intros i s Hi. rewrite V. cbn [Nat.leb]. rewrite Nat.sub_0_r, Hi. reflexivity.
Qed.

Lemma components cutoff : (forall s, In s sp -> c_C (ov s) <> 0) ->
  exists p, Pure_component1 (y_number ys) (y_species ys) (y_sp2a ys) (y_smiles ys) (molecules (y_objects ys)) false cutoff = Ok p /\
    pc_include p = seq 0 N /\ pc_ignore p = [] /\ List.length (pc_flag p) = N /\
    List.length (pc_density p) = N /\ List.length (pc_mw p) = N /\ List.length (pc_vp p) = N /\
    forall i s, nth_error sp i = Some s -> nth i (pc_density p) 0%R = (c_density (ov s) * 1000)%R /\ nth i (pc_mw p) 0%R = c_molwt (ov s) /\ nth i (pc_vp p) 0%R = c_vp (ov s).
Proof.
  intros HC. unfold Pure_component1. rewrite number_is, dvals_is.
  destruct (fold_usable sp (y_sp2a ys) (y_smiles ys) (molecules (y_objects ys)) false cutoff sp2a_iff sp 0 (start sp) eq_refl eq_refl) as (p & Hp & I).
  { apply Forall_forall. intros x Hx s Hs. rewrite (smiles_is x Hx) in Hs. injection Hs as <-. exists (ov x). split; [apply molecules_is, Hx | apply HC, Hx]. }
  { apply inv_start. }
  exists p. split; [exact Hp|]. destruct I as ((L1 & L2 & L3 & _ & _ & L6) & I1 & I2 & I3).
  assert (IG : forall i, In i (seq 0 N) -> ign_at sp (y_smiles ys) (molecules (y_objects ys)) false cutoff i = false).
  { intros i Hi. apply in_seq in Hi. unfold ign_at. destruct (nth_error sp i) as [x|] eqn:E; [|apply nth_error_None in E; lia].
    unfold ign, dmem. rewrite (smiles_is x (nth_error_In _ _ E)). reflexivity. }
  assert (FT : forall q, (forall i, In i q -> ign_at sp (y_smiles ys) (molecules (y_objects ys)) false cutoff i = false) ->
     filter (fun i => negb (ign_at sp (y_smiles ys) (molecules (y_objects ys)) false cutoff i)) q = q /\ filter (ign_at sp (y_smiles ys) (molecules (y_objects ys)) false cutoff) q = []).
  { induction q as [|a q IH]; intros H; [auto|]. cbn [filter]. rewrite (H a (or_introl eq_refl)). cbn [negb]. destruct IH as [-> ->]; [intros i Hi; apply H; right; exact Hi|]. auto. }
  destruct (FT _ IG) as [F1 F2]. rewrite I1, I2, F1, F2. do 6 (split; [assumption || reflexivity|]).
  intros i s Hi. destruct (I3 i s Hi) as (_ & D1 & D2 & D3). rewrite (mol_is s (nth_error_In _ _ Hi)) in D1, D2, D3.
  assert (HN : i < N) by (apply nth_error_Some; congruence). rewrite (proj2 (Nat.ltb_lt _ _) HN) in D1, D2, D3. auto.
Qed.

Lemma sorted_seq n : forall k, sorted (seq k n) = seq k n.
Proof.
  induction n as [|n IH]; intros k; [reflexivity|]. cbn [seq sorted fold_right]. fold (sorted (seq (S k) n)). rewrite IH.
  destruct n; [reflexivity|]. cbn [seq insert]. rewrite (proj2 (Nat.leb_le k (S k))) by lia. reflexivity.
Qed.

Lemma nth_error_last {A} (q : list A) a n : List.length q = n -> nth_error (q ++ [a]) n = Some a.
Proof. intros <-. rewrite nth_error_app2, Nat.sub_diag by lia. reflexivity. Qed.
Lemma nth_error_front (q : list R) a i v : i < List.length q -> nth i q 0%R = v -> nth_error (q ++ [a]) i = Some v.
Proof. intros L <-. rewrite nth_error_app1 by exact L. apply nth_error_nth'. exact L. Qed.
End Setup.

(* C66: the starting state.  Every SMILES of the yield file gets its own gas
   slot, holding its yield times the total of the products; all of them and
   water partition, with their own properties; the particles start with their
   core and the water that is in balance with RH by Raoult's law. *)
Theorem C66_partial rd fl rows text cv ov cutoff temp RH nb y_core diss :
  yield_file rows text -> (forall s n, first_number rows s = Some n -> fl n = Ok (cv s) /\ rd s = Ok (ov s)) ->
  (forall s, In s (first_seen (map fst rows)) -> c_C (ov s) <> 0) -> RH <> 1%R -> List.length y_core = nb ->
  let n := List.length (first_seen (map fst rows)) in
  exists ys d y0, yield_setup rd fl text cutoff temp RH nb y_core diss = Ok (ys, d, y0) /\
    d_ns d = n + 1 /\ d_nc d = n + 1 /\ d_include d = seq 0 (n + 1) /\
    List.length (d_density d) = n + 1 /\ List.length (d_mw d) = n + 1 /\ List.length (d_vp d) = n + 1 /\
    List.length y0 = (n + 1) + (n + 1) * nb /\
    (forall i s, nth_error (first_seen (map fst rows)) i = Some s ->
       nth_error (d_density d) i = Some (c_density (ov s) * 1000)%R /\ nth_error (d_mw d) i = Some (c_molwt (ov s)) /\ nth_error (d_vp d) i = Some (c_vp (ov s)) /\
       nth_error y0 i = Some (cv s * (30 * temp / (12.187 * 136.24)) * 24600000000)%R) /\
    nth_error (d_density d) n = Some 1000%R /\ nth_error (d_mw d) n = Some 18%R /\ nth_error (d_vp d) n = Some (water_vp temp) /\
    nth_error y0 n = Some (H2O_yield RH temp) /\
    (forall b j, b < nb -> j < n -> nth_error y0 (slot (n + 1) (n + 1) b j) = Some 0%R) /\
    (forall b, b < nb -> nth_error y0 (slot (n + 1) (n + 1) b n) = Some (nth b y_core 0 * diss * (RH / (1 - RH)))%R).
Proof.
  intros Hf Hv HC HR Lc n. unfold yield_setup. rewrite (extract_tables _ _ rd fl rows text cv ov Hf Hv). cbn [bind].
  destruct (components rows cv ov cutoff HC) as (p & Hp & I1 & I2 & L6 & L1 & L2 & L3 & Pr). rewrite Hp. cbn [bind]. fold n in I1, L6, L1, L2, L3.
  rewrite number_is. fold n. destruct (gas_is rows cv ov (total_voc_ppb temp)) as (yg & Hg & Lg & Vg). fold n in Hg, Lg. rewrite Hg. cbn [bind].
  unfold prepare, shave. rewrite I1, sorted_seq. cbn [bind]. cbn [d_nc]. rewrite !app_length, L1. cbn [List.length].
  destruct (condensed_fold (n + 1) nb y_core diss RH ltac:(lia) HR Lc nb (le_n _)) as (yc & Hc & Lyc & Vc). unfold initial_condensed. rewrite Hc. cbn [bind].
  eexists _, _, _. split; [reflexivity|]. cbn [d_ns d_nc d_density d_mw d_vp d_include].
  rewrite Nat.add_sub. split; [reflexivity|]. split; [reflexivity|]. split; [rewrite Nat.add_1_r, seq_S; reflexivity|].
  rewrite !app_length, L1, L2, L3, Lg, Lyc. cbn [List.length]. do 4 (split; [reflexivity|]).
  assert (Low : forall i, i < n + 1 -> nth_error ((yg ++ [H2O_yield RH temp]) ++ yc) i = nth_error (yg ++ [H2O_yield RH temp]) i).
  { intros i Hi. apply nth_error_app1. rewrite app_length, Lg. exact Hi. }
  assert (High : forall b j, b < nb -> j < n + 1 -> nth_error ((yg ++ [H2O_yield RH temp]) ++ yc) (slot (n + 1) (n + 1) b j) = Some (nth (b * (n + 1) + j) yc 0%R)).
  { intros b j Hb Hj. unfold slot. rewrite nth_error_app2; rewrite app_length, Lg; cbn [List.length]; [|lia].
    replace (n + 1 + b * (n + 1) + j - (n + 1)) with (b * (n + 1) + j) by lia. apply nth_error_nth'. rewrite Lyc. nia. }
  split.
  { intros i s Hi. assert (Hn : i < n) by (apply nth_error_Some; congruence). destruct (Pr i s Hi) as (P1 & P2 & P3).
    split; [apply nth_error_front; [lia | exact P1]|]. split; [apply nth_error_front; [lia | exact P2]|]. split; [apply nth_error_front; [lia | exact P3]|].
    rewrite Low by lia. apply nth_error_front; [lia|]. rewrite (Vg i s Hi). unfold total_voc_ppb. do 2 f_equal. f_equal. f_equal. ring. }
  split; [apply nth_error_last, L1|]. split; [apply nth_error_last, L2|]. split; [apply nth_error_last, L3|].
  split; [rewrite Low by lia; apply nth_error_last, Lg|]. split.
  - intros b j Hb Hj. rewrite High by lia. rewrite Vc by lia. rewrite (proj2 (Nat.eqb_neq j (n + 1 - 1))) by lia. reflexivity.
  - intros b Hb. rewrite High by lia. rewrite Vc by lia. rewrite (proj2 (Nat.eqb_eq n (n + 1 - 1))), (proj2 (Nat.ltb_lt b nb)) by lia. reflexivity.
Qed.

(* The set-up fails exactly when some SMILES has no carbon (O:C is a division
   by the number of carbon atoms). *)
Theorem C66_exactly_when rd fl rows text cv ov cutoff temp RH nb y_core diss :
  yield_file rows text -> (forall s n, first_number rows s = Some n -> fl n = Ok (cv s) /\ rd s = Ok (ov s)) ->
  RH <> 1%R -> List.length y_core = nb ->
  ((exists r, yield_setup rd fl text cutoff temp RH nb y_core diss = Ok r) <-> forall s, In s (first_seen (map fst rows)) -> c_C (ov s) <> 0).
Proof.
  intros Hf Hv HR Lc. split.
  - intros [r H] s Hs. unfold yield_setup in H. rewrite (extract_tables _ _ rd fl rows text cv ov Hf Hv) in H. cbn [bind] in H.
    apply bind_Ok in H as (p & Hp & _). unfold Pure_component1 in Hp. rewrite number_is, dvals_is in Hp. apply fold_unusable in Hp.
    destruct (proj1 (Forall_forall _ _) Hp s Hs s (smiles_is rows cv ov s Hs)) as (c & Hc & HC). rewrite (molecules_is rows cv ov s Hs) in Hc. injection Hc as <-. exact HC.
  - intros HC. destruct (C66_partial rd fl rows text cv ov cutoff temp RH nb y_core diss Hf Hv HC HR Lc) as (ys & d & y0 & H & _). eauto.
Qed.

Lemma map_add0 (q : list R) : map (fun v => 0 + v)%R q = q.
Proof. induction q as [|a q IH]; [reflexivity|]. cbn [map]. rewrite IH. f_equal. ring. Qed.

(* C67: for a state of the right size with no negative amount in the
   particles, the right-hand side exists.  Every product and water keeps its
   molecules; the condensed slots follow the condensation equation; the SOA
   mass and the sizes that are left for the output are those of the state. *)
Section Rhs.
Context (rd : str -> res chem) (fl : str -> res R) (rows : list (str * str)) (text : str) (cv : str -> R) (ov : str -> chem).
Context (cutoff temp RH diss core_density core_mw : R) (nb : nat) (y_core nper : list R).
Context (Hf : yield_file rows text) (Hv : forall s n, first_number rows s = Some n -> fl n = Ok (cv s) /\ rd s = Ok (ov s)).
Context (HC : forall s, In s (first_seen (map fst rows)) -> c_C (ov s) <> 0 /\ sensible (ov s)).
Context (HR : RH <> 1%R) (Lcore : List.length y_core = nb) (Lnper : List.length nper = nb) (Htemp : (0 < temp)%R).
Context (Pcore : Forall (Rlt 0) y_core) (Pnper : Forall (Rlt 0) nper) (Pcd : (0 < core_density)%R) (Pcm : (0 < core_mw)%R) (Pdiss : (0 < diss)%R).
Context (ys : yields chem R) (d : prepared) (y0 : list R) (Hsetup : yield_setup rd fl text cutoff temp RH nb y_core diss = Ok (ys, d, y0)).
Notation n := (List.length (first_seen (map fst rows))).

Lemma setup_facts : d_ns d = n + 1 /\ d_nc d = n + 1 /\ d_include d = seq 0 (n + 1) /\
  List.length (d_density d) = d_nc d /\ List.length (d_mw d) = d_nc d /\ List.length (d_vp d) = d_nc d /\
  Forall (Rlt 0) (d_density d) /\ Forall (Rlt 0) (d_mw d) /\ nth n (d_mw d) 0%R = 18%R.
Proof.
  destruct (C66_partial rd fl rows text cv ov cutoff temp RH nb y_core diss Hf Hv (fun s Hs => proj1 (HC s Hs)) HR Lcore)
    as (ys' & d' & y0' & E & F1 & F2 & F3 & L1 & L2 & L3 & _ & Pr & W1 & W2 & _).
  rewrite Hsetup in E. injection E as _ <- _. rewrite F1, F2. do 6 (split; [reflexivity || assumption|]).
  assert (G : forall (q : list R) w (f : chem -> R), List.length q = n + 1 -> (0 < w)%R -> nth_error q n = Some w -> (forall c, sensible c -> 0 < f c)%R ->
    (forall i s, nth_error (first_seen (map fst rows)) i = Some s -> nth_error q i = Some (f (ov s))) -> Forall (Rlt 0) q).
  { intros q w f Lq Pw Hw Pf Hq. apply Forall_forall. intros v Hin. apply In_nth_error in Hin as [j Hj].
    assert (Hjl : j < n + 1) by (rewrite <- Lq; apply nth_error_Some; congruence).
    destruct (nth_error (first_seen (map fst rows)) j) as [s|] eqn:Es.
    - rewrite (Hq j s Es) in Hj. injection Hj as <-. apply Pf. apply (HC s (nth_error_In _ _ Es)).
    - apply nth_error_None in Es. assert (j = n) by lia. subst j. rewrite Hw in Hj. injection Hj as <-. exact Pw. }
  split; [|split].
  - apply (G _ 1000%R (fun c => c_density c * 1000)%R); [assumption | lra | assumption | intros c [? _]; lra | intros i s Hi; apply (Pr i s Hi)].
  - apply (G _ 18%R c_molwt); [assumption | lra | assumption | intros c Sc; exact (proj2 Sc) | intros i s Hi; apply (Pr i s Hi)].
  - apply nth_error_nth. exact W2.
Qed.

Lemma seq_bound k : Forall (fun g => g < k) (seq 0 k).
Proof. apply Forall_forall. intros g Hg. apply in_seq in Hg. lia. Qed.
Lemma seq_at k j : j < k -> nth_error (seq 0 k) j = Some j.
Proof. intros H. rewrite (nth_error_nth' _ 0) by (rewrite seq_length; exact H). rewrite seq_nth by exact H. reflexivity. Qed.

Theorem C67_conservation y bins :
  List.length y = List.length y0 -> (forall b j, b < nb -> j <= n -> (0 <= nth (slot (n + 1) (n + 1) b j) y 0)%R) ->
  Permutation bins (seq 0 nb) -> nb <> 0 ->
  exists q inp dy soa size, Pure_component2 (d_nc d) (d_mw d) Rgas temp = Some q /\
    partition_inputs d q y_core nper core_density core_mw diss temp y = Some inp /\
    yield_rhs d q nb y_core nper core_density core_mw diss temp bins y = Some (dy, (soa, size)) /\
    List.length dy = List.length y /\
    (forall j, j <= n -> (nth j dy 0 + rsum (map (fun b => nth (slot (n + 1) (n + 1) b j) dy 0) (seq 0 nb)) = 0)%R) /\
    rsum dy = 0%R /\ soa = organic_mass (n + 1) (n + 1) nb inp /\ (0 <= soa)%R /\ List.length size = nb /\
    forall b, b < nb -> is_radius (n + 1) (n + 1) inp b (nth b size 0%R) /\
      forall j, j <= n -> nth (slot (n + 1) (n + 1) b j) dy 0%R = (transfer inp b (nth b size 0) j * (nth j y 0 - equilibrium (n + 1) (n + 1) inp b (nth b size 0) j))%R.
Proof.
  intros Ly Py PB Hnb. destruct setup_facts as (F1 & F2 & F3 & L1 & L2 & L3 & PD & PM & _).
  assert (L0 : List.length y = d_ns d + d_nc d * nb).
  { destruct (C66_partial rd fl rows text cv ov cutoff temp RH nb y_core diss Hf Hv (fun s Hs => proj1 (HC s Hs)) HR Lcore) as (ys' & d' & y0' & E & _ & _ & _ & _ & _ & _ & L & _).
    rewrite Hsetup in E. injection E as _ _ <-. rewrite Ly, L, F1, F2. reflexivity. }
  assert (Hnc : d_nc d = List.length (d_include d)) by (rewrite F3, seq_length; exact F2).
  assert (Fb : Forall (fun g => g < d_ns d) (d_include d)) by (rewrite F3, F1; apply seq_bound).
  assert (Wnc : 1 <= d_nc d) by lia.
  destruct (prepared_physical d temp Hnc L1 L2 L3 Fb Wnc PD PM Htemp nb y_core nper core_density core_mw diss y Lcore Lnper L0 Pcore Pnper Pcd Pcm Pdiss) as
    (q & inp & Hq & Hinp & ph & _ & _ & _ & _ & _ & _ & _ & _ & _ & Hcg).
  { rewrite F1, F2. intros b j Hb Hj. apply Py; lia. }
  destruct (C41_direction (d_ns d) (d_nc d) nb (d_include d) inp bins ph (eq_sym Hnc) Fb PB) as (soa & aw & size & dy & Hdy & Hgrow).
  assert (Nd : NoDup (d_include d)) by (rewrite F3; apply seq_NoDup).
  assert (Cons := C39_partial (d_ns d) (d_nc d) nb (d_include d) inp bins soa aw size dy Nd (eq_sym Hnc) PB Hdy).
  assert (Tot := C39_total (d_ns d) (d_nc d) nb (d_include d) inp bins soa aw size dy Nd (eq_sym Hnc) PB Hnb Hdy).
  destruct (C40_untouched_partial (d_ns d) (d_nc d) nb (d_include d) inp bins soa aw size dy PB Hdy) as [Ldy _].
  destruct (C61_outputs (d_ns d) (d_nc d) nb (d_include d) inp bins soa aw size dy ph PB Hdy) as (Hsoa & S0 & _ & Lsz & _).
  exists q, inp, dy, soa, size. split; [exact Hq|]. split; [exact Hinp|]. split.
  { unfold yield_rhs. rewrite Hinp. cbn [obind]. rewrite Hdy. cbn [obind]. rewrite map_add0. reflexivity. }
  split; [rewrite Ldy, L0; reflexivity|].
  rewrite F1, F2, F3 in *. split.
  { intros j Hj. apply Cons; [apply seq_at; lia | lia]. }
  split; [exact Tot|]. split; [exact Hsoa|]. split; [exact S0|]. split; [exact Lsz|].
  intros b Hb. destruct (Hgrow b Hb) as (r & Hr & _ & Hs & Gj). rewrite Hs. split; [exact Hr|]. intros j Hj.
  rewrite (proj1 (Gj j ltac:(lia))). unfold growth. rewrite (Hcg j j (seq_at (n + 1) j ltac:(lia))). reflexivity.
Qed.

Lemma Rpower10_water : Rpower 10 (water_vp temp) = (sat_vap_water temp * 0.00000986923)%R.
Proof.
  unfold Rpower, water_vp. fold (sat_vap_water temp). set (E := sat_vap_water temp).
  assert (0 < E)%R by apply exp_pos. assert (H10 : (0 < ln 10)%R) by (rewrite <- ln_1; apply ln_increasing; lra).
  replace (ln (E * 0.00000986923) / ln 10 * ln 10)%R with (ln (E * 0.00000986923)) by (field; lra). apply exp_ln. lra.
Qed.

(* At the start: no organic matter; every product with a positive yield
   condenses on every bin; and water leaves every bin, because its starting
   amount does not allow for the Kelvin effect. *)
Theorem C67_start bins : (0 <= RH < 1)%R -> Permutation bins (seq 0 nb) -> nb <> 0 ->
  exists q dy size, Pure_component2 (d_nc d) (d_mw d) Rgas temp = Some q /\
    yield_rhs d q nb y_core nper core_density core_mw diss temp bins y0 = Some (dy, (0%R, size)) /\
    (forall i s b, nth_error (first_seen (map fst rows)) i = Some s -> b < nb -> ((0 < nth (slot (n + 1) (n + 1) b i) dy 0)%R <-> (0 < cv s)%R)) /\
    (forall b, b < nb -> (0 < RH)%R -> (nth (slot (n + 1) (n + 1) b n) dy 0 < 0)%R).
Proof.
  intros HR1 PB Hnb.
  destruct (C66_partial rd fl rows text cv ov cutoff temp RH nb y_core diss Hf Hv (fun s Hs => proj1 (HC s Hs)) HR Lcore)
    as (ys' & d' & y0' & E & F1 & F2 & F3 & _ & _ & _ & L0 & Pr & _ & _ & _ & Wg & Y0 & YW).
  rewrite Hsetup in E. injection E as _ <- <-. destruct setup_facts as (_ & _ & _ & L1 & L2 & L3 & PD & PM & W18).
  assert (QR : (0 <= RH / (1 - RH))%R) by (apply Rmult_le_pos; [lra | left; apply Rinv_0_lt_compat; lra]).
  assert (PC : forall b, b < nb -> (0 < nth b y_core 0)%R) by (intros b Hb; apply (Forall_nth_pos y_core b nb); assumption).
  assert (Py : forall b j, b < nb -> j <= n -> (0 <= nth (slot (n + 1) (n + 1) b j) y0 0)%R).
  { intros b j Hb Hj. destruct (Nat.eq_dec j n) as [->|Hne].
    - rewrite (nth_error_nth _ _ 0%R (YW b Hb)). assert (X := PC b Hb). apply Rmult_le_pos; [nra | exact QR].
    - rewrite (nth_error_nth _ _ 0%R (Y0 b j Hb ltac:(lia))). lra. }
  destruct (C67_conservation y0 bins eq_refl Py PB Hnb) as (q & inp & dy & soa & size & Hq & Hinp & Hrhs & _ & _ & _ & Hsoa & _ & _ & Hb).
  assert (Hnc : d_nc d = List.length (d_include d)) by (rewrite F3, seq_length; exact F2).
  assert (Fb : Forall (fun g => g < d_ns d) (d_include d)) by (rewrite F3, F1; apply seq_bound).
  destruct (prepared_physical d temp Hnc L1 L2 L3 Fb ltac:(lia) PD PM Htemp nb y_core nper core_density core_mw diss y0 Lcore Lnper ltac:(rewrite F1, F2; exact L0) Pcore Pnper Pcd Pcm Pdiss) as
    (q' & inp' & Hq' & Hinp' & ph & Iy & Ic & In_ & Id & Ia & Icm & Icd & Im & Ide & _).
  { rewrite F1, F2. intros b j Hbb Hj. apply Py; lia. }
  rewrite Hq in Hq'. injection Hq' as <-. rewrite Hinp in Hinp'. injection Hinp' as <-. rewrite F1, F2 in ph.
  assert (Am : forall b j, b < nb -> j < n -> amount (n + 1) (n + 1) inp b j = 0%R) by (intros b j Hbb Hj; unfold amount; rewrite Iy; apply nth_error_nth, Y0; assumption).
  assert (S0 : soa = 0%R).
  { rewrite Hsoa. unfold organic_mass. rewrite rsum_zero; [ring|]. intros b Hbb. apply in_seq in Hbb. apply rsum_zero. intros j Hj. apply in_seq in Hj.
    unfold mass_of. rewrite Am by lia. unfold Rdiv. ring. }
  rewrite S0 in Hrhs. exists q, dy, size. split; [exact Hq|]. split; [exact Hrhs|].
  assert (TP : forall b j, b < nb -> j <= n -> (0 < transfer inp b (nth b size 0%R) j)%R).
  { intros b j Hbb Hj. destruct (Hb b Hbb) as [[Rp _] _]. assert (PP := Pi_pos).
    assert (HN : (0 < nth b (i_nper inp) 0)%R) by (apply (Forall_nth_pos _ b nb); [apply ph | apply (lens_nb _ _ nb inp ph); cbn; tauto | exact Hbb]).
    assert (HD : (0 < nth j (i_dstar inp) 0)%R) by (apply (Forall_nth_pos _ j (n + 1)); [apply ph | apply (lens_nc _ _ nb inp ph); cbn; tauto | lia]).
    assert (HG : (0 < nth j (i_gamma inp) 0)%R) by (apply (Forall_nth_pos _ j (n + 1)); [apply ph | apply (lens_nc _ _ nb inp ph); cbn; tauto | lia]).
    assert (FS := fuchs_pos (nth j (i_gamma inp) 0 / nth b size 0)%R (nth j (i_alpha inp) 0)%R (Rdiv_lt_0_compat _ _ HG Rp) (alpha_range _ _ nb inp ph j ltac:(lia))).
    unfold transfer. apply Rmult_lt_0_compat; [apply Rmult_lt_0_compat; [|exact HN]; apply Rmult_lt_0_compat; lra | apply Rmult_lt_0_compat; [exact HD | exact FS]]. }
  split.
  - intros i s b Hi Hbb. assert (Hin : i < n) by (apply nth_error_Some; congruence). destruct (Hb b Hbb) as [_ G]. rewrite (G i ltac:(lia)).
    assert (EQ : equilibrium (n + 1) (n + 1) inp b (nth b size 0%R) i = 0%R).
    { unfold equilibrium, mole_fraction. rewrite Am by assumption. unfold Rdiv. ring. }
    rewrite EQ, (nth_error_nth _ _ 0%R (proj2 (proj2 (proj2 (Pr i s Hi))))). assert (T := TP b i Hbb ltac:(lia)).
    assert (Z : (0 < 30 * temp / (12.187 * 136.24))%R) by (apply Rdiv_lt_0_compat; lra).
    set (t := transfer inp b (nth b size 0%R) i) in *. set (z := (30 * temp / (12.187 * 136.24))%R) in *. set (c := cv s).
    assert (0 < t * z)%R by (apply Rmult_lt_0_compat; assumption).
    replace (t * (c * z * 24600000000 - 0))%R with (t * z * c * 24600000000)%R by ring. split; intros ?; nra.
  - intros b Hbb RP. destruct (Hb b Hbb) as [[Rp Hr] G]. rewrite (G n (le_n _)), (nth_error_nth _ _ 0%R Wg). assert (T := TP b n Hbb (le_n _)).
    enough (H2O_yield RH temp < equilibrium (n + 1) (n + 1) inp b (nth b size 0) n)%R by nra.
    assert (Sq : seq 0 (n + 1) = seq 0 n ++ [n]) by (rewrite Nat.add_1_r; apply seq_S).
    assert (MF : mole_fraction (n + 1) (n + 1) inp b n = RH).
    { unfold mole_fraction, total_amount. rewrite Sq, map_app, rsum_app, (rsum_zero _ (seq 0 n)).
      2:{ intros j Hj. apply in_seq in Hj. apply Am; lia. }
      cbn [map]. change (rsum [amount (n + 1) (n + 1) inp b n]) with (amount (n + 1) (n + 1) inp b n + 0)%R.
      assert (Aw : amount (n + 1) (n + 1) inp b n = (nth b y_core 0 * diss * (RH / (1 - RH)))%R) by (unfold amount; rewrite Iy; apply nth_error_nth, YW, Hbb).
      rewrite Aw, Ic, Id. assert (U := PC b Hbb). set (u := nth b y_core 0%R) in *.
      assert (0 < u * diss)%R by (apply Rmult_lt_0_compat; assumption).
      replace (0 + (u * diss * (RH / (1 - RH)) + 0) + u * diss)%R with (u * diss / (1 - RH))%R by (field; lra). field. repeat split; lra. }
    assert (PS : nth n (i_psat inp) 0%R = (sat_vap_water temp * 0.00000986923)%R /\ i_sigma inp = sigma /\ i_Rgas inp = Rgas /\ i_temp inp = temp).
    { unfold partition_inputs in Hinp. destruct (omap (nth_error (firstn (d_ns d) y0)) (d_include d)) as [cg|]; [|discriminate]. cbn [obind] in Hinp.
      assert (X : forall f : inputs -> R, f inp = f (Inputs y0 y_core diss (map (fun c => c / avogadro * core_mw)%R y_core) (d_density d) (repeat core_density (List.length y_core)) (d_mw d)
         (map (Rpower 10) (removelast (d_vp d) ++ [water_vp temp])) (q_dstar q) (q_alpha q) cg nper (q_gamma q) sigma avogadro Rgas temp)) by (intros f; congruence).
      rewrite (X (fun i => nth n (i_psat i) 0%R)), (X i_sigma), (X i_Rgas), (X i_temp). cbn [i_psat i_sigma i_Rgas i_temp].
      split; [|auto]. rewrite <- Rpower10_water. apply nth_error_nth. apply map_nth_error. apply nth_error_last.
      assert (LR := PropsAeroRun.removelast_last (d_vp d) 0%R). rewrite app_length in LR. cbn [List.length] in LR.
      assert (d_vp d <> []) by (intros Z; rewrite Z in L3; cbn in L3; lia). specialize (LR H). lia. }
    destruct PS as (P1 & P2 & P3 & P4). unfold equilibrium. rewrite MF, P1, P2, P3, P4, Im, W18, Ia.
    assert (MD : (0 < mean_density (n + 1) (n + 1) inp b)%R) by (apply Rdiv_lt_0_compat; [apply (mass_pos _ _ nb inp ph b Hbb) | apply (volume_pos _ _ nb inp ph b Hbb)]).
    assert (K : (1 < exp (2 * (18 / 1000) * sigma / (Rgas * temp * mean_density (n + 1) (n + 1) inp b * nth b size 0)))%R).
    { rewrite <- exp_0 at 1. apply exp_increasing. apply Rdiv_lt_0_compat; [unfold sigma; lra|]. assert (0 < Rgas * temp)%R by (unfold Rgas; nra).
      apply Rmult_lt_0_compat; [apply Rmult_lt_0_compat|]; assumption. }
    set (k := exp _) in *. assert (SV : (0 < sat_vap_water temp)%R) by apply exp_pos. set (v := sat_vap_water temp) in *. assert (NP := avogadro_pos).
    unfold H2O_yield. fold v. assert (X : (0 < RH * v * (avogadro / temp))%R).
    { apply Rmult_lt_0_compat; [nra|]. apply Rdiv_lt_0_compat; lra. }
    replace (RH * avogadro * v * / 1000000 / (8.314472 * temp))%R with (RH * v * (avogadro / temp) * (/ 1000000 / 8.314472))%R by (field; lra).
    replace (RH * (v * 0.00000986923 * 101325) * k * (avogadro / (8314459.8 * temp)))%R with (RH * v * (avogadro / temp) * (k * (0.00000986923 * 101325 / 8314459.8)))%R by (field; lra).
    apply Rmult_lt_compat_l; [exact X|]. apply Rlt_trans with (1 * (0.00000986923 * 101325 / 8314459.8))%R; [lra|]. apply Rmult_lt_compat_r; lra.
Qed.

(* The RH that is printed: at the start it is the RH of the input up to the
   digits of the constants. *)
Theorem C67_reported_RH : (0 <= RH)%R -> (Rabs (reported_RH d temp y0 - RH) <= 0.0001 * RH)%R.
Proof.
  intros HRp.
  destruct (C66_partial rd fl rows text cv ov cutoff temp RH nb y_core diss Hf Hv (fun s Hs => proj1 (HC s Hs)) HR Lcore)
    as (ys' & d' & y0' & E & F1 & _ & _ & _ & _ & _ & _ & _ & _ & _ & _ & Wg & _).
  rewrite Hsetup in E. injection E as _ <- <-. unfold reported_RH. rewrite F1, Nat.add_sub, (nth_error_nth _ _ 0%R Wg), Rpower10_water.
  unfold H2O_yield. assert (SV : (0 < sat_vap_water temp)%R) by apply exp_pos. set (v := sat_vap_water temp) in *. assert (NP := avogadro_pos).
  assert (F : forall k w m, (0 < k -> 0 < w -> RH * avogadro * v * / 1000000 / (k * temp) / avogadro * (m * 1000000) * temp / (v * w) = RH * (m / k / w))%R).
  { intros k w m Hk Hw. field. repeat split; lra. }
  replace (v * 0.00000986923 * 101325)%R with (v * (0.00000986923 * 101325))%R by ring. replace 8314000%R with (8.314 * 1000000)%R by lra. rewrite F by lra.
  set (c := (8.314 / 8.314472 / (0.00000986923 * 101325))%R).
  assert (0.9999 <= c <= 1)%R by (unfold c; lra). rewrite Rabs_left1 by nra. nra.
Qed.
End Rhs.

(* ------------------------------------------------------------------ *)
(* C68: whole runs. *)
Section Rows.
Context {S O : Type} (simulate : recording_solver S) (rhs : b64 -> S -> res S) (jac : b64 -> S -> res (nat * nat -> R)) (observe : b64 -> S -> res O).
Context (sim b : b64) (zr : S) (zo : O) (Inv : S -> Prop) (Rel : S -> O -> Prop).
Context (Step : forall y y1 t z, Inv y -> simulate (Problem rhs jac y fzero) b = Ok (y1, (t, z)) -> Inv y1 /\ forall o, observe t z = Ok o -> Rel y1 o).

Lemma record_rows : forall rows total y out ts ys os, Inv y -> (forall o, out = Some o -> Inv o) ->
  record_loop simulate rhs jac observe sim b zr zo rows total y out = Ok (ts, ys, os) ->
  forall k r, k < List.length ts -> nth_error ys k = Some r -> Inv r /\ exists o, nth_error os k = Some o /\ Rel r o.
Proof.
  induction rows as [|rows IH]; intros total y out ts ys os Iy Io H k r Hk Hr; cbn [record_loop] in H; destruct (Bltb total sim).
  - apply bind_Ok in H as (y0 & _ & H). apply bind_Ok in H as ([y1 [t z]] & _ & H). apply bind_Ok in H as (o1 & _ & H). discriminate.
  - injection H as <- _ _. cbn in Hk. lia.
  - apply bind_Ok in H as (y0 & H0 & H). apply bind_Ok in H as ([y1 [t z]] & H1 & H). apply bind_Ok in H as (o1 & H2 & H). apply bind_Ok in H as ([[ts' ys'] os'] & H3 & H).
    injection H as <- <- <-. cbn [fst snd] in *.
    assert (I0 : Inv y0).
    { destruct (Beqb total fzero); [injection H0 as <-; exact Iy|]. destruct out as [o|]; [|discriminate]. injection H0 as <-. apply Io. reflexivity. }
    destruct (Step _ _ _ _ I0 H1) as [I1 R1].
    destruct k as [|k]; [injection Hr as <-; split; [exact I1|]; exists o1; split; [reflexivity | apply R1, H2]|]. cbn [List.length nth_error] in Hk, Hr |- *.
    apply (IH (fadd total b) y0 (Some y1) ts' ys' os') with (k := k); [exact I0 | intros o E; injection E as <-; exact I1 | exact H3 | lia | exact Hr].
  - injection H as <- _ _. cbn in Hk. lia.
Qed.
End Rows.

(* The right-hand side and the attributes, as the solver sees them. *)
Definition yield_dydt (d : prepared) (q : pc2) (nb : nat) (y_core nper : list R) (core_density core_mw diss temp : R) (bins : list nat) (t : b64) (y : list R) : res (list R) :=
  match yield_rhs d q nb y_core nper core_density core_mw diss temp bins y with Some r => Ok (fst r) | None => Err ValueError end.
Definition yield_observe (d : prepared) (q : pc2) (nb : nat) (y_core nper : list R) (core_density core_mw diss temp : R) (bins : list nat) (t : b64) (y : list R) : res (R * list R) :=
  match yield_rhs d q nb y_core nper core_density core_mw diss temp bins y with Some r => Ok (snd r) | None => Err ValueError end.

(* A solver whose answers are computed by a linear method. *)
Definition recording_linear (simulate : recording_solver (list R)) : Prop :=
  forall pb tf y1 t z, simulate pb tf = Ok (y1, (t, z)) -> computed (pb_rhs pb) (pb_y0 pb) y1.

(* Molecules of component j, gas and particles together. *)
Definition everywhere (ns nc nb j : nat) : quantity := (1%R, j) :: map (fun b => (1%R, slot ns nc b j)) (seq 0 nb).
Lemma everywhere_amount ns nc nb j y : amount_of (everywhere ns nc nb j) y = (nth j y 0 + rsum (map (fun b => nth (slot ns nc b j) y 0) (seq 0 nb)))%R.
Proof.
  unfold amount_of, everywhere. cbn [map rsum fold_right fst snd]. rewrite map_map. cbn [fst snd].
  change (1 * nth j y 0 + rsum (map (fun x => 1 * nth (slot ns nc x j) y 0) (seq 0 nb)) = nth j y 0 + rsum (map (fun b => nth (slot ns nc b j) y 0) (seq 0 nb)))%R.
  rewrite (rsum_ext (fun x => 1 * nth (slot ns nc x j) y 0)%R (fun b => nth (slot ns nc b j) y 0%R)) by (intros b _; ring). ring.
Qed.

(* C68, fixed yields: with any linear method every row of y_matrix has, of
   every product, the molecules of the start: its yield. *)
Theorem C68_yield_partial rd fl rows text cv ov cutoff temp RH diss core_density core_mw nb y_core nper ys d y0 q bins simulate jac sim b zr zo ts ys' os :
  yield_file rows text -> (forall s n, first_number rows s = Some n -> fl n = Ok (cv s) /\ rd s = Ok (ov s)) ->
  RH <> 1%R -> List.length y_core = nb -> Permutation bins (seq 0 nb) ->
  yield_setup rd fl text cutoff temp RH nb y_core diss = Ok (ys, d, y0) ->
  recording_linear simulate ->
  record_run simulate (yield_dydt d q nb y_core nper core_density core_mw diss temp bins) jac
    (yield_observe d q nb y_core nper core_density core_mw diss temp bins) sim b zr zo y0 = Ok (ts, ys', os) ->
  let n := List.length (first_seen (map fst rows)) in
  forall k r, k < List.length ts -> nth_error ys' k = Some r ->
    (forall i s, nth_error (first_seen (map fst rows)) i = Some s ->
       (nth i r 0 + rsum (map (fun b => nth (slot (n + 1) (n + 1) b i) r 0) (seq 0 nb)) = cv s * (30 * temp / (12.187 * 136.24)) * 24600000000)%R) /\
    (nth n r 0 + rsum (map (fun b => nth (slot (n + 1) (n + 1) b n) r 0) (seq 0 nb)) =
       H2O_yield RH temp + rsum (map (fun b => nth b y_core 0 * diss * (RH / (1 - RH)))%R (seq 0 nb)))%R.
Proof.
  intros Hf Hv HR Lcore PB Hsetup M H n k r Hk Hr.
  assert (HC : forall s, In s (first_seen (map fst rows)) -> c_C (ov s) <> 0) by (apply (proj1 (C66_exactly_when rd fl rows text cv ov cutoff temp RH nb y_core diss Hf Hv HR Lcore)); eauto).
  destruct (C66_partial rd fl rows text cv ov cutoff temp RH nb y_core diss Hf Hv HC HR Lcore)
    as (ys1 & d' & y0' & E & F1 & F2 & F3 & _ & _ & _ & L0 & Pr & _ & _ & _ & Wg & Y0 & YW). fold n in F1, F2, F3, L0, Wg, Y0, YW.
  rewrite Hsetup in E. injection E as _ <- <-.
  assert (K : forall j, j < n + 1 -> amount_of (everywhere (n + 1) (n + 1) nb j) r = amount_of (everywhere (n + 1) (n + 1) nb j) y0).
  { intros j Hj. unfold record_run in H. apply bind_Ok in H as (x & _ & H). apply bind_Ok in H as (z & _ & H). destruct (z <? 0)%Z; [discriminate|].
    refine (proj2 (proj1 (record_rows simulate _ jac _ sim b zr zo
      (fun y => List.length y = List.length y0 /\ amount_of (everywhere (n + 1) (n + 1) nb j) y = amount_of (everywhere (n + 1) (n + 1) nb j) y0) (fun _ _ => True) _
      _ _ _ _ _ _ _ _ _ H k r Hk Hr))); [|auto | discriminate].
    intros y y1 t zz [Ly Ay] Hs. split; [|auto]. apply M in Hs. cbn [pb_rhs pb_y0] in Hs. split; [rewrite (computed_length _ _ _ Hs); exact Ly|].
    rewrite (computed_keeps _ y (everywhere (n + 1) (n + 1) nb j)) with (3 := Hs); [exact Ay | |].
    - rewrite Ly, L0. unfold everywhere. constructor; [cbn [snd]; lia|]. apply Forall_forall. intros a Ha. apply in_map_iff in Ha as (bb & <- & Hb). apply in_seq in Hb. cbn [snd]. unfold slot. nia.
    - intros t' z' dd _ Hd. unfold yield_dydt in Hd. destruct (yield_rhs d q nb y_core nper core_density core_mw diss temp bins z') as [[dy [soa size]]|] eqn:Er; [|discriminate].
      injection Hd as <-. cbn [fst]. unfold yield_rhs in Er. destruct (partition_inputs d q y_core nper core_density core_mw diss temp z') as [inp|]; [|discriminate]. cbn [obind] in Er.
      destruct (dydt_partition (d_ns d) (d_nc d) nb (d_include d) inp bins) as [[[[soa' aw] size'] dy']|] eqn:Ep; [|discriminate]. cbn [obind] in Er. rewrite map_add0 in Er. injection Er as <- _ _.
      rewrite everywhere_amount. rewrite F1, F2, F3 in Ep.
      refine (C39_partial (n + 1) (n + 1) nb (seq 0 (n + 1)) inp bins soa' aw size' dy' (seq_NoDup _ _) (seq_length _ _) PB Ep j j _ Hj).
      rewrite (nth_error_nth' _ 0) by (rewrite seq_length; exact Hj). rewrite seq_nth by exact Hj. reflexivity. }
  split.
  - intros i s Hi. assert (Hn : i < n) by (apply nth_error_Some; congruence). rewrite <- everywhere_amount, (K i ltac:(lia)), everywhere_amount.
    rewrite (nth_error_nth _ _ 0%R (proj2 (proj2 (proj2 (Pr i s Hi))))). rewrite rsum_zero; [ring|]. intros bb Hb. apply in_seq in Hb. apply nth_error_nth. apply Y0; lia.
  - rewrite <- everywhere_amount, (K n ltac:(lia)), everywhere_amount. rewrite (nth_error_nth _ _ 0%R Wg). f_equal. apply rsum_ext. intros bb Hb. apply in_seq in Hb. apply nth_error_nth, YW. lia.
Qed.

(* ------------------------------------------------------------------ *)
(* C69: the SOA mass and the sizes in the output. *)
Definition last_at_output (simulate : recording_solver (list R)) : Prop :=
  forall pb tf y1 t z, simulate pb tf = Ok (y1, (t, z)) -> z = y1.

(* If the solver evaluates the right-hand side last at the state it returns,
   then every row of SOA_matrix and size_matrix describes the same row of
   y_matrix. *)
Theorem C69_partial rd fl rows text cv ov cutoff temp RH diss core_density core_mw nb y_core nper ys d y0 q bins simulate jac sim b zr zo ts ys' os :
  yield_file rows text -> (forall s n, first_number rows s = Some n -> fl n = Ok (cv s) /\ rd s = Ok (ov s)) ->
  (forall s, In s (first_seen (map fst rows)) -> c_C (ov s) <> 0 /\ sensible (ov s)) ->
  RH <> 1%R -> List.length y_core = nb -> List.length nper = nb -> (0 < temp)%R ->
  Forall (Rlt 0) y_core -> Forall (Rlt 0) nper -> (0 < core_density)%R -> (0 < core_mw)%R -> (0 < diss)%R ->
  yield_setup rd fl text cutoff temp RH nb y_core diss = Ok (ys, d, y0) -> Permutation bins (seq 0 nb) -> nb <> 0 ->
  Pure_component2 (d_nc d) (d_mw d) Rgas temp = Some q ->
  recording_linear simulate -> last_at_output simulate ->
  record_run simulate (yield_dydt d q nb y_core nper core_density core_mw diss temp bins) jac
    (yield_observe d q nb y_core nper core_density core_mw diss temp bins) sim b zr zo y0 = Ok (ts, ys', os) ->
  let n := List.length (first_seen (map fst rows)) in
  forall k r, k < List.length ts -> nth_error ys' k = Some r ->
    (forall b j, b < nb -> j <= n -> (0 <= nth (slot (n + 1) (n + 1) b j) r 0)%R) ->
    exists inp size, partition_inputs d q y_core nper core_density core_mw diss temp r = Some inp /\
      nth_error os k = Some (organic_mass (n + 1) (n + 1) nb inp, size) /\ List.length size = nb /\
      forall b, b < nb -> is_radius (n + 1) (n + 1) inp b (nth b size 0%R).
Proof.
  intros Hf Hv HC HR Lcore Lnper Htemp Pcore Pnper Pcd Pcm Pdiss Hsetup PB Hnb Hq M La H n k r Hk Hr Hpos.
  unfold record_run in H. apply bind_Ok in H as (x & _ & H). apply bind_Ok in H as (z & _ & H). destruct (z <? 0)%Z; [discriminate|].
  set (Inv := fun y : list R => List.length y = List.length y0).
  set (Rel := fun (y : list R) (o : R * list R) => yield_observe d q nb y_core nper core_density core_mw diss temp bins fzero y = Ok o).
  assert (St : forall y y1 t zz, Inv y -> simulate (Problem (yield_dydt d q nb y_core nper core_density core_mw diss temp bins) jac y fzero) b = Ok (y1, (t, zz)) ->
    Inv y1 /\ forall o, yield_observe d q nb y_core nper core_density core_mw diss temp bins t zz = Ok o -> Rel y1 o).
  { unfold Inv, Rel. intros y y1 t zz Ly Hs. split; [assert (Q := computed_length _ _ _ (M _ _ _ _ _ Hs)); cbn [pb_y0] in Q; congruence|]. apply La in Hs. subst zz. intros o Ho. exact Ho. }
  destruct (record_rows simulate _ jac _ sim b zr zo Inv Rel St _ _ y0 None _ _ _ (eq_refl : Inv y0) ltac:(intros ? X; discriminate X) H k r Hk Hr) as [Lr (o & Ho & Ro)].
  destruct (C67_conservation rd fl rows text cv ov cutoff temp RH diss core_density core_mw nb y_core nper Hf Hv HC HR Lcore Lnper Htemp Pcore Pnper Pcd Pcm Pdiss ys d y0 Hsetup r bins Lr Hpos PB Hnb)
    as (q' & inp & dy & soa & size & Hq' & Hinp & Hrhs & _ & _ & _ & Hsoa & _ & Lsz & Hb).
  rewrite Hq in Hq'. injection Hq' as <-. unfold Rel, yield_observe in Ro. rewrite Hrhs in Ro. cbn [snd] in Ro. injection Ro as <-.
  exists inp, size. split; [exact Hinp|]. split; [rewrite Ho, Hsoa; reflexivity|]. split; [exact Lsz|]. intros bb Hbb. apply (Hb bb Hbb).
Qed.

(* A solver that takes one step of Euler's explicit method: it is linear, but
   its last evaluation is at the start of the step. *)
Definition euler : recording_solver (list R) := fun pb tf =>
  do d <- pb_rhs pb (pb_t0 pb) (pb_y0 pb);
  Ok (map (fun i => nth i (pb_y0 pb) 0 + B2R tf * nth i d 0)%R (seq 0 (List.length (pb_y0 pb))), (pb_t0 pb, pb_y0 pb)).

Lemma euler_nth (y dd : list R) h i : i < List.length y -> nth i (map (fun i => nth i y 0 + h * nth i dd 0)%R (seq 0 (List.length y))) 0%R = (nth i y 0 + h * nth i dd 0)%R.
Proof.
  intros Hi. apply nth_error_nth. rewrite nth_error_map. rewrite (nth_error_nth' _ 0) by (rewrite seq_length; exact Hi). rewrite seq_nth by exact Hi. reflexivity.
Qed.

Lemma euler_linear : recording_linear euler.
Proof.
  intros pb tf y1 t z H. unfold euler in H. apply bind_Ok in H as (dd & Hd & H).
  assert (E : y1 = map (fun i => nth i (pb_y0 pb) 0 + B2R tf * nth i dd 0)%R (seq 0 (List.length (pb_y0 pb)))) by congruence. clear H.
  apply (c_step _ _ [(1%R, pb_y0 pb)] [(B2R tf, dd)]).
  - intros p [<-|[]]. apply c_start.
  - cbn. ring.
  - intros p [<-|[]]. exists (pb_t0 pb), (pb_y0 pb). split; [reflexivity | exact Hd].
  - rewrite E, map_length, seq_length. reflexivity.
  - intros i Hi. rewrite E, euler_nth by exact Hi. unfold combination. cbn [map rsum fold_right fst snd]. ring.
Qed.

(* With that solver the SOA mass of the first row is always 0, the mass at the
   start, although the row itself has organic mass. *)
Theorem C69_late rd fl rows text cv ov cutoff temp RH diss core_density core_mw nb y_core nper ys d y0 bins jac zr zo :
  yield_file rows text -> (forall s n, first_number rows s = Some n -> fl n = Ok (cv s) /\ rd s = Ok (ov s)) ->
  (forall s, In s (first_seen (map fst rows)) -> c_C (ov s) <> 0 /\ sensible (ov s) /\ (0 < cv s)%R) -> rows <> [] ->
  (0 <= RH < 1)%R -> List.length y_core = nb -> List.length nper = nb -> (0 < temp)%R ->
  Forall (Rlt 0) y_core -> Forall (Rlt 0) nper -> (0 < core_density)%R -> (0 < core_mw)%R -> (0 < diss)%R ->
  yield_setup rd fl text cutoff temp RH nb y_core diss = Ok (ys, d, y0) -> Permutation bins (seq 0 nb) -> nb <> 0 ->
  let n := List.length (first_seen (map fst rows)) in
  exists q ts r size inp, Pure_component2 (d_nc d) (d_mw d) Rgas temp = Some q /\
    record_run euler (yield_dydt d q nb y_core nper core_density core_mw diss temp bins) jac
      (yield_observe d q nb y_core nper core_density core_mw diss temp bins) f3600 f3600 zr zo y0 = Ok (ts, [r], [(0%R, size)]) /\
    partition_inputs d q y_core nper core_density core_mw diss temp r = Some inp /\
    (0 < organic_mass (n + 1) (n + 1) nb inp)%R.
Proof.
  intros Hf Hv HC Hne HR Lcore Lnper Htemp Pcore Pnper Pcd Pcm Pdiss Hsetup PB Hnb n.
  assert (HC' : forall s, In s (first_seen (map fst rows)) -> c_C (ov s) <> 0 /\ sensible (ov s)) by (intros s Hs; destruct (HC s Hs) as (? & ? & _); auto).
  assert (HR' : RH <> 1%R) by lra.
  destruct (C67_start rd fl rows text cv ov cutoff temp RH diss core_density core_mw nb y_core nper Hf Hv HC' HR' Lcore Lnper Htemp Pcore Pnper Pcd Pcm Pdiss ys d y0 Hsetup bins HR PB Hnb)
    as (q & dy & size & Hq & Hrhs & Grow & _). fold n in Grow.
  destruct (C66_partial rd fl rows text cv ov cutoff temp RH nb y_core diss Hf Hv (fun s Hs => proj1 (HC' s Hs)) HR' Lcore)
    as (ys1 & d' & y0' & E & F1 & F2 & F3 & Ld & Lm & _ & L0 & Pr & _ & _ & _ & Wg & Y0 & YW). fold n in F1, F2, F3, Ld, Lm, L0, Wg, Y0, YW.
  rewrite Hsetup in E. injection E as _ <- <-.
  set (r := map (fun i => nth i y0 0 + B2R f3600 * nth i dy 0)%R (seq 0 (List.length y0))).
  assert (Lr : List.length r = List.length y0) by (unfold r; rewrite map_length, seq_length; reflexivity).
  assert (Cg : exists cg, omap (nth_error (firstn (d_ns d) r)) (d_include d) = Some cg).
  { apply omap_all. intros i Hi. rewrite F3 in Hi. apply in_seq in Hi.
    destruct (nth_error (firstn (d_ns d) r) i) as [v|] eqn:Ev; [eauto|]. apply nth_error_None in Ev. rewrite firstn_length, Lr, L0, F1 in Ev. lia. }
  destruct Cg as [cg Hcg]. exists q. eexists _, r, size, _. split; [exact Hq|]. split.
  - assert (B := f3600_num). assert (Dv : py_div f3600 f3600 = Ok (fdiv f3600 f3600) /\ py_trunc (fdiv f3600 f3600) = Ok 1%Z).
    { destruct (quotient_exact f3600 f3600 3600 1 0 B B ltac:(lia) ltac:(lia)) as [E1 E2]; auto. }
    unfold record_run. rewrite (proj1 Dv). cbn [bind]. rewrite (proj2 Dv). cbn [bind]. change (1 <? 0)%Z with false. cbv iota. change (Z.to_nat 1) with 1. cbn [record_loop].
    rewrite (bltb_num fzero f3600 0 3600 0 (fzero_num 0) B). change (0 <? 3600)%Z with true. cbv iota.
    rewrite (beqb_num fzero 0 0 (fzero_num 0)). change (0 =? 0)%Z with true. cbv iota. cbn [bind].
    unfold euler at 1. cbn [pb_rhs pb_y0 pb_t0]. unfold yield_dydt at 1. rewrite Hrhs. cbn [bind fst]. unfold yield_observe at 1. rewrite Hrhs. cbn [bind snd].
    assert (FA := fadd_exact fzero f3600 0 3600 0 (fzero_num 0) B ltac:(cbn; lia) ltac:(lia) ltac:(cbn [bpow]; rewrite Rmult_1_r; apply small_int_bound; cbn; lia)).
    assert (E3 : Bltb (fadd fzero f3600) f3600 = false) by (rewrite (bltb_num _ _ _ _ _ FA B); reflexivity).
    rewrite E3. cbn [bind fst snd repeat]. reflexivity.
  - split; [unfold partition_inputs; rewrite Hcg; cbn [obind]; reflexivity|].
    unfold organic_mass, mass_of, amount. cbn [i_y i_NA i_mw].
    assert (B36 : B2R f3600 = 3600%R) by (destruct f3600_num as [_ Q]; rewrite Q; cbn [bpow]; ring).
    assert (Hn1 : 1 <= n).
    { unfold n. destruct rows as [|r0 rows']; [congruence|]. destruct (first_seen (map fst (r0 :: rows'))) eqn:Ef; [|cbn; lia]. exfalso.
      assert (In (fst r0) (first_seen (map fst (r0 :: rows')))) by (apply first_seen_In; left; reflexivity). rewrite Ef in H. contradiction. }
    assert (TT : forall bb j, bb < nb -> j < n -> (0 < nth (slot (n + 1) (n + 1) bb j) r 0 / avogadro * nth j (d_mw d) 0)%R).
    { intros bb j Hb Hj. unfold r. rewrite euler_nth by (rewrite L0; unfold slot; nia). rewrite (nth_error_nth _ _ 0%R (Y0 bb j Hb Hj)), B36.
      destruct (nth_error (first_seen (map fst rows)) j) as [s|] eqn:Es; [|apply nth_error_None in Es; fold n in Es; lia].
      destruct (HC s (nth_error_In _ _ Es)) as (_ & Sc & Pcv). assert (G := proj2 (Grow j s bb Es Hb) Pcv).
      rewrite (nth_error_nth _ _ 0%R (proj1 (proj2 (Pr j s Es)))). apply Rmult_lt_0_compat; [|apply Sc]. apply Rdiv_lt_0_compat; [lra | apply avogadro_pos]. }
    apply Rmult_lt_0_compat; [|lra]. apply rsum_pos; [destruct nb; [congruence | discriminate]|]. intros v Hvv. apply in_map_iff in Hvv as (bb & <- & Hb). apply in_seq in Hb.
    rewrite Nat.add_sub. apply rsum_pos; [destruct n; [lia | discriminate]|]. intros w Hw. apply in_map_iff in Hw as (j & <- & Hj). apply in_seq in Hj. apply TT; lia.
Qed.

(* The yield file of C46_hypotheses, with three molecules. *)
Definition ex_yield (s : str) : R := if str_eqb s (s_ "CCO") then 0.5%R else 0.25%R.
Definition ex_chem (s : str) : chem := if str_eqb s (s_ "CCO") then Chem 0.8 46 (-1) 2 6 1 else Chem 1.1 44 2 1 0 2.
Definition ex_float (w : str) : res R := if str_eqb w (s_ "0.5") then Ok 0.5%R else Ok 0.25%R.
Lemma ex_rows_values : forall s n, first_number c46_rows s = Some n -> ex_float n = Ok (ex_yield s) /\ Ok (ex_chem s) = Ok (ex_chem s).
Proof.
  intros s n H. split; [|reflexivity]. unfold first_number, c46_rows in H. cbn [find fst snd] in H. unfold ex_yield, ex_float.
  destruct (str_eqb (s_ "CCO") s) eqn:E1.
  - apply str_eqb_eq in E1. subst s. injection H as <-. reflexivity.
  - destruct (str_eqb s (s_ "CCO")) eqn:E0; [apply str_eqb_eq in E0; subst s; rewrite str_eqb_refl in E1; discriminate|].
    destruct (str_eqb (s_ "O=C=O") s); [injection H as <-; reflexivity|]. destruct (str_eqb (s_ "C") s); [injection H as <-; reflexivity | discriminate].
Qed.
Lemma ex_chem_good s : c_C (ex_chem s) <> 0 /\ sensible (ex_chem s) /\ (0 < ex_yield s)%R.
Proof. unfold ex_chem, ex_yield. destruct (str_eqb s (s_ "CCO")); cbn; repeat split; try discriminate; cbn; lra. Qed.

Definition ex_setup := yield_setup (fun s => Ok (ex_chem s)) ex_float c46_text (-6) 298.15 0.5 2 [1e9; 2e9]%R 3.
Example C66_hypotheses : exists ys d y0, ex_setup = Ok (ys, d, y0) /\ d_ns d = 4 /\ d_nc d = 4.
Proof.
  destruct C46_hypotheses as (Hf & Hs & _).
  destruct (C66_partial (fun s => Ok (ex_chem s)) ex_float c46_rows c46_text ex_yield ex_chem (-6) 298.15 0.5 2 [1e9; 2e9]%R 3 Hf ex_rows_values
    (fun s _ => proj1 (ex_chem_good s)) ltac:(lra) eq_refl) as (ys & d & y0 & H & F1 & F2 & _). rewrite Hs in F1, F2. exists ys, d, y0. auto.
Qed.

(* C69 fails: a run whose first SOA mass is not that of its first row. *)
Theorem C69_refuted : exists ys d y0 q ts r size inp, ex_setup = Ok (ys, d, y0) /\
  Pure_component2 (d_nc d) (d_mw d) Rgas 298.15 = Some q /\ recording_linear euler /\
  record_run euler (yield_dydt d q 2 [1e9; 2e9]%R [50; 50]%R 1770 132.14 3 298.15 [0; 1]) (fun _ _ => Err ValueError)
    (yield_observe d q 2 [1e9; 2e9]%R [50; 50]%R 1770 132.14 3 298.15 [0; 1]) f3600 f3600 [] (0%R, []) y0 = Ok (ts, [r], [(0%R, size)]) /\
  partition_inputs d q [1e9; 2e9]%R [50; 50]%R 1770 132.14 3 298.15 r = Some inp /\ (0 < organic_mass (d_ns d) (d_nc d) 2 inp)%R.
Proof.
  destruct C66_hypotheses as (ys & d & y0 & E & F1 & F2). destruct C46_hypotheses as (Hf & Hs & _).
  destruct (C69_late (fun s => Ok (ex_chem s)) ex_float c46_rows c46_text ex_yield ex_chem (-6) 298.15 0.5 3 1770 132.14 2 [1e9; 2e9]%R [50; 50]%R ys d y0 [0; 1] (fun _ _ => Err ValueError) [] (0%R, [])
    Hf ex_rows_values (fun s _ => ex_chem_good s) ltac:(discriminate) ltac:(lra) eq_refl eq_refl ltac:(lra)
    ltac:(repeat constructor; lra) ltac:(repeat constructor; lra) ltac:(lra) ltac:(lra) ltac:(lra) E (Permutation_refl _) ltac:(discriminate)) as (q & ts & r & size & inp & Hq & Hr & Hi & Hm).
  rewrite Hs in Hm. exists ys, d, y0, q, ts, r, size, inp. rewrite F1, F2. repeat split; try assumption. rewrite <- F2. exact Hq. apply euler_linear.
Qed.

Print Assumptions C66_partial. Print Assumptions C66_exactly_when.
Print Assumptions C67_conservation. Print Assumptions C67_start. Print Assumptions C67_reported_RH.
Print Assumptions C68_yield_partial. Print Assumptions C69_partial. Print Assumptions C69_late. Print Assumptions C69_refuted.
