(* The dictionaries that result from parsing, as functions of the terms. *)
From Coq Require Import List Bool Arith Lia Ascii String ZArith QArith.
From Verif Require Import Base PyStr PyRe PyDict ModelParse SpecMech ParseText ParseItem ParseStruct.
Import ListNotations.
Open Scope nat_scope.
Open Scope list_scope.

Lemma light_hv : light = hv.
Proof. reflexivity. Qed.

Lemma str_eqb_refl s : str_eqb s s = true.
Proof. apply str_eqb_eq; reflexivity. Qed.

Lemma str_eqb_neq a b : str_eqb a b = false <-> a <> b.
Proof. apply (@eqb_neq str EqB_str). Qed.

Lemma names_cons c n ts : names ((c, n) :: ts) = (if str_eqb n light then [] else [n]) ++ names ts.
Proof. unfold names. cbn [map filter snd]. destruct (str_eqb n light); reflexivity. Qed.

Lemma names_app a b : names (a ++ b) = names a ++ names b.
Proof. unfold names. rewrite map_app, filter_app. reflexivity. Qed.

Lemma names_not_light ts : ~ In light (names ts).
Proof. unfold names. rewrite filter_In. intros [_ H]. rewrite str_eqb_refl in H. discriminate. Qed.

Lemma In_names s ts : In s (names ts) <-> s <> light /\ In s (map snd ts).
Proof.
  unfold names. rewrite filter_In, negb_true_iff, str_eqb_neq. tauto.
Qed.

(* ------------------------------------------------------------------ *)
(* Species numbering. *)

Definition add_seen (L : list str) (x : str) : list str := if inb x L then L else L ++ [x].

Definition sp_inv (L : list str) (st : pstate) : Prop :=
  p_sp st = combine (seq 0 (List.length L)) L /\
  p_sp2a st = combine L (seq 0 (List.length L)) /\
  p_step st = List.length L /\ NoDup L.

Lemma combine_app_one {A B} (l1 : list A) (l2 : list B) a b :
  List.length l1 = List.length l2 -> combine (l1 ++ [a]) (l2 ++ [b]) = combine l1 l2 ++ [(a, b)].
Proof.
  revert l2; induction l1 as [|x l1 IH]; intros [|y l2] H; try discriminate; [reflexivity|].
  cbn [app combine]. rewrite IH by (cbn in H; congruence). reflexivity.
Qed.

Lemma map_fst_combine {A B} (l1 : list A) (l2 : list B) :
  List.length l1 = List.length l2 -> map fst (combine l1 l2) = l1.
Proof.
  revert l2; induction l1 as [|x l1 IH]; intros [|y l2] H; try discriminate; [reflexivity|].
  cbn [combine map fst]. rewrite IH by (cbn in H; congruence). reflexivity.
Qed.

Lemma map_snd_combine {A B} (l1 : list A) (l2 : list B) :
  List.length l1 = List.length l2 -> map snd (combine l1 l2) = l2.
Proof.
  revert l2; induction l1 as [|x l1 IH]; intros [|y l2] H; try discriminate; [reflexivity|].
  cbn [combine map snd]. rewrite IH by (cbn in H; congruence). reflexivity.
Qed.

Lemma NoDup_snoc {A} (l : list A) a : NoDup l -> ~ In a l -> NoDup (l ++ [a]).
Proof.
  intros H Ha. apply NoDup_rev in H. rewrite <- (rev_involutive (l ++ [a])).
  apply NoDup_rev. rewrite rev_app_distr. cbn [rev app]. constructor; [|exact H].
  rewrite <- in_rev. exact Ha.
Qed.

Lemma register_inv L nm st : sp_inv L st -> sp_inv (add_seen L nm) (register nm st).
Proof.
  intros (H1 & H2 & H3 & H4). unfold register, add_seen.
  assert (Hv : dvals (p_sp st) = L).
  { rewrite H1. unfold dvals. apply map_snd_combine. rewrite seq_length; reflexivity. }
  rewrite Hv. destruct (inb nm L) eqn:E; [split; [|split; [|split]]; assumption|].
  apply inb_nIn in E. unfold sp_inv. cbn [p_sp p_sp2a p_step].
  rewrite app_length. cbn [List.length]. rewrite Nat.add_1_r, seq_S. cbn [Nat.add].
  split; [|split; [|split]].
  - rewrite combine_app_one by (rewrite seq_length; reflexivity). rewrite <- H1, <- H3.
    apply dset_fresh. rewrite H1, H3. apply not_true_iff_false. rewrite dmem_In. unfold dkeys.
    rewrite map_fst_combine by (rewrite seq_length; reflexivity). rewrite in_seq. lia.
  - rewrite combine_app_one by (rewrite seq_length; reflexivity). rewrite <- H2, <- H3.
    apply dset_fresh. rewrite H2. apply not_true_iff_false. rewrite dmem_In. unfold dkeys.
    rewrite map_fst_combine by (rewrite seq_length; reflexivity). exact E.
  - congruence.
  - apply NoDup_snoc; assumption.
Qed.

(* Only the species fields matter for sp_inv. *)
Lemma sp_inv_ext L st st' :
  p_sp st' = p_sp st -> p_sp2a st' = p_sp2a st -> p_step st' = p_step st ->
  sp_inv L st -> sp_inv L st'.
Proof. unfold sp_inv. intros -> -> ->. auto. Qed.

Lemma proc_reactant_inv L eq step t st : sp_inv L st ->
  sp_inv (fold_left add_seen (names [t]) L) (proc_reactant eq step t st).
Proof.
  intros H. destruct t as [c nm]. rewrite names_cons. cbn [names map filter]. rewrite app_nil_r.
  unfold proc_reactant. change (eqb nm hv) with (str_eqb nm light).
  destruct (str_eqb nm light); cbn [fold_left]; [exact H|].
  match goal with |- context [register nm ?s] => set (st1 := s) end.
  eapply sp_inv_ext; [| | | apply (register_inv L nm st1); eapply sp_inv_ext; [| | |exact H]]; reflexivity.
Qed.

Lemma proc_product_inv L eq lst t st : sp_inv L st ->
  sp_inv (fold_left add_seen (names [t]) L) (proc_product eq lst t st).
Proof.
  intros H. destruct t as [c nm]. rewrite names_cons. cbn [names map filter]. rewrite app_nil_r.
  unfold proc_product. change (eqb nm hv) with (str_eqb nm light).
  destruct (str_eqb nm light); cbn [fold_left]; [exact H|].
  eapply sp_inv_ext; [| | | apply (register_inv L nm st H)]; reflexivity.
Qed.

Lemma names_cons' t ts : names (t :: ts) = names [t] ++ names ts.
Proof. apply (names_app [t] ts). Qed.

Lemma proc_reactants_inv L eq step ts st : sp_inv L st ->
  sp_inv (fold_left add_seen (names ts) L) (proc_reactants eq step ts st).
Proof.
  revert L step st; induction ts as [|t ts IH]; intros L step st H; [exact H|].
  rewrite names_cons', fold_left_app. cbn [proc_reactants]. apply IH, proc_reactant_inv, H.
Qed.

Lemma proc_products_inv L eq lst ts st : sp_inv L st ->
  sp_inv (fold_left add_seen (names ts) L) (proc_products eq lst ts st).
Proof.
  unfold proc_products. revert L st; induction ts as [|t ts IH]; intros L st H; [exact H|].
  rewrite names_cons', fold_left_app. cbn [fold_left]. apply IH, proc_product_inv, H.
Qed.

Lemma proc_from_inv L k m st : sp_inv L st ->
  sp_inv (fold_left add_seen (reading_order m) L) (proc_from k m st).
Proof.
  revert L k st; induction m as [|r m IH]; intros L k st H; [exact H|].
  unfold reading_order. cbn [flat_map proc_from]. rewrite !fold_left_app. apply IH.
  unfold proc_reaction. apply proc_products_inv, proc_reactants_inv.
  eapply sp_inv_ext; [| | |exact H]; reflexivity.
Qed.

Lemma first_seen_from_ext s1 s2 l : (forall x, In x s1 <-> In x s2) ->
  first_seen_from s1 l = first_seen_from s2 l.
Proof.
  revert s1 s2; induction l as [|x l IH]; intros s1 s2 H; [reflexivity|]. cbn [first_seen_from].
  assert (E : inb x s1 = inb x s2).
  { destruct (inb x s1) eqn:E1; symmetry.
    - apply inb_In, H, inb_In, E1.
    - apply inb_nIn. intros Hx. apply inb_nIn in E1. apply E1, H, Hx. }
  rewrite E. destruct (inb x s2); [apply IH, H|]. f_equal. apply IH.
  intros y. cbn [In]. rewrite H. tauto.
Qed.

Lemma fold_add_seen l L : fold_left add_seen l L = L ++ first_seen_from L l.
Proof.
  revert L; induction l as [|x l IH]; intros L; cbn [fold_left first_seen_from].
  - rewrite app_nil_r; reflexivity.
  - rewrite IH. unfold add_seen at 1 2. destruct (inb x L); [reflexivity|].
    rewrite <- app_assoc. cbn [app]. f_equal. f_equal. apply first_seen_from_ext.
    intros y. rewrite in_app_iff. cbn [In]. tauto.
Qed.

Lemma first_seen_In l x : In x (first_seen l) <-> In x l.
Proof.
  unfold first_seen.
  assert (H : forall l seen, In x (first_seen_from seen l) <-> In x l /\ ~ In x seen).
  { clear l; induction l as [|y l IH]; intros seen; cbn [first_seen_from In]; [tauto|].
    destruct (inb y seen) eqn:E.
    - rewrite IH. apply inb_In in E. split; [tauto|]. intros [[->|] ?]; tauto.
    - cbn [In]. rewrite IH. cbn [In]. apply inb_nIn in E.
      destruct (eqb_dec y x) as [->|Hne]; tauto. }
  rewrite H. cbn [In]. tauto.
Qed.

Lemma first_seen_NoDup l : NoDup (first_seen l).
Proof.
  unfold first_seen.
  assert (H : forall l seen, NoDup (first_seen_from seen l) /\ forall x, In x (first_seen_from seen l) -> ~ In x seen).
  { clear l; induction l as [|y l IH]; intros seen; cbn [first_seen_from]; [split; [constructor | contradiction]|].
    destruct (inb y seen) eqn:E; [apply IH|]. apply inb_nIn in E.
    destruct (IH (y :: seen)) as [H1 H2]. split.
    - constructor; [|exact H1]. intros Hy. apply (H2 y Hy). left; reflexivity.
    - intros x [->|Hx]; [exact E|]. intros Hs. apply (H2 x Hx). right; exact Hs. }
  apply (H l []).
Qed.

Definition species (m : mech) : list str := first_seen (reading_order m).

Lemma interp_species m : sp_inv (species m) (interp m).
Proof.
  unfold species, first_seen, interp.
  change (first_seen_from [] (reading_order m)) with ([] ++ first_seen_from [] (reading_order m)).
  rewrite <- fold_add_seen. apply proc_from_inv. repeat split. constructor.
Qed.

Lemma dget_combine_l (L : list str) (k s : nat) x :
  NoDup L -> (dget x (combine L (seq s (List.length L))) = Some k <->
              s <= k /\ nth_error L (k - s) = Some x).
Proof.
  revert s; induction L as [|y L IH]; intros s Hnd; cbn [List.length seq combine dget].
  - split; [discriminate|]. intros [_ H]. destruct (k - s); discriminate.
  - inversion Hnd; subst. destruct (eqb x y) eqn:E.
    + apply eqb_eq in E; subst y. split.
      * intros H; injection H as ->. split; [lia|]. rewrite Nat.sub_diag. reflexivity.
      * intros [Hle H]. destruct (k - s) as [|j] eqn:Ej.
        -- f_equal; lia.
        -- exfalso. cbn in H. apply nth_error_In in H. contradiction.
    + apply eqb_neq in E. rewrite IH by assumption. split; intros [Hle H].
      * split; [lia|]. replace (k - s) with (S (k - S s)) by lia. exact H.
      * destruct (k - s) as [|j] eqn:Ej; [cbn in H; congruence|].
        split; [lia|]. replace (k - S s) with j by lia. exact H.
Qed.

Lemma dget_combine_r (L : list str) (k s : nat) x :
  dget k (combine (seq s (List.length L)) L) = Some x <-> s <= k /\ nth_error L (k - s) = Some x.
Proof.
  revert s; induction L as [|y L IH]; intros s; cbn [List.length seq combine dget].
  - split; [discriminate|]. intros [_ H]. destruct (k - s); discriminate.
  - change (eqb k s) with (k =? s)%nat. destruct (k =? s) eqn:E.
    + apply Nat.eqb_eq in E; subst. rewrite Nat.sub_diag. cbn.
      split; [intros H; injection H as ->; auto | intros [_ H]; congruence].
    + apply Nat.eqb_neq in E. rewrite IH. split; intros [Hle H].
      * split; [lia|]. replace (k - s) with (S (k - S s)) by lia. exact H.
      * destruct (k - s) as [|j] eqn:Ej; [lia|].
        split; [lia|]. replace (k - S s) with j by lia. exact H.
Qed.

Lemma interp_sp2a m x k :
  dget x (p_sp2a (interp m)) = Some k <-> nth_error (species m) k = Some x.
Proof.
  destruct (interp_species m) as (_ & -> & _ & Hnd). rewrite dget_combine_l by exact Hnd.
  rewrite Nat.sub_0_r. split; [tauto | split; [lia | assumption]].
Qed.

Lemma interp_sp m x k :
  dget k (p_sp (interp m)) = Some x <-> nth_error (species m) k = Some x.
Proof.
  destruct (interp_species m) as (-> & _). rewrite dget_combine_r, Nat.sub_0_r.
  split; [tauto | split; [lia | assumption]].
Qed.

Lemma species_In m x : In x (species m) <->
  x <> light /\ exists r, In r m /\ In x (map snd (lhs r) ++ map snd (rhs r)).
Proof.
  unfold species. rewrite first_seen_In. unfold reading_order. rewrite in_flat_map. split.
  - intros (r & Hr & Hx). rewrite in_app_iff, !In_names in Hx.
    split; [tauto|]. exists r. rewrite in_app_iff. tauto.
  - intros (Hl & r & Hr & Hx). exists r. rewrite in_app_iff, !In_names. rewrite in_app_iff in Hx. tauto.
Qed.

(* ------------------------------------------------------------------ *)
(* Frame facts: which fields each step changes. *)

Lemma register_frame nm st :
  p_rate (register nm st) = p_rate st /\ p_stoich (register nm st) = p_stoich st /\
  p_reac (register nm st) = p_reac st /\ p_loss (register nm st) = p_loss st /\
  p_gain (register nm st) = p_gain st.
Proof. unfold register. destruct (inb nm (dvals (p_sp st))); repeat split; reflexivity. Qed.

Lemma proc_reactant_fields eq step c nm st :
  let st' := proc_reactant eq step (c, nm) st in
  p_rate st' = p_rate st /\ p_gain st' = p_gain st /\
  p_stoich st' = (if str_eqb nm light then p_stoich st else dset2 eq step c (p_stoich st)) /\
  p_reac st' = (if str_eqb nm light then p_reac st else dset2 eq step nm (p_reac st)) /\
  p_loss st' = (if str_eqb nm light then p_loss st else add_loss nm eq c (p_loss st)).
Proof.
  unfold proc_reactant. change (eqb nm hv) with (str_eqb nm light).
  destruct (str_eqb nm light); cbn zeta; [repeat split; reflexivity|].
  match goal with |- context [register nm ?s] => destruct (register_frame nm s) as (H1 & H2 & H3 & H4 & H5) end.
  cbn [p_rate p_gain p_stoich p_reac p_loss] in *.
  rewrite H1, H2, H3, H4, H5. repeat split; reflexivity.
Qed.

Lemma proc_product_fields eq lst c nm st :
  let st' := proc_product eq lst (c, nm) st in
  p_rate st' = p_rate st /\ p_stoich st' = p_stoich st /\ p_reac st' = p_reac st /\
  p_loss st' = p_loss st /\
  p_gain st' = (if str_eqb nm light then p_gain st else add_gain lst nm eq c (p_gain st)).
Proof.
  unfold proc_product. change (eqb nm hv) with (str_eqb nm light).
  destruct (str_eqb nm light); cbn zeta; [repeat split; reflexivity|].
  destruct (register_frame nm st) as (H1 & H2 & H3 & H4 & H5).
  cbn [p_rate p_gain p_stoich p_reac p_loss] in *.
  rewrite H1, H2, H3, H4, H5. repeat split; reflexivity.
Qed.

Lemma proc_products_frame eq lst ts st :
  let st' := proc_products eq lst ts st in
  p_rate st' = p_rate st /\ p_stoich st' = p_stoich st /\ p_reac st' = p_reac st /\ p_loss st' = p_loss st.
Proof.
  unfold proc_products. revert st; induction ts as [|[c nm] ts IH]; intros st; [repeat split; reflexivity|].
  cbn [fold_left]. destruct (IH (proc_product eq lst (c, nm) st)) as (H1 & H2 & H3 & H4).
  destruct (proc_product_fields eq lst c nm st) as (G1 & G2 & G3 & G4 & _).
  cbn zeta. repeat split; congruence.
Qed.

Lemma proc_reactants_frame eq step ts st :
  let st' := proc_reactants eq step ts st in
  p_rate st' = p_rate st /\ p_gain st' = p_gain st.
Proof.
  revert step st; induction ts as [|[c nm] ts IH]; intros step st; [repeat split; reflexivity|].
  cbn [proc_reactants]. destruct (IH (S step) (proc_reactant eq step (c, nm) st)) as (H1 & H2).
  destruct (proc_reactant_fields eq step c nm st) as (G1 & G2 & _). cbn zeta. split; congruence.
Qed.

(* ------------------------------------------------------------------ *)
(* Rates. *)

Lemma proc_reaction_rate k r st : p_rate (proc_reaction k r st) = dset k (rtext r) (p_rate st).
Proof.
  unfold proc_reaction.
  destruct (proc_products_frame k (last_name (lhs r)) (rhs r)
    (proc_reactants k 0 (lhs r) (set_rate k (rtext r) st))) as (H & _).
  destruct (proc_reactants_frame k 0 (lhs r) (set_rate k (rtext r) st)) as (G & _).
  rewrite H, G. reflexivity.
Qed.

Lemma interp_rate_from k m st :
  Forall (fun p => fst p < k) (p_rate st) ->
  p_rate (proc_from k m st) = p_rate st ++ combine (seq k (List.length m)) (map rtext m).
Proof.
  revert k st; induction m as [|r m IH]; intros k st H; cbn [proc_from].
  - cbn. rewrite app_nil_r; reflexivity.
  - assert (Hf : p_rate (proc_reaction k r st) = p_rate st ++ [(k, rtext r)]).
    { rewrite proc_reaction_rate. apply dset_fresh. apply not_true_iff_false. rewrite dmem_In.
      unfold dkeys. rewrite in_map_iff. intros (p & Hp & Hin).
      apply (proj1 (Forall_forall _ _) H) in Hin. lia. }
    rewrite IH.
    + rewrite Hf, <- app_assoc. reflexivity.
    + rewrite Hf. apply Forall_app. split.
      * eapply Forall_impl; [|exact H]. cbn. intros; lia.
      * constructor; [cbn; lia | constructor].
Qed.

Lemma interp_rate m : p_rate (interp m) = combine (seq 0 (List.length m)) (map rtext m).
Proof. apply (interp_rate_from 0 m pstate0). constructor. Qed.

Lemma interp_rate_get m k : dget k (p_rate (interp m)) = option_map rtext (nth_error m k).
Proof.
  rewrite interp_rate. rewrite <- (map_length rtext m).
  destruct (dget k _) as [x|] eqn:E.
  - apply dget_combine_r in E as [_ E]. rewrite Nat.sub_0_r, nth_error_map in E. congruence.
  - destruct (nth_error m k) as [r|] eqn:Er; [|reflexivity]. exfalso.
    assert (Hs : dget k (combine (seq 0 (List.length (map rtext m))) (map rtext m)) = Some (rtext r)).
    { apply dget_combine_r. split; [lia|]. rewrite Nat.sub_0_r, nth_error_map, Er. reflexivity. }
    congruence.
Qed.

(* ------------------------------------------------------------------ *)
(* Loss table. *)

Lemma add_loss_get s k nm eq c l :
  dget2 s k (add_loss nm eq c l) =
  if str_eqb s nm && (k =? eq) then
    Some (match dget2 nm eq l with Some v => v + c | None => c end)%Q
  else dget2 s k l.
Proof.
  unfold add_loss. destruct (dget2 nm eq l) as [v|]; rewrite dget2_dset2; reflexivity.
Qed.

Lemma loss_other k eq step ts st s : k <> eq ->
  dget2 s k (p_loss (proc_reactants eq step ts st)) = dget2 s k (p_loss st).
Proof.
  intros Hne. revert step st; induction ts as [|[c nm] ts IH]; intros step st; [reflexivity|].
  cbn [proc_reactants]. rewrite IH.
  destruct (proc_reactant_fields eq step c nm st) as (_ & _ & _ & _ & ->).
  destruct (str_eqb nm light); [reflexivity|]. rewrite add_loss_get.
  apply Nat.eqb_neq in Hne. rewrite Hne, andb_false_r. reflexivity.
Qed.

Lemma total_notin s ts : ~ In s (map snd ts) -> total s ts = 0%Q.
Proof.
  induction ts as [|[c n] ts IH]; intros H; [reflexivity|]. cbn [total].
  assert (str_eqb n s = false) as ->.
  { apply str_eqb_neq. intros ->. apply H. left; reflexivity. }
  apply IH. intros Hi. apply H. right; exact Hi.
Qed.

(* Effect of the reactant loop on column eq for species s. *)
Lemma loss_this eq step ts st s : s <> light ->
  match dget2 s eq (p_loss (proc_reactants eq step ts st)) with
  | Some q => (exists v, dget2 s eq (p_loss st) = Some v /\ q == v + total s ts) \/
              (dget2 s eq (p_loss st) = None /\ In s (map snd ts) /\ q == total s ts)
  | None => dget2 s eq (p_loss st) = None /\ ~ In s (map snd ts)
  end%Q.
Proof.
  intros Hs. revert step st; induction ts as [|[c nm] ts IH]; intros step st; cbn [proc_reactants].
  - destruct (dget2 s eq (p_loss st)) as [v|]; [left; exists v; split; [reflexivity|]; cbn; ring |].
    split; [reflexivity | intros []].
  - specialize (IH (S step) (proc_reactant eq step (c, nm) st)).
    destruct (proc_reactant_fields eq step c nm st) as (_ & _ & _ & _ & Hl). rewrite Hl in IH.
    destruct (str_eqb nm light) eqn:El.
    + apply str_eqb_eq in El. assert (En : str_eqb nm s = false) by (apply str_eqb_neq; congruence).
      cbn [total map In snd]. rewrite En. apply str_eqb_neq in En.
      destruct (dget2 s eq (p_loss (proc_reactants eq (S step) ts (proc_reactant eq step (c, nm) st)))).
      * destruct IH as [IH|[H1 [H2 H3]]]; [left; exact IH | right; tauto].
      * destruct IH as [H1 H2]. split; [exact H1|]. intros [|]; auto.
    + rewrite add_loss_get, Nat.eqb_refl, andb_true_r in IH. cbn [total map In snd].
      destruct (str_eqb s nm) eqn:E.
      * apply str_eqb_eq in E; subst nm. rewrite str_eqb_refl.
        destruct (dget2 s eq (p_loss (proc_reactants eq (S step) ts (proc_reactant eq step (c, s) st)))).
        -- destruct IH as [(v & Hv & Hq)|[H1 _]]; [|discriminate]. injection Hv as <-.
           destruct (dget2 s eq (p_loss st)) as [v|].
           ++ left. exists v. split; [reflexivity|]. rewrite Hq. ring.
           ++ right. split; [reflexivity|]. split; [left; reflexivity|]. rewrite Hq. ring.
        -- destruct IH as [H1 _]; discriminate.
      * apply str_eqb_neq in E. assert (En : str_eqb nm s = false) by (apply str_eqb_neq; congruence).
        rewrite En.
        destruct (dget2 s eq (p_loss (proc_reactants eq (S step) ts (proc_reactant eq step (c, nm) st)))).
        -- destruct IH as [IH|[H1 [H2 H3]]]; [left; exact IH | right; tauto].
        -- destruct IH as [H1 H2]. split; [exact H1|]. intros [|]; auto.
Qed.

Lemma loss_light k eq step ts st :
  dget2 light k (p_loss (proc_reactants eq step ts st)) = dget2 light k (p_loss st).
Proof.
  revert step st; induction ts as [|[c nm] ts IH]; intros step st; [reflexivity|].
  cbn [proc_reactants]. rewrite IH.
  destruct (proc_reactant_fields eq step c nm st) as (_ & _ & _ & _ & ->).
  destruct (str_eqb nm light) eqn:E; [reflexivity|]. rewrite add_loss_get.
  assert (Hn : str_eqb light nm = false).
  { apply str_eqb_neq. apply str_eqb_neq in E. congruence. }
  rewrite Hn. reflexivity.
Qed.

Lemma proc_reaction_loss s k eq r st :
  dget2 s k (p_loss (proc_reaction eq r st)) =
  dget2 s k (p_loss (proc_reactants eq 0 (lhs r) (set_rate eq (rtext r) st))).
Proof.
  unfold proc_reaction.
  destruct (proc_products_frame eq (last_name (lhs r)) (rhs r)
    (proc_reactants eq 0 (lhs r) (set_rate eq (rtext r) st))) as (_ & _ & _ & ->). reflexivity.
Qed.

Lemma loss_from_other s k eq m st : k < eq ->
  dget2 s k (p_loss (proc_from eq m st)) = dget2 s k (p_loss st).
Proof.
  revert eq st; induction m as [|r m IH]; intros eq st H; [reflexivity|].
  cbn [proc_from]. rewrite IH by lia. rewrite proc_reaction_loss, loss_other by lia. reflexivity.
Qed.

Lemma loss_from s k eq m st :
  (forall s k, eq <= k -> dget2 s k (p_loss st) = None) -> eq <= k ->
  match nth_error m (k - eq) with
  | Some r => entry_ok (lhs r) s (dget2 s k (p_loss (proc_from eq m st)))
  | None => dget2 s k (p_loss (proc_from eq m st)) = None
  end.
Proof.
  revert eq st; induction m as [|r m IH]; intros eq st Hn Hk; cbn [proc_from].
  - destruct (k - eq); cbn; apply Hn; exact Hk.
  - destruct (Nat.eq_dec k eq) as [->|Hne].
    + rewrite Nat.sub_diag. cbn [nth_error]. rewrite loss_from_other by lia.
      rewrite proc_reaction_loss.
      destruct (eqb_dec s light) as [->|Hs].
      * rewrite loss_light. cbn [set_rate p_loss]. rewrite Hn by lia. apply names_not_light.
      * assert (H := loss_this eq 0 (lhs r) (set_rate eq (rtext r) st) s Hs).
        cbn [set_rate p_loss] in H. rewrite (Hn s eq (le_n eq)) in H. unfold entry_ok.
        cbn [set_rate p_loss] in *.
        destruct (dget2 s eq (p_loss (proc_reactants eq 0 (lhs r) (set_rate eq (rtext r) st)))).
        -- destruct H as [(v & Hv & _)|[_ [H1 H2]]]; [discriminate|].
           split; [apply In_names; auto | exact H2].
        -- destruct H as [_ H]. rewrite In_names. tauto.
    + replace (k - eq) with (S (k - S eq)) by lia. cbn [nth_error]. apply IH; [|lia].
      intros s' k' Hk'. rewrite proc_reaction_loss, loss_other by lia. cbn [set_rate p_loss]. apply Hn; lia.
Qed.

Lemma interp_loss m s k :
  match nth_error m k with
  | Some r => entry_ok (lhs r) s (dget2 s k (p_loss (interp m)))
  | None => dget2 s k (p_loss (interp m)) = None
  end.
Proof.
  assert (H := loss_from s k 0 m pstate0). rewrite Nat.sub_0_r in H. apply H; [reflexivity | lia].
Qed.

(* ------------------------------------------------------------------ *)
(* Gain table. *)

(* One step on the column of the current equation. *)
Definition gstep (lst : str) (g : str -> option Q) (t : term) : str -> option Q :=
  let '(c, nm) := t in
  if str_eqb nm light then g
  else match g lst with
       | Some _ => match g nm with
                   | Some v => fun s => if str_eqb s nm then Some (v + c)%Q else g s
                   | None => g
                   end
       | None => fun s => if str_eqb s nm then Some c else g s
       end.

Definition code_gain (lst : str) (ts : list term) : str -> option Q :=
  fold_left (gstep lst) ts (fun _ => None).

Lemma touched_row k (d : dict str (dict nat Q)) a :
  dget_or ([] : dict nat Q) a (dtouch ([] : dict nat Q) k d) = dget_or ([] : dict nat Q) a d.
Proof.
  unfold dget_or, dtouch, dmem. destruct (dget k d) as [i|] eqn:E; [reflexivity|].
  rewrite dget_dset. destruct (eqb a k) eqn:E1; [|reflexivity].
  apply eqb_eq in E1; subst. rewrite E. reflexivity.
Qed.

Lemma row_get a (k : nat) (d : dict str (dict nat Q)) :
  dget k (dget_or ([] : dict nat Q) a d) = dget2 a k d.
Proof. unfold dget_or, dget2. destruct (dget a d); reflexivity. Qed.

Lemma dmem_dget2 (eq : nat) lst (g : dict str (dict nat Q)) :
  dmem eq (dget_or ([] : dict nat Q) lst (dtouch ([] : dict nat Q) lst g)) = match dget2 lst eq g with Some _ => true | None => false end.
Proof. unfold dmem. rewrite touched_row, row_get. reflexivity. Qed.

Lemma dget_dget2 (eq : nat) nm (g : dict str (dict nat Q)) :
  dget eq (dget_or ([] : dict nat Q) nm (dtouch ([] : dict nat Q) nm g)) = dget2 nm eq g.
Proof. rewrite touched_row, row_get. reflexivity. Qed.

Lemma add_gain_get s k lst nm eq c g :
  dget2 s k (add_gain lst nm eq c g) =
  if k =? eq then
    match dget2 lst eq g with
    | Some _ => match dget2 nm eq g with
                | Some v => if str_eqb s nm then Some (v + c)%Q else dget2 s k g
                | None => dget2 s k g
                end
    | None => if str_eqb s nm then Some c else dget2 s k g
    end
  else dget2 s k g.
Proof.
  unfold add_gain. rewrite dmem_dget2.
  destruct (dget2 lst eq g) as [x|] eqn:E1.
  - rewrite dget_dget2, dget2_dtouch.
    destruct (dget2 nm eq g) as [v|] eqn:E2.
    + rewrite dget2_dset2, !dget2_dtouch. change (eqb s nm) with (str_eqb s nm). change (eqb k eq) with (k =? eq).
      destruct (k =? eq) eqn:Ek; [|rewrite andb_false_r; reflexivity].
      rewrite andb_true_r. reflexivity.
    + rewrite !dget2_dtouch. destruct (k =? eq); reflexivity.
  - rewrite dget2_dset2, !dget2_dtouch. change (eqb s nm) with (str_eqb s nm). change (eqb k eq) with (k =? eq).
    destruct (k =? eq); [rewrite andb_true_r | rewrite andb_false_r]; reflexivity.
Qed.

Lemma gain_products_other s k eq lst ts st : k <> eq ->
  dget2 s k (p_gain (proc_products eq lst ts st)) = dget2 s k (p_gain st).
Proof.
  intros Hne. unfold proc_products. revert st; induction ts as [|[c nm] ts IH]; intros st; [reflexivity|].
  cbn [fold_left]. rewrite IH. destruct (proc_product_fields eq lst c nm st) as (_ & _ & _ & _ & ->).
  destruct (str_eqb nm light); [reflexivity|]. rewrite add_gain_get.
  apply Nat.eqb_neq in Hne. rewrite Hne. reflexivity.
Qed.

Lemma gstep_ext lst g1 g2 t : (forall s, g1 s = g2 s) -> forall s, gstep lst g1 t s = gstep lst g2 t s.
Proof.
  intros H s. destruct t as [c nm]. cbn [gstep]. rewrite !H.
  destruct (str_eqb nm light); [apply H|].
  destruct (g2 lst); [destruct (g2 nm)|]; [destruct (str_eqb s nm)| |destruct (str_eqb s nm)]; auto.
Qed.

Lemma gain_products_this eq lst ts st g :
  (forall s, dget2 s eq (p_gain st) = g s) ->
  forall s, dget2 s eq (p_gain (proc_products eq lst ts st)) = fold_left (gstep lst) ts g s.
Proof.
  unfold proc_products. revert st g; induction ts as [|[c nm] ts IH]; intros st g H s; [apply H|].
  cbn [fold_left]. apply IH. intros s'.
  destruct (proc_product_fields eq lst c nm st) as (_ & _ & _ & _ & ->). cbn [gstep].
  destruct (str_eqb nm light); [apply H|]. rewrite add_gain_get, Nat.eqb_refl, !H.
  destruct (g lst); [destruct (g nm)|]; reflexivity.
Qed.

Lemma proc_reaction_gain_other s k eq r st : k <> eq ->
  dget2 s k (p_gain (proc_reaction eq r st)) = dget2 s k (p_gain st).
Proof.
  intros H. unfold proc_reaction. rewrite gain_products_other by exact H.
  destruct (proc_reactants_frame eq 0 (lhs r) (set_rate eq (rtext r) st)) as (_ & ->). reflexivity.
Qed.

Lemma gain_from_other s k eq m st : k < eq ->
  dget2 s k (p_gain (proc_from eq m st)) = dget2 s k (p_gain st).
Proof.
  revert eq st; induction m as [|r m IH]; intros eq st H; [reflexivity|].
  cbn [proc_from]. rewrite IH by lia. apply proc_reaction_gain_other; lia.
Qed.

Lemma gain_from s k eq m st :
  (forall s k, eq <= k -> dget2 s k (p_gain st) = None) -> eq <= k ->
  dget2 s k (p_gain (proc_from eq m st)) =
  match nth_error m (k - eq) with
  | Some r => code_gain (last_reactant r) (rhs r) s
  | None => None
  end.
Proof.
  revert eq st; induction m as [|r m IH]; intros eq st Hn Hk; cbn [proc_from].
  - destruct (k - eq); cbn; apply Hn; exact Hk.
  - destruct (Nat.eq_dec k eq) as [->|Hne].
    + rewrite Nat.sub_diag. cbn [nth_error]. rewrite gain_from_other by lia.
      unfold proc_reaction, code_gain. apply gain_products_this. intros s'.
      destruct (proc_reactants_frame eq 0 (lhs r) (set_rate eq (rtext r) st)) as (_ & ->).
      cbn [set_rate p_gain]. apply Hn; lia.
    + replace (k - eq) with (S (k - S eq)) by lia. cbn [nth_error]. apply IH; [|lia].
      intros s' k' Hk'. rewrite proc_reaction_gain_other by lia. apply Hn; lia.
Qed.

Lemma interp_gain m s k :
  dget2 s k (p_gain (interp m)) =
  match nth_error m k with
  | Some r => code_gain (last_reactant r) (rhs r) s
  | None => None
  end.
Proof.
  unfold interp. rewrite (gain_from s k 0 m pstate0) by (reflexivity || lia).
  rewrite Nat.sub_0_r. reflexivity.
Qed.

(* What the fold computes: before the last reactant shows up among the
   products an entry holds the most recent coefficient; afterwards present
   entries are summed and absent ones dropped. *)
Fixpoint recent (s : str) (ts : list term) : option Q :=
  match ts with
  | [] => None
  | (c, n) :: ts' => match recent s ts' with
                     | Some q => Some q
                     | None => if str_eqb n s && negb (str_eqb n light) then Some c else None
                     end
  end.

Lemma recent_app s a b :
  recent s (a ++ b) = match recent s b with Some q => Some q | None => recent s a end.
Proof.
  induction a as [|[c n] a IH]; cbn [app recent].
  - destruct (recent s b); reflexivity.
  - rewrite IH. destruct (recent s b); reflexivity.
Qed.

Lemma recent_None s ts : recent s ts = None <-> ~ In s (names ts).
Proof.
  induction ts as [|[c n] ts IH]; cbn [recent].
  - cbn. split; auto.
  - rewrite names_cons, in_app_iff. destruct (recent s ts) as [q|].
    + split; [discriminate|]. intros H. exfalso. assert (Hn : ~ In s (names ts)) by tauto.
      apply IH in Hn; discriminate.
    + assert (Hn : ~ In s (names ts)) by (apply IH; reflexivity).
      destruct (str_eqb n light) eqn:El; cbn [negb].
      * rewrite andb_false_r. split; [intros _ [[]|]; auto | reflexivity].
      * rewrite andb_true_r. destruct (str_eqb n s) eqn:E.
        -- apply str_eqb_eq in E; subst. split; [discriminate|]. intros H. exfalso. apply H. left; left; reflexivity.
        -- apply str_eqb_neq in E. split; [|reflexivity]. intros _ [[->|[]]|]; auto.
Qed.

Lemma code_gain_phase1 lst ts : ~ In lst (names ts) ->
  forall s, code_gain lst ts s = recent s ts.
Proof.
  unfold code_gain. induction ts as [|[c n] ts IH] using rev_ind; intros H s; [reflexivity|].
  rewrite names_app, in_app_iff in H. rewrite fold_left_app. cbn [fold_left gstep].
  assert (IH' := IH (fun Hx => H (or_introl Hx))).
  rewrite recent_app. cbn [recent].
  destruct (str_eqb n light) eqn:El; cbn [negb].
  - rewrite andb_false_r. apply IH'.
  - rewrite andb_true_r. rewrite (IH' lst).
    assert (Hl : recent lst ts = None) by (apply recent_None; tauto). rewrite Hl.
    destruct (str_eqb s n) eqn:E.
    + apply str_eqb_eq in E; subst. rewrite str_eqb_refl. reflexivity.
    + assert (E2 : str_eqb n s = false) by (apply str_eqb_neq; apply str_eqb_neq in E; congruence).
      rewrite E2. apply IH'.
Qed.

Lemma fold_gstep_phase2 lst ts g : (exists v, g lst = Some v) ->
  forall s, s <> light ->
  match fold_left (gstep lst) ts g s with
  | Some q => exists v, g s = Some v /\ q == (v + total s ts)%Q
  | None => g s = None
  end.
Proof.
  revert g; induction ts as [|[c n] ts IH]; intros g Hg s Hs; cbn [fold_left total].
  - destruct (g s) as [v|]; [exists v; split; [reflexivity | ring] | reflexivity].
  - assert (Hg' : exists v, gstep lst g (c, n) lst = Some v).
    { cbn [gstep]. destruct Hg as (v & Hv). destruct (str_eqb n light); [eauto|]. rewrite Hv.
      destruct (g n); [|eauto]. destruct (str_eqb lst n); eauto. }
    specialize (IH _ Hg' s Hs). cbn [gstep] in IH |- *.
    destruct Hg as (v0 & Hv0). rewrite Hv0 in *.
    destruct (str_eqb n light) eqn:El.
    + assert (En : str_eqb n s = false).
      { apply str_eqb_eq in El; subst. apply str_eqb_neq. congruence. }
      rewrite En. exact IH.
    + destruct (str_eqb n s) eqn:E.
      * apply str_eqb_eq in E; subst n. destruct (g s) as [v|] eqn:Egs.
        -- rewrite str_eqb_refl in IH. destruct (fold_left _ _ _ _); [|discriminate].
           destruct IH as (w & Hw & Hq). injection Hw as <-. exists v. split; [reflexivity|].
           rewrite Hq. ring.
        -- rewrite Egs in IH. destruct (fold_left _ _ _ _); [|reflexivity].
           destruct IH as (w & Hw & _). discriminate.
      * assert (E2 : str_eqb s n = false) by (apply str_eqb_neq; apply str_eqb_neq in E; congruence).
        destruct (g n) as [v|]; [rewrite E2 in IH|]; exact IH.
Qed.

Lemma names_split_first lst ts : In lst (names ts) ->
  exists pre c post, ts = pre ++ (c, lst) :: post /\ ~ In lst (names pre).
Proof.
  induction ts as [|[c n] ts IH]; [contradiction|]. intros H.
  destruct (str_eqb n lst) eqn:E.
  - apply str_eqb_eq in E; subst. exists [], c, ts. split; [reflexivity | intros []].
  - rewrite names_cons, in_app_iff in H. apply str_eqb_neq in E.
    destruct H as [H|H].
    + destruct (str_eqb n light); [contradiction|]. destruct H as [|[]]; congruence.
    + destruct (IH H) as (pre & c' & post & -> & Hp). exists ((c, n) :: pre), c', post.
      split; [reflexivity|]. rewrite names_cons, in_app_iff.
      intros [Hx|Hx]; [|auto]. destruct (str_eqb n light); [contradiction|]. destruct Hx as [|[]]; congruence.
Qed.

(* The full characterisation. *)
Lemma code_gain_spec lst ts s : s <> light ->
  (~ In lst (names ts) /\ code_gain lst ts s = recent s ts) \/
  (exists pre c post, ts = pre ++ (c, lst) :: post /\ ~ In lst (names pre) /\ lst <> light /\
    match code_gain lst ts s with
    | Some q => exists v, recent s (pre ++ [(c, lst)]) = Some v /\ q == (v + total s post)%Q
    | None => recent s (pre ++ [(c, lst)]) = None
    end).
Proof.
  intros Hs. destruct (in_dec (@eqb_dec str EqB_str) lst (names ts)) as [Hi|Hn].
  - right. destruct (names_split_first lst ts Hi) as (pre & c & post & E & Hp).
    assert (Hl : lst <> light) by (intros ->; exact (names_not_light _ Hi)).
    exists pre, c, post. split; [exact E|]. split; [exact Hp|]. split; [exact Hl|].
    assert (Hfold : forall s, fold_left (gstep lst) (pre ++ [(c, lst)]) (fun _ => None) s = recent s (pre ++ [(c, lst)])).
    { intros s'. rewrite fold_left_app. cbn [fold_left gstep]. rewrite recent_app. cbn [recent].
      assert (El : str_eqb lst light = false) by (apply str_eqb_neq; exact Hl).
      rewrite El. cbn [negb]. rewrite andb_true_r.
      assert (P1 := code_gain_phase1 lst pre Hp).
      match goal with |- context [fold_left ?f ?l ?g] => change (fold_left f l g) with (code_gain lst pre) end.
      rewrite (P1 lst), (proj2 (recent_None lst pre) Hp).
      destruct (str_eqb s' lst) eqn:E1.
      - apply str_eqb_eq in E1; subst. rewrite str_eqb_refl. reflexivity.
      - assert (E2 : str_eqb lst s' = false) by (apply str_eqb_neq; apply str_eqb_neq in E1; congruence).
        rewrite E2. apply P1. }
    assert (Hlst : exists v, fold_left (gstep lst) (pre ++ [(c, lst)]) (fun _ => None) lst = Some v).
    { rewrite Hfold, recent_app. cbn [recent]. rewrite str_eqb_refl.
      assert (El : str_eqb lst light = false) by (apply str_eqb_neq; exact Hl). rewrite El.
      exists c. reflexivity. }
    assert (G := fold_gstep_phase2 lst post _ Hlst s Hs).
    unfold code_gain. rewrite E.
    replace (pre ++ (c, lst) :: post) with ((pre ++ [(c, lst)]) ++ post) by (rewrite <- app_assoc; reflexivity).
    rewrite fold_left_app. rewrite !Hfold in G.
    exact G.
  - left. split; [exact Hn | apply code_gain_phase1, Hn].
Qed.

Lemma total_app s a b : (total s (a ++ b) == total s a + total s b)%Q.
Proof.
  induction a as [|[c n] a IH]; cbn [app total]; [ring|].
  destruct (str_eqb n s); rewrite IH; ring.
Qed.

Lemma recent_single s ts q : NoDup (names ts) -> recent s ts = Some q -> (q == total s ts)%Q.
Proof.
  revert q; induction ts as [|[c n] ts IH]; intros q Hnd; cbn [recent total]; [discriminate|].
  rewrite names_cons in Hnd.
  assert (Hnd2 : NoDup (names ts)) by (destruct (str_eqb n light); [exact Hnd | inversion Hnd; assumption]).
  destruct (recent s ts) as [v|] eqn:Er.
  - intros H; injection H as <-.
    assert (En : str_eqb n s = false).
    { destruct (str_eqb n s) eqn:E; [|reflexivity]. exfalso. apply str_eqb_eq in E; subst n.
      assert (Hin : In s (names ts)).
      { destruct (in_dec (@eqb_dec str EqB_str) s (names ts)) as [|Hx]; [assumption|].
        apply recent_None in Hx; congruence. }
      assert (Hl : str_eqb s light = false).
      { apply str_eqb_neq. intros ->. exact (names_not_light _ Hin). }
      rewrite Hl in Hnd. inversion Hnd; contradiction. }
    rewrite En. apply IH; [exact Hnd2 | reflexivity].
  - destruct (str_eqb n s && negb (str_eqb n light)) eqn:E; [|discriminate].
    intros H; injection H as <-. apply andb_true_iff in E as [E1 E2]. rewrite E1.
    apply recent_None in Er. apply str_eqb_eq in E1; subst n.
    rewrite total_notin; [ring|]. intros Hi. apply Er, In_names. split; [|exact Hi].
    apply negb_true_iff, str_eqb_neq in E2. exact E2.
Qed.

Definition positive_terms (ts : list term) : Prop := Forall (fun t => 0 < fst t)%Q ts.

Lemma total_nonneg s ts : positive_terms ts -> (0 <= total s ts)%Q.
Proof.
  induction 1 as [|[c n] ts Hc H IH]; cbn [total]; [apply Qle_refl|].
  destruct (str_eqb n s); [|exact IH]. cbn [fst] in Hc.
  apply Qle_trans with (0 + 0)%Q; [apply Qle_refl|]. apply Qplus_le_compat; [apply Qlt_le_weak, Hc | exact IH].
Qed.

Lemma total_pos s ts : positive_terms ts -> In s (map snd ts) -> (0 < total s ts)%Q.
Proof.
  induction 1 as [|[c n] ts Hc H IH]; cbn [total map In snd]; [contradiction|].
  cbn [fst] in Hc. intros Hi. destruct (str_eqb n s) eqn:E.
  - apply Qlt_le_trans with (c + 0)%Q; [rewrite Qplus_0_r; exact Hc|].
    apply Qplus_le_compat; [apply Qle_refl | apply total_nonneg, H].
  - apply IH. apply str_eqb_neq in E. destruct Hi as [|]; [congruence | assumption].
Qed.

(* With positive coefficients the most recent coefficient is the total only
   when the name occurs once. *)
Lemma recent_total_once s ts q : positive_terms ts -> recent s ts = Some q ->
  (q == total s ts)%Q -> forall a c b, ts = a ++ (c, s) :: b -> ~ In s (names (a ++ b)).
Proof.
  intros Hp Hr Hq a c b E.
  assert (Hl : s <> light).
  { intros ->. assert (Hx : recent light ts = None) by (apply recent_None, names_not_light). congruence. }
  subst ts. apply Forall_app in Hp as [Hpa Hpb]. inversion Hpb as [|? ? Hc Hpb']; subst. cbn [fst] in Hc.
  rewrite total_app in Hq. cbn [total] in Hq. rewrite str_eqb_refl in Hq.
  rewrite recent_app in Hr. cbn [recent] in Hr.
  assert (Ta := total_nonneg s a Hpa). assert (Tb := total_nonneg s b Hpb').
  rewrite names_app, in_app_iff. intros [Hi|Hi].
  - apply In_names in Hi as [_ Hi]. apply (total_pos s a Hpa) in Hi.
    destruct (recent s b) as [v|] eqn:Eb.
    + (* v <= total s b *)
      assert (Hvb : (v <= total s b)%Q).
      { clear -Eb Hpb'. revert v Eb. induction Hpb' as [|[c n] b Hc H IH]; intros v Eb; cbn [recent total] in *; [discriminate|].
        destruct (recent s b) as [w|].
        - injection Eb as <-. specialize (IH w eq_refl). destruct (str_eqb n s); [|exact IH].
          apply Qle_trans with (0 + total s b)%Q; [rewrite Qplus_0_l; exact IH|].
          apply Qplus_le_compat; [apply Qlt_le_weak, Hc | apply Qle_refl].
        - destruct (str_eqb n s && negb (str_eqb n light)) eqn:E; [|discriminate].
          injection Eb as <-. apply andb_true_iff in E as [-> _].
          apply Qle_trans with (c + 0)%Q; [rewrite Qplus_0_r; apply Qle_refl|].
          apply Qplus_le_compat; [apply Qle_refl | apply total_nonneg, H]. }
      injection Hr as <-. rewrite Hq in Hvb.
      apply (Qle_not_lt _ _ Hvb).
      apply Qlt_le_trans with (total s a + total s b)%Q.
      * rewrite <- (Qplus_0_l (total s b)) at 1. apply Qplus_lt_le_compat; [exact Hi | apply Qle_refl].
      * apply Qplus_le_compat; [apply Qle_refl|].
        rewrite <- (Qplus_0_l (total s b)) at 1. apply Qplus_le_compat; [apply Qlt_le_weak, Hc | apply Qle_refl].
    + assert (Hn : str_eqb s light = false) by (apply str_eqb_neq; exact Hl).
      rewrite str_eqb_refl, Hn in Hr. injection Hr as <-.
      apply recent_None in Eb. rewrite (total_notin s b) in Hq by (intros Hx; apply Eb, In_names; auto).
      apply (Qlt_irrefl c). rewrite Hq at 2. rewrite Qplus_0_r.
      rewrite <- (Qplus_0_l c) at 1. apply Qplus_lt_le_compat; [exact Hi | apply Qle_refl].
  - destruct (recent s b) as [v|] eqn:Eb; [|apply recent_None in Eb; contradiction].
    assert (Hvb : (v <= total s b)%Q).
    { clear -Eb Hpb'. revert v Eb. induction Hpb' as [|[c n] b Hc H IH]; intros v Eb; cbn [recent total] in *; [discriminate|].
      destruct (recent s b) as [w|].
      - injection Eb as <-. specialize (IH w eq_refl). destruct (str_eqb n s); [|exact IH].
        apply Qle_trans with (0 + total s b)%Q; [rewrite Qplus_0_l; exact IH|].
        apply Qplus_le_compat; [apply Qlt_le_weak, Hc | apply Qle_refl].
      - destruct (str_eqb n s && negb (str_eqb n light)) eqn:E; [|discriminate].
        injection Eb as <-. apply andb_true_iff in E as [-> _].
        apply Qle_trans with (c + 0)%Q; [rewrite Qplus_0_r; apply Qle_refl|].
        apply Qplus_le_compat; [apply Qle_refl | apply total_nonneg, H]. }
    injection Hr as <-. rewrite Hq in Hvb. apply (Qle_not_lt _ _ Hvb).
    apply Qlt_le_trans with (c + total s b)%Q.
    + rewrite <- (Qplus_0_l (total s b)) at 1. apply Qplus_lt_le_compat; [exact Hc | apply Qle_refl].
    + rewrite <- (Qplus_0_l (c + total s b)) at 1. apply Qplus_le_compat; [exact Ta | apply Qle_refl].
Qed.

(* A list of terms whose names are not distinct repeats some name. *)
Lemma not_NoDup_names ts : ~ NoDup (names ts) ->
  exists s a c b, ts = a ++ (c, s) :: b /\ In s (names (a ++ b)) /\ s <> light.
Proof.
  induction ts as [|[c n] ts IH]; intros H.
  - exfalso; apply H; constructor.
  - rewrite names_cons in H. destruct (str_eqb n light) eqn:El.
    + destruct (IH H) as (s & a & c' & b & -> & Hi & Hl). exists s, ((c, n) :: a), c', b.
      split; [reflexivity|]. split; [|exact Hl]. cbn [app]. rewrite names_cons, in_app_iff. right; exact Hi.
    + cbn [app] in H. destruct (in_dec (@eqb_dec str EqB_str) n (names ts)) as [Hi|Hn].
      * exists n, [], c, ts. split; [reflexivity|]. split; [exact Hi|]. apply str_eqb_neq, El.
      * destruct IH as (s & a & c' & b & -> & Hi & Hl).
        { intros Hnd. apply H. constructor; assumption. }
        exists s, ((c, n) :: a), c', b.
        split; [reflexivity|]. split; [|exact Hl]. cbn [app]. rewrite names_cons, in_app_iff. right; exact Hi.
Qed.

Lemma recent_In s ts q : recent s ts = Some q -> In s (names ts).
Proof.
  intros H. destruct (in_dec (@eqb_dec str EqB_str) s (names ts)) as [|Hn]; [assumption|].
  apply recent_None in Hn. congruence.
Qed.

Lemma In_recent s ts : In s (names ts) -> exists q, recent s ts = Some q.
Proof.
  intros H. destruct (recent s ts) as [q|] eqn:E; [eauto|]. apply recent_None in E. contradiction.
Qed.

Lemma NoDup_names_dec ts : {NoDup (names ts)} + {~ NoDup (names ts)}.
Proof.
  induction (names ts) as [|x l IH]; [left; constructor|].
  destruct (in_dec (@eqb_dec str EqB_str) x l) as [Hi|Hn].
  - right. intros H. inversion H; contradiction.
  - destruct IH as [IH|IH]; [left; constructor; assumption | right].
    intros H. inversion H; contradiction.
Qed.

(* Sufficiency (no sign condition on coefficients). *)
Lemma gain_safe_ok r s : products_safe r ->
  entry_ok (rhs r) s (code_gain (last_reactant r) (rhs r) s).
Proof.
  intros Hsafe. destruct (eqb_dec s light) as [->|Hs].
  - (* light never gets an entry *)
    assert (Hc : forall ts g, g light = None -> fold_left (gstep (last_reactant r)) ts g light = None).
    { induction ts as [|[c n] ts IH]; intros g Hg; [exact Hg|]. cbn [fold_left]. apply IH. cbn [gstep].
      destruct (str_eqb n light) eqn:E; [exact Hg|].
      assert (E2 : str_eqb light n = false) by (apply str_eqb_neq; apply str_eqb_neq in E; congruence).
      destruct (g (last_reactant r)); [destruct (g n)|]; try rewrite E2; exact Hg. }
    unfold code_gain. rewrite Hc by reflexivity. apply names_not_light.
  - destruct (code_gain_spec (last_reactant r) (rhs r) s Hs) as [[Hn E] | (pre & c & post & E & Hp & Hl & G)].
    + rewrite E. destruct Hsafe as [[_ Hnd]|(p & q & Eq & _)].
      * destruct (recent s (rhs r)) as [v|] eqn:Er; cbn [entry_ok].
        -- split; [exact (recent_In _ _ _ Er) | exact (recent_single _ _ _ Hnd Er)].
        -- apply recent_None, Er.
      * exfalso. apply Hn. rewrite Eq, in_app_iff. right; left; reflexivity.
    + destruct Hsafe as [[Hn _]|(p & q & Eq & Hnd & Hincl)].
      { exfalso. apply Hn. rewrite E, names_app, in_app_iff. right. rewrite names_cons, in_app_iff. left.
        assert (El : str_eqb (last_reactant r) light = false) by (apply str_eqb_neq; exact Hl).
        rewrite El. left; reflexivity. }
      assert (El : str_eqb (last_reactant r) light = false) by (apply str_eqb_neq; exact Hl).
      (* names pre = p, names post = q *)
      assert (Epq : names pre = p /\ names post = q).
      { rewrite E, names_app, names_cons, El in Eq. cbn [app] in Eq.
        assert (Hp2 : ~ In (last_reactant r) p).
        { apply NoDup_remove_2 in Hnd. rewrite app_nil_r in Hnd. exact Hnd. }
        clear -Eq Hp Hp2. revert p Eq Hp2. induction (names pre) as [|x l IH]; intros p Eq Hp2.
        - destruct p as [|y p]; cbn [app] in Eq; [injection Eq as ->; auto|].
          injection Eq as <- _. exfalso. apply Hp2. left; reflexivity.
        - destruct p as [|y p]; cbn [app] in Eq; injection Eq as -> Eq.
          + exfalso. apply Hp. left; reflexivity.
          + destruct (IH (fun H => Hp (or_intror H)) p Eq (fun H => Hp2 (or_intror H))) as [-> ->]. auto. }
      destruct Epq as [<- <-].
      assert (Hnm : names (pre ++ [(c, last_reactant r)]) = names pre ++ [last_reactant r]).
      { rewrite names_app, names_cons, El. reflexivity. }
      assert (Hnd' : NoDup (names (pre ++ [(c, last_reactant r)]))) by (rewrite Hnm; exact Hnd).
      assert (Ets : rhs r = (pre ++ [(c, last_reactant r)]) ++ post) by (rewrite <- app_assoc; exact E).
      destruct (code_gain (last_reactant r) (rhs r) s) as [v|] eqn:Ec; cbn [entry_ok].
      * destruct G as (w & Hw & Hv). split.
        -- rewrite Ets, names_app, in_app_iff. left. exact (recent_In _ _ _ Hw).
        -- rewrite Hv, Ets, total_app. rewrite (recent_single _ _ _ Hnd' Hw). reflexivity.
      * rewrite Ets, names_app, in_app_iff. apply recent_None in G.
        intros [Hi|Hi]; [auto|]. apply G. rewrite Hnm. apply Hincl, Hi.
Qed.

(* Necessity, for positive coefficients. *)
Lemma gain_ok_safe r : positive_terms (rhs r) ->
  (forall s, entry_ok (rhs r) s (code_gain (last_reactant r) (rhs r) s)) -> products_safe r.
Proof.
  intros Hpos H. unfold products_safe.
  destruct (in_dec (@eqb_dec str EqB_str) (last_reactant r) (names (rhs r))) as [Hi|Hn].
  - right. destruct (names_split_first _ _ Hi) as (pre & c & post & E & Hp).
    assert (Hl : last_reactant r <> light) by (intros El; rewrite El in Hi; exact (names_not_light _ Hi)).
    assert (El : str_eqb (last_reactant r) light = false) by (apply str_eqb_neq; exact Hl).
    assert (Hnm : names (pre ++ [(c, last_reactant r)]) = names pre ++ [last_reactant r]).
    { rewrite names_app, names_cons, El. reflexivity. }
    assert (Ets : rhs r = (pre ++ [(c, last_reactant r)]) ++ post) by (rewrite <- app_assoc; exact E).
    assert (Hpos1 : positive_terms (pre ++ [(c, last_reactant r)])).
    { unfold positive_terms in *. rewrite Ets in Hpos. apply Forall_app in Hpos; apply Hpos. }
    (* the characterisation with this split *)
    assert (G : forall s, s <> light ->
      match code_gain (last_reactant r) (rhs r) s with
      | Some q => exists v, recent s (pre ++ [(c, last_reactant r)]) = Some v /\ q == (v + total s post)%Q
      | None => recent s (pre ++ [(c, last_reactant r)]) = None
      end).
    { intros s Hs. destruct (code_gain_spec (last_reactant r) (rhs r) s Hs)
        as [[Hn _] | (pre' & c' & post' & E' & Hp' & _ & G)]; [contradiction|].
      assert (Esame : pre' = pre /\ c' = c /\ post' = post).
      { rewrite E in E'. clear -E' Hp Hp' Hl. revert pre' E' Hp'.
        induction pre as [|[x n] pre IH]; intros [|[x' n'] pre'] E' Hp'; cbn [app] in E'.
        - injection E' as -> ->. auto.
        - injection E' as _ <- _. exfalso. apply Hp'. rewrite names_cons.
          apply str_eqb_neq in Hl. rewrite Hl. left; reflexivity.
        - injection E' as _ -> _. exfalso. apply Hp. rewrite names_cons.
          apply str_eqb_neq in Hl. rewrite Hl. left; reflexivity.
        - injection E' as -> -> E'. destruct (IH (fun Hx => Hp ltac:(rewrite names_cons, in_app_iff; right; exact Hx)) pre' E') as (-> & -> & ->); auto.
          intros Hx. apply Hp'. rewrite names_cons, in_app_iff. right; exact Hx. }
      destruct Esame as (-> & -> & ->). exact G. }
    exists (names pre), (names post). split; [|split].
    + rewrite E, names_app, names_cons, El. reflexivity.
    + rewrite <- Hnm. destruct (NoDup_names_dec (pre ++ [(c, last_reactant r)])) as [|Hnd]; [assumption|].
      exfalso. destruct (not_NoDup_names _ Hnd) as (s & a & c' & b & Ea & Hin & Hs).
      specialize (G s Hs). specialize (H s).
      assert (Hs1 : In s (names (pre ++ [(c, last_reactant r)]))).
      { rewrite Ea, names_app, in_app_iff. right. rewrite names_cons, in_app_iff. left.
        apply str_eqb_neq in Hs. rewrite Hs. left; reflexivity. }
      destruct (code_gain (last_reactant r) (rhs r) s) as [q|]; cbn [entry_ok] in H.
      * destruct G as (v & Hv & Hq). destruct H as [_ H]. rewrite Ets, total_app in H.
        assert (Hvt : (v == total s (pre ++ [(c, last_reactant r)]))%Q).
        { apply (Qplus_inj_r _ _ (total s post)). rewrite <- Hq, H. reflexivity. }
        exact (recent_total_once s _ v Hpos1 Hv Hvt a c' b Ea Hin).
      * apply recent_None in G. contradiction.
    + intros s Hs. rewrite <- Hnm.
      assert (Hsl : s <> light) by (intros ->; exact (names_not_light _ Hs)).
      specialize (G s Hsl). specialize (H s).
      destruct (code_gain (last_reactant r) (rhs r) s) as [q|]; cbn [entry_ok] in H.
      * destruct G as (v & Hv & _). exact (recent_In _ _ _ Hv).
      * exfalso. apply H. rewrite Ets, names_app, in_app_iff. right; exact Hs.
  - left. split; [exact Hn|].
    destruct (NoDup_names_dec (rhs r)) as [|Hnd]; [assumption|].
    exfalso. destruct (not_NoDup_names _ Hnd) as (s & a & c' & b & Ea & Hin & Hs).
    specialize (H s). rewrite (code_gain_phase1 _ _ Hn) in H.
    assert (Hs1 : In s (names (rhs r))).
    { rewrite Ea, names_app, in_app_iff. right. rewrite names_cons, in_app_iff. left.
      apply str_eqb_neq in Hs. rewrite Hs. left; reflexivity. }
    destruct (In_recent s _ Hs1) as (v & Hv). rewrite Hv in H. destruct H as [_ H].
    exact (recent_total_once s _ v Hpos Hv H a c' b Ea Hin).
Qed.

(* ------------------------------------------------------------------ *)
(* The numbered reactant list of each equation. *)

Definition slots_from (step : nat) (ts : list term) : list (nat * str) :=
  filter (fun p => negb (str_eqb (snd p) light)) (combine (seq step (List.length ts)) (map snd ts)).

Lemma reactants_slots eq step ts st :
  (forall j, In j (dkeys (dget_or ([] : dict nat str) eq (p_reac st))) -> j < step) ->
  dget eq (p_reac (proc_reactants eq step ts st)) =
  match slots_from step ts with
  | [] => dget eq (p_reac st)
  | l => Some (dget_or ([] : dict nat str) eq (p_reac st) ++ l)
  end.
Proof.
  revert step st; induction ts as [|[c nm] ts IH]; intros step st H; [reflexivity|].
  cbn [proc_reactants]. unfold slots_from. cbn [List.length seq map combine filter snd].
  destruct (proc_reactant_fields eq step c nm st) as (_ & _ & _ & Hr & _).
  fold (slots_from (S step) ts).
  destruct (str_eqb nm light); cbn [negb].
  - rewrite IH; rewrite Hr; [reflexivity|]. intros j Hj. apply H in Hj. lia.
  - assert (Hrow : dget_or ([] : dict nat str) eq (p_reac (proc_reactant eq step (c, nm) st)) =
                   dget_or ([] : dict nat str) eq (p_reac st) ++ [(step, nm)]).
    { rewrite Hr. unfold dset2. unfold dget_or at 1. rewrite dget_dset_same.
      apply dset_fresh. apply not_true_iff_false. rewrite dmem_In. intros Hj. apply H in Hj. lia. }
    rewrite IH.
    + rewrite Hrow. destruct (slots_from (S step) ts) as [|x l].
      * rewrite Hr. unfold dset2. rewrite dget_dset_same. f_equal.
        apply dset_fresh. apply not_true_iff_false. rewrite dmem_In. intros Hj. apply H in Hj. lia.
      * rewrite <- app_assoc. reflexivity.
    + rewrite Hrow. intros j. unfold dkeys. rewrite map_app, in_app_iff. intros [Hj|[<-|[]]]; [|cbn; lia].
      apply H in Hj. lia.
Qed.

Lemma reac_other k eq step ts st : k <> eq ->
  dget k (p_reac (proc_reactants eq step ts st)) = dget k (p_reac st).
Proof.
  intros Hne. revert step st; induction ts as [|[c nm] ts IH]; intros step st; [reflexivity|].
  cbn [proc_reactants]. rewrite IH.
  destruct (proc_reactant_fields eq step c nm st) as (_ & _ & _ & -> & _).
  destruct (str_eqb nm light); [reflexivity|]. unfold dset2. apply dget_dset_other. exact Hne.
Qed.

Lemma proc_reaction_reac eq r st :
  p_reac (proc_reaction eq r st) = p_reac (proc_reactants eq 0 (lhs r) (set_rate eq (rtext r) st)).
Proof.
  unfold proc_reaction.
  destruct (proc_products_frame eq (last_name (lhs r)) (rhs r)
    (proc_reactants eq 0 (lhs r) (set_rate eq (rtext r) st))) as (_ & _ & H & _). exact H.
Qed.

Lemma reac_from_other k eq m st : k < eq ->
  dget k (p_reac (proc_from eq m st)) = dget k (p_reac st).
Proof.
  revert eq st; induction m as [|r m IH]; intros eq st H; [reflexivity|].
  cbn [proc_from]. rewrite IH by lia. rewrite proc_reaction_reac, reac_other by lia. reflexivity.
Qed.

Definition slots_entry (r : reaction) : option (list (nat * str)) :=
  match reactant_slots r with [] => None | l => Some l end.

Lemma reac_from k eq m st :
  (forall k, eq <= k -> dget k (p_reac st) = None) -> eq <= k ->
  dget k (p_reac (proc_from eq m st)) =
  match nth_error m (k - eq) with Some r => slots_entry r | None => None end.
Proof.
  revert eq st; induction m as [|r m IH]; intros eq st Hn Hk; cbn [proc_from].
  - destruct (k - eq); cbn; apply Hn; exact Hk.
  - destruct (Nat.eq_dec k eq) as [->|Hne].
    + rewrite Nat.sub_diag. cbn [nth_error]. rewrite reac_from_other by lia.
      assert (He : dget eq (p_reac (set_rate eq (rtext r) st)) = None) by (apply Hn; lia).
      rewrite proc_reaction_reac, reactants_slots.
      * rewrite He. unfold dget_or. rewrite He. unfold slots_entry. change (slots_from 0 (lhs r)) with (reactant_slots r).
        destruct (reactant_slots r); reflexivity.
      * unfold dget_or. rewrite He. intros j [].
    + replace (k - eq) with (S (k - S eq)) by lia. cbn [nth_error]. apply IH; [|lia].
      intros k' Hk'. rewrite proc_reaction_reac, reac_other by lia. cbn [set_rate p_reac]. apply Hn; lia.
Qed.

Lemma interp_reac m k :
  dget k (p_reac (interp m)) = match nth_error m k with Some r => slots_entry r | None => None end.
Proof.
  unfold interp. rewrite (reac_from k 0 m pstate0) by (reflexivity || lia).
  rewrite Nat.sub_0_r. reflexivity.
Qed.

Lemma map_snd_slots step ts : map snd (slots_from step ts) = names ts.
Proof.
  unfold slots_from, names. revert step; induction ts as [|[c n] ts IH]; intros step; [reflexivity|].
  cbn [List.length seq map combine filter snd].
  destruct (str_eqb n light); cbn [negb map snd]; rewrite IH; reflexivity.
Qed.

(* ------------------------------------------------------------------ *)
(* Keys are never duplicated. *)

Definition wf2 (d : dict str (dict nat Q)) : Prop :=
  NoDup (dkeys d) /\ forall s row, dget s d = Some row -> NoDup (dkeys row).

Lemma wf2_dset s row d : wf2 d -> NoDup (dkeys row) -> wf2 (dset s row d).
Proof.
  intros [H1 H2] Hr. split; [apply NoDup_dset; exact H1|].
  intros s' row'. rewrite dget_dset. destruct (eqb s' s); [intros H; injection H as <-; exact Hr | apply H2].
Qed.

Lemma wf2_row s d : wf2 d -> NoDup (dkeys (dget_or ([] : dict nat Q) s d)).
Proof.
  intros [_ H]. unfold dget_or. destruct (dget s d) as [row|] eqn:E; [apply (H s), E | constructor].
Qed.

Lemma wf2_dset2 s k q d : wf2 d -> wf2 (dset2 s k q d).
Proof. intros H. apply wf2_dset; [exact H|]. apply NoDup_dset, wf2_row, H. Qed.

Lemma wf2_dtouch s d : wf2 d -> wf2 (dtouch ([] : dict nat Q) s d).
Proof. intros H. unfold dtouch. destruct (dmem s d); [exact H|]. apply wf2_dset; [exact H | constructor]. Qed.

Lemma wf2_add_loss nm eq c d : wf2 d -> wf2 (add_loss nm eq c d).
Proof. intros H. unfold add_loss. destruct (dget2 nm eq d); apply wf2_dset2, H. Qed.

Lemma wf2_add_gain l nm eq c d : wf2 d -> wf2 (add_gain l nm eq c d).
Proof.
  intros H. unfold add_gain. destruct (dmem eq _).
  - destruct (dget eq _); [apply wf2_dset2|]; apply wf2_dtouch, wf2_dtouch, H.
  - apply wf2_dset2, wf2_dtouch, H.
Qed.

Definition wf_tables (st : pstate) : Prop := wf2 (p_loss st) /\ wf2 (p_gain st).

Lemma wf_reactants eq step ts st : wf_tables st -> wf_tables (proc_reactants eq step ts st).
Proof.
  revert step st; induction ts as [|[c nm] ts IH]; intros step st H; [exact H|].
  cbn [proc_reactants]. apply IH. destruct H as [Hl Hg].
  destruct (proc_reactant_fields eq step c nm st) as (_ & G & _ & _ & L).
  split; [rewrite L | rewrite G; exact Hg]. destruct (str_eqb nm light); [exact Hl | apply wf2_add_loss, Hl].
Qed.

Lemma wf_products eq lst ts st : wf_tables st -> wf_tables (proc_products eq lst ts st).
Proof.
  unfold proc_products. revert st; induction ts as [|[c nm] ts IH]; intros st H; [exact H|].
  cbn [fold_left]. apply IH. destruct H as [Hl Hg].
  destruct (proc_product_fields eq lst c nm st) as (_ & _ & _ & L & G).
  split; [rewrite L; exact Hl | rewrite G]. destruct (str_eqb nm light); [exact Hg | apply wf2_add_gain, Hg].
Qed.

Lemma wf_from eq m st : wf_tables st -> wf_tables (proc_from eq m st).
Proof.
  revert eq st; induction m as [|r m IH]; intros eq st H; [exact H|]. cbn [proc_from]. apply IH.
  unfold proc_reaction. apply wf_products, wf_reactants. exact H.
Qed.

Lemma interp_wf m : wf_tables (interp m).
Proof.
  apply wf_from. split; (split; [constructor | intros ? ? H; discriminate]).
Qed.
