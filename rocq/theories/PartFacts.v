(* Facts about the partitioning routine: what each cell of the shared memory
   holds after a set of iterations. *)
From Coq Require Import List Bool Arith Lia Permutation Reals Lra.
From Verif Require Import Base SpecKin LangFacts ModelExpr ModelRhs ModelOmp OmpFacts ModelPart.
Import ListNotations.
Open Scope nat_scope.
Open Scope list_scope.

Lemma omap_Some {A B} (f : A -> option B) l r : omap f l = Some r <-> Forall2 (fun a b => f a = Some b) l r.
Proof.
  revert r; induction l as [|a l IH]; intros r; cbn.
  - split; intros H; [injection H as <-; constructor | inversion H; reflexivity].
  - split.
    + intros H. destruct (f a) as [b|] eqn:E; [|discriminate]. cbn in H. destruct (omap f l) as [bs|]; [|discriminate].
      injection H as <-. constructor; [exact E | apply IH; reflexivity].
    + intros H. inversion H as [|? b ? bs Hb Hr]; subst. rewrite Hb. cbn. rewrite (proj2 (IH bs) Hr). reflexivity.
Qed.
Lemma omap_length {A B} (f : A -> option B) l r : omap f l = Some r -> List.length r = List.length l.
Proof. intros H. apply omap_Some in H. induction H; cbn; congruence. Qed.
Lemma omap_nth {A B} (f : A -> option B) l r i a : omap f l = Some r -> nth_error l i = Some a ->
  exists b, f a = Some b /\ nth_error r i = Some b.
Proof.
  intros H. apply omap_Some in H. revert i. induction H as [|x y l r Hxy H IH]; intros [|i] Hi; try discriminate.
  - injection Hi as ->. exists y. auto.
  - apply IH, Hi.
Qed.
Lemma omap_In {A B} (f : A -> option B) l r b : omap f l = Some r -> In b r -> exists a, In a l /\ f a = Some b.
Proof.
  intros H. apply omap_Some in H. induction H as [|x y l r Hxy H IH]; intros Hb; [contradiction|].
  destruct Hb as [->|Hb]; [exists x; split; [left; reflexivity | exact Hxy] | destruct (IH Hb) as (a & Ha & E); exists a; split; [right; exact Ha | exact E]].
Qed.
Lemma omap_In2 {A B} (f : A -> option B) l r a : omap f l = Some r -> In a l -> exists b, In b r /\ f a = Some b.
Proof.
  intros H. apply omap_Some in H. induction H as [|x y l r Hxy H IH]; intros Ha; [contradiction|].
  destruct Ha as [->|Ha]; [exists y; split; [left; reflexivity | exact Hxy] | destruct (IH Ha) as (b & Hb & E); exists b; split; [right; exact Hb | exact E]].
Qed.
Lemma omap_all {A B} (f : A -> option B) l : (forall a, In a l -> exists b, f a = Some b) -> exists r, omap f l = Some r.
Proof.
  induction l as [|a l IH]; intros H; [exists []; reflexivity|]. destruct (H a (or_introl eq_refl)) as [b Hb].
  destruct (IH (fun x Hx => H x (or_intror Hx))) as [r Hr]. exists (b :: r). cbn. rewrite Hb. cbn. rewrite Hr. reflexivity.
Qed.
Lemma obind_Some {A B} (o : option A) (f : A -> option B) b : obind o f = Some b -> exists a, o = Some a /\ f a = Some b.
Proof. destruct o as [a|]; cbn; [eauto | discriminate]. Qed.

Section Facts.
Context (ns nc nb : nat) (include : list nat) (inp : inputs).
Notation run_step := (run_step ns nc nb).
Notation run_steps := (run_steps ns nc nb).
Notation bin_steps := (bin_steps ns nc include inp).
Notation bin_compute := (bin_compute ns nc inp).

(* A cell written with one value only holds that value at the end. *)
Lemma soa_final b v tr : forall m m', run_steps tr m = Some m' -> (forall v', In (WSoa b v') tr -> v' = v) ->
  (In (WSoa b v) tr \/ m_soa m b = v) -> m_soa m' b = v.
Proof.
  induction tr as [|s tr IH]; intros m m' H Hv Hi; cbn in H.
  - injection H as <-. destruct Hi as [[]|Hi]; exact Hi.
  - apply obind_Some in H as (m1 & H1 & H). apply (IH m1 m' H); [intros v' Hv'; apply Hv; right; exact Hv'|].
    destruct Hi as [[->|Hi]|Hi].
    + right. cbn in H1. injection H1 as <-. cbn. unfold upd. rewrite Nat.eqb_refl. reflexivity.
    + left; exact Hi.
    + right. destruct s; cbn [ModelPart.run_step] in H1; try (injection H1 as <-; exact Hi).
      * injection H1 as <-. cbn. unfold upd. destruct (Nat.eqb_spec b b0) as [->|]; [apply Hv; left; reflexivity | exact Hi].
      * destruct g; [discriminate|]. destruct (g <? ns); [|discriminate]. injection H1 as <-. exact Hi.
      * match type of H1 with (if ?c then _ else _) = _ => destruct c; [|discriminate] end. injection H1 as <-. exact Hi.
Qed.
Lemma aw_final b v tr : forall m m', run_steps tr m = Some m' -> (forall v', In (WAw b v') tr -> v' = v) ->
  (In (WAw b v) tr \/ m_aw m b = v) -> m_aw m' b = v.
Proof.
  induction tr as [|s tr IH]; intros m m' H Hv Hi; cbn in H.
  - injection H as <-. destruct Hi as [[]|Hi]; exact Hi.
  - apply obind_Some in H as (m1 & H1 & H). apply (IH m1 m' H); [intros v' Hv'; apply Hv; right; exact Hv'|].
    destruct Hi as [[->|Hi]|Hi].
    + right. cbn in H1. injection H1 as <-. cbn. unfold upd. rewrite Nat.eqb_refl. reflexivity.
    + left; exact Hi.
    + right. destruct s; cbn [ModelPart.run_step] in H1; try (injection H1 as <-; exact Hi).
      * injection H1 as <-. cbn. unfold upd. destruct (Nat.eqb_spec b b0) as [->|]; [apply Hv; left; reflexivity | exact Hi].
      * destruct g; [discriminate|]. destruct (g <? ns); [|discriminate]. injection H1 as <-. exact Hi.
      * match type of H1 with (if ?c then _ else _) = _ => destruct c; [|discriminate] end. injection H1 as <-. exact Hi.
Qed.
Lemma size_final b v tr : forall m m', run_steps tr m = Some m' -> (forall v', In (WSize b v') tr -> v' = v) ->
  (In (WSize b v) tr \/ m_size m b = v) -> m_size m' b = v.
Proof.
  induction tr as [|s tr IH]; intros m m' H Hv Hi; cbn in H.
  - injection H as <-. destruct Hi as [[]|Hi]; exact Hi.
  - apply obind_Some in H as (m1 & H1 & H). apply (IH m1 m' H); [intros v' Hv'; apply Hv; right; exact Hv'|].
    destruct Hi as [[->|Hi]|Hi].
    + right. cbn in H1. injection H1 as <-. cbn. unfold upd. rewrite Nat.eqb_refl. reflexivity.
    + left; exact Hi.
    + right. destruct s; cbn [ModelPart.run_step] in H1; try (injection H1 as <-; exact Hi).
      * injection H1 as <-. cbn. unfold upd. destruct (Nat.eqb_spec b b0) as [->|]; [apply Hv; left; reflexivity | exact Hi].
      * destruct g; [discriminate|]. destruct (g <? ns); [|discriminate]. injection H1 as <-. exact Hi.
      * match type of H1 with (if ?c then _ else _) = _ => destruct c; [|discriminate] end. injection H1 as <-. exact Hi.
Qed.
Lemma gas_final g b v tr : forall m m', run_steps tr m = Some m' -> (forall v', In (WGas (g + 1) b v') tr -> v' = v) ->
  (In (WGas (g + 1) b v) tr \/ m_gas m g b = v) -> m_gas m' g b = v.
Proof.
  induction tr as [|s tr IH]; intros m m' H Hv Hi; cbn in H.
  - injection H as <-. destruct Hi as [[]|Hi]; exact Hi.
  - apply obind_Some in H as (m1 & H1 & H). apply (IH m1 m' H); [intros v' Hv'; apply Hv; right; exact Hv'|].
    destruct Hi as [[->|Hi]|Hi].
    + right. rewrite Nat.add_1_r in H1. cbn [ModelPart.run_step] in H1. destruct (g <? ns); [|discriminate]. injection H1 as <-. cbn.
      rewrite Nat.eqb_refl. unfold upd. rewrite Nat.eqb_refl. reflexivity.
    + left; exact Hi.
    + right. destruct s; cbn [ModelPart.run_step] in H1; try (injection H1 as <-; exact Hi).
      * destruct g0; [discriminate|]. destruct (g0 <? ns); [|discriminate]. injection H1 as <-. cbn.
        destruct (Nat.eqb_spec g g0) as [->|]; [|exact Hi]. unfold upd.
        destruct (Nat.eqb_spec b b0) as [->|]; [apply Hv; left; rewrite Nat.add_1_r; reflexivity | exact Hi].
      * match type of H1 with (if ?c then _ else _) = _ => destruct c; [|discriminate] end. injection H1 as <-. exact Hi.
Qed.

(* The steps of one iteration. *)
Definition gas_steps (o : bin_out) (b : nat) (s : step) : Prop :=
  exists j g v, nth_error include j = Some g /\ nth_error (o_dm o) j = Some v /\ s = WGas (g + 1) b v.

Lemma bin_steps_inv b l : bin_steps b = Some l -> exists o gas, bin_compute b = Some o /\
  l = [WSoa b (o_soa o); WAw b (o_aw o); WSize b (o_size o)] ++ gas ++
      [WIndex1 (ns + 1 + b * nc); WIndex2 (ns + (b + 1) * nc); WSlice (o_dm o)] /\
  (forall s, In s gas <-> gas_steps o b s).
Proof.
  unfold ModelPart.bin_steps. intros H. apply obind_Some in H as (o & Ho & H). apply obind_Some in H as (gas & Hg & H).
  injection H as <-. exists o, gas. split; [exact Ho|]. split; [reflexivity|]. intros s.
  assert (Hc : forall j g, nth_error include j = Some g -> nth_error (combine include (seq 0 (List.length include))) j = Some (g, j)).
  { clear. assert (G : forall (l : list nat) a j g, nth_error l j = Some g -> nth_error (combine l (seq a (List.length l))) j = Some (g, a + j)).
    { induction l as [|x l IH]; intros a [|j] g H; try discriminate; cbn.
      - injection H as ->. rewrite Nat.add_0_r. reflexivity.
      - rewrite (IH (S a) j g H). f_equal. f_equal. lia. }
    intros j g H. exact (G include 0 j g H). }
  split.
  - intros Hs. destruct (omap_In _ _ _ _ Hg Hs) as ([g j] & Hin & E). cbn [fst snd] in E. apply obind_Some in E as (v & Hv & E). injection E as <-.
    exists j, g, v. split; [|split; [exact Hv | reflexivity]].
    apply In_nth_error in Hin as [i Hi].
    destruct (nth_error include i) as [g'|] eqn:Ei.
    + rewrite (Hc i g' Ei) in Hi. injection Hi as -> ->. exact Ei.
    + exfalso. apply nth_error_None in Ei. assert (L : i < List.length (combine include (seq 0 (List.length include)))) by (apply nth_error_Some; congruence).
      rewrite combine_length in L. lia.
  - intros (j & g & v & Hj & Hv & ->). destruct (omap_nth _ _ _ _ _ Hg (Hc j g Hj)) as (s & Es & Hs). cbn [fst snd] in Es. rewrite Hv in Es.
    cbn in Es. injection Es as <-. exact (nth_error_In _ _ Hs).
Qed.

Lemma bin_dm_length b o : bin_compute b = Some o -> List.length (o_dm o) = nc.
Proof.
  unfold ModelPart.bin_compute. intros H. repeat (apply obind_Some in H as (? & ? & H)). injection H as <-. cbn [o_dm].
  match goal with Hm : omap _ (seq 0 nc) = Some _ |- _ => rewrite (omap_length _ _ _ Hm) end. apply seq_length.
Qed.

(* All steps of a set of iterations. *)
Lemma serial_inv bins l : serial ns nc include inp bins = Some l -> exists ls, omap bin_steps bins = Some ls /\ l = concat ls.
Proof. unfold serial. destruct (omap _ bins) as [ls|]; [|discriminate]. cbn. intros H. injection H as <-. eauto. Qed.

Lemma serial_steps bins ls s : omap bin_steps bins = Some ls -> In s (concat ls) -> exists b l, In b bins /\ bin_steps b = Some l /\ In s l.
Proof.
  intros H Hs. apply in_concat in Hs as (l & Hl & Hs). destruct (omap_In _ _ _ _ H Hl) as (b & Hb & E). eauto.
Qed.
Lemma serial_steps2 bins ls b : omap bin_steps bins = Some ls -> In b bins -> exists l, bin_steps b = Some l /\ forall s, In s l -> In s (concat ls).
Proof.
  intros H Hb. destruct (omap_In2 _ _ _ _ H Hb) as (l & Hl & E). exists l. split; [exact E|]. intros s Hs. apply in_concat. eauto.
Qed.

(* The cells other than dy_dt, for every order of the steps. *)
Lemma other_cells bins ls tr m : omap bin_steps bins = Some ls -> Permutation (concat ls) tr ->
  run_steps tr cleared = Some m -> forall b, In b bins -> exists o, bin_compute b = Some o /\
    m_soa m b = o_soa o /\ m_aw m b = o_aw o /\ m_size m b = o_size o /\
    (NoDup include -> forall j g v, nth_error include j = Some g -> nth_error (o_dm o) j = Some v -> m_gas m g b = v).
Proof.
  intros H P R b Hb. destruct (serial_steps2 _ _ _ H Hb) as (l & Hl & Hin). destruct (bin_steps_inv b l Hl) as (o & gas & Ho & -> & Hg).
  exists o. split; [exact Ho|].
  assert (All : forall s, In s tr -> exists b' o' gas', In b' bins /\ bin_compute b' = Some o' /\
     In s ([WSoa b' (o_soa o'); WAw b' (o_aw o'); WSize b' (o_size o')] ++ gas' ++
        [WIndex1 (ns + 1 + b' * nc); WIndex2 (ns + (b' + 1) * nc); WSlice (o_dm o')]) /\ (forall s, In s gas' <-> gas_steps o' b' s)).
  { intros s Hs. apply (Permutation_in _ (Permutation_sym P)) in Hs. destruct (serial_steps _ _ _ H Hs) as (b' & l' & Hb' & Hl' & Hs').
    destruct (bin_steps_inv b' l' Hl') as (o' & gas' & Ho' & -> & Hg'). exists b', o', gas'. auto. }
  assert (Mem : forall s, In s ([WSoa b (o_soa o); WAw b (o_aw o); WSize b (o_size o)] ++ gas ++
        [WIndex1 (ns + 1 + b * nc); WIndex2 (ns + (b + 1) * nc); WSlice (o_dm o)]) -> In s tr).
  { intros s Hs. apply (Permutation_in _ P), Hin, Hs. }
  split; [|split; [|split]].
  - apply (soa_final b _ tr cleared m R); [|left; apply Mem; cbn; auto].
    intros v Hv. destruct (All _ Hv) as (b' & o' & gas' & _ & Ho' & Hs & Hg'). apply in_app_iff in Hs as [Hs|Hs]; [|apply in_app_iff in Hs as [Hs|Hs]].
    + cbn in Hs. destruct Hs as [E|[E|[E|[]]]]; try discriminate. injection E as <- <-. rewrite Ho in Ho'. injection Ho' as <-. reflexivity.
    + apply Hg' in Hs as (? & ? & ? & _ & _ & E). discriminate.
    + cbn in Hs. destruct Hs as [E|[E|[E|[]]]]; discriminate.
  - apply (aw_final b _ tr cleared m R); [|left; apply Mem; cbn; auto].
    intros v Hv. destruct (All _ Hv) as (b' & o' & gas' & _ & Ho' & Hs & Hg'). apply in_app_iff in Hs as [Hs|Hs]; [|apply in_app_iff in Hs as [Hs|Hs]].
    + cbn in Hs. destruct Hs as [E|[E|[E|[]]]]; try discriminate. injection E as <- <-. rewrite Ho in Ho'. injection Ho' as <-. reflexivity.
    + apply Hg' in Hs as (? & ? & ? & _ & _ & E). discriminate.
    + cbn in Hs. destruct Hs as [E|[E|[E|[]]]]; discriminate.
  - apply (size_final b _ tr cleared m R); [|left; apply Mem; cbn; auto].
    intros v Hv. destruct (All _ Hv) as (b' & o' & gas' & _ & Ho' & Hs & Hg'). apply in_app_iff in Hs as [Hs|Hs]; [|apply in_app_iff in Hs as [Hs|Hs]].
    + cbn in Hs. destruct Hs as [E|[E|[E|[]]]]; try discriminate. injection E as <- <-. rewrite Ho in Ho'. injection Ho' as <-. reflexivity.
    + apply Hg' in Hs as (? & ? & ? & _ & _ & E). discriminate.
    + cbn in Hs. destruct Hs as [E|[E|[E|[]]]]; discriminate.
  - intros Nd j g v Hj Hv. apply (gas_final g b _ tr cleared m R).
    + intros v' Hv'. destruct (All _ Hv') as (b' & o' & gas' & _ & Ho' & Hs & Hg'). apply in_app_iff in Hs as [Hs|Hs]; [|apply in_app_iff in Hs as [Hs|Hs]].
      * cbn in Hs. destruct Hs as [E|[E|[E|[]]]]; discriminate.
      * apply Hg' in Hs as (j' & g' & v'' & Hj' & Hv'' & E). injection E as E1 E2 E3. subst b' v''. assert (g' = g) by lia. subst g'.
        rewrite Ho in Ho'. injection Ho' as <-.
        assert (j' = j).
        { apply (proj1 (NoDup_nth_error include) Nd); [apply nth_error_Some; congruence | congruence]. }
        subst j'. congruence.
      * cbn in Hs. destruct Hs as [E|[E|[E|[]]]]; discriminate.
    + left. apply Mem. apply in_app_iff. right. apply in_app_iff. left. apply Hg. exists j, g, v. auto.
Qed.

(* Gas rows of species that are not included stay 0. *)
Lemma gas_untouched bins ls tr m g b : omap bin_steps bins = Some ls -> Permutation (concat ls) tr ->
  run_steps tr cleared = Some m -> ~ In g include -> m_gas m g b = 0%R.
Proof.
  intros H P R Hg. apply (gas_final g b _ tr cleared m R); [|right; reflexivity].
  intros v Hv. exfalso. apply (Permutation_in _ (Permutation_sym P)) in Hv. destruct (serial_steps _ _ _ H Hv) as (b' & l' & Hb' & Hl' & Hs).
  destruct (bin_steps_inv b' l' Hl') as (o' & gas' & Ho' & -> & Hg').
  apply in_app_iff in Hs as [Hs|Hs]; [|apply in_app_iff in Hs as [Hs|Hs]].
  - cbn in Hs. destruct Hs as [E|[E|[E|[]]]]; discriminate.
  - apply Hg' in Hs as (j' & g' & v'' & Hj' & _ & E). injection E as E1 _ _. apply Hg. replace g with g' by lia. exact (nth_error_In _ _ Hj').
  - cbn in Hs. destruct Hs as [E|[E|[E|[]]]]; discriminate.
Qed.

(* dy_dt when the iterations run one after the other. *)
Lemma run_steps_app l1 l2 m : run_steps (l1 ++ l2) m = obind (run_steps l1 m) (run_steps l2).
Proof. revert m; induction l1 as [|s l1 IH]; intros m; cbn; [reflexivity|]. destruct (run_step s m); cbn; auto. Qed.

Lemma run_gas gas m m' o b : (forall s, In s gas -> gas_steps o b s) -> run_steps gas m = Some m' -> m_dy m' = m_dy m.
Proof.
  revert m; induction gas as [|s gas IH]; intros m Hg H; cbn in H; [injection H as <-; reflexivity|].
  apply obind_Some in H as (m1 & H1 & H). rewrite (IH m1 (fun s Hs => Hg s (or_intror Hs)) H).
  destruct (Hg s (or_introl eq_refl)) as (j & g & v & _ & _ & ->). rewrite Nat.add_1_r in H1. cbn [ModelPart.run_step] in H1.
  destruct (g <? ns); [|discriminate]. injection H1 as <-. reflexivity.
Qed.

Lemma run_bin b l o m m' : bin_steps b = Some l -> bin_compute b = Some o -> run_steps l m = Some m' ->
  forall x, m_dy m' x = if (ns + b * nc <=? x) && (x <? ns + (b + 1) * nc) then nth (x - (ns + b * nc)) (o_dm o) 0%R else m_dy m x.
Proof.
  intros Hl Ho H x. destruct (bin_steps_inv b l Hl) as (o' & gas & Ho' & -> & Hg). rewrite Ho in Ho'. injection Ho' as <-.
  rewrite run_steps_app in H. cbn [ModelPart.run_steps ModelPart.run_step obind] in H. rewrite run_steps_app in H.
  apply obind_Some in H as (m2 & H2 & H). apply (run_gas _ _ _ o b) in H2; [|intros s Hs; apply Hg, Hs]. cbn [m_dy] in H2.
  cbn [ModelPart.run_steps ModelPart.run_step obind m_index1 m_index2] in H.
  match type of H with context [if ?c then _ else _] => destruct c eqn:C; [|discriminate] end. cbn [obind] in H. injection H as <-. cbn [m_dy].
  apply andb_true_iff in C as [C1 C2]. apply Nat.eqb_eq in C2. assert (L := bin_dm_length b o Ho).
  replace (ns + 1 + b * nc - 1) with (ns + b * nc) by lia. rewrite L, H2.
  replace (ns + b * nc + nc) with (ns + (b + 1) * nc) by lia. reflexivity.
Qed.

Lemma serial_dy bins : forall ls m m', omap bin_steps bins = Some ls -> run_steps (concat ls) m = Some m' ->
  forall x, (forall b, In b bins -> ns + b * nc <= x < ns + (b + 1) * nc -> exists o, bin_compute b = Some o /\ m_dy m' x = nth (x - (ns + b * nc)) (o_dm o) 0%R) /\
            ((forall b, In b bins -> ~ (ns + b * nc <= x < ns + (b + 1) * nc)) -> m_dy m' x = m_dy m x).
Proof.
  induction bins as [|b bins IH]; intros ls m m' H R x.
  - cbn in H. injection H as <-. cbn in R. injection R as <-. split; [intros b [] | reflexivity].
  - cbn in H. destruct (bin_steps b) as [l|] eqn:El; [|discriminate]. cbn in H. destruct (omap bin_steps bins) as [ls'|] eqn:Els; [|discriminate].
    injection H as <-. cbn [concat] in R. rewrite run_steps_app in R. apply obind_Some in R as (m1 & R1 & R2).
    destruct (IH ls' m1 m' eq_refl R2 x) as [I1 I2].
    destruct (bin_steps_inv b l El) as (o & gas & Ho & _ & _). assert (RB := run_bin b l o m m1 El Ho R1 x).
    split.
    + intros b' [<-|Hb'] Hx; [|apply I1; assumption].
      destruct (in_dec Nat.eq_dec b bins) as [Hin|Hni]; [apply I1; assumption|].
      exists o. split; [exact Ho|]. rewrite I2.
      * rewrite RB. rewrite (proj2 (Nat.leb_le _ _)), (proj2 (Nat.ltb_lt _ _)) by lia. reflexivity.
      * intros b'' Hb'' Hx''. assert (b'' = b) by nia. subst. contradiction.
    + intros Hn. rewrite I2 by (intros b' Hb'; apply Hn; right; exact Hb'). rewrite RB.
      destruct (Nat.leb_spec (ns + b * nc) x), (Nat.ltb_spec x (ns + (b + 1) * nc)); cbn [andb]; try reflexivity.
      exfalso. apply (Hn b (or_introl eq_refl)). lia.
Qed.
End Facts.
