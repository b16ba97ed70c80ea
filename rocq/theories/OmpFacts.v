(* Facts about the OpenMP regions. *)
From Coq Require Import List Bool Arith ZArith Lia Permutation Reals Sorted.
From Verif Require Import Base ModelLang ModelGen LangFacts ModelOmp GenReact.
Import ListNotations.
Open Scope list_scope.

Lemma interleaves_perm {A} (ls : list (list A)) tr : interleaves ls tr -> Permutation (concat ls) tr.
Proof.
  induction 1 as [ls H | ls1 a l ls2 tr _ IH].
  - induction H as [|l ls -> _ IH]; cbn [concat]; [constructor | exact IH].
  - rewrite concat_app in *. cbn [concat] in *.
    transitivity (a :: concat ls1 ++ l ++ concat ls2); [|constructor; exact IH].
    symmetry. rewrite <- app_comm_cons. apply Permutation_middle.
Qed.

Lemma concat_map_concat {A} (ls : list (list (list A))) : concat (map (@concat A) ls) = concat (concat ls).
Proof. induction ls as [|l ls IH]; cbn [map concat]; [reflexivity|]. rewrite concat_app, IH. reflexivity. Qed.

Lemma concat_perm {A} (l1 l2 : list (list A)) : Permutation l1 l2 -> Permutation (concat l1) (concat l2).
Proof.
  induction 1; cbn [concat]; [constructor | apply Permutation_app_head, IHPermutation | | etransitivity; eassumption].
  rewrite !app_assoc. apply Permutation_app_tail, Permutation_app_comm.
Qed.

Lemma execution_perm {C X} (bs : list (block C X)) tr : execution bs tr -> Permutation (concat bs) tr.
Proof.
  intros (th & H1 & H2). apply interleaves_perm in H2. rewrite concat_map_concat in H2.
  rewrite <- H2. symmetry. apply concat_perm, H1.
Qed.

(* Executions exist: one thread that runs all the blocks in order. *)
Lemma interleaves_one {A} (l : list A) : interleaves [l] l.
Proof.
  induction l as [|a l IH]; [constructor; repeat constructor|].
  exact (il_step [] a l [] l IH).
Qed.
Lemma execution_sequential {C X} (bs : list (block C X)) : execution bs (concat bs).
Proof. exists [bs]. split; [cbn [concat]; rewrite app_nil_r; apply Permutation_refl | apply interleaves_one]. Qed.

Section Perm.
Context {C D X : Type} `{EqB D}.
Variable addr : C -> option D.
Variable val : X -> option R.

Lemma run_assigns_perm l1 l2 m : Permutation l1 l2 -> consistent addr l1 ->
  same_result (run_assigns addr val l1 m) (run_assigns addr val l2 m).
Proof.
  intros HP Hc.
  assert (Hc2 : consistent addr l2).
  { intros c e c' e' d H1 H2. apply Hc; apply (Permutation_in _ (Permutation_sym HP)); assumption. }
  destruct (run_assigns addr val l1 m) as [m1|] eqn:E1.
  - assert (F1 := run_assigns_Some _ _ _ _ _ E1).
    assert (F2 : Forall (assign_ok addr val) l2) by (rewrite <- HP; exact F1).
    destruct (run_assigns_ok addr val l1 m F1) as (m1' & H1 & H2 & H3). rewrite E1 in H1. injection H1 as <-.
    destruct (run_assigns_ok addr val l2 m F2) as (m2 & G1 & G2 & G3). rewrite G1. cbn [same_result]. intros d.
    assert (Hdec : (exists c e, In (c, e) l1 /\ addr c = Some d) \/ (forall c e, In (c, e) l1 -> addr c <> Some d)).
    { clear - d H. induction l1 as [|[c2 e2] l IHl]; [right; intros ? ? []|].
      destruct IHl as [(c3 & e3 & Hin & Ha)|Hn]; [left; exists c3, e3; split; [right|]; assumption|].
      destruct (addr c2) as [d2|] eqn:E2.
      - destruct (eqb_dec d2 d) as [->|Hne]; [left; exists c2, e2; split; [left; reflexivity | exact E2]|].
        right. intros c3 e3 [Heq|Hin]; [injection Heq as <- <-; congruence | apply (Hn _ _ Hin)].
      - right. intros c3 e3 [Heq|Hin]; [injection Heq as <- <-; congruence | apply (Hn _ _ Hin)]. }
    destruct Hdec as [(c & e & Hin & Ha)|Hn].
    + destruct (proj1 (Forall_forall _ _) F1 _ Hin) as (d' & x & Hd & Hx). cbn [fst snd] in *.
      rewrite (H3 Hc c e d x Hin Ha Hx). symmetry. apply (G3 Hc2 c e d x); [|exact Ha|exact Hx].
      apply (Permutation_in _ HP), Hin.
    + rewrite H2 by exact Hn. rewrite G2; [reflexivity|]. intros c e Hin.
      apply (Hn c e). apply (Permutation_in _ (Permutation_sym HP)), Hin.
  - destruct (run_assigns addr val l2 m) as [m2|] eqn:E2; [|exact I].
    assert (F2 := run_assigns_Some _ _ _ _ _ E2).
    assert (F1 : Forall (assign_ok addr val) l1) by (rewrite HP; exact F2).
    destruct (run_assigns_ok addr val l1 m F1) as (m1' & H1 & _). congruence.
Qed.

Lemma NoDup_consistent (l : list (C * X)) : NoDup (map fst l) -> (forall c c' d, addr c = Some d -> addr c' = Some d -> c = c') ->
  consistent addr l.
Proof.
  intros Hnd Hinj c e c' e' d H1 H2 H3 H4. rewrite <- (Hinj c c' d H3 H4) in H2.
  clear - Hnd H1 H2. induction l as [|[a b] l IH]; [destruct H1|]. cbn [map fst] in Hnd. inversion Hnd; subst.
  assert (K : forall x, In (c, x) l -> In c (map fst l)) by (intros x Hx; apply (in_map fst) in Hx; exact Hx).
  destruct H1 as [H1|H1], H2 as [H2'|H2'].
  - congruence.
  - injection H1 as -> ->. exfalso; eauto.
  - injection H2' as -> ->. exfalso; eauto.
  - auto.
Qed.

Lemma assigns_as_items (tr : block C X) : assigns (as_items tr) = tr.
Proof. induction tr as [|[c e] tr IH]; cbn; [reflexivity | f_equal; exact IH]. Qed.

(* Every execution of the blocks equals running the assignments in order. *)
Lemma execution_result p (bs : list (block C X)) tr m : execution bs tr -> concat bs = assigns p ->
  consistent addr (assigns p) ->
  same_result (run addr val (as_items tr) m) (run addr val p m).
Proof.
  intros He Hb Hc. rewrite !run_is_assigns, assigns_as_items.
  apply execution_perm in He. rewrite Hb in He.
  assert (G := run_assigns_perm _ _ m He Hc).
  unfold same_result in *. destruct (run_assigns addr val (assigns p) m), (run_assigns addr val tr m); auto.
Qed.
End Perm.

(* ------------------------------------------------------------------ *)
(* The directives cut the lines into blocks. *)
Section Cut.
Context {C X : Type}.
Definition pure (l : list (gitem C X)) : Prop := Forall (fun a => match a with Assign _ _ => True | _ => False end) l.

Fixpoint cut {A} (i : nat) (br : list nat) (cur : list A) (ls : list A) : list (list A) :=
  match ls with
  | [] => [cur]
  | l :: ls' => if inb i br then cur :: cut (S i) br [l] ls' else cut (S i) br (cur ++ [l]) ls'
  end.

Lemma concat_cut {A} i br (cur ls : list A) : concat (cut i br cur ls) = cur ++ ls.
Proof.
  revert i cur; induction ls as [|l ls IH]; intros i cur; cbn [cut]; [cbn; reflexivity|].
  destruct (inb i br); cbn [concat]; rewrite IH; [reflexivity | rewrite <- app_assoc; reflexivity].
Qed.

Lemma omp_blocks_pure b l p : pure l -> omp_blocks (Some b) (l ++ p) = omp_blocks (Some (b ++ assigns l)) p.
Proof.
  intros Hl; revert b; induction Hl as [|[c e| | | |] l Ha Hl IH]; intros b; cbn [app]; try destruct Ha.
  - cbn [assigns]. rewrite app_nil_r. reflexivity.
  - cbn [omp_blocks assigns]. rewrite IH, <- app_assoc. reflexivity.
Qed.

Lemma omp_blocks_chunks i br cur (ls : list (list (gitem C X))) : Forall pure ls -> 0 < i ->
  omp_blocks (Some (flat_map assigns cur)) (omp_chunks i br ls ++ [OmpEndSingle; OmpEndParallel]) =
  Some (map (flat_map assigns) (cut i br cur ls)).
Proof.
  intros Hp; revert i cur; induction Hp as [|l ls Hl Hp IH]; intros i cur Hi; cbn [omp_chunks cut].
  - reflexivity.
  - destruct (Nat.eqb_spec i 0); [lia|]. cbn [app].
    destruct (inb i br); cbn [app map].
    + cbn [omp_blocks]. rewrite <- app_assoc, omp_blocks_pure by exact Hl. cbn [app].
      replace (assigns l) with (flat_map assigns [l]) by (cbn; apply app_nil_r).
      rewrite IH by lia. reflexivity.
    + rewrite <- app_assoc, omp_blocks_pure by exact Hl.
      replace (flat_map assigns cur ++ assigns l) with (flat_map assigns (cur ++ [l])).
      2:{ rewrite flat_map_app. cbn. rewrite app_nil_r. reflexivity. }
      apply IH. lia.
Qed.

Lemma omp_program_frame br (ls : list (list (gitem C X))) : Forall pure ls -> ls <> [] ->
  omp_program (omp_frame (Some br) ls) = Some (map (flat_map assigns) (cut 0 br [] ls)).
Proof.
  intros Hp Hne. destruct ls as [|l ls]; [congruence|]. inversion Hp; subst. cbn [omp_frame omp_chunks cut].
  cbn [Nat.eqb app omp_program omp_blocks].
  destruct (inb 0 br); cbn [app omp_blocks map].
  - rewrite <- app_assoc, omp_blocks_pure by assumption. cbn [app].
    replace (assigns l) with (flat_map assigns [l]) by (cbn; apply app_nil_r).
    rewrite omp_blocks_chunks by (assumption || lia). reflexivity.
  - rewrite <- app_assoc, omp_blocks_pure by assumption. cbn [app].
    replace (assigns l) with (flat_map assigns [l]) by (cbn; apply app_nil_r).
    apply omp_blocks_chunks; [assumption | lia].
Qed.

(* With no lines at all the closing directives stand alone. *)
Lemma omp_program_empty br : omp_program (omp_frame (C:=C) (E:=X) (Some br) []) = None.
Proof. reflexivity. Qed.

Lemma frame_blocks br (ls : list (list (gitem C X))) : Forall pure ls -> ls <> [] ->
  exists bs, omp_program (omp_frame (Some br) ls) = Some bs /\
    concat bs = assigns (omp_frame None ls) /\
    exists segs : list (list (list (gitem C X))), concat segs = ls /\ bs = map (flat_map assigns) segs.
Proof.
  intros Hp Hne. eexists. split; [apply omp_program_frame; assumption|]. split.
  - rewrite assigns_omp_frame.
    assert (G : forall segs : list (list (list (gitem C X))), concat (map (flat_map assigns) segs) = flat_map assigns (concat segs)).
    { induction segs as [|s segs IH]; cbn [map concat]; [reflexivity|]. rewrite flat_map_app, IH. reflexivity. }
    rewrite G, concat_cut. reflexivity.
  - eexists; split; [|reflexivity]. apply concat_cut.
Qed.
End Cut.
