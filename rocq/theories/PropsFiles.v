(* C48, C49, C65: cleaning, reuse and crashes of the driver scripts. *)
From Coq Require Import String List Bool Arith Lia Ascii ZArith Permutation.
From Verif Require Import Base PyStr PyDict ModelParse ModelRo2 RateText SpecRate ModelFiles SpecFiles ParseTables.
Import ListNotations.
Import Coq.Lists.List.
Open Scope nat_scope.
Open Scope list_scope.
Local Arguments eqb : simpl never.

(* ------------------------------------------------------------------ *)
(* Names. *)
Lemma has_spec p name : has p name = true <-> contains p name.
Proof.
  unfold has. destruct (find_sub p name) as [i|] eqn:E.
  - split; [intros _|reflexivity]. apply find_sub_Some in E as ((b & Hb) & _ & _).
    exists (firstn i name), b. rewrite <- Hb. symmetry. apply firstn_skipn.
  - split; [discriminate|]. intros H. apply find_sub_None in E. contradiction.
Qed.

Fixpoint differ (r1 r2 : str) : bool :=
  match r1, r2 with x :: r1', y :: r2' => if Ascii.eqb x y then differ r1' r2' else true | _, _ => false end.
Lemma differ_app r1 : forall r2 a b, differ r1 r2 = true -> r1 ++ a <> r2 ++ b.
Proof.
  induction r1 as [|x r1 IH]; intros [|y r2] a b H E; try discriminate. cbn [differ] in H. cbn [app] in E. injection E as -> E.
  rewrite Ascii.eqb_refl in H. exact (IH r2 a b H E).
Qed.
Lemma tails_differ a s1 b s2 : differ (rev s1) (rev s2) = true -> a ++ s1 <> b ++ s2.
Proof. intros H E. apply (f_equal (@rev ascii)) in E. rewrite !rev_app_distr in E. exact (differ_app _ _ _ _ H E). Qed.
(* name = tail, or front ++ name ++ tail *)
Lemma whole_differs a s1 s2 : differ (rev s1) (rev s2) = true -> a ++ s1 <> s2.
Proof. intros H. exact (tails_differ a s1 [] s2 H). Qed.
Lemma whole_differs' a s1 s2 : differ (rev s1) (rev s2) = true -> s2 <> a ++ s1.
Proof. intros H E. exact (whole_differs a s1 s2 H (eq_sym E)). Qed.

Ltac distinct :=
  unfold eqn_name, sp2a_name, sp_name, eqs_name, ro2_name, gas_module, f2py_module, f2py_source; rewrite ?app_assoc;
  first [ discriminate | apply tails_differ; reflexivity | apply whole_differs; reflexivity | apply whole_differs'; reflexivity ].

Lemma app_tail_inj (a b s : str) : a ++ s = b ++ s -> a = b.
Proof. apply app_inv_tail. Qed.

(* ------------------------------------------------------------------ *)
(* Executions. *)
Section Exec.
Variable compiles : content -> bool.
Notation exec := (exec compiles).

Lemma dget_drop x name d : dget x (drop name d) = if eqb x name then None else dget x d.
Proof.
  unfold drop. induction d as [|[k e] d IH]; cbn [filter dget fst].
  - destruct (eqb x name); reflexivity.
  - destruct (eqb k name) eqn:E; cbn [negb].
    + rewrite IH. destruct (eqb x name) eqn:E1; [reflexivity|]. apply eqb_eq in E. subst k. rewrite E1. reflexivity.
    + cbn [dget]. rewrite IH. destruct (eqb x k) eqn:E2; [|reflexivity]. apply eqb_eq in E2. subst k. rewrite E. reflexivity.
Qed.
Lemma drop_keys name d : NoDup (dkeys d) -> NoDup (dkeys (drop name d)).
Proof.
  unfold drop, dkeys. induction d as [|[k e] d IH]; cbn [filter map fst]; [constructor|]. intros H. inversion H as [|? ? H1 H2]; subst.
  destruct (eqb k name); cbn [negb]; [apply IH, H2|]. cbn [map fst]. constructor; [|apply IH, H2].
  intros X. apply H1. apply in_map_iff in X as (p & E & X). apply filter_In in X as [X _]. apply in_map_iff. exists p. auto.
Qed.

Lemma exec_app l1 l2 d : exec (l1 ++ l2) d = match exec l1 d with (d', None) => exec l2 d' | r => r end.
Proof. revert d; induction l1 as [|a l1 IH]; intros d; [reflexivity|]. cbn [app ModelFiles.exec]. destruct (do_act compiles a d); [apply IH | reflexivity]. Qed.

(* A run that stopped is a shorter run that did not. *)
Lemma exec_stop l : forall d, exists m, m <= List.length l /\ exec (firstn m l) d = (fst (exec l d), None) /\ (snd (exec l d) = None -> m = List.length l).
Proof.
  induction l as [|a l IH]; intros d.
  - exists 0. split; [reflexivity|]. split; reflexivity.
  - cbn [ModelFiles.exec]. destruct (do_act compiles a d) as [d'|e] eqn:E.
    + destruct (IH d') as (m & Hm & H & H'). exists (S m). cbn [firstn ModelFiles.exec List.length]. rewrite E. split; [lia|]. split; [exact H|]. intros X. rewrite H' by exact X. reflexivity.
    + exists 0. split; [lia|]. split; [reflexivity | discriminate].
Qed.

Lemma do_act_keys a d d' : do_act compiles a d = Ok d' -> NoDup (dkeys d) -> NoDup (dkeys d').
Proof.
  intros H Hn. destruct a as [name|name|name c|src lib]; cbn [do_act] in H.
  - destruct (dget name d) as [[c|]|]; try discriminate. injection H as <-. apply drop_keys, Hn.
  - destruct (dget name d) as [[c|]|]; try discriminate; injection H as <-; apply NoDup_dset, Hn.
  - destruct (dget name d) as [[c'|]|]; try discriminate; injection H as <-; apply NoDup_dset, Hn.
  - destruct (dget src d) as [[c|]|]; [destruct (compiles c)| |]; injection H as <-; try exact Hn. apply NoDup_dset, Hn.
Qed.
Lemma exec_keys l : forall d, NoDup (dkeys d) -> NoDup (dkeys (fst (exec l d))).
Proof.
  induction l as [|a l IH]; intros d Hn; [exact Hn|]. cbn [ModelFiles.exec]. destruct (do_act compiles a d) as [d'|e] eqn:E; [|exact Hn].
  apply IH. exact (do_act_keys _ _ _ E Hn).
Qed.

(* What an action can touch. *)
Definition touches (a : act) : str := match a with Remove n => n | Open n => n | Put n _ => n | Compile _ lib => lib end.
Lemma do_act_other a d d' x : do_act compiles a d = Ok d' -> x <> touches a -> dget x d' = dget x d.
Proof.
  intros H Hx. destruct a as [name|name|name c|src lib]; cbn [do_act touches] in *.
  - destruct (dget name d) as [[c|]|]; try discriminate. injection H as <-. rewrite dget_drop. apply eqb_neq in Hx. rewrite Hx. reflexivity.
  - destruct (dget name d) as [[c|]|]; try discriminate; injection H as <-; apply dget_dset_other, Hx.
  - destruct (dget name d) as [[c'|]|]; try discriminate; injection H as <-; apply dget_dset_other, Hx.
  - destruct (dget src d) as [[c|]|]; [destruct (compiles c)| |]; injection H as <-; try reflexivity. apply dget_dset_other, Hx.
Qed.
Lemma exec_other l x : forall d, (forall a, In a l -> x <> touches a) -> dget x (fst (exec l d)) = dget x d.
Proof.
  induction l as [|a l IH]; intros d H; [reflexivity|]. cbn [ModelFiles.exec]. destruct (do_act compiles a d) as [d'|e] eqn:E; [|reflexivity].
  rewrite IH by (intros b Hb; apply H; right; exact Hb). apply (do_act_other _ _ _ _ E). apply H. left. reflexivity.
Qed.

(* Removals only. *)
Definition is_remove (a : act) : Prop := match a with Remove _ => True | _ => False end.
Lemma exec_removes l x : Forall is_remove l -> forall d, dget x (fst (exec l d)) = dget x d \/ dget x (fst (exec l d)) = None.
Proof.
  induction 1 as [|a l Ha Hl IH]; intros d; [left; reflexivity|]. cbn [ModelFiles.exec]. destruct a as [name| | |]; try contradiction.
  destruct (do_act compiles (Remove name) d) as [d'|e] eqn:E; [|left; reflexivity].
  destruct (IH d') as [->| ->]; [|right; reflexivity].
  cbn [do_act] in E. destruct (dget name d) as [[c|]|]; try discriminate. injection E as <-. rewrite dget_drop.
  destruct (eqb x name); [right | left]; reflexivity.
Qed.
Lemma clean_removes names pats : Forall is_remove (clean_pass names pats).
Proof. apply Forall_forall. intros a H. unfold clean_pass in H. apply in_flat_map in H as (n & _ & H). apply in_map_iff in H as (p & <- & _). exact I. Qed.
Lemma clean_touches names pats a : In a (clean_pass names pats) -> exists p, In p pats /\ contains p (touches a).
Proof.
  intros H. unfold clean_pass in H. apply in_flat_map in H as (n & _ & H). apply in_map_iff in H as (p & <- & H).
  apply filter_In in H as [H1 H2]. exists p. split; [exact H1|]. apply has_spec, H2.
Qed.

(* Cleaning, name by name. *)
Definition okname (pats : list str) (d : dir) (name : str) : Prop :=
  (forall p q, In p pats -> In q pats -> contains p name -> contains q name -> p = q) /\
  (forall p, In p pats -> contains p name -> exists c, dget name d = Some (File c)).

Lemma clean_names pats : NoDup pats -> forall names d, NoDup names -> (forall n, In n names -> dget n d <> None) ->
  (snd (exec (clean_pass names pats) d) = None <-> (forall n, In n names -> okname pats d n)) /\
  (snd (exec (clean_pass names pats) d) = None -> forall n, In n names -> stale pats n -> dget n (fst (exec (clean_pass names pats) d)) = None).
Proof.
  intros Np. induction names as [|n names IH]; intros d Hn Hin.
  - split; [split; [intros _ n [] | reflexivity] | intros _ n []].
  - inversion Hn as [|? ? Hn1 Hn2]; subst.
    change (clean_pass (n :: names) pats) with (map (fun _ => Remove n) (filter (fun p => has p n) pats) ++ clean_pass names pats).
    rewrite exec_app. destruct (filter (fun p => has p n) pats) as [|p0 ps] eqn:Ef.
    + assert (None_ : forall p, In p pats -> ~ contains p n).
      { intros p Hp Hc. apply has_spec in Hc. assert (X : In p (filter (fun p => has p n) pats)) by (apply filter_In; auto). rewrite Ef in X. destruct X. }
      cbn [map ModelFiles.exec]. destruct (IH d Hn2 (fun m Hm => Hin m (or_intror Hm))) as [I1 I2]. split.
      * rewrite I1. split.
        -- intros H m [<-|Hm]; [|apply H, Hm]. split; [intros p q Hp _ Hc | intros p Hp Hc]; destruct (None_ p Hp Hc).
        -- intros H m Hm. apply H. right. exact Hm.
      * intros H m [<-|Hm] Hs; [|apply I2; assumption]. destruct Hs as (p & Hp & Hc). destruct (None_ p Hp Hc).
    + assert (P0 : In p0 pats /\ contains p0 n).
      { assert (X : In p0 (filter (fun p => has p n) pats)) by (rewrite Ef; left; reflexivity). apply filter_In in X as [X1 X2]. apply has_spec in X2. auto. }
      cbn [map ModelFiles.exec do_act]. destruct (dget n d) as [[c|]|] eqn:Ed.
      * assert (Dn : dget n (drop n d) = None) by (rewrite dget_drop, eqb_refl; reflexivity).
        destruct ps as [|p1 ps].
        -- cbn [map ModelFiles.exec].
           destruct (IH (drop n d) Hn2) as [I1 I2].
           { intros m Hm. rewrite dget_drop. destruct (eqb m n) eqn:E; [apply eqb_eq in E; subst; contradiction|]. apply Hin. right. exact Hm. }
           assert (Same : forall m, In m names -> (okname pats (drop n d) m <-> okname pats d m)).
           { intros m Hm. assert (E : dget m (drop n d) = dget m d).
             { rewrite dget_drop. destruct (eqb m n) eqn:E; [apply eqb_eq in E; subst; contradiction | reflexivity]. }
             unfold okname. rewrite E. reflexivity. }
           split.
           ++ rewrite I1. split.
              ** intros H m [<-|Hm]; [|apply Same; [exact Hm | apply H, Hm]]. split.
                 --- intros p q Hp Hq Cp Cq. apply has_spec in Cp, Cq.
                     assert (X : In p (filter (fun p => has p n) pats)) by (apply filter_In; auto).
                     assert (Y : In q (filter (fun p => has p n) pats)) by (apply filter_In; auto). rewrite Ef in X, Y.
                     destruct X as [<-|[]], Y as [<-|[]]. reflexivity.
                 --- intros p _ _. exists c. exact Ed.
              ** intros H m Hm. apply Same; [exact Hm|]. apply H. right. exact Hm.
           ++ intros H m [<-|Hm] Hs; [|apply I2; assumption].
              destruct (exec_removes (clean_pass names pats) n (clean_removes names pats) (drop n d)) as [X|X]; [rewrite X; exact Dn | exact X].
        -- cbn [map ModelFiles.exec do_act]. rewrite Dn. cbn [snd]. split; [|discriminate]. split; [discriminate|]. intros H. exfalso.
           assert (X : In p0 (filter (fun p => has p n) pats)) by (rewrite Ef; left; reflexivity).
           assert (Y : In p1 (filter (fun p => has p n) pats)) by (rewrite Ef; right; left; reflexivity).
           assert (N2 : NoDup (filter (fun p => has p n) pats)) by (apply NoDup_filter, Np). rewrite Ef in N2.
           apply filter_In in X as [X1 X2]. apply filter_In in Y as [Y1 Y2]. apply has_spec in X2, Y2.
           destruct (H n (or_introl eq_refl)) as [H1 _]. pose proof (H1 _ _ X1 Y1 X2 Y2). subst p1. inversion N2 as [|? ? N3 _]; subst.
           apply N3. left. reflexivity.
      * cbn [snd]. split; [|discriminate]. split; [discriminate|]. intros H. exfalso.
        destruct (H n (or_introl eq_refl)) as [_ H2]. destruct (H2 p0 (proj1 P0) (proj2 P0)) as [c Hc]. congruence.
      * exfalso. exact (Hin n (or_introl eq_refl) Ed).
Qed.
End Exec.

(* ------------------------------------------------------------------ *)
(* C48 *)
Section C48.
Variable ls : dir -> list str.
Hypothesis ls_ok : lists_names ls.
Variable compiles : content -> bool.

Lemma ls_dget d n : In n (ls d) <-> dget n d <> None.
Proof.
  pose proof (ls_ok d) as P. split.
  - intros H X. apply (Permutation_in _ P) in H. apply dget_None in X. contradiction.
  - intros H. apply (Permutation_in _ (Permutation_sym P)). destruct (dget n d) as [e|] eqn:E; [|congruence].
    apply dget_Some_In in E. unfold dkeys. apply in_map_iff. exists (n, e). auto.
Qed.
Lemma ls_NoDup d : NoDup (dkeys d) -> NoDup (ls d).
Proof. apply Permutation_NoDup, Permutation_sym, ls_ok. Qed.

(* One cleaning pass: it succeeds exactly when nothing stands in its way; then
   the stale names are gone; and other names are never touched. *)
Theorem C48_exactly_when : forall pats d, NoDup pats -> NoDup (dkeys d) ->
  let r := exec compiles (clean_pass (ls d) pats) d in
  (snd r = None <-> cleanable pats d) /\
  (snd r = None -> forall name, stale pats name -> dget name (fst r) = None) /\
  (forall name, ~ stale pats name -> dget name (fst r) = dget name d).
Proof.
  intros pats d Np Nd r. destruct (clean_names compiles pats Np (ls d) d (ls_NoDup d Nd)) as [H1 H2].
  { intros n Hn. apply ls_dget, Hn. }
  fold r in H1, H2. split; [|split].
  - rewrite H1. split.
    + intros H name e p He Hp Hc. assert (Hn : In name (ls d)) by (apply ls_dget; congruence). destruct (H name Hn) as [A B]. split.
      * destruct (B p Hp Hc) as [c X]. exists c. congruence.
      * intros q Hq Cq. exact (A q p Hq Hp Cq Hc).
    + intros H n Hn. apply ls_dget in Hn. destruct (dget n d) as [e|] eqn:E; [|congruence]. split.
      * intros p q Hp Hq Cp Cq. destruct (H n e q E Hq Cq) as [_ X]. exact (X p Hp Cp).
      * intros p Hp Hc. destruct (H n e p E Hp Hc) as [[c ->] _]. exists c. exact E.
  - intros H name Hs. destruct (dget name d) as [e|] eqn:E.
    + apply H2; [exact H | apply ls_dget; congruence | exact Hs].
    + destruct (exec_removes compiles _ name (clean_removes (ls d) pats) d) as [X|X]; fold r in X; [congruence | exact X].
  - intros name Hs. unfold r. apply exec_other. intros a Ha Hx. apply Hs. subst name. exact (clean_touches (ls d) pats a Ha).
Qed.
End C48.

(* Lists of writes. *)
Definition is_write (a : act) : Prop := match a with Open _ | Put _ _ => True | _ => False end.
Lemma exec_writes compiles l x : Forall is_write l -> forall d, dget x (fst (exec compiles l d)) = dget x d \/
  exists c, dget x (fst (exec compiles l d)) = Some (File c) /\ (In (Put x c) l \/ (c = Partial /\ In (Open x) l)).
Proof.
  induction 1 as [|a l Ha Hl IH]; intros d; [left; reflexivity|]. cbn [exec].
  destruct (do_act compiles a d) as [d'|e] eqn:E; [|left; reflexivity].
  destruct (IH d') as [X|(c & X & Y)].
  - rewrite X. destruct a as [|name|name c|]; try contradiction; cbn [do_act] in E;
      (destruct (dget name d) as [[c'|]|]; try discriminate; injection E as <-); rewrite dget_dset; destruct (eqb x name) eqn:E1; try (left; reflexivity);
      apply eqb_eq in E1; subst name; right; eexists; (split; [reflexivity|]); cbn [In]; auto.
  - right. exists c. split; [exact X|]. cbn [In]. tauto.
Qed.
Lemma write_file_writes fs : Forall is_write (flat_map write_file fs).
Proof. induction fs as [|nc fs IH]; [constructor|]. cbn [flat_map write_file app]. repeat constructor; exact IH. Qed.
Lemma in_writes fs a : In a (flat_map write_file fs) -> exists c, In (touches a, c) fs.
Proof.
  intros H. apply in_flat_map in H as ([n c] & H1 & H2). exists c. cbn [write_file fst snd In] in H2. destruct H2 as [<-|[<-|[]]]; exact H1.
Qed.
Lemma put_writes fs n c : In (Put n c) (flat_map write_file fs) -> In (n, c) fs.
Proof.
  intros H. apply in_flat_map in H as ([n' c'] & H1 & H2). cbn [write_file fst snd In] in H2.
  destruct H2 as [H2|[H2|[]]]; [discriminate|]. injection H2 as -> ->. exact H1.
Qed.

Fixpoint put_all (fs : list (str * content)) (d : dir) : dir :=
  match fs with [] => d | (n, c) :: fs' => put_all fs' (dset n (File c) (dset n (File Partial) d)) end.
Lemma exec_put_all compiles fs : forall d d', exec compiles (flat_map write_file fs) d = (d', None) -> d' = put_all fs d.
Proof.
  induction fs as [|[n c] fs IH]; intros d d' H; [cbn in *; congruence|].
  cbn [flat_map write_file fst snd app exec do_act put_all] in *.
  assert (X : exec compiles (Put n c :: flat_map write_file fs) (dset n (File Partial) d) = (d', None)) by (destruct (dget n d) as [[?|]|]; [exact H | discriminate | exact H]).
  cbn [exec do_act] in X. rewrite dget_dset_same in X. apply IH, X.
Qed.
Lemma put_all_other fs x : forall d, ~ In x (map fst fs) -> dget x (put_all fs d) = dget x d.
Proof.
  induction fs as [|[n c] fs IH]; intros d H; [reflexivity|]. cbn [put_all]. cbn [map fst In] in H.
  rewrite IH by tauto. rewrite !dget_dset_other by (intros ->; apply H; left; reflexivity). reflexivity.
Qed.

Section Runs.
Variable ls : dir -> list str.
Hypothesis ls_ok : lists_names ls.
Variable compiles : content -> bool.

Lemma gas_patterns_NoDup : NoDup gas_patterns.
Proof. repeat constructor; cbn [In]; intros H; repeat (destruct H as [H|H]; [discriminate H|]); exact H. Qed.

(* A completed run: cleaned, then all files written. *)
Lemma gas_run_Ok fn text d d' i : gas_run ls compiles fn text d = Ok (d', i) ->
  exists n st d1, extract_mechanism text = Ok (n, st) /\ exec compiles (clean_pass (ls d) gas_patterns) d = (d1, None) /\
    d' = put_all ((eqn_name fn, Bytes text) :: gas_files fn n st) d1 /\ finish gas_module fn (p_sp2a st) (p_sp st) n d' = Ok i.
Proof.
  unfold gas_run, parse_run, gas_acts. rewrite exec_app.
  destruct (exec compiles (clean_pass (ls d) gas_patterns) d) as [d1 [e|]] eqn:Ec; [discriminate|].
  destruct (extract_mechanism text) as [[n st]|e] eqn:Et.
  - change (write_file (eqn_name fn, Bytes text) ++ flat_map write_file (gas_files fn n st)) with (flat_map write_file ((eqn_name fn, Bytes text) :: gas_files fn n st)).
    destruct (exec compiles (flat_map write_file _) d1) as [d2 [e|]] eqn:E2; [discriminate|]. cbn [bind fst snd].
    destruct (finish gas_module fn (p_sp2a st) (p_sp st) n d2) as [i'|e] eqn:Ef; [|discriminate]. cbn [bind]. intros H; injection H as <- <-.
    exists n, st, d1. repeat split; [|exact Ef]. apply (exec_put_all compiles). exact E2.
  - cbn [bind]. destruct (exec compiles _ d1) as [d2 [e'|]]; discriminate.
Qed.

Theorem C48_gas_partial : forall fn text d d' i, NoDup (dkeys d) -> gas_run ls compiles fn text d = Ok (d', i) ->
  (forall name, stale gas_stale name -> ~ In name (gas_fresh fn) -> dget name d' = None) /\
  (forall name, ~ stale gas_stale name -> ~ In name gas_modules -> dget name d' = dget name d).
Proof.
  intros fn text d d' i Nd H. destruct (gas_run_Ok _ _ _ _ _ H) as (n & st & d1 & _ & Ec & -> & _).
  destruct (C48_exactly_when ls ls_ok compiles gas_patterns d gas_patterns_NoDup Nd) as (_ & A & B). rewrite Ec in A, B. cbn [fst snd] in A, B.
  assert (F : map fst ((eqn_name fn, Bytes text) :: gas_files fn n st) =
     [eqn_name fn; sp2a_name fn; sp_name fn; eqs_name fn; gas_module Rates; fn ++ s_ "_reactant_indices.npy"; fn ++ s_ "_reactants_stoich_indices.npy";
      s_ "reactants_indices_sparse_" ++ fn ++ s_ ".npz"; gas_module Reactants; s_ "loss_gain_" ++ fn ++ s_ ".npz"; gas_module LossGain; gas_module Jacobian; ro2_name fn])
    by reflexivity.
  assert (M : forall k, ~ stale gas_stale (gas_module k)).
  { intros k (p & Hp & Hc). apply has_spec in Hc. destruct k; cbn [gas_stale In] in Hp; repeat (destruct Hp as [<-|Hp]; [discriminate Hc|]); exact Hp. }
  split; intros name H1 H2.
  - rewrite put_all_other; [apply A; [reflexivity | exact H1]|]. rewrite F. intros X. apply H2. unfold gas_fresh.
    cbn [In] in X. repeat (destruct X as [<-|X]; [first [destruct (M _ H1) | cbn [In]; tauto]|]). destruct X.
  - rewrite put_all_other; [apply B, H1|]. rewrite F. intros X. cbn [In] in X.
    assert (T : forall p a, In p gas_stale -> name <> a ++ p) by (intros p a Hp ->; apply H1; exists p; split; [exact Hp|]; exists a, []; rewrite app_nil_r; reflexivity).
    unfold gas_stale in T. cbn [In] in T.
    assert (T1 := T (s_ ".npy")). assert (T2 := T (s_ ".pickle")). assert (T3 := T (s_ ".npz")). assert (T4 := T (s_ ".eqn.txt")).
    destruct X as [<-|[<-|[<-|[<-|[<-|[<-|[<-|[<-|[<-|[<-|[<-|[<-|[<-|[]]]]]]]]]]]]]].
    + apply (T4 fn); auto.
    + apply (T2 (fn ++ s_ "_species_dict2array")); [auto|]. rewrite <- app_assoc. reflexivity.
    + apply (T2 (fn ++ s_ "_species_dict")); [auto|]. rewrite <- app_assoc. reflexivity.
    + apply (T2 (fn ++ s_ "_equations")); [auto|]. rewrite <- app_assoc. reflexivity.
    + apply H2. cbn. auto.
    + apply (T1 (fn ++ s_ "_reactant_indices")); [auto|]. rewrite <- app_assoc. reflexivity.
    + apply (T1 (fn ++ s_ "_reactants_stoich_indices")); [auto|]. rewrite <- app_assoc. reflexivity.
    + apply (T3 (s_ "reactants_indices_sparse_" ++ fn)); [auto|]. rewrite <- app_assoc. reflexivity.
    + apply H2. cbn. auto.
    + apply (T3 (s_ "loss_gain_" ++ fn)); [auto|]. rewrite <- app_assoc. reflexivity.
    + apply H2. cbn. auto.
    + apply H2. cbn. auto.
    + apply (T1 (fn ++ s_ "_RO2_indices")); [auto|]. rewrite <- app_assoc. reflexivity.
Qed.

(* Two passes. *)
Lemma passes_two p1 p2 d d' : NoDup p1 -> NoDup p2 -> NoDup (dkeys d) -> clean_passes ls compiles [p1; p2] d = (d', None) ->
  (forall name, stale (p1 ++ p2) name -> dget name d' = None) /\ (forall name, ~ stale (p1 ++ p2) name -> dget name d' = dget name d).
Proof.
  intros N1 N2 Nd H. cbn [clean_passes] in H.
  destruct (exec compiles (clean_pass (ls d) p1) d) as [d1 [e|]] eqn:E1; [discriminate|].
  destruct (exec compiles (clean_pass (ls d1) p2) d1) as [d2 [e|]] eqn:E2; [discriminate|]. injection H as <-.
  assert (Nd1 : NoDup (dkeys d1)) by (pose proof (exec_keys compiles (clean_pass (ls d) p1) d Nd) as X; rewrite E1 in X; exact X).
  destruct (C48_exactly_when ls ls_ok compiles p1 d N1 Nd) as (_ & A1 & B1). rewrite E1 in A1, B1. cbn [fst snd] in A1, B1.
  destruct (C48_exactly_when ls ls_ok compiles p2 d1 N2 Nd1) as (_ & A2 & B2). rewrite E2 in A2, B2. cbn [fst snd] in A2, B2.
  assert (R : forall name, dget name d2 = dget name d1 \/ dget name d2 = None).
  { intros name. pose proof (exec_removes compiles _ name (clean_removes (ls d1) p2) d1) as X. rewrite E2 in X. exact X. }
  split; intros name Hs.
  - destruct Hs as (p & Hp & Hc). apply in_app_or in Hp as [Hp|Hp].
    + destruct (R name) as [->|X]; [|exact X]. apply A1; [reflexivity|]. exists p. auto.
    + apply A2; [reflexivity|]. exists p. auto.
  - rewrite B2, B1; [reflexivity| |]; intros (p & Hp & Hc); apply Hs; exists p; (split; [apply in_or_app; auto | exact Hc]).
Qed.

Lemma stale_tail pats p a : In p pats -> stale pats (a ++ p).
Proof. intros H. exists p. split; [exact H|]. exists a, []. rewrite app_nil_r. reflexivity. Qed.

Theorem C48_aerosol_partial : forall fn text d d', NoDup (dkeys d) -> aerosol_parse ls compiles fn text d = (d', None) ->
  (forall name, stale aerosol_stale name -> ~ In name (aerosol_fresh fn) -> dget name d' = None) /\
  (forall name, ~ stale aerosol_stale name -> dget name d' = dget name d).
Proof.
  intros fn text d d' Nd H. unfold aerosol_parse in H.
  destruct (clean_passes ls compiles aerosol_passes d) as [d1 [e|]] eqn:Ec; [discriminate|].
  destruct (extract_mechanism text) as [[n st]|e] eqn:Et; [|discriminate]. apply exec_put_all in H. subst d'.
  destruct (passes_two [s_ ".f90"] gas_patterns d d1) as [A B]; [repeat constructor; intros [] | apply gas_patterns_NoDup | exact Nd | exact Ec|].
  split; intros name H1.
  - intros H2. rewrite put_all_other; [apply A, H1|]. intros X. apply H2. cbn [aerosol_files map fst In] in X. unfold aerosol_fresh. cbn [In].
    unfold eqn_name, sp2a_name, sp_name, ro2_name, f2py_source in X. tauto.
  - rewrite put_all_other; [apply B, H1|]. intros X. apply H1. cbn [aerosol_files map fst In] in X.
    assert (K : forall p, In p aerosol_stale -> forall a, name = a ++ p -> stale aerosol_stale name) by (intros p Hp a ->; apply stale_tail, Hp).
    assert (F1 := K (s_ ".f90")). assert (F2 := K (s_ ".npy")). assert (F3 := K (s_ ".pickle")). assert (F4 := K (s_ ".eqn.txt")).
    unfold aerosol_stale, gas_stale in F1, F2, F3, F4 |- *. cbn [In] in F1, F2, F3, F4.
    unfold eqn_name, sp2a_name, sp_name, ro2_name, f2py_source in X.
    destruct X as [X|[X|[X|[X|[X|[X|[X|[X|[X|[X|[X|[X|[]]]]]]]]]]]]]; symmetry in X.
    + apply (F4 ltac:(auto 8) fn X).
    + apply (F3 ltac:(auto 8) (fn ++ s_ "_species_dict2array")). rewrite X, <- app_assoc. reflexivity.
    + apply (F3 ltac:(auto 8) (fn ++ s_ "_species_dict")). rewrite X, <- app_assoc. reflexivity.
    + apply (F3 ltac:(auto 8) (fn ++ s_ "_Pybel_object_dict")). rewrite X, <- app_assoc. reflexivity.
    + apply (F3 ltac:(auto 8) (fn ++ s_ "_SMILES_dict")). rewrite X, <- app_assoc. reflexivity.
    + apply (F3 ltac:(auto 8) (fn ++ s_ "_num_species_gas")). rewrite X, <- app_assoc. reflexivity.
    + apply (F1 ltac:(auto 8) (s_ "Rate_coefficients")). rewrite X. reflexivity.
    + apply (F2 ltac:(auto 8) (fn ++ s_ "_reactant_indices")). rewrite X, <- app_assoc. reflexivity.
    + apply (F2 ltac:(auto 8) (fn ++ s_ "_reactants_stoich_indices")). rewrite X, <- app_assoc. reflexivity.
    + apply (F1 ltac:(auto 8) (s_ "Reactants_conc")). rewrite X. reflexivity.
    + apply (F1 ltac:(auto 8) (s_ "Loss_Gain")). rewrite X. reflexivity.
    + apply (F2 ltac:(auto 8) (fn ++ s_ "_RO2_indices")). rewrite X, <- app_assoc. reflexivity.
Qed.

Theorem C48_yield_partial : forall fn sp2a sp d d', NoDup (dkeys d) -> yield_parse ls compiles fn sp2a sp d = (d', None) ->
  (forall name, stale yield_stale name -> ~ In name (yield_fresh fn) -> dget name d' = None) /\
  (forall name, ~ stale yield_stale name -> dget name d' = dget name d).
Proof.
  intros fn sp2a sp d d' Nd H. unfold yield_parse in H.
  destruct (clean_passes ls compiles yield_passes d) as [d1 [e|]] eqn:Ec; [discriminate|]. apply exec_put_all in H. subst d'.
  destruct (passes_two [s_ ".f90"] [s_ ".npy"; s_ ".pickle"; s_ ".npz"] d d1) as [A B].
  { repeat constructor; intros []. }
  { repeat constructor; cbn [In]; intros X; repeat (destruct X as [X|X]; [discriminate X|]); exact X. }
  { exact Nd. } { exact Ec. }
  split; intros name H1.
  - intros H2. rewrite put_all_other; [apply A, H1|]. intros X. apply H2. cbn [yield_files map fst In] in X. unfold yield_fresh. cbn [In].
    unfold sp2a_name, sp_name in X. tauto.
  - rewrite put_all_other; [apply B, H1|]. intros X. apply H1. cbn [yield_files map fst In] in X.
    assert (F3 : forall a, name = a ++ s_ ".pickle" -> stale yield_stale name) by (intros a ->; apply stale_tail; cbn; auto).
    unfold sp2a_name, sp_name in X. destruct X as [X|[X|[X|[X|[X|[X|[]]]]]]]; symmetry in X.
    + apply (F3 (fn ++ s_ "_species_dict2array")). rewrite X, <- app_assoc. reflexivity.
    + apply (F3 (fn ++ s_ "_species_dict")). rewrite X, <- app_assoc. reflexivity.
    + apply (F3 (fn ++ s_ "_Pybel_object_dict")). rewrite X, <- app_assoc. reflexivity.
    + apply (F3 (fn ++ s_ "_SMILES_dict")). rewrite X, <- app_assoc. reflexivity.
    + apply (F3 (fn ++ s_ "_num_species_gas")). rewrite X, <- app_assoc. reflexivity.
    + apply (F3 (fn ++ s_ "concentration_dict")). rewrite X, <- app_assoc. reflexivity.
Qed.
End Runs.

Section MoreRuns.
Variable ls : dir -> list str.
Hypothesis ls_ok : lists_names ls.
Variable compiles : content -> bool.

(* ------------------------------------------------------------------ *)
(* C48: where the full statement fails. *)
(* Cleaning fails when a name contains two of the patterns, or a directory has
   a stale name; and then there is no run. *)
Theorem C48_refuted : forall fn text d, NoDup (dkeys d) -> ~ cleanable gas_stale d -> exists e, gas_run ls compiles fn text d = Err e.
Proof.
  intros fn text d Nd H. destruct (C48_exactly_when ls ls_ok compiles gas_patterns d gas_patterns_NoDup Nd) as (A & _ & _).
  unfold gas_run, parse_run, gas_acts. rewrite exec_app.
  destruct (exec compiles (clean_pass (ls d) gas_patterns) d) as [d1 [e|]] eqn:E; [exists e; reflexivity|].
  exfalso. apply H. apply A. reflexivity.
Qed.

Lemma contains_front p c a t : ~ In c t -> contains (p ++ [c]) (a ++ t) -> contains (p ++ [c]) a.
Proof.
  intros Hc (x & y & E). rewrite app_assoc in E.
  destruct (Nat.le_gt_cases (List.length (x ++ p ++ [c])) (List.length a)) as [L|L].
  - exists x, (skipn (List.length (x ++ p ++ [c])) a).
    assert (E1 : firstn (List.length (x ++ p ++ [c])) (a ++ t) = x ++ p ++ [c]) by (rewrite E, firstn_app, Nat.sub_diag, firstn_all; cbn [firstn]; apply app_nil_r).
    rewrite firstn_app in E1. replace (List.length (x ++ p ++ [c]) - List.length a) with 0 in E1 by lia. cbn [firstn] in E1. rewrite app_nil_r in E1.
    rewrite app_assoc, <- E1 at 1. rewrite E1 at 1. rewrite <- E1 at 2. rewrite E1. rewrite <- (firstn_skipn (List.length (x ++ p ++ [c])) a) at 1. rewrite E1. reflexivity.
  - exfalso. apply Hc.
    assert (X : nth_error (a ++ t) (List.length (x ++ p)) = Some c).
    { rewrite E. rewrite nth_error_app1 by (rewrite !app_length; cbn; lia). rewrite app_assoc, nth_error_app2, Nat.sub_diag by lia. reflexivity. }
    rewrite nth_error_app2 in X by (rewrite !app_length in *; cbn in *; lia). apply nth_error_In in X. exact X.
Qed.

(* The pattern for numba's cache matches none of its files. *)
Theorem C48_cache_refuted : forall d name, cache_name name ->
  dget name (fst (exec compiles (clean_pass (ls d) cache_patterns) d)) = dget name d.
Proof.
  intros d name (m & f & t & Hmf & -> & Ht). apply exec_other. intros a Ha Hx.
  destruct (clean_touches (ls d) cache_patterns a Ha) as (p & [<-|[]] & Hc). rewrite <- Hx in Hc.
  change (s_ "_numba_") with (s_ "_numba" ++ ["_"%char]) in Hc. rewrite app_assoc in Hc. rewrite app_assoc in Hc.
  apply contains_front in Hc; [|exact Ht]. apply has_spec in Hc.
  cbn [In] in Hmf. destruct Hmf as [X|[X|[X|[X|[]]]]]; injection X as <- <-; vm_compute in Hc; discriminate.
Qed.

(* ------------------------------------------------------------------ *)
(* C49 *)
Lemma gas_finish fn n st d : finish gas_module fn (p_sp2a st) (p_sp st) n (put_all (gas_files fn n st) d) = Ok (inputs_of n st).
Proof.
  unfold finish, load_ro2, load, gas_files. cbn [put_all].
  rewrite dget_dset_same. cbn [bind]. unfold all_gen, import. cbn [mapM].
  repeat (first [rewrite dget_dset_same | rewrite dget_dset_other by distinct]; cbn [bind]).
  reflexivity.
Qed.

Lemma gas_reuse fn n st d : reuse gas_module fn (put_all (gas_files fn n st) d) = Ok (inputs_of n st).
Proof.
  unfold reuse.
  assert (A : load_sp2a (sp2a_name fn) (put_all (gas_files fn n st) d) = Ok (p_sp2a st)).
  { unfold load_sp2a, load, gas_files. cbn [put_all]. repeat (first [rewrite dget_dset_same | rewrite dget_dset_other by distinct]). reflexivity. }
  assert (B : load_sp (sp_name fn) (put_all (gas_files fn n st) d) = Ok (p_sp st)).
  { unfold load_sp, load, gas_files. cbn [put_all]. repeat (first [rewrite dget_dset_same | rewrite dget_dset_other by distinct]). reflexivity. }
  assert (C : load_eqs (eqs_name fn) (put_all (gas_files fn n st) d) = Ok n).
  { unfold load_eqs, load, gas_files. cbn [put_all]. repeat (first [rewrite dget_dset_same | rewrite dget_dset_other by distinct]). reflexivity. }
  rewrite A. cbn [bind]. rewrite B. cbn [bind]. rewrite C. cbn [bind]. apply gas_finish.
Qed.

Lemma reuse_same modules fn d d' :
  (forall x, In x [sp2a_name fn; sp_name fn; eqs_name fn; ro2_name fn] -> dget x d' = dget x d) ->
  (forall k, dget (modules k) d' = dget (modules k) d) -> reuse modules fn d' = reuse modules fn d.
Proof.
  intros H Hm. unfold reuse, finish, load_sp2a, load_sp, load_eqs, load_ro2, load, import.
  rewrite !H by (cbn; auto). unfold all_gen. cbn [mapM]. rewrite !Hm. reflexivity.
Qed.

Lemma save_touches fn npy csv names a : In a (save_acts fn npy csv names) -> exists s, In s [s_ "_output.npy"; s_ "_output_matrix.csv"; s_ "_output_names.csv"] /\ touches a = fn ++ s.
Proof.
  intros H. apply in_writes in H as (c & H). cbn [In] in H.
  destruct H as [H|[H|[H|[]]]]; injection H as <- _; eexists; (split; [|reflexivity]); cbn; auto.
Qed.

Lemma firstn_In' {A} k (l : list A) x : In x (firstn k l) -> In x l.
Proof. intros H. rewrite <- (firstn_skipn k l). apply in_or_app. left. exact H. Qed.

Lemma save_keeps modules fn0 fn npy csv names k d : (forall m, modules m = gas_module m) \/ (forall m, modules m = f2py_module m) ->
  reuse modules fn0 (fst (exec compiles (firstn k (save_acts fn npy csv names)) d)) = reuse modules fn0 d.
Proof.
  intros Hmod. apply reuse_same.
  - intros x Hx. apply exec_other. intros a Ha. apply firstn_In', save_touches in Ha as (s & Hs & ->). cbn [In] in Hx, Hs.
    destruct Hs as [<-|[<-|[<-|[]]]]; destruct Hx as [<-|[<-|[<-|[<-|[]]]]]; distinct.
  - intros m. apply exec_other. intros a Ha. apply firstn_In', save_touches in Ha as (s & Hs & ->). cbn [In] in Hs.
    destruct Hmod as [-> | ->]; destruct Hs as [<-|[<-|[<-|[]]]]; destruct m; distinct.
Qed.

(* After a completed parse run, and any simulations after it, a run that
   reuses the files gives the solver the same tables, equation count, RO2
   indices and modules. *)
Theorem C49_gas : forall fn text d d' i d'', gas_run ls compiles fn text d = Ok (d', i) -> reuse_history compiles d' d'' ->
  reuse gas_module fn d'' = Ok i /\ exists n st, extract_mechanism text = Ok (n, st) /\ i = inputs_of n st.
Proof.
  intros fn text d d' i d'' H Hh. destruct (gas_run_Ok ls compiles _ _ _ _ _ H) as (n & st & d1 & Et & _ & Ed & Ef).
  cbn [put_all] in Ed. rewrite Ed, gas_finish in Ef. injection Ef as <-.
  assert (R : reuse gas_module fn d' = Ok (inputs_of n st)) by (rewrite Ed; apply gas_reuse).
  split; [|exists n, st; auto]. clear -R Hh ls_ok. induction Hh as [|d'' fn' npy csv names k Hh IH]; [exact R|].
  rewrite save_keeps by (left; reflexivity). exact IH.
Qed.

(* After a later parse run of another mechanism the files of the first are
   gone: reuse stops, it does not mix the two. *)
Theorem C49_gas_other : forall fn fn' text d d' i, NoDup (dkeys d) -> gas_run ls compiles fn' text d = Ok (d', i) -> fn <> fn' ->
  reuse gas_module fn d' = Err FileNotFoundError.
Proof.
  intros fn fn' text d d' i Nd H Hne. destruct (C48_gas_partial ls ls_ok compiles fn' text d d' i Nd H) as [A _].
  unfold reuse, load_sp2a, load. rewrite (A (sp2a_name fn)); [reflexivity| |].
  - exists (s_ ".pickle"). split; [cbn; auto|]. exists (fn ++ s_ "_species_dict2array"), []. rewrite app_nil_r, <- app_assoc. reflexivity.
  - unfold gas_fresh. cbn [In]. intros X.
    repeat (destruct X as [X|X]; [first [ apply Hne; symmetry; exact (app_tail_inj _ _ _ X)
      | symmetry in X; revert X; distinct ]|]). exact X.
Qed.

(* The aerosol drivers never find the files of an earlier run: they read
   _equations.pickle, which they do not write and have just deleted. *)
Theorem C49_aerosol_refuted : forall fn text d d', NoDup (dkeys d) -> aerosol_parse ls compiles fn text d = (d', None) ->
  aerosol_reuse fn d' = Err FileNotFoundError.
Proof.
  intros fn text d d' Nd H. destruct (C48_aerosol_partial ls ls_ok compiles fn text d d' Nd H) as [A _].
  assert (E : dget (fn ++ s_ "_equations.pickle" : str) d' = None).
  { apply A.
    - exists (s_ ".pickle"). split; [cbn; auto 6|]. exists (fn ++ s_ "_equations"), []. rewrite app_nil_r, <- app_assoc. reflexivity.
    - unfold aerosol_fresh. cbn [In]. intros X. repeat (destruct X as [X|X]; [symmetry in X; revert X; distinct|]). exact X. }
  unfold aerosol_parse in H. destruct (clean_passes ls compiles aerosol_passes d) as [d1 [e|]]; [discriminate|].
  destruct (extract_mechanism text) as [[n st]|e]; [|discriminate]. apply exec_put_all in H.
  assert (L1 : load (fn ++ s_ "_species_dict2array.pickle") d' = Ok (PSp2a (p_sp2a st))).
  { rewrite H. unfold load, aerosol_files. cbn [put_all]. change (fn ++ s_ "_species_dict2array.pickle") with (sp2a_name fn). repeat (first [rewrite dget_dset_same | rewrite dget_dset_other by distinct]). reflexivity. }
  assert (L2 : load (fn ++ s_ "_species_dict.pickle") d' = Ok (PSp (p_sp st))).
  { rewrite H. unfold load, aerosol_files. cbn [put_all]. change (fn ++ s_ "_species_dict.pickle") with (sp_name fn). repeat (first [rewrite dget_dset_same | rewrite dget_dset_other by distinct]). reflexivity. }
  assert (L3 : load (fn ++ s_ "_equations.pickle") d' = Err FileNotFoundError) by (unfold load; rewrite E; reflexivity).
  unfold aerosol_reuse. cbn [mapM]. rewrite L1. cbn [bind]. rewrite L2. cbn [bind]. rewrite L3. reflexivity.
Qed.
Theorem C49_yield_refuted : forall fn sp2a sp d d', NoDup (dkeys d) -> yield_parse ls compiles fn sp2a sp d = (d', None) ->
  yield_reuse fn d' = Err FileNotFoundError.
Proof.
  intros fn sp2a sp d d' Nd H. destruct (C48_yield_partial ls ls_ok compiles fn sp2a sp d d' Nd H) as [A _].
  assert (E : dget (fn ++ s_ "_equations.pickle" : str) d' = None).
  { apply A.
    - exists (s_ ".pickle"). split; [cbn; auto 6|]. exists (fn ++ s_ "_equations"), []. rewrite app_nil_r, <- app_assoc. reflexivity.
    - unfold yield_fresh. cbn [In]. intros X. repeat (destruct X as [X|X]; [symmetry in X; revert X; distinct|]). exact X. }
  unfold yield_parse in H. destruct (clean_passes ls compiles yield_passes d) as [d1 [e|]]; [discriminate|].
  apply exec_put_all in H.
  assert (L1 : load (fn ++ s_ "_species_dict2array.pickle") d' = Ok (PSp2a sp2a)).
  { rewrite H. unfold load, yield_files. cbn [put_all]. change (fn ++ s_ "_species_dict2array.pickle") with (sp2a_name fn). repeat (first [rewrite dget_dset_same | rewrite dget_dset_other by distinct]). reflexivity. }
  assert (L2 : load (fn ++ s_ "_species_dict.pickle") d' = Ok (PSp sp)).
  { rewrite H. unfold load, yield_files. cbn [put_all]. change (fn ++ s_ "_species_dict.pickle") with (sp_name fn). repeat (first [rewrite dget_dset_same | rewrite dget_dset_other by distinct]). reflexivity. }
  assert (L3 : load (fn ++ s_ "_equations.pickle") d' = Err FileNotFoundError) by (unfold load; rewrite E; reflexivity).
  unfold yield_reuse, aerosol_reuse. cbn [mapM]. rewrite L1. cbn [bind]. rewrite L2. cbn [bind]. rewrite L3. reflexivity.
Qed.

(* ------------------------------------------------------------------ *)
(* C65 *)
Lemma reuse_removed modules fn d d' i : (forall x, dget x d' = dget x d \/ dget x d' = None) -> reuse modules fn d' = Ok i -> reuse modules fn d = Ok i.
Proof.
  intros H. unfold reuse, finish, load_sp2a, load_sp, load_eqs, load_ro2, load, import, all_gen. cbn [mapM].
  destruct (H (sp2a_name fn)) as [->| ->]; [|discriminate]. destruct (dget (sp2a_name fn) d) as [[[]|]|]; cbn [bind]; try discriminate.
  destruct (H (sp_name fn)) as [->| ->]; [|discriminate]. destruct (dget (sp_name fn) d) as [[[]|]|]; cbn [bind]; try discriminate.
  destruct (H (eqs_name fn)) as [->| ->]; [|discriminate]. destruct (dget (eqs_name fn) d) as [[[]|]|]; cbn [bind]; try discriminate.
  destruct (H (ro2_name fn)) as [->| ->]; [|discriminate]. destruct (dget (ro2_name fn) d) as [[[]|]|]; cbn [bind]; try discriminate.
  destruct (H (modules Rates)) as [->| ->]; [|discriminate]. destruct (dget (modules Rates) d) as [[c1|]|]; cbn [bind]; try discriminate.
  destruct (H (modules Reactants)) as [->| ->]; [|discriminate]. destruct (dget (modules Reactants) d) as [[c2|]|]; cbn [bind]; try discriminate.
  destruct (H (modules LossGain)) as [->| ->]; [|discriminate]. destruct (dget (modules LossGain) d) as [[c3|]|]; cbn [bind]; try discriminate.
  destruct (H (modules Jacobian)) as [->| ->]; [|discriminate]. destruct (dget (modules Jacobian) d) as [[c4|]|]; cbn [bind]; try discriminate.
  auto.
Qed.

Lemma no_ro2 modules fn d i : dget (ro2_name fn) d = None \/ dget (ro2_name fn) d = Some (File Partial) -> reuse modules fn d <> Ok i.
Proof.
  intros H. unfold reuse, finish.
  destruct (load_sp2a (sp2a_name fn) d); cbn [bind]; [|discriminate]. destruct (load_sp (sp_name fn) d); cbn [bind]; [|discriminate].
  destruct (load_eqs (eqs_name fn) d); cbn [bind]; [|discriminate]. unfold load_ro2, load. destruct H as [->| ->]; discriminate.
Qed.

Lemma parse_prefix fn text d k : NoDup (dkeys d) -> (forall fn' i, reuse gas_module fn' d = Ok i -> consistent i) ->
  forall fn' i, reuse gas_module fn' (fst (exec compiles (firstn k (gas_acts ls fn text d)) d)) = Ok i -> consistent i.
Proof.
  intros Nd Inv fn' i. destruct (exec_stop compiles (firstn k (gas_acts ls fn text d)) d) as (m & _ & Em & _).
  rewrite firstn_firstn in Em. destruct (exec compiles (firstn k (gas_acts ls fn text d)) d) as [d2 o]. cbn [fst] in *. revert Em. generalize (Nat.min m k). clear m k o. intros j Em.
  unfold gas_acts in Em. set (C := clean_pass (ls d) gas_patterns) in *. rewrite firstn_app, exec_app in Em.
  destruct (exec compiles (firstn j C) d) as [d1 [e|]] eqn:E1; [discriminate|].
  destruct (Nat.le_gt_cases (List.length C) j) as [L|L].
  2:{ replace (j - List.length C) with 0 in Em by lia. cbn [firstn exec] in Em. injection Em as <-. intros H. apply (Inv fn').
      apply (reuse_removed gas_module fn' d d1 i); [|exact H]. intros x.
      assert (R : Forall is_remove (firstn j C)) by (apply Forall_forall; intros a Ha; apply firstn_In' in Ha; pose proof (clean_removes (ls d) gas_patterns) as X; rewrite Forall_forall in X; apply X, Ha).
      pose proof (exec_removes compiles (firstn j C) x R d) as X. rewrite E1 in X. exact X. }
  rewrite firstn_all2 in E1 by exact L. set (q := j - List.length C) in *.
  destruct (C48_exactly_when ls ls_ok compiles gas_patterns d gas_patterns_NoDup Nd) as (_ & A & _). fold C in A. rewrite E1 in A. cbn [fst snd] in A.
  assert (N1 : forall f, dget (ro2_name f) d1 = None).
  { intros f. apply A; [reflexivity|]. exists (s_ ".npy"). split; [left; reflexivity|]. exists (f ++ s_ "_RO2_indices"), []. rewrite app_nil_r. unfold ro2_name. rewrite <- app_assoc. reflexivity. }
  assert (Pre : forall W q, Forall is_write W -> (forall f c, ~ In (Put (ro2_name f) c) W) -> exec compiles (firstn q W) d1 = (d2, None) -> reuse gas_module fn' d2 <> Ok i).
  { intros W q' HW HP E. apply no_ro2.
    assert (HW' : Forall is_write (firstn q' W)) by (apply Forall_forall; intros a Ha; apply firstn_In' in Ha; rewrite Forall_forall in HW; apply HW, Ha).
    pose proof (exec_writes compiles (firstn q' W) (ro2_name fn') HW' d1) as X. rewrite E in X. cbn [fst] in X.
    destruct X as [X|(c & X & [Y|[-> Y]])].
    - left. rewrite X. apply N1.
    - exfalso. apply firstn_In' in Y. exact (HP _ _ Y).
    - right. exact X. }
  destruct (extract_mechanism text) as [[n st]|e] eqn:Et.
  - set (fs0 := (eqn_name fn, Bytes text) :: firstn 11 (gas_files fn n st)).
    set (W0 := flat_map write_file fs0 ++ [Open (ro2_name fn)]).
    set (last := Put (ro2_name fn) (PRo2 (write_RO2_indices (p_sp2a st)))).
    assert (EW : write_file (eqn_name fn, Bytes text) ++ flat_map write_file (gas_files fn n st) = W0 ++ [last]) by reflexivity.
    rewrite EW in Em. destruct (Nat.le_gt_cases q (List.length W0)) as [Lq|Lq].
    + rewrite firstn_app in Em. replace (q - List.length W0) with 0 in Em by lia. cbn [firstn] in Em. rewrite app_nil_r in Em.
      intros H. exfalso. revert H. apply (Pre W0 q).
      * unfold W0. apply Forall_app. split; [apply write_file_writes | repeat constructor].
      * intros f c Hin. unfold W0 in Hin. apply in_app_or in Hin as [Hin|[Hin|[]]]; [|discriminate]. apply put_writes in Hin.
        unfold fs0, gas_files in Hin. cbn [firstn In] in Hin.
        repeat (destruct Hin as [Hin|Hin]; [apply (f_equal fst) in Hin; cbn [fst] in Hin; revert Hin; distinct|]). exact Hin.
      * exact Em.
    + rewrite firstn_all2 in Em by (rewrite app_length; cbn [List.length]; lia).
      rewrite <- EW in Em.
      change (write_file (eqn_name fn, Bytes text) ++ flat_map write_file (gas_files fn n st)) with (flat_map write_file ((eqn_name fn, Bytes text) :: gas_files fn n st)) in Em.
      apply exec_put_all in Em. cbn [put_all] in Em.
      destruct (eqb fn' fn) eqn:Ef.
      * apply eqb_eq in Ef. subst fn'. rewrite Em, gas_reuse. intros H. injection H as <-. exists text, n, st. auto.
      * apply eqb_neq in Ef. intros H. exfalso. revert H. apply no_ro2. left. rewrite Em. rewrite put_all_other.
        -- rewrite !dget_dset_other by distinct. apply N1.
        -- unfold gas_files. cbn [map fst In]. intros X.
           repeat (destruct X as [X|X]; [first [ apply Ef; symmetry; exact (app_tail_inj _ _ _ X) | revert X; distinct ]|]). exact X.
  - rewrite app_nil_r in Em. intros H. exfalso. revert H. apply (Pre (write_file (eqn_name fn, Bytes text)) q).
    + repeat constructor.
    + intros f c [X|[X|[]]]; [discriminate|]. injection X as X _. revert X. distinct.
    + exact Em.
Qed.

(* However runs are interrupted, a run that reuses the files either stops with
   an error or gives the solver tables, equation count, RO2 indices and modules
   that were all made from one mechanism file. *)
Theorem C65_crash : forall d d' fn i, NoDup (dkeys d) ->
  (forall fn i, reuse gas_module fn d = Ok i -> consistent i) ->
  gas_history ls compiles d d' -> reuse gas_module fn d' = Ok i -> consistent i.
Proof.
  intros d d' fn i Nd Inv Hh.
  assert (G : NoDup (dkeys d') /\ forall fn i, reuse gas_module fn d' = Ok i -> consistent i); [|apply G].
  clear fn i. induction Hh as [|d' fn text k Hh IH|d' fn npy csv names k Hh IH]; [auto| |].
  - destruct IH as [N1 I1]. split; [apply exec_keys, N1|]. apply parse_prefix; assumption.
  - destruct IH as [N1 I1]. split; [apply exec_keys, N1|]. intros fn' i. rewrite save_keeps by (left; reflexivity). apply I1.
Qed.
End MoreRuns.

(* ------------------------------------------------------------------ *)
(* Runs that complete, and the f2py driver. *)
Lemma exec_no_dir compiles fs : forall d, (forall x, dget x d <> Some Dir) -> exec compiles (flat_map write_file fs) d = (put_all fs d, None).
Proof.
  induction fs as [|[n c] fs IH]; intros d H; [reflexivity|]. cbn [flat_map write_file fst snd app exec do_act put_all].
  assert (H1 : forall x y c, dget x (dset y (File c) d) <> Some Dir) by (intros x y c0; rewrite dget_dset; destruct (eqb x y); [discriminate | apply H]).
  destruct (dget n d) as [[?|]|] eqn:E; [| destruct (H n E) |]; rewrite dget_dset_same; apply IH;
    intros x; rewrite dget_dset; (destruct (eqb x n); [discriminate | apply H1]).
Qed.

Section F2py.
Variable ls : dir -> list str.
Hypothesis ls_ok : lists_names ls.
Variable compiles : content -> bool.

(* A parse run completes whenever nothing stands in the way of cleaning, the
   directory has no subdirectories and the mechanism file parses. *)
Theorem C49_gas_completes : forall fn text d n st, NoDup (dkeys d) -> cleanable gas_stale d -> (forall x, dget x d <> Some Dir) ->
  extract_mechanism text = Ok (n, st) -> exists d', gas_run ls compiles fn text d = Ok (d', inputs_of n st).
Proof.
  intros fn text d n st Nd Hc Hd Ht. unfold gas_run, parse_run, gas_acts. rewrite exec_app.
  destruct (C48_exactly_when ls ls_ok compiles gas_patterns d gas_patterns_NoDup Nd) as (A & _ & _).
  destruct (exec compiles (clean_pass (ls d) gas_patterns) d) as [d1 o] eqn:E. cbn [snd] in A. rewrite (proj2 A Hc) in *. rewrite Ht.
  change (write_file (eqn_name fn, Bytes text) ++ flat_map write_file (gas_files fn n st)) with (flat_map write_file ((eqn_name fn, Bytes text) :: gas_files fn n st)).
  rewrite exec_no_dir.
  - cbn [bind fst snd put_all]. rewrite gas_finish. cbn [bind]. eexists. reflexivity.
  - intros x. pose proof (exec_removes compiles _ x (clean_removes (ls d) gas_patterns) d) as X. rewrite E in X. cbn [fst] in X.
    destruct X as [-> | ->]; [apply Hd | discriminate].
Qed.

Definition eff (a : act) (d : dir) : dir :=
  match a with
  | Remove n => drop n d
  | Open n => dset n (File Partial) d
  | Put n c => dset n (File c) d
  | Compile s l => match dget s d with Some (File c) => if compiles c then dset l (File c) d else d | _ => d end
  end.
Definition effs (l : list act) (d : dir) : dir := fold_left (fun d a => eff a d) l d.
Lemma exec_effs l : forall d d', exec compiles l d = (d', None) -> d' = effs l d.
Proof.
  induction l as [|a l IH]; intros d d' H; [cbn in *; congruence|]. cbn [exec] in H. unfold effs. cbn [fold_left].
  destruct (do_act compiles a d) as [d1|e] eqn:E; [|discriminate]. rewrite (IH d1 d' H).
  replace (eff a d) with d1; [reflexivity|].
  destruct a as [name|name|name c|src lib]; cbn [do_act eff] in *.
  - destruct (dget name d) as [[c|]|]; try discriminate. congruence.
  - destruct (dget name d) as [[c|]|]; try discriminate; congruence.
  - destruct (dget name d) as [[c'|]|]; try discriminate; congruence.
  - destruct (dget src d) as [[c|]|]; [destruct (compiles c)| |]; congruence.
Qed.

Lemma f2py_patterns_NoDup : NoDup f2py_patterns.
Proof. repeat constructor; cbn [In]; intros H; repeat (destruct H as [H|H]; [discriminate H|]); exact H. Qed.

Hypothesis comp : forall c, compiles c = true.

Lemma build_eff k n st d : effs (f2py_build k n st) d =
  dset (f2py_module k) (File (Gen k n st)) (dset (f2py_source k) (File (Gen k n st)) (dset (f2py_source k) (File Partial) d)).
Proof. unfold effs, f2py_build. cbn [write_file fst snd app fold_left eff]. rewrite dget_dset_same, comp. reflexivity. Qed.

Definition f2py_after (fn : str) (n : Z) (st : pstate) (d : dir) : dir :=
  effs (f2py_build Jacobian n st) (put_all [(ro2_name fn, PRo2 (write_RO2_indices (p_sp2a st)))]
    (effs (f2py_build LossGain n st) (effs (f2py_build Reactants n st)
      (put_all [(fn ++ s_ "_reactant_indices.npy", Other); (fn ++ s_ "_reactants_stoich_indices.npy", Other)]
        (effs (f2py_build Rates n st)
          (put_all [(sp2a_name fn, PSp2a (p_sp2a st)); (sp_name fn, PSp (p_sp st)); (eqs_name fn, PEqs n)] d)))))).
Lemma f2py_writes_eff fn n st d : effs (f2py_writes fn n st) d = f2py_after fn n st d.
Proof. unfold f2py_writes, f2py_after, effs. rewrite !fold_left_app. reflexivity. Qed.

Ltac look := unfold f2py_after; rewrite !build_eff; cbn [put_all]; repeat (first [rewrite dget_dset_same | rewrite dget_dset_other by distinct]); reflexivity.

Lemma after_tables fn n st d :
  dget (sp2a_name fn) (f2py_after fn n st d) = Some (File (PSp2a (p_sp2a st))) /\ dget (sp_name fn) (f2py_after fn n st d) = Some (File (PSp (p_sp st))) /\
  dget (eqs_name fn) (f2py_after fn n st d) = Some (File (PEqs n)) /\ dget (ro2_name fn) (f2py_after fn n st d) = Some (File (PRo2 (write_RO2_indices (p_sp2a st)))) /\
  forall k, dget (f2py_module k) (f2py_after fn n st d) = Some (File (Gen k n st)).
Proof. repeat split; [look | look | look | look | intros k; destruct k; look]. Qed.

Lemma f2py_run_Ok fn text d d' i : f2py_run ls compiles fn text d = Ok (d', i) ->
  exists n st d1, extract_mechanism text = Ok (n, st) /\ exec compiles (clean_pass (ls d) f2py_patterns) d = (d1, None) /\
    d' = f2py_after fn n st (put_all [(eqn_name fn, Bytes text)] d1) /\ i = inputs_of n st.
Proof.
  unfold f2py_run, parse_run, f2py_acts. rewrite exec_app.
  destruct (exec compiles (clean_pass (ls d) f2py_patterns) d) as [d1 [e|]] eqn:Ec; [discriminate|].
  destruct (extract_mechanism text) as [[n st]|e] eqn:Et.
  - destruct (exec compiles (write_file (eqn_name fn, Bytes text) ++ f2py_writes fn n st) d1) as [d2 [e|]] eqn:E2; [discriminate|]. cbn [bind fst snd].
    apply exec_effs in E2. unfold effs in E2. rewrite fold_left_app in E2. fold (effs (f2py_writes fn n st)) in E2. rewrite f2py_writes_eff in E2. cbn [write_file fst snd fold_left eff] in E2.
    destruct (after_tables fn n st (dset (eqn_name fn) (File (Bytes text)) (dset (eqn_name fn) (File Partial) d1))) as (_ & _ & _ & T4 & T5). rewrite <- E2 in T4, T5.
    unfold finish, load_ro2, load, import, all_gen. cbn [mapM]. rewrite T4, !T5. cbn [bind].
    intros H; injection H as <- <-. exists n, st, d1. auto.
  - cbn [bind]. destruct (exec compiles _ d1) as [d2 [e'|]]; discriminate.
Qed.

(* f2py driver: reuse right after the parse run gives the same inputs. *)
Theorem C49_f2py_partial : forall fn text d d' i d'', f2py_run ls compiles fn text d = Ok (d', i) -> reuse_history compiles d' d'' ->
  reuse f2py_module fn d'' = Ok i /\ exists n st, extract_mechanism text = Ok (n, st) /\ i = inputs_of n st.
Proof.
  intros fn text d d' i d'' H Hh. destruct (f2py_run_Ok _ _ _ _ _ H) as (n & st & d1 & Et & _ & Ed & ->).
  assert (R : reuse f2py_module fn d' = Ok (inputs_of n st)).
  { destruct (after_tables fn n st (put_all [(eqn_name fn, Bytes text)] d1)) as (T1 & T2 & T3 & T4 & T5). rewrite <- Ed in T1, T2, T3, T4, T5.
    unfold reuse, finish, load_sp2a, load_sp, load_eqs, load_ro2, load, import, all_gen. cbn [mapM]. rewrite T1, T2, T3, T4, !T5. reflexivity. }
  split; [|exists n, st; auto]. clear -R Hh. induction Hh as [|d'' fn' npy csv names k Hh IH]; [exact R|].
  rewrite save_keeps by (right; reflexivity). exact IH.
Qed.

Lemma contains_back c p a t : ~ In c a -> contains (c :: p) (a ++ t) -> contains (c :: p) t.
Proof.
  induction a as [|x a IH]; intros Hc H; [exact H|]. cbn [app] in H. apply occurs_cons in H as [(b & E)|H].
  - injection E as -> _. exfalso. apply Hc. left. reflexivity.
  - apply IH; [intros X; apply Hc; right; exact X | exact H].
Qed.

(* Its cleaning does not touch the files of an earlier run. *)
Lemma f2py_keeps fn d x : ~ In "."%char fn -> In x [sp2a_name fn; sp_name fn; eqs_name fn; ro2_name fn] ->
  dget x (fst (exec compiles (clean_pass (ls d) f2py_patterns) d)) = dget x d.
Proof.
  intros Hfn Hx. apply exec_other. intros a Ha Hxa. destruct (clean_touches (ls d) f2py_patterns a Ha) as (p & Hp & Hc). rewrite <- Hxa in Hc.
  cbn [In] in Hx. destruct Hp as [<-|[<-|[]]]; destruct Hx as [<-|[<-|[<-|[<-|[]]]]];
    unfold sp2a_name, sp_name, eqs_name, ro2_name in Hc; apply contains_back in Hc; try exact Hfn; apply has_spec in Hc; vm_compute in Hc; discriminate.
Qed.
Lemma f2py_keeps_modules d k : dget (f2py_module k) (fst (exec compiles (clean_pass (ls d) f2py_patterns) d)) = dget (f2py_module k) d.
Proof.
  apply exec_other. intros a Ha Hxa. destruct (clean_touches (ls d) f2py_patterns a Ha) as (p & Hp & Hc). rewrite <- Hxa in Hc. apply has_spec in Hc.
  destruct Hp as [<-|[<-|[]]]; destruct k; vm_compute in Hc; discriminate.
Qed.

(* Pickles and RO2 indices of an earlier mechanism are left by its cleaning. *)
Theorem C48_f2py_refuted : forall fn d name, ~ In "."%char fn ->
  In name [fn ++ s_ "_species_dict2array.pickle"; fn ++ s_ "_species_dict.pickle"; fn ++ s_ "_equations.pickle"; fn ++ s_ "_RO2_indices.npy"] ->
  dget name (fst (exec compiles (clean_pass (ls d) f2py_patterns) d)) = dget name d.
Proof. intros fn d name Hfn Hin. exact (f2py_keeps fn d name Hfn Hin). Qed.

(* Stale pickles and RO2 indices survive its cleaning (C48), so after a parse
   run of one mechanism and then one of another, reuse of the first gives the
   solver its tables with the other's compiled modules. *)
Theorem C49_f2py_refuted : forall fn fn' text text' d d1 d2 i1 i2, ~ In "."%char fn -> fn <> fn' ->
  f2py_run ls compiles fn text d = Ok (d1, i1) -> f2py_run ls compiles fn' text' d1 = Ok (d2, i2) ->
  exists i, reuse f2py_module fn d2 = Ok i /\ in_sp2a i = in_sp2a i1 /\ in_sp i = in_sp i1 /\ in_eqs i = in_eqs i1 /\ in_modules i = in_modules i2 /\
    (in_sp2a i1 <> in_sp2a i2 -> ~ consistent i).
Proof.
  intros fn fn' text text' d d1 d2 i1 i2 Hfn Hne H1 H2.
  destruct (f2py_run_Ok _ _ _ _ _ H1) as (n & st & c1 & _ & _ & Ed & ->).
  destruct (f2py_run_Ok _ _ _ _ _ H2) as (n' & st' & c2 & _ & Ec & Ed2 & ->).
  destruct (after_tables fn n st (put_all [(eqn_name fn, Bytes text)] c1)) as (T1 & T2 & T3 & T4 & _). rewrite <- Ed in T1, T2, T3, T4.
  destruct (after_tables fn' n' st' (put_all [(eqn_name fn', Bytes text')] c2)) as (_ & _ & _ & _ & U5). rewrite <- Ed2 in U5.
  pose proof (f2py_keeps fn d1) as K. rewrite Ec in K. cbn [fst] in K.
  assert (L : forall s x, In (s, x) [(s_ "_species_dict2array.pickle", sp2a_name fn); (s_ "_species_dict.pickle", sp_name fn); (s_ "_equations.pickle", eqs_name fn); (s_ "_RO2_indices.npy", ro2_name fn)] ->
     dget x d2 = dget x d1).
  { intros s x Hx. rewrite <- (K x Hfn) by (cbn [In] in *; destruct Hx as [E|[E|[E|[E|[]]]]]; injection E as _ <-; auto).
    rewrite Ed2. unfold f2py_after. rewrite !build_eff. cbn [put_all].
    cbn [In] in Hx. destruct Hx as [E|[E|[E|[E|[]]]]]; injection E as _ <-;
      repeat (rewrite dget_dset_other by first [distinct | (intros X; apply Hne; exact (app_tail_inj _ _ _ X))]); reflexivity. }
  exists (Inputs (p_sp2a st) (p_sp st) n (write_RO2_indices (p_sp2a st)) (in_modules (inputs_of n' st'))).
  split; [|split; [reflexivity|]; split; [reflexivity|]; split; [reflexivity|]; split; [reflexivity|]].
  - unfold reuse, finish, load_sp2a, load_sp, load_eqs, load_ro2, load, import, all_gen. cbn [mapM].
    rewrite (L (s_ "_species_dict2array.pickle") (sp2a_name fn)), (L (s_ "_species_dict.pickle") (sp_name fn)), (L (s_ "_equations.pickle") (eqs_name fn)), (L (s_ "_RO2_indices.npy") (ro2_name fn)) by (cbn; auto).
    rewrite T1, T2, T3, T4, !U5. reflexivity.
  - cbn [inputs_of in_sp2a]. intros Hd (t & n2 & st2 & _ & E). unfold inputs_of in E. cbn [in_modules] in E.
    apply (f_equal in_modules) in E as E1. cbn [in_modules] in E1. injection E1 as _ E1 _ _ _ _ _ _. apply (f_equal in_sp2a) in E as E2. cbn [in_sp2a] in E2. congruence.
Qed.

(* A parse run of an edited mechanism file killed after its pickles: tables of
   the new file, compiled modules and RO2 indices of the old one. *)
Theorem C65_f2py_refuted : forall fn text text' d d1 d2 i1 i2, ~ In "."%char fn ->
  f2py_run ls compiles fn text d = Ok (d1, i1) -> f2py_run ls compiles fn text' d1 = Ok (d2, i2) ->
  exists k i, reuse f2py_module fn (fst (exec compiles (firstn k (f2py_acts ls fn text' d1)) d1)) = Ok i /\
    in_sp2a i = in_sp2a i2 /\ in_ro2 i = in_ro2 i1 /\ in_modules i = in_modules i1 /\ (in_sp2a i1 <> in_sp2a i2 -> ~ consistent i).
Proof.
  intros fn text text' d d1 d2 i1 i2 Hfn H1 H2.
  destruct (f2py_run_Ok _ _ _ _ _ H1) as (n & st & c1 & _ & _ & Ed & ->).
  destruct (f2py_run_Ok _ _ _ _ _ H2) as (n' & st' & c2 & Et & Ec & _ & ->).
  destruct (after_tables fn n st (put_all [(eqn_name fn, Bytes text)] c1)) as (_ & _ & _ & T4 & T5). rewrite <- Ed in T4, T5.
  set (C := clean_pass (ls d1) f2py_patterns) in *.
  set (W := flat_map write_file [(eqn_name fn, Bytes text'); (sp2a_name fn, PSp2a (p_sp2a st')); (sp_name fn, PSp (p_sp st')); (eqs_name fn, PEqs n')]).
  assert (EA : exists rest, f2py_acts ls fn text' d1 = (C ++ W) ++ rest).
  { unfold f2py_acts. rewrite Et. fold C. eexists. rewrite <- app_assoc. f_equal. unfold f2py_writes. rewrite app_assoc. reflexivity. }
  destruct EA as [rest EA]. exists (List.length (C ++ W)).
  rewrite EA, firstn_app, Nat.sub_diag, firstn_all. cbn [firstn]. rewrite app_nil_r, exec_app, Ec.
  (* the complete run went through these writes *)
  assert (EW : exec compiles W c2 = (put_all [(eqn_name fn, Bytes text'); (sp2a_name fn, PSp2a (p_sp2a st')); (sp_name fn, PSp (p_sp st')); (eqs_name fn, PEqs n')] c2, None)).
  { unfold f2py_run, parse_run in H2. rewrite EA, exec_app, exec_app, Ec in H2.
    destruct (exec compiles W c2) as [c3 [e|]] eqn:E3; [discriminate|]. apply exec_put_all in E3. rewrite E3. reflexivity. }
  rewrite EW. cbn [fst].
  pose proof (f2py_keeps fn d1 (ro2_name fn) Hfn ltac:(cbn; auto)) as K. fold C in K. rewrite Ec in K. cbn [fst] in K.
  assert (KM : forall k, dget (f2py_module k) c2 = dget (f2py_module k) d1) by (intros k; pose proof (f2py_keeps_modules d1 k) as X; fold C in X; rewrite Ec in X; exact X).
  exists (Inputs (p_sp2a st') (p_sp st') n' (write_RO2_indices (p_sp2a st)) (in_modules (inputs_of n st))).
  split; [|split; [reflexivity|]; split; [reflexivity|]; split; [reflexivity|]].
  - assert (M : forall k, dget (f2py_module k) (put_all [(eqn_name fn, Bytes text'); (sp2a_name fn, PSp2a (p_sp2a st')); (sp_name fn, PSp (p_sp st')); (eqs_name fn, PEqs n')] c2) = Some (File (Gen k n st))).
    { intros k. cbn [put_all]. rewrite <- T5, <- KM. destruct k; repeat (rewrite dget_dset_other by distinct); reflexivity. }
    assert (Q : dget (ro2_name fn) (put_all [(eqn_name fn, Bytes text'); (sp2a_name fn, PSp2a (p_sp2a st')); (sp_name fn, PSp (p_sp st')); (eqs_name fn, PEqs n')] c2) = Some (File (PRo2 (write_RO2_indices (p_sp2a st))))).
    { cbn [put_all]. rewrite <- T4, <- K. repeat (rewrite dget_dset_other by distinct). reflexivity. }
    unfold reuse, finish, load_sp2a, load_sp, load_eqs, load_ro2, load, import, all_gen. cbn [mapM]. rewrite !M, Q. cbn [put_all].
    repeat (first [rewrite dget_dset_same | rewrite dget_dset_other by distinct]; cbn [bind]). reflexivity.
  - cbn [inputs_of in_sp2a]. intros Hd (t & n2 & st2 & _ & E).
    apply (f_equal in_modules) in E as E1. cbn [inputs_of in_modules] in E1. injection E1 as _ E1 _ _ _ _ _ _. apply (f_equal in_sp2a) in E as E2. cbn [inputs_of in_sp2a] in E2. congruence.
Qed.
End F2py.

(* ------------------------------------------------------------------ *)
(* The hypotheses are met: a directory holding files of an earlier run, the
   user's notes and numba's cache, listed in order, and two mechanisms. *)
Definition ex_ls : dir -> list str := dkeys.
Definition ex_comp : content -> bool := fun _ => true.
Definition ex_a : str := s_ "{1.} A + B = C : 1.0 ;" ++ [NL].
Definition ex_b : str := s_ "{1.} X = Y : 2.0 ;" ++ [NL].
Definition ex_old : dir :=
  [(s_ "old_RO2_indices.npy", File Other); (s_ "notes.txt", File Other); (s_ "old_species_dict.pickle", File Partial); (s_ "Loss_Gain_numba.py", File Other)].
Example ex_ls_ok : lists_names ex_ls.
Proof. intros d. apply Permutation_refl. Qed.
Example ex_gas_meets : exists d' i, gas_run ex_ls ex_comp (s_ "M") ex_a ex_old = Ok (d', i) /\
  dget (s_ "old_RO2_indices.npy") d' = None /\ dget (s_ "notes.txt") d' = Some (File Other).
Proof.
  destruct (gas_run ex_ls ex_comp (s_ "M") ex_a ex_old) as [[d' i]|e] eqn:E; [|vm_compute in E; discriminate].
  exists d', i. split; [reflexivity|]. apply (f_equal (fun r => match r with Ok (d, _) => (dget (s_ "old_RO2_indices.npy") d, dget (s_ "notes.txt") d) | Err _ => (Some Dir, None) end)) in E.
  split; [transitivity (fst (dget (s_ "old_RO2_indices.npy") d', dget (s_ "notes.txt") d')); [reflexivity|]; rewrite <- E
         |transitivity (snd (dget (s_ "old_RO2_indices.npy") d', dget (s_ "notes.txt") d')); [reflexivity|]; rewrite <- E]; vm_compute; reflexivity.
Qed.
Example ex_aerosol_meets : snd (aerosol_parse ex_ls ex_comp (s_ "M") ex_a ((s_ "old.f90", File Other) :: ex_old)) = None.
Proof. vm_compute. reflexivity. Qed.
Example ex_yield_meets : snd (yield_parse ex_ls ex_comp (s_ "M") [] [] ((s_ "old.f90", File Other) :: ex_old)) = None.
Proof. vm_compute. reflexivity. Qed.
Example ex_f2py_meets : exists d1 d2 i1 i2, f2py_run ex_ls ex_comp (s_ "M") ex_a ex_old = Ok (d1, i1) /\
  f2py_run ex_ls ex_comp (s_ "N") ex_b d1 = Ok (d2, i2) /\ in_sp2a i1 <> in_sp2a i2.
Proof.
  destruct (f2py_run ex_ls ex_comp (s_ "M") ex_a ex_old) as [[d1 i1]|e] eqn:E1; [|vm_compute in E1; discriminate].
  vm_compute in E1. injection E1 as <- <-.
  match goal with |- context [f2py_run ex_ls ex_comp (s_ "N") ex_b ?d] => idtac | _ => idtac end.
  eexists _, _, _, _. split; [reflexivity|]. split; [vm_compute; reflexivity|]. vm_compute. discriminate.
Qed.
Example ex_f2py_edited : exists d1 d2 i1 i2, f2py_run ex_ls ex_comp (s_ "M") ex_a ex_old = Ok (d1, i1) /\
  f2py_run ex_ls ex_comp (s_ "M") ex_b d1 = Ok (d2, i2) /\ in_sp2a i1 <> in_sp2a i2.
Proof.
  destruct (f2py_run ex_ls ex_comp (s_ "M") ex_a ex_old) as [[d1 i1]|e] eqn:E1; [|vm_compute in E1; discriminate].
  vm_compute in E1. injection E1 as <- <-.
  eexists _, _, _, _. split; [reflexivity|]. split; [vm_compute; reflexivity|]. vm_compute. discriminate.
Qed.
(* A name with two of the patterns stops the parse run. *)
Example ex_twice : gas_run ex_ls ex_comp (s_ "M") ex_a [(s_ "a.npy.pickle", File Other)] = Err FileNotFoundError.
Proof. vm_compute. reflexivity. Qed.
Example ex_cache : cache_name (s_ "Rate_coefficients_numba.evaluate_rates-12.py37m.nbi").
Proof.
  exists (s_ "Rate_coefficients_numba"), (s_ "evaluate_rates"), (s_ "-12.py37m.nbi"). split; [left; reflexivity|]. split; [reflexivity|].
  cbn. intros H. repeat (destruct H as [H|H]; [discriminate H|]). exact H.
Qed.
(* A crash in the middle of the second parse run leaves nothing to reuse,
   and the directory before the first run is as C65_crash asks. *)
Example ex_crash_start fn i : reuse gas_module fn ex_old = Ok i -> consistent i.
Proof.
  unfold reuse, load_sp2a, load, sp2a_name. destruct (dget _ ex_old) as [[c|]|] eqn:E; cbn [bind]; try discriminate.
  apply dget_Some_In in E. cbn [ex_old In] in E.
  repeat (destruct E as [E|E]; [injection E as E <-; apply (f_equal (@List.rev ascii)) in E; rewrite rev_app_distr in E; cbn in E; discriminate E|]). destruct E.
Qed.

Print Assumptions C48_exactly_when.
Print Assumptions C48_gas_partial.
Print Assumptions C48_aerosol_partial.
Print Assumptions C48_yield_partial.
Print Assumptions C48_refuted.
Print Assumptions C48_cache_refuted.
Print Assumptions C48_f2py_refuted.
Print Assumptions C49_gas.
Print Assumptions C49_gas_other.
Print Assumptions C49_gas_completes.
Print Assumptions C49_aerosol_refuted.
Print Assumptions C49_yield_refuted.
Print Assumptions C49_f2py_partial.
Print Assumptions C49_f2py_refuted.
Print Assumptions C65_crash.
Print Assumptions C65_f2py_refuted.
