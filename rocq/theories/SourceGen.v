(* The statements of the generators are of the shape that reads back. *)
From Coq Require Import List Bool Arith Lia Ascii String ZArith QArith.
From Verif Require Import Base PyStr PyDict ModelParse ModelExpr ModelLang ModelGen ModelSource ModelWrite SpecSource SourceRead.
Import ListNotations.
Import Coq.Lists.List.
Open Scope nat_scope.
Open Scope list_scope.
Local Arguments eqb : simpl never.

(* Appending l to a text that ends (b = true) or does not end in an operand. *)
Definition operand (b : bool) (l : list tok) : Prop := spaced b l /\ after_of b l = true.
Lemma operand_app b l1 l2 : operand b l1 -> operand true l2 -> operand b (l1 ++ l2).
Proof. intros [A1 A2] [B1 B2]. split; [apply spaced_app; rewrite A2; auto | rewrite after_app, A2; exact B2]. Qed.
Lemma no_break_app l1 l2 : no_break l1 -> no_break l2 -> no_break (l1 ++ l2).
Proof. intros A B I. apply in_app_or in I. destruct I; [exact (A H) | exact (B H)]. Qed.
Ltac opr := split; cbn; repeat split.
Ltac nbr := let I := fresh in intros I; cbn in I; intuition discriminate.

(* Reactant products *)
Lemma power_operand off i q : operand false (power_toks off i q).
Proof. unfold power_toks. destruct (isone q); opr. Qed.
Lemma power_no_break off i q : no_break (power_toks off i q).
Proof. unfold power_toks. destruct (isone q); nbr. Qed.
Lemma power_not_nil off i q : power_toks off i q <> [].
Proof. unfold power_toks. destruct (isone q); discriminate. Qed.
Lemma react_fold off sp2a loss eq : forall row acc l, foldM (react_step off sp2a loss eq) row acc = Ok l ->
  (acc = [] \/ operand false acc /\ no_break acc) -> l = [] \/ operand false l /\ no_break l.
Proof.
  induction row as [|p row IH]; intros acc l H Ha; cbn [foldM] in H; [injection H as <-; exact Ha|].
  apply bind_Ok in H. destruct H as (acc' & H1 & H2). apply (IH acc' l H2). clear IH H2.
  unfold react_step in H1. destruct (eqb (snd p) hv); [injection H1 as <-; exact Ha|].
  apply bind_Ok in H1. destruct H1 as (q & _ & H1). apply bind_Ok in H1. destruct H1 as (i & _ & H1). injection H1 as <-.
  right. destruct Ha as [-> | [A1 A2]]; cbn [app].
  - split; [apply power_operand | apply power_no_break].
  - destruct acc as [|t acc]; [destruct A1; discriminate|]. split.
    + apply operand_app; [exact A1|]. destruct (power_operand off i q) as [B1 B2]. split; cbn [app spaced after_of]; auto.
    + apply no_break_app; [exact A2|]. intros I. destruct I as [I|I]; [discriminate | exact (power_no_break _ _ _ I)].
Qed.
(* Shape of a chunk of statements *)
Definition shaped {C} (i : item C) : Prop := exists c l, i = Assign c l /\ spaced false l.
Lemma react_line_shape off sp2a loss rt eq l : react_line off sp2a loss rt eq = Ok l ->
  List.length l <= 1 /\ Forall shaped l /\ Forall unbroken l.
Proof.
  unfold react_line. intros H. apply bind_Ok in H. destruct H as (e & H1 & H2). injection H2 as <-.
  destruct (react_fold _ _ _ _ _ _ _ H1 (or_introl eq_refl)) as [-> | [[A1 A2] A3]]; [cbn; auto|].
  destruct e as [|t e]; [cbn; auto|]. split; [cbn; lia|]. split; (apply Forall_cons; [|constructor]); [eexists _, _; eauto | exact A3].
Qed.

(* dydt *)
Lemma rate_operand off k q : operand false (rate_toks off k q).
Proof. unfold rate_toks. destruct (isone q); opr. Qed.
Lemma rate_no_break off k q : no_break (rate_toks off k q).
Proof. unfold rate_toks. destruct (isone q); nbr. Qed.
Lemma rate_f_operand k q : operand false (rate_toks_f k q).
Proof. unfold rate_toks_f. destruct (isone q); opr. Qed.
Lemma lead_spaced b (first : bool) l : operand false l -> operand b ((if first then [TMinus; TNum 1; TStar] else [TMinus]) ++ l).
Proof. intros [A1 A2]. destruct first; split; cbn [app spaced after_of]; auto. Qed.
Lemma losses_numba_shape : forall row first b, spaced b (losses_numba first row) /\ no_break (losses_numba first row).
Proof.
  induction row as [|[k q] row IH]; intros first b; [split; [exact I | intros []]|]. cbn [losses_numba]. rewrite app_assoc.
  destruct (lead_spaced b first _ (rate_operand 0 k q)) as [A1 A2]. split.
  - apply spaced_app. split; [exact A1|]. apply IH.
  - apply no_break_app; [apply no_break_app; [destruct first; nbr | apply rate_no_break] | apply (IH false true)].
Qed.
Lemma gains_numba_shape : forall row b, spaced b (gains_numba row) /\ no_break (gains_numba row).
Proof.
  induction row as [|[k q] row IH]; intros b; [split; [exact I | intros []]|]. cbn [gains_numba]. destruct (rate_operand 0 k q) as [A1 A2].
  split.
  - cbn [spaced]. apply spaced_app. split; [exact A1 | apply IH].
  - intros Hi. destruct Hi as [Hi|Hi]; [discriminate|]. revert Hi. apply no_break_app; [apply rate_no_break | apply (IH true)].
Qed.
Lemma lg_numba_shape loss gain p : List.length (lg_line_numba loss gain p) <= 1 /\ Forall shaped (lg_line_numba loss gain p) /\ Forall unbroken (lg_line_numba loss gain p).
Proof.
  destruct p as [s i]. unfold lg_line_numba. destruct (inb s excluded); [cbn; auto|]. destruct (dmem s loss || dmem s gain); [|cbn; auto].
  split; [cbn; lia|]. split; (apply Forall_cons; [|constructor]).
  - eexists _, _. split; [reflexivity|]. apply spaced_app. split; [apply losses_numba_shape | apply gains_numba_shape].
  - apply no_break_app; [apply (losses_numba_shape _ true false) | apply (gains_numba_shape _ false)].
Qed.

Lemma cont_lead limit flag c flag1 b l : cont limit flag = (c, flag1) -> (0 < flag -> b = true) ->
  (forall b', operand b' l) -> operand b (c ++ l).
Proof.
  unfold cont. intros H B O. destruct (limit <? flag) eqn:E; injection H as <- <-; [|exact (O b)].
  apply Nat.ltb_lt in E. rewrite B by lia. destruct (O true) as [O1 O2]. split; cbn [app spaced after_of]; auto.
Qed.
Lemma losses_fortran_shape : forall row flag first b l flag', losses_fortran flag first row = (l, flag') -> (0 < flag -> b = true) ->
  spaced b l /\ (0 < flag' -> after_of b l = true).
Proof.
  induction row as [|[k q] row IH]; intros flag first b l flag' H B; cbn [losses_fortran] in H.
  - injection H as <- <-. split; [exact I | exact B].
  - destruct (cont 4 flag) as [c flag1] eqn:Ec. destruct (losses_fortran (S flag1) false row) as [rest flag2] eqn:Er. injection H as <- <-.
    rewrite (app_assoc _ (rate_toks_f k q)), app_assoc.
    destruct (cont_lead _ _ _ _ b ((if first then [TMinus; TNum 1; TStar] else [TMinus]) ++ rate_toks_f k q) Ec B) as [O1 O2].
    { intros b'. apply lead_spaced, rate_f_operand. }
    destruct (IH _ _ true _ _ Er (fun _ => eq_refl)) as [A1 A2]. split.
    + apply spaced_app. rewrite O2. auto.
    + intros F. rewrite after_app, O2. exact (A2 F).
Qed.
Lemma gains_fortran_shape : forall row flag b, (0 < flag -> b = true) -> spaced b (gains_fortran flag row).
Proof.
  induction row as [|[k q] row IH]; intros flag b B; cbn [gains_fortran]; [exact I|].
  destruct (cont 4 flag) as [c flag1] eqn:Ec. change (TPlus :: rate_toks_f k q ++ gains_fortran (S flag1) row) with ((TPlus :: rate_toks_f k q) ++ gains_fortran (S flag1) row).
  rewrite app_assoc. destruct (cont_lead _ _ _ _ b (TPlus :: rate_toks_f k q) Ec B) as [O1 O2].
  { intros b'. destruct (rate_f_operand k q) as [A1 A2]. split; cbn [spaced after_of]; auto. }
  apply spaced_app. rewrite O2. split; [exact O1 | apply IH; auto].
Qed.
Lemma lg_fortran_shape loss gain p : List.length (lg_line_fortran loss gain p) <= 1 /\ Forall shaped (lg_line_fortran loss gain p).
Proof.
  destruct p as [s i]. unfold lg_line_fortran. destruct (inb s excluded); [cbn; auto|]. destruct (dmem s loss || dmem s gain); [|cbn; auto].
  destruct (losses_fortran 0 true (srow s loss)) as [l flag] eqn:E. split; [cbn; lia|]. apply Forall_cons; [|constructor].
  destruct (losses_fortran_shape _ _ _ false _ _ E) as [A1 A2]; [lia|].
  eexists _, _. split; [reflexivity|]. apply spaced_app. split; [exact A1 | apply gains_fortran_shape; exact A2].
Qed.

(* Jacobian *)
Section Jac.
Variables (off : nat) (sp2a : dict str nat) (rt : rtable) (loss gain : table) (ord : set_order) (conts : bool).
Definition is_signt (t : tok) : Prop := t = TPlus \/ t = TMinus.
Definition jstate (first : bool) (l : list tok) : Prop := if first then l = [] else (forall b, operand b l) /\ no_break l.
Lemma jac_factor_shape sgn eq reactant sf acc r2 acc' : is_signt sgn -> jac_factor off sp2a loss sgn eq reactant sf acc r2 = Ok acc' ->
  jstate (fst acc) (snd acc) -> jstate (fst acc') (snd acc').
Proof.
  intros Hg H J. destruct acc as [first l]. unfold jac_factor in H. destruct (eqb r2 hv); [injection H as <-; exact J|]. cbn [fst snd] in J.
  assert (Lead : forall l2, operand false l2 -> no_break l2 -> jstate false (l ++ (if first then [sgn] else [TStar]) ++ l2)).
  { intros l2 [O1 O2] N2. destruct first; cbn [jstate] in *.
    - subst l. cbn [app]. destruct Hg as [-> | ->]; (split; [intros b; split; cbn [spaced after_of]; auto | intros [I|I]; [discriminate | exact (N2 I)]]).
    - destruct J as [J1 J2]. split.
      + intros b. apply operand_app; [apply J1|]. split; cbn [app spaced after_of]; auto.
      + apply no_break_app; [exact J2|]. intros [I|I]; [discriminate | exact (N2 I)]. }
  destruct (eqb r2 reactant).
  - destruct (isone sf); [injection H as <-; exact J|]. apply bind_Ok in H. destruct H as (i & _ & H). cbv zeta in H.
    destruct (Qeq_bool sf 2); [injection H as <-; apply Lead; [opr | nbr]|].
    destruct (Qle_bool sf 2); [injection H as <-; exact J|]. injection H as <-. apply Lead; [opr | nbr].
  - apply bind_Ok in H. destruct H as (q & _ & H). apply bind_Ok in H. destruct H as (i & _ & H). injection H as <-. cbn [fst snd].
    destruct first.
    + apply (Lead ([TNum 1; TStar] ++ power_toks off i q)).
      * destruct (power_operand off i q) as [A1 A2]. split; cbn [app spaced after_of]; auto.
      * intros [I|[I|I]]; try discriminate. exact (power_no_break _ _ _ I).
    + apply Lead; [apply power_operand | apply power_no_break].
Qed.
Lemma jac_fold_shape sgn eq reactant sf : is_signt sgn -> forall rs acc acc', foldM (jac_factor off sp2a loss sgn eq reactant sf) rs acc = Ok acc' ->
  jstate (fst acc) (snd acc) -> jstate (fst acc') (snd acc').
Proof.
  intros Hg. induction rs as [|r rs IH]; intros acc acc' H J; cbn [foldM] in H; [injection H as <-; exact J|].
  apply bind_Ok in H. destruct H as (a1 & H1 & H2). apply (IH _ _ H2). eapply jac_factor_shape; eauto.
Qed.
Lemma jac_term_shape sgn s reactant gainp eq l : is_signt sgn -> jac_term off sp2a rt loss ord sgn s reactant gainp eq = Ok l ->
  (forall b, operand b l) /\ no_break l.
Proof.
  intros Hg H. unfold jac_term in H. apply bind_Ok in H. destruct H as (sf & _ & H). apply bind_Ok in H. destruct H as ([first l0] & H1 & H2).
  pose proof (jac_fold_shape _ _ _ _ Hg _ _ _ H1 eq_refl) as J. cbn [fst snd] in J. injection H2 as <-. destruct first; cbn [jstate] in J.
  - subst l0. cbn [app]. destruct Hg as [-> | ->]; (split; [intros b; opr | nbr]).
  - destruct J as [J1 J2]. split; [intros b; apply operand_app; [apply J1 | opr] | apply no_break_app; [exact J2 | nbr]].
Qed.
Lemma jac_terms_shape sgn s reactant gainp : is_signt sgn -> forall eqs flag b l flag', jac_terms off sp2a rt loss ord conts sgn s reactant gainp flag eqs = Ok (l, flag') ->
  (0 < flag -> b = true) -> spaced b l /\ (0 < flag' -> after_of b l = true) /\ (conts = false -> no_break l).
Proof.
  intros Hg. induction eqs as [|eq eqs IH]; intros flag b l flag' H B; cbn [jac_terms] in H.
  - injection H as <- <-. split; [exact I|]. split; [exact B | intros _ []].
  - destruct (inb reactant (reactants_of rt eq)); [|eapply IH; eauto].
    destruct (cont 3 flag) as [c flag1] eqn:Ec. apply bind_Ok in H. destruct H as (t & H1 & H2). apply bind_Ok in H2. destruct H2 as ([rest flag2] & H2 & H3).
    injection H3 as <- <-. destruct (jac_term_shape _ _ _ _ _ _ Hg H1) as [T1 T2].
    destruct (IH _ true _ _ H2 (fun _ => eq_refl)) as (A1 & A2 & A3).
    assert (O : operand b ((if conts then c else []) ++ t)).
    { destruct conts; [exact (cont_lead _ _ _ _ b t Ec B T1) | apply T1]. }
    destruct O as [O1 O2]. rewrite app_assoc. split; [apply spaced_app; rewrite O2; auto|]. split.
    + intros F. rewrite after_app, O2. exact (A2 F).
    + intros E. rewrite E. cbn [app]. apply no_break_app; [exact T2 | exact (A3 E)].
Qed.
Lemma jac_row_shape p ls : jac_row off sp2a rt loss gain ord conts p = Ok ls -> Forall shaped ls /\ (conts = false -> Forall unbroken ls).
Proof.
  destruct p as [s i]. unfold jac_row. destruct (inb s excluded); [intros H; injection H as <-; auto|]. cbv zeta. intros H.
  match type of H with mapM ?f ?l = _ => revert ls H; generalize l; intros rs end.
  induction rs as [|r rs IH]; intros ls H; cbn [mapM] in H; [injection H as <-; auto|].
  apply bind_Ok in H. destruct H as (it & H1 & H2). apply bind_Ok in H2. destruct H2 as (ls' & H2 & H3). injection H3 as <-.
  destruct (IH _ H2) as [I1 I2]. clear IH.
  apply bind_Ok in H1. destruct H1 as (j & _ & H1). apply bind_Ok in H1. destruct H1 as ([tl flag] & L & H1). apply bind_Ok in H1. destruct H1 as ([tg flag'] & G & H1).
  injection H1 as <-.
  destruct (jac_terms_shape TMinus _ _ _ (or_intror eq_refl) _ _ false _ _ L) as (A1 & A2 & A3); [lia|].
  destruct (jac_terms_shape TPlus _ _ _ (or_introl eq_refl) _ _ (after_of false tl) _ _ G A2) as (B1 & B2 & B3). split.
  - apply Forall_cons; [|exact I1]. eexists _, _. split; [reflexivity|]. apply spaced_app. auto.
  - intros E. apply Forall_cons; [|exact (I2 E)]. apply no_break_app; auto.
Qed.
End Jac.
