(* Running a program read back from its source text. *)
From Coq Require Import List Bool Arith Lia Ascii String ZArith QArith Reals Qreals Permutation.
From Verif Require Import Base PyStr PyDict ModelParse ModelLang ModelGen ModelRhs ModelOmp ModelGas ModelSource ModelWrite SpecSource SourceRead SourceGen PropsOmp.
Import ListNotations.
Import Coq.Lists.List.
Open Scope nat_scope.
Open Scope list_scope.
Local Arguments eqb : simpl never.

(* Numerals in lowest terms, in the tree. *)
Definition red_atom (a : atom) : atom := match a with ANum q => ANum (Qred q) | _ => a end.
Definition red_factor (f : factor) : factor := (red_atom (fst f), option_map Qred (snd f)).
Definition red_term (t : fterm) : fterm := (fst t, map red_factor (snd t)).
Definition red_expr (e : expr) : expr := map red_term e.
Definition red_after (x : option Q * list factor * expr) : option Q * list factor * expr :=
  let '(e, fs, ts) := x in (option_map Qred e, map red_factor fs, red_expr ts).

Lemma p_after_plain : forall n l b, List.length l <= n -> spaced true l -> p_after b (plain_toks l) = option_map red_after (p_after b l).
Proof.
  induction n as [|n IH]; intros l b Hl Hs; (destruct l as [|t l]; [reflexivity|]); [cbn in Hl; lia|]. cbn [List.length] in Hl.
  destruct t; cbn [spaced] in Hs; try (destruct Hs; discriminate).
  - destruct Hs as [_ Hs]. destruct l as [|t l]; [reflexivity|]. cbn [List.length] in Hl. destruct t; cbn [spaced] in Hs; try (destruct Hs; discriminate); try reflexivity.
    + destruct Hs as [_ Hs]. cbn [plain_toks flat_map app p_after tok_atom]. fold (plain_toks l). rewrite (IH l true) by (exact Hs || lia).
      destruct (p_after true l) as [[[e fs] ts]|]; reflexivity.
    + destruct Hs as [_ Hs]. cbn [plain_toks flat_map app p_after tok_atom]. fold (plain_toks l). rewrite (IH l true) by (exact Hs || lia).
      destruct (p_after true l) as [[[e fs] ts]|]; reflexivity.
  - destruct Hs as [_ Hs]. destruct l as [|t l]; [reflexivity|]. cbn [List.length] in Hl. destruct t; cbn [spaced] in Hs; try (destruct Hs; discriminate); try reflexivity.
    destruct Hs as [_ Hs]. cbn [plain_toks flat_map app p_after]. fold (plain_toks l). destruct b; [|reflexivity]. rewrite (IH l false) by (exact Hs || lia).
    destruct (p_after false l) as [[[[q'|] fs] ts]|]; reflexivity.
  - destruct l as [|t l]; [reflexivity|]. cbn [List.length] in Hl. destruct t; cbn [spaced] in Hs; try (destruct Hs; discriminate); try reflexivity.
    + destruct Hs as [_ Hs]. cbn [plain_toks flat_map app p_after tok_atom]. fold (plain_toks l). rewrite (IH l true) by (exact Hs || lia).
      destruct (p_after true l) as [[[e fs] ts]|]; reflexivity.
    + destruct Hs as [_ Hs]. cbn [plain_toks flat_map app p_after tok_atom]. fold (plain_toks l). rewrite (IH l true) by (exact Hs || lia).
      destruct (p_after true l) as [[[e fs] ts]|]; reflexivity.
  - destruct l as [|t l]; [reflexivity|]. cbn [List.length] in Hl. destruct t; cbn [spaced] in Hs; try (destruct Hs; discriminate); try reflexivity.
    + destruct Hs as [_ Hs]. cbn [plain_toks flat_map app p_after tok_atom]. fold (plain_toks l). rewrite (IH l true) by (exact Hs || lia).
      destruct (p_after true l) as [[[e fs] ts]|]; reflexivity.
    + destruct Hs as [_ Hs]. cbn [plain_toks flat_map app p_after tok_atom]. fold (plain_toks l). rewrite (IH l true) by (exact Hs || lia).
      destruct (p_after true l) as [[[e fs] ts]|]; reflexivity.
  - destruct Hs as [_ Hs]. cbn [plain_toks flat_map app p_after]. fold (plain_toks l). apply IH; [lia | exact Hs].
Qed.
Lemma p_expr_plain l : spaced false l -> p_expr (plain_toks l) = option_map red_expr (p_expr l).
Proof.
  intros Hs. destruct l as [|t l]; [reflexivity|]. destruct t; cbn [spaced] in Hs; try (destruct Hs; discriminate).
  - destruct Hs as [_ Hs]. cbn [plain_toks flat_map app p_expr tok_atom]. fold (plain_toks l). rewrite (p_after_plain _ l true (le_n _) Hs).
    destruct (p_after true l) as [[[e fs] ts]|]; reflexivity.
  - destruct Hs as [_ Hs]. cbn [plain_toks flat_map app p_expr tok_atom]. fold (plain_toks l). rewrite (p_after_plain _ l true (le_n _) Hs).
    destruct (p_after true l) as [[[e fs] ts]|]; reflexivity.
  - pose proof (p_after_plain _ (TPlus :: l) true (le_n _) Hs) as X. change (plain_toks (TPlus :: l)) with (TPlus :: plain_toks l) in *. unfold p_expr.
    rewrite X. destruct (p_after true (TPlus :: l)) as [[[[q|] [|f fs]] ts]|]; reflexivity.
  - pose proof (p_after_plain _ (TMinus :: l) true (le_n _) Hs) as X. change (plain_toks (TMinus :: l)) with (TMinus :: plain_toks l) in *. unfold p_expr.
    rewrite X. destruct (p_after true (TMinus :: l)) as [[[[q|] [|f fs]] ts]|]; reflexivity.
Qed.

(* The same expression in a language whose literals are first reduced. *)
Definition reduced (L : lang) : lang := Lang (loc L) (fun q => lit L (Qred q)).
Lemma e_expr_red L env e : e_expr L env (red_expr e) = e_expr (reduced L) env e.
Proof.
  assert (A : forall a, e_atom L env (red_atom a) = e_atom (reduced L) env a) by (intros [q|v i]; reflexivity).
  assert (F : forall f, e_factor L env (red_factor f) = e_factor (reduced L) env f).
  { intros [a o]. unfold red_factor, e_factor. cbn [fst snd]. rewrite A. destruct (e_atom (reduced L) env a); [|reflexivity]. destruct o; reflexivity. }
  assert (Fs : forall fs, e_factors L env (map red_factor fs) = e_factors (reduced L) env fs).
  { induction fs as [|f fs IH]; [reflexivity|]. cbn [map e_factors]. rewrite F, IH. reflexivity. }
  induction e as [|[neg fs] e IH]; [reflexivity|]. cbn [red_expr map e_expr]. unfold red_expr in IH. rewrite IH. f_equal.
  unfold red_term, e_term. cbn [fst snd]. rewrite Fs. reflexivity.
Qed.
Lemma value_plain L env l : spaced false l -> value L env (plain_toks l) = value (reduced L) env l.
Proof. intros Hs. unfold value. rewrite p_expr_plain by exact Hs. destruct (p_expr l); [apply e_expr_red | reflexivity]. Qed.

Lemma qpow_Qred x q : qpow x (Qred q) = qpow x q.
Proof.
  unfold qpow. assert (E : Qred (Qred q) = Qred q) by (apply Qred_complete, Qred_correct). rewrite E.
  assert (R : Q2R (Qred q) = Q2R q) by (apply Qeq_eqR, Qred_correct). rewrite R. reflexivity.
Qed.
Lemma value_reduced_python env l : value (reduced python) env l = value python env l.
Proof.
  unfold value. destruct (p_expr l) as [e|]; [|reflexivity].
  assert (A : forall a, e_atom (reduced python) env a = e_atom python env a).
  { intros [q|v i]; [|reflexivity]. cbn [e_atom reduced lit python]. f_equal. apply Qeq_eqR, Qred_correct. }
  assert (F : forall f, e_factor (reduced python) env f = e_factor python env f).
  { intros [a o]. unfold e_factor. rewrite A. destruct (e_atom python env a); [|reflexivity]. destruct o; [apply qpow_Qred | reflexivity]. }
  assert (Fs : forall fs, e_factors (reduced python) env fs = e_factors python env fs).
  { induction fs as [|f fs IH]; [reflexivity|]. cbn [e_factors]. rewrite F, IH. reflexivity. }
  induction e as [|[neg fs] e IH]; [reflexivity|]. cbn [e_expr]. rewrite IH. f_equal. unfold e_term. rewrite Fs. reflexivity.
Qed.
Definition reduced_rnd (rnd : Q -> Q) : Q -> Q := fun q => rnd (Qred q).
Lemma reduced_rounding rnd : is_rounding rnd -> is_rounding (reduced_rnd rnd).
Proof.
  intros H q Hq. unfold reduced_rnd. rewrite (H (Qred q)); [apply Qred_correct|].
  destruct Hq as (m & e & A & B & D). exists m, e. split; [exact A|]. split; [exact B|]. rewrite !Qred_correct. exact D.
Qed.

(* Programs *)
Definition well {C} (p : list (item C)) : Prop := Forall (fun i => match i with Assign _ l => spaced false l | _ => True end) p.
Lemma run_plain {C D} `{EqB D} (addr : C -> option D) L env p m : well p ->
  run addr (value L env) (plain p) m = run addr (value (reduced L) env) p m.
Proof.
  revert m. induction p as [|i p IH]; intros m W; [reflexivity|]. inversion W as [|? ? W1 W2]; subst.
  destruct i as [c l| | | |]; cbn [plain map run]; try (apply IH; exact W2).
  unfold assign. rewrite value_plain by exact W1. destruct (addr c); [|reflexivity]. destruct (value (reduced L) env l); [|reflexivity]. apply IH, W2.
Qed.
Lemma run_value {C D E} `{EqB D} (addr : C -> option D) (v v' : E -> option R) p m : (forall e, v e = v' e) -> run addr v p m = run addr v' p m.
Proof.
  intros Hv. revert m. induction p as [|i p IH]; intros m; [reflexivity|].
  destruct i as [c l| | | |]; cbn [run]; try apply IH. unfold assign. rewrite Hv. destruct (addr c); [|reflexivity]. destruct (v' l); [apply IH | reflexivity].
Qed.
Lemma reactants_numba_plain p n y : well p -> reactants_numba (plain p) n y = reactants_numba p n y.
Proof. intros W. unfold reactants_numba. rewrite run_plain by exact W. f_equal. apply run_value. intros. apply value_reduced_python. Qed.
Lemma dydt_numba_plain p n r : well p -> dydt_numba (plain p) n r = dydt_numba p n r.
Proof. intros W. unfold dydt_numba. rewrite run_plain by exact W. f_equal. apply run_value. intros. apply value_reduced_python. Qed.
Lemma jacobian_numba_plain p N y r : well p -> jacobian_numba (plain p) N y r = jacobian_numba p N y r.
Proof. intros W. unfold jacobian_numba. rewrite run_plain by exact W. apply run_value. intros. apply value_reduced_python. Qed.
Lemma reactants_fortran_plain rnd p n m0 y : well p -> reactants_fortran rnd (plain p) n m0 y = reactants_fortran (reduced_rnd rnd) p n m0 y.
Proof. intros W. unfold reactants_fortran. rewrite run_plain by exact W. reflexivity. Qed.
Lemma loss_gain_fortran_plain rnd p n r : well p -> loss_gain_fortran rnd (plain p) n r = loss_gain_fortran (reduced_rnd rnd) p n r.
Proof. intros W. unfold loss_gain_fortran. rewrite run_plain by exact W. reflexivity. Qed.
Lemma jacobian_fortran_plain rnd p N y r : well p -> jacobian_fortran rnd (plain p) N y r = jacobian_fortran (reduced_rnd rnd) p N y r.
Proof. intros W. unfold jacobian_fortran. rewrite run_plain by exact W. reflexivity. Qed.

(* The generators *)
Lemma well_app {C} (p q : list (item C)) : well p -> well q -> well (p ++ q).
Proof. intros; apply Forall_app; auto. Qed.
Lemma well_concat {C} (ls : list (list (item C))) : (forall l, In l ls -> Forall shaped l) -> well (concat ls).
Proof.
  induction ls as [|l ls IH]; intros H; [constructor|]. cbn [concat]. apply well_app; [|apply IH; intros k I; apply H; right; exact I].
  specialize (H l (or_introl eq_refl)). eapply Forall_impl; [|exact H]. intros i (c & e & -> & Hs). exact Hs.
Qed.
Lemma well_frame {C} omp (ls : list (list (item C))) : (forall l, In l ls -> Forall shaped l) -> well (omp_frame omp ls).
Proof.
  intros H. unfold omp_frame. destruct omp as [breaks|]; [|apply well_concat; exact H]. apply well_app; [|repeat (apply Forall_cons; [exact I|]); constructor].
  generalize 0. induction ls as [|l ls IH]; intros i; [constructor|]. cbn [omp_chunks].
  apply well_app; [destruct (i =? 0); repeat (apply Forall_cons; [exact I|]); constructor|].
  apply well_app; [destruct (inb i breaks); repeat (apply Forall_cons; [exact I|]); constructor|].
  apply well_app; [|apply IH; intros k Hk; apply H; right; exact Hk].
  specialize (H l (or_introl eq_refl)). eapply Forall_impl; [|exact H]. intros it (c & e & -> & Hs). exact Hs.
Qed.
Lemma react_shaped off sp2a loss rt eqs ls : mapM (react_line off sp2a loss rt) eqs = Ok ls -> forall l, In l ls -> Forall shaped l.
Proof.
  intros M. apply mapM_inv in M. induction M as [|a b l1 l2 H _ IH]; intros l I; [destruct I|]. destruct I as [<-|I]; [|exact (IH l I)].
  exact (proj1 (proj2 (SourceGen.react_line_shape _ _ _ _ _ _ H))).
Qed.
Lemma jac_shaped off sp2a rt loss gain ord conts sp ls : mapM (jac_row off sp2a rt loss gain ord conts) sp = Ok ls -> forall l, In l ls -> Forall shaped l.
Proof.
  intros M. apply mapM_inv in M. induction M as [|a b l1 l2 H _ IH]; intros l I; [destruct I|]. destruct I as [<-|I]; [|exact (IH l I)].
  destruct (jac_row_shape _ _ _ _ _ _ _ _ _ H) as [B _]. exact B.
Qed.
Lemma well_reactants_numba n sp2a rt loss p : gen_reactants_numba n sp2a rt loss = Ok p -> well p.
Proof. unfold gen_reactants_numba. intros H. apply bind_Ok in H. destruct H as (ls & M & H). injection H as <-. apply well_concat. eapply react_shaped, M. Qed.
Lemma well_reactants_fortran omp n sp2a rt loss p : gen_reactants_fortran omp n sp2a rt loss = Ok p -> well p.
Proof. unfold gen_reactants_fortran. intros H. apply bind_Ok in H. destruct H as (ls & M & H). injection H as <-. apply well_frame. eapply react_shaped, M. Qed.
Lemma well_jacobian_numba ord sp2a rt loss gain p : gen_jacobian_numba ord sp2a rt loss gain = Ok p -> well p.
Proof. unfold gen_jacobian_numba. intros H. apply bind_Ok in H. destruct H as (ls & M & H). injection H as <-. apply well_concat. eapply jac_shaped, M. Qed.
Lemma well_jacobian_fortran ord omp sp2a rt loss gain p : gen_jacobian_fortran ord omp sp2a rt loss gain = Ok p -> well p.
Proof. unfold gen_jacobian_fortran. intros H. apply bind_Ok in H. destruct H as (ls & M & H). injection H as <-. apply well_frame. eapply jac_shaped, M. Qed.
Lemma well_loss_gain_numba sp2a loss gain : well (snd (gen_loss_gain_numba sp2a loss gain)).
Proof.
  unfold gen_loss_gain_numba. destruct (sparse_lg sp2a loss gain []) as [[l' g'] m]. cbn [snd]. rewrite flat_map_concat_map. apply well_concat.
  intros l I. apply in_map_iff in I. destruct I as (p & <- & _). apply lg_numba_shape.
Qed.
Lemma well_loss_gain_fortran omp sp2a loss gain : well (gen_loss_gain_fortran omp sp2a loss gain).
Proof. apply well_frame. intros l I. apply in_map_iff in I. destruct I as (p & <- & _). apply lg_fortran_shape. Qed.

(* Parallel executions *)
Definition red_assign {C} (ce : C * list tok) : C * list tok := (fst ce, plain_toks (snd ce)).
Lemma omp_blocks_plain {C} : forall (p : list (item C)) cur, omp_blocks (option_map (map red_assign) cur) (plain p) = option_map (map (map red_assign)) (omp_blocks cur p).
Proof.
  induction p as [|i p IH]; intros cur; [reflexivity|]. destruct i as [c l| | | |]; cbn [plain map omp_blocks]; fold (plain p).
  - destruct cur as [b|]; [|reflexivity]. cbn [option_map]. rewrite <- (IH (Some (b ++ [(c, l)]))). cbn [option_map]. rewrite map_app. reflexivity.
  - reflexivity.
  - destruct cur as [b|]; [reflexivity|]. exact (IH (Some [])).
  - destruct cur as [b|]; [|reflexivity]. cbn [option_map]. specialize (IH None). cbn [option_map] in IH. unfold block in *. rewrite IH.
    match goal with |- match option_map _ ?o with _ => _ end = _ => destruct o end; reflexivity.
  - destruct cur as [b|]; [reflexivity|]. cbn [option_map]. destruct p; reflexivity.
Qed.
Lemma omp_program_plain {C} (p : list (item C)) : omp_program (plain p) = option_map (map (map red_assign)) (omp_program p).
Proof. destruct p as [|[c l| | | |] p]; try reflexivity. exact (omp_blocks_plain p None). Qed.
Lemma map_split {A B} (f : A -> B) : forall l l1 l2, map f l = l1 ++ l2 -> exists k1 k2, l = k1 ++ k2 /\ map f k1 = l1 /\ map f k2 = l2.
Proof.
  induction l as [|a l IH]; intros l1 l2 H.
  - cbn in H. symmetry in H. apply app_eq_nil in H. destruct H as [-> ->]. exists [], []. auto.
  - destruct l1 as [|b l1]; [exists [], (a :: l); cbn in H; auto|]. cbn in H. injection H as <- H. destruct (IH _ _ H) as (k1 & k2 & -> & <- & <-).
    exists (a :: k1), k2. auto.
Qed.
Lemma interleaves_map {A B} (f : A -> B) ls tr : interleaves ls tr -> forall ks, ls = map (map f) ks -> exists tr0, interleaves ks tr0 /\ tr = map f tr0.
Proof.
  induction 1 as [ls F|ls1 a l ls2 tr _ IH]; intros ks E.
  - exists []. split; [|reflexivity]. apply il_done. subst ls. rewrite Forall_map in F. eapply Forall_impl; [|exact F]. intros l H. destruct l; [reflexivity | discriminate].
  - symmetry in E. apply map_split in E. destruct E as (k1 & k2 & -> & <- & E). destruct k2 as [|k k2]; [discriminate|]. cbn [map] in E. injection E as E1 <-.
    destruct k as [|b k]; [discriminate|]. cbn [map] in E1. injection E1 as <- <-.
    destruct (IH (k1 ++ k :: k2)) as (tr0 & I & ->); [rewrite map_app; reflexivity|]. exists (b :: tr0). split; [apply il_step; exact I | reflexivity].
Qed.
Lemma Permutation_concat_map {A B} (f : A -> B) : forall threads bs, Permutation (concat threads) (map f bs) ->
  exists th0, threads = map (map f) th0 /\ Permutation (concat th0) bs.
Proof.
  intros threads bs H. apply Permutation_map_inv in H. destruct H as (l & E & P).
  assert (X : forall (ts : list (list B)) l, concat ts = map f l -> exists th0, ts = map (map f) th0 /\ concat th0 = l).
  { clear. induction ts as [|t ts IH]; intros l E; [destruct l; [exists []; auto | discriminate]|]. cbn [concat] in E. symmetry in E. apply map_split in E.
    destruct E as (k1 & k2 & -> & <- & E). destruct (IH k2 (eq_sym E)) as (th & -> & <-). exists (k1 :: th). auto. }
  destruct (X threads l E) as (th0 & -> & <-). exists th0. split; [reflexivity | apply Permutation_sym, P].
Qed.
Lemma execution_plain {C} (bs : list (block C (list tok))) tr : execution (map (map red_assign) bs) tr ->
  exists tr0, execution bs tr0 /\ tr = map red_assign tr0.
Proof.
  intros (threads & P & I). destruct (Permutation_concat_map _ _ _ P) as (th0 & -> & P0).
  destruct (interleaves_map red_assign _ _ I (map (@concat _) th0)) as (tr0 & I0 & ->).
  { rewrite !map_map. apply map_ext. intros b. rewrite concat_map. reflexivity. }
  exists tr0. split; [exists th0; auto | reflexivity].
Qed.
Lemma runs_as_plain {C} omp (p tr : list (item C)) : runs_as omp (plain p) tr -> exists tr0, runs_as omp p tr0 /\ tr = plain tr0.
Proof.
  destruct omp as [br|]; cbn [runs_as]; [|intros ->; eauto]. intros (bs & t & Hb & He & ->). rewrite omp_program_plain in Hb.
  destruct (omp_program p) as [bs0|] eqn:E; [|discriminate]. cbn [option_map] in Hb. assert (B : map (map red_assign) bs0 = bs) by congruence. subst bs.
  destruct (execution_plain _ _ He) as (t0 & H0 & ->). exists (as_items t0). split; [exists bs0, t0; auto|].
  unfold as_items, plain. rewrite !map_map. reflexivity.
Qed.
Lemma omp_blocks_well {C} : forall (p : list (item C)) cur bs, well p -> (forall b, cur = Some b -> Forall (fun ce => spaced false (snd ce)) b) ->
  omp_blocks cur p = Some bs -> Forall (Forall (fun ce => spaced false (snd ce))) bs.
Proof.
  induction p as [|i p IH]; intros cur bs W Hc H; [discriminate|]. inversion W as [|? ? W1 W2]; subst.
  destruct i as [c l| | | |]; cbn [omp_blocks] in H.
  - destruct cur as [b|]; [|discriminate]. apply (IH _ _ W2) in H; [exact H|]. intros b' E. injection E as <-. apply Forall_app. split; [apply Hc; reflexivity|].
    apply Forall_cons; [exact W1 | constructor].
  - discriminate.
  - destruct cur; [discriminate|]. apply (IH _ _ W2) in H; [exact H|]. intros b E. injection E as <-. constructor.
  - destruct cur as [b|]; [|discriminate]. destruct (omp_blocks None p) as [bs'|] eqn:E; [|discriminate]. injection H as <-.
    apply Forall_cons; [apply Hc; reflexivity|]. apply (IH None _ W2); [discriminate | exact E].
  - destruct cur; [discriminate|]. destruct p; [|discriminate]. injection H as <-. constructor.
Qed.
Lemma interleaves_Forall {A} (P : A -> Prop) ls tr : interleaves ls tr -> Forall (Forall P) ls -> Forall P tr.
Proof.
  induction 1 as [|ls1 a l ls2 tr _ IH]; intros F; [constructor|]. apply Forall_app in F. destruct F as [F1 F2]. inversion F2 as [|? ? F3 F4]; subst. inversion F3; subst.
  apply Forall_cons; [assumption|]. apply IH. apply Forall_app. split; [exact F1|]. apply Forall_cons; assumption.
Qed.
Lemma runs_as_well {C} omp (p tr : list (item C)) : well p -> runs_as omp p tr -> well tr.
Proof.
  destruct omp as [br|]; cbn [runs_as]; [|intros W ->; exact W]. intros W (bs & t & Hb & (threads & P & I) & ->).
  assert (B : Forall (Forall (fun ce => spaced false (snd ce))) bs).
  { unfold omp_program in Hb. destruct p as [|[c l| | | |] p]; try discriminate. apply (omp_blocks_well p None); [inversion W; assumption | discriminate | exact Hb]. }
  assert (T : Forall (fun ce => spaced false (snd ce)) t).
  { eapply interleaves_Forall; [exact I|]. apply Forall_map. rewrite Forall_forall. intros th Hth. apply Forall_concat.
    rewrite Forall_forall in B |- *. intros b Hb'. apply B. eapply Permutation_in; [exact P|]. apply in_concat. eauto. }
  unfold well, as_items. apply Forall_map. exact T.
Qed.
