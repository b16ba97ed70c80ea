(* Reasoning about runs of the rate modules: closed forms of variables,
   comparison of closed forms across the two languages, sign analysis. *)
From Coq Require Import List Bool Arith Lia Ascii String ZArith QArith Reals Qreals Lra.
From Verif Require Import Base PyStr SpecRate ModelExpr.
Import ListNotations.
Import Coq.Lists.List.
Open Scope nat_scope.
Open Scope list_scope.
Local Arguments eqb : simpl never.

(* ------------------------------------------------------------------ *)
(* Closed forms *)
Fixpoint dlook {A} (x : str) (l : list (str * A)) : option A :=
  match l with [] => None | (k, a) :: l' => if eqb x k then Some a else dlook x l' end.
Definition senv := list (str * option xexp).
Definition slook (s : senv) (x : str) : option xexp := match dlook x s with Some (Some e) => Some e | _ => None end.

Section Closed.
Variable L : rlang.
Fixpoint xsubst (s : senv) (e : xexp) : option xexp :=
  match e with
  | XNum q => Some (XNum q)
  | XVar x => slook s x
  | XCall f a => if is_array L f then None else option_map (XCall f) (xsubst s a)
  | XIdx _ _ => None
  | XAdd a b => match xsubst s a, xsubst s b with Some a, Some b => Some (XAdd a b) | _, _ => None end
  | XSub a b => match xsubst s a, xsubst s b with Some a, Some b => Some (XSub a b) | _, _ => None end
  | XMul a b => match xsubst s a, xsubst s b with Some a, Some b => Some (XMul a b) | _, _ => None end
  | XDiv a b => match xsubst s a, xsubst s b with Some a, Some b => Some (XDiv a b) | _, _ => None end
  | XPow a b => match xsubst s a, xsubst s b with Some a, Some b => Some (XPow a b) | _, _ => None end
  | XNeg a => option_map XNeg (xsubst s a)
  end.
(* A variable is real also where an integer is assigned to it. *)
Definition real_form (o : option xexp) : option xexp :=
  match o with Some e => if int_arith L && x_int e then None else Some e | None => None end.
Definition sym_simple (s : senv) (c : simple) : senv :=
  match c with SSet x e => (x, real_form (xsubst s e)) :: s | SSetJ _ _ => s end.
Definition forget (s : senv) (c : simple) : senv := match c with SSet x _ => (x, None) :: s | SSetJ _ _ => s end.
Definition sym_stmt (s : senv) (c : stmt) : senv :=
  match c with
  | SDo c => sym_simple s c
  | SIfLe _ _ th el => fold_left forget el (fold_left forget th s)
  end.
Definition sym_stmts (s : senv) (l : list stmt) : senv := fold_left sym_stmt l s.

Variable en0 : renv.
Definition agrees (s : senv) (en : renv) : Prop := forall x e, slook s x = Some e ->
  rvar en x = xeval L en0 e /\ int_arith L && x_int e = false.

Lemma xsubst_int s en (A : agrees s en) e : forall e', xsubst s e = Some e' -> int_arith L && x_int e' = int_arith L && x_int e.
Proof.
  induction e; cbn; intros e' H;
    try (destruct (xsubst s e1) eqn:E1; [|discriminate]; destruct (xsubst s e2) eqn:E2; [|discriminate];
         injection H as <-; cbn [x_int]; specialize (IHe1 _ eq_refl); specialize (IHe2 _ eq_refl);
         destruct (int_arith L); cbn [andb] in *; [rewrite IHe1, IHe2; reflexivity | reflexivity]).
  - injection H as <-; reflexivity.
  - rewrite (proj2 (A _ _ H)). rewrite andb_false_r. reflexivity.
  - destruct (is_array L f) eqn:Ef; [discriminate|]. destruct (xsubst s e) eqn:E; [|discriminate].
    injection H as <-. cbn [x_int]. specialize (IHe _ eq_refl). destruct (int_arith L); cbn [andb] in *; [rewrite IHe|]; reflexivity.
  - discriminate.
  - destruct (xsubst s e) eqn:E; [|discriminate]. injection H as <-. cbn [x_int]. apply IHe. reflexivity.
Qed.
Lemma xsubst_ints s en (A : agrees s en) a b a' b' : xsubst s a = Some a' -> xsubst s b = Some b' ->
  int_arith L && (x_int a' && x_int b') = int_arith L && (x_int a && x_int b).
Proof.
  intros Ha Hb. apply (xsubst_int s en A) in Ha. apply (xsubst_int s en A) in Hb.
  destruct (int_arith L); cbn [andb] in *; [rewrite Ha, Hb|]; reflexivity.
Qed.
Lemma xsubst_refused s en (A : agrees s en) f a a' : xsubst s a = Some a' -> int_arith L && refused f a' = int_arith L && refused f a.
Proof.
  intros Ha. apply (xsubst_int s en A) in Ha. unfold refused. destruct (int_arith L); cbn [andb] in *; [rewrite Ha|]; reflexivity.
Qed.

Lemma xsubst_sound s en (A : agrees s en) e : forall e', xsubst s e = Some e' -> xeval L en e = xeval L en0 e'.
Proof.
  induction e; cbn; intros e' H;
    try (destruct (xsubst s e1) eqn:E1; [|discriminate]; destruct (xsubst s e2) eqn:E2; [|discriminate];
         injection H as <-; cbn; rewrite (IHe1 _ eq_refl), (IHe2 _ eq_refl), ?(xsubst_ints s en A _ _ _ _ E1 E2); reflexivity).
  - injection H as <-; reflexivity.
  - apply (A _ _ H).
  - destruct (is_array L f) eqn:Ef; [discriminate|]. destruct (xsubst s e) eqn:E; [|discriminate].
    injection H as <-. cbn. rewrite Ef, (IHe _ eq_refl), (xsubst_refused s en A f _ _ E). reflexivity.
  - discriminate.
  - destruct (xsubst s e) eqn:E; [|discriminate]. injection H as <-. cbn. rewrite (IHe _ eq_refl). reflexivity.
Qed.
Lemma slook_cons x o s y : slook ((x, o) :: s) y = if eqb y x then o else slook s y.
Proof. unfold slook; cbn [dlook]. destruct (eqb y x); [destruct o|]; reflexivity. Qed.
Lemma sym_simple_sound s en c en' : agrees s en -> run_simple L c en = Some en' -> agrees (sym_simple s c) en'.
Proof.
  intros A H. destruct c as [x e|k e]; cbn in H.
  - destruct (xeval L en e) as [v|] eqn:E; cbn in H; [|discriminate]. injection H as <-.
    intros y e' Hy. cbn in Hy. rewrite slook_cons in Hy. cbn. destruct (eqb y x).
    + unfold real_form in Hy. destruct (xsubst s e) as [e2|] eqn:Es; [|discriminate]. destruct (int_arith L && x_int e2) eqn:Ei; [discriminate|].
      injection Hy as <-. split; [|exact Ei]. rewrite <- E. apply (xsubst_sound s en A). exact Es.
    + apply A, Hy.
  - destruct (xeval L en e) as [v|]; cbn in H; [|discriminate]. injection H as <-. exact A.
Qed.
Lemma forget_one s en c en' : agrees s en -> run_simple L c en = Some en' -> agrees (forget s c) en'.
Proof.
  intros A H. destruct c as [x e|k e]; cbn in H.
  - destruct (xeval L en e) as [v|] eqn:E; cbn in H; [|discriminate]. injection H as <-.
    intros y e' Hy. cbn in Hy. rewrite slook_cons in Hy. cbn. destruct (eqb y x); [discriminate|apply A, Hy].
  - destruct (xeval L en e) as [v|]; cbn in H; [|discriminate]. injection H as <-. exact A.
Qed.
Lemma forget_less s c x : forall e, slook (forget s c) x = Some e -> slook s x = Some e.
Proof. destruct c; cbn; auto. intros e'. rewrite slook_cons. destruct (eqb x x0); [discriminate|auto]. Qed.
Lemma forget_agrees s en c : agrees s en -> agrees (forget s c) en.
Proof. intros A x e H. apply A, (forget_less s c), H. Qed.
Lemma forgets_agrees l : forall s en, agrees s en -> agrees (fold_left forget l s) en.
Proof. induction l; cbn; auto using forget_agrees. Qed.
Lemma forgets_sound l : forall s en en', agrees s en -> run_simples L l en = Some en' -> agrees (fold_left forget l s) en'.
Proof.
  induction l as [|c l IH]; cbn; intros s en en' A H.
  - injection H as <-. exact A.
  - destruct (run_simple L c en) as [en1|] eqn:E; cbn in H; [|discriminate].
    eapply IH; [|exact H]. eapply forget_one; eauto.
Qed.
Lemma sym_stmt_sound s en c en' : agrees s en -> run_stmt L c en = Some en' -> agrees (sym_stmt s c) en'.
Proof.
  intros A H. destruct c as [c|a b th el]; cbn in *.
  - eapply sym_simple_sound; eauto.
  - destruct (xeval L en a); cbn in H; [|discriminate]. destruct (xeval L en b); cbn in H; [|discriminate].
    destruct (Rle_dec r r0).
    + apply forgets_agrees. eapply forgets_sound; eauto.
    + eapply forgets_sound; [|exact H]. apply forgets_agrees, A.
Qed.
Lemma sym_stmts_sound l : forall s en en', agrees s en -> run_stmts L l en = Some en' -> agrees (sym_stmts s l) en'.
Proof.
  induction l as [|c l IH]; cbn; intros s en en' A H.
  - injection H as <-. exact A.
  - destruct (run_stmt L c en) as [en1|] eqn:E; cbn in H; [|discriminate].
    eapply IH; [|exact H]. eapply sym_stmt_sound; eauto.
Qed.
End Closed.

Lemma run_stmts_app L l1 l2 en : run_stmts L (l1 ++ l2) en = obind (run_stmts L l1 en) (run_stmts L l2).
Proof. revert en; induction l1; cbn; intros; [reflexivity|]. destruct (run_stmt L a en); cbn; auto. Qed.

(* ------------------------------------------------------------------ *)
(* The same expression in two languages *)
Definition fpair (f g : str) : bool :=
  existsb (fun p : string * string => eqb f (s_ (fst p)) && eqb g (s_ (snd p)))
    [("numba_exp"%string, "exp"%string); ("numba_log10"%string, "log10"%string); ("numba_cos"%string, "cos"%string);
     ("numba_sin"%string, "sin"%string); ("numba_arctan"%string, "atan"%string)].
(* The arguments of the numba function. *)
Definition rate_inputs : list str := map s_ ["ttime"; "RO2"; "H2O"; "temp"]%string.
Fixpoint xeq (e f : xexp) : bool :=
  match e, f with
  | XNum p, XNum q => Qeq_bool p q
  | XVar x, XVar y => inb x rate_inputs && eqb (lower x) y
  | XCall g a, XCall h b => fpair g h && negb (x_int b) && xeq a b
  | XAdd a b, XAdd c d | XSub a b, XSub c d => xeq a c && xeq b d
  | XDiv a b, XDiv c d | XPow a b, XPow c d => negb (x_int c && x_int d) && (xeq a c && xeq b d)
  | XMul a b, _ =>
      match f with
      | XMul c d =>
          xeq a c && xeq b d ||
          match a, c with XMul a1 a2, XMul c1 c2 => xeq a1 c1 && xeq a2 d && xeq b c2 | _, _ => false end
      | XNum r => match a, b with XNum p, XNum q => Qeq_bool (p * q) r | _, _ => false end
      | _ => false
      end
  | XNeg a, XNeg b => xeq a b
  | _, _ => false
  end.

Lemma fpair_sound f g : fpair f g = true ->
  is_array numba_lang f = false /\ is_array fortran_lang g = false /\ numba_func f = fortran_func g.
Proof.
  unfold fpair; cbn [existsb fst snd]; intros H.
  repeat match type of H with _ || _ = true => apply orb_prop in H; destruct H as [H|H] end; try discriminate;
    apply andb_prop in H; destruct H as [H1 H2]; apply eqb_eq in H1; apply eqb_eq in H2; subst; repeat split; reflexivity.
Qed.
Section TwoLangs.
Variables en en' : renv.
Hypothesis same_inputs : forall x, In x rate_inputs -> rvar en x = rvar en' (lower x).
Lemma xeq_sound e : forall f, xeq e f = true -> xeval numba_lang en e = xeval fortran_lang en' f.
Proof.
  induction e; intros f0 H; destruct f0; cbn [xeq] in H; try discriminate;
    try (apply andb_prop in H; destruct H as [H1 H2]; cbn; rewrite (IHe1 _ H1), (IHe2 _ H2); reflexivity);
    try (apply andb_prop in H; destruct H as [H0 H]; apply negb_true_iff in H0; apply andb_prop in H; destruct H as [H1 H2];
         cbn [xeval int_arith numba_lang fortran_lang andb]; rewrite H0, (IHe1 _ H1), (IHe2 _ H2); reflexivity).
  - apply Qeq_bool_eq in H. cbn. f_equal. apply Qeq_eqR, H.
  - apply andb_prop in H. destruct H as [H1 H2]. apply eqb_eq in H2; subst. cbn. apply same_inputs, inb_In, H1.
  - apply andb_prop in H. destruct H as [H1 H2]. apply andb_prop in H1. destruct H1 as [H1 HI]. apply negb_true_iff in HI.
    destruct (fpair_sound _ _ H1) as (A & B & C).
    cbn [xeval]. rewrite A, B, (IHe _ H2). cbn [func numba_lang fortran_lang int_arith andb]. unfold refused. rewrite C, HI. reflexivity.
  - destruct e1; try discriminate. destruct e2; try discriminate. apply Qeq_bool_eq in H.
    cbn. f_equal. rewrite <- Q2R_mult. apply Qeq_eqR, H.
  - apply orb_prop in H. destruct H as [H|H].
    + apply andb_prop in H; destruct H as [H1 H2]; cbn; rewrite (IHe1 _ H1), (IHe2 _ H2); reflexivity.
    + destruct e1; try discriminate. destruct f0_1; try discriminate.
      apply andb_prop in H. destruct H as [H H3]. apply andb_prop in H. destruct H as [H1 H2].
      pose proof (IHe2 _ H3) as E3.
      assert (E12 : xeval numba_lang en (XMul e1_1 e1_2) = xeval fortran_lang en' (XMul f0_1_1 f0_2)).
      { apply IHe1. cbn [xeq]. rewrite H1, H2. reflexivity. }
      change (obind (xeval numba_lang en (XMul e1_1 e1_2)) (fun x => obind (xeval numba_lang en e2) (fun y => Some (x * y)%R)) =
              xeval fortran_lang en' (XMul (XMul f0_1_1 f0_1_2) f0_2)).
      rewrite E12, E3. cbn.
      destruct (xeval fortran_lang en' f0_1_1); cbn; [|reflexivity].
      destruct (xeval fortran_lang en' f0_2); cbn; destruct (xeval fortran_lang en' f0_1_2); cbn; try reflexivity.
      f_equal. ring.
  - cbn. rewrite (IHe _ H). reflexivity.
Qed.
End TwoLangs.

(* ------------------------------------------------------------------ *)
(* Signs *)
Inductive dom := DPos | DUnit | DNonneg | DNeg | DAny.
Definition den (d : dom) (x : R) : Prop :=
  match d with DPos => (0 < x)%R | DUnit => (0 < x < 1)%R | DNonneg => (0 <= x)%R | DNeg => (x < 0)%R | DAny => True end.
Definition is_pos (d : dom) : bool := match d with DPos | DUnit => true | _ => false end.
Definition is_nonneg (d : dom) : bool := match d with DPos | DUnit | DNonneg => true | _ => false end.
Definition is_neg (d : dom) : bool := match d with DNeg => true | _ => false end.
Lemma is_pos_den d x : is_pos d = true -> den d x -> (0 < x)%R.
Proof. destruct d; cbn; try discriminate; intros; lra. Qed.
Lemma is_nonneg_den d x : is_nonneg d = true -> den d x -> (0 <= x)%R.
Proof. destruct d; cbn; try discriminate; intros; lra. Qed.
Lemma is_neg_den d x : is_neg d = true -> den d x -> (x < 0)%R.
Proof. destruct d; cbn; try discriminate; intros; lra. Qed.

Definition d_num (q : Q) : dom :=
  if (0 <? Qnum q)%Z then (if (Qnum q <? Zpos (Qden q))%Z then DUnit else DPos)
  else if (Qnum q =? 0)%Z then DNonneg else DAny.
Definition d_add (a b : dom) : dom :=
  if (is_pos a && is_nonneg b) || (is_nonneg a && is_pos b) then DPos
  else if is_nonneg a && is_nonneg b then DNonneg else DAny.
Definition d_sub (a b : dom) : dom := if is_nonneg a && is_neg b then DPos else DAny.
Definition d_mul (a b : dom) : dom :=
  match a, b with
  | DUnit, DUnit => DUnit
  | _, _ => if is_pos a && is_pos b then DPos
            else if (is_pos a && is_neg b) || (is_neg a && is_pos b) then DNeg
            else if is_nonneg a && is_nonneg b then DNonneg else DAny
  end.
Definition d_div (a b : dom) : option dom :=
  if is_pos b then Some (if is_pos a then DPos else if is_neg a then DNeg else if is_nonneg a then DNonneg else DAny)
  else if is_neg b then Some DAny else None.
Definition d_neg (a : dom) : dom := if is_pos a then DNeg else if is_neg a then DPos else DAny.
Definition d_pow (a b : dom) : option dom :=
  if is_pos a then Some DPos else if is_nonneg a && is_pos b then Some DNonneg else None.
(* What a function does; None: not covered. *)
Definition d_func (L : rlang) (f : str) (a : dom) : option dom :=
  if eqb f (s_ "numba_exp") || eqb f (s_ "exp") then Some DPos
  else if eqb f (s_ "numba_log10") || eqb f (s_ "log10") then
    (match a with DUnit => Some DNeg | DPos => Some DAny | _ => None end)
  else if existsb (fun w => eqb f (s_ w))
    ["numba_cos"%string; "numba_sin"%string; "numba_arctan"%string; "int"%string; "cos"%string; "sin"%string; "atan"%string; "floor"%string]
  then Some DAny else None.

(* The functions named in d_func mean what their name says in L. *)
Definition std_funcs (L : rlang) : Prop :=
  forall f a b, d_func L f a = Some b -> is_array L f = false ->
    func L f <> None -> forall g x, func L f = Some g -> den a x -> exists y, g x = Some y /\ den b y.

Definition denv := list (str * dom).
Section Sign.
Variable L : rlang.
Hypothesis HL : std_funcs L.
Definition has_func (f : str) : bool := match func L f with Some _ => true | None => false end.
Fixpoint d_eval (s : denv) (e : xexp) : option dom :=
  match e with
  | XNum q => Some (d_num q)
  | XVar x => dlook x s
  | XCall f a => if is_array L f then None else if int_arith L && refused f a then None else if has_func f then
                   match d_eval s a with Some d => d_func L f d | None => None end else None
  | XIdx _ _ => None
  | XAdd a b => match d_eval s a, d_eval s b with Some a, Some b => Some (d_add a b) | _, _ => None end
  | XSub a b => match d_eval s a, d_eval s b with Some a, Some b => Some (d_sub a b) | _, _ => None end
  | XMul a b => match d_eval s a, d_eval s b with Some a, Some b => Some (d_mul a b) | _, _ => None end
  | XDiv a b => if int_arith L && (x_int a && x_int b) then None else
                match d_eval s a, d_eval s b with Some a, Some b => d_div a b | _, _ => None end
  | XPow a b =>
      if int_arith L && (x_int a && x_int b) then None else
      match d_eval s a, d_eval s b with
      | Some da, Some db =>
          match d_pow da db with
          | Some d => Some d
          | None => match b with XNum q => if Qeq_bool q 2 then Some DNonneg else None | _ => None end
          end
      | _, _ => None
      end
  | XNeg a => option_map d_neg (d_eval s a)
  end.

Definition sgood (s : denv) (en : renv) : Prop := forall x d, dlook x s = Some d -> exists v, rvar en x = Some v /\ den d v.

Lemma d_num_sound q : den (d_num q) (Q2R q).
Proof.
  unfold d_num. destruct (Z.ltb_spec 0 (Qnum q)).
  - assert (0 < Q2R q)%R.
    { unfold Q2R. apply Rmult_lt_0_compat; [apply IZR_lt, H|]. apply Rinv_0_lt_compat, IZR_lt. reflexivity. }
    destruct (Z.ltb_spec (Qnum q) (Zpos (Qden q))); cbn; [split|]; auto.
    unfold Q2R. apply Rmult_lt_reg_r with (IZR (Zpos (Qden q))); [apply IZR_lt; reflexivity|].
    rewrite Rmult_assoc, Rinv_l, Rmult_1_r, Rmult_1_l; [apply IZR_lt; auto|].
    apply not_0_IZR. discriminate.
  - destruct (Z.eqb_spec (Qnum q) 0); cbn; auto. unfold Q2R. rewrite e, Rmult_0_l. lra.
Qed.
Lemma d_mul_sound a b x y : den a x -> den b y -> den (d_mul a b) (x * y).
Proof.
  intros Ha Hb.
  assert (U : (0 < x < 1)%R -> (0 < y < 1)%R -> (0 < x * y < 1)%R).
  { intros; split; [apply Rmult_lt_0_compat; lra|]. replace 1%R with (1 * 1)%R by ring. apply Rmult_le_0_lt_compat; lra. }
  assert (G : den (if is_pos a && is_pos b then DPos
            else if (is_pos a && is_neg b) || (is_neg a && is_pos b) then DNeg
            else if is_nonneg a && is_nonneg b then DNonneg else DAny) (x * y)).
  { destruct (is_pos a && is_pos b) eqn:E1.
    { apply andb_prop in E1; destruct E1 as [Z1 Z2]. cbn. apply Rmult_lt_0_compat; [exact (is_pos_den _ _ Z1 Ha)|exact (is_pos_den _ _ Z2 Hb)]. }
    destruct ((is_pos a && is_neg b) || (is_neg a && is_pos b)) eqn:E2.
    { apply orb_prop in E2. destruct E2 as [E|E]; apply andb_prop in E; destruct E as [P N]; cbn.
      - pose proof (is_pos_den _ _ P Ha). pose proof (is_neg_den _ _ N Hb).
        assert (0 < x * (- y))%R by (apply Rmult_lt_0_compat; lra). lra.
      - pose proof (is_neg_den _ _ P Ha). pose proof (is_pos_den _ _ N Hb).
        assert (0 < (- x) * y)%R by (apply Rmult_lt_0_compat; lra). lra. }
    destruct (is_nonneg a && is_nonneg b) eqn:E3; cbn; auto.
    apply andb_prop in E3; destruct E3 as [Z1 Z2]. apply Rmult_le_pos; [exact (is_nonneg_den _ _ Z1 Ha)|exact (is_nonneg_den _ _ Z2 Hb)]. }
  unfold d_mul. destruct a, b; try exact G. apply U; assumption.
Qed.
Lemma d_add_sound a b x y : den a x -> den b y -> den (d_add a b) (x + y).
Proof.
  intros Ha Hb. unfold d_add. destruct a, b; cbn in *; auto; lra.
Qed.
Lemma d_sub_sound a b x y : den a x -> den b y -> den (d_sub a b) (x - y).
Proof. intros Ha Hb. unfold d_sub. destruct a, b; cbn in *; auto; lra. Qed.
Lemma d_neg_sound a x : den a x -> den (d_neg a) (- x).
Proof. intros Ha. destruct a; cbn in *; auto; lra. Qed.
Lemma d_div_sound a b d x y : d_div a b = Some d -> den a x -> den b y -> exists z, rdiv x y = Some z /\ den d z.
Proof.
  unfold d_div, rdiv. intros H Ha Hb. destruct (is_pos b) eqn:P.
  - pose proof (is_pos_den _ _ P Hb) as Y. injection H as <-.
    destruct (Req_EM_T y 0); [lra|]. eexists; split; [reflexivity|].
    pose proof (Rinv_0_lt_compat _ Y) as I. unfold Rdiv.
    destruct (is_pos a) eqn:A1; cbn.
    { apply Rmult_lt_0_compat; [exact (is_pos_den _ _ A1 Ha)|exact I]. }
    destruct (is_neg a) eqn:A2; cbn.
    { pose proof (is_neg_den _ _ A2 Ha). assert (0 < (- x) * / y)%R by (apply Rmult_lt_0_compat; lra). lra. }
    destruct (is_nonneg a) eqn:A3; cbn; auto.
    apply Rmult_le_pos; [exact (is_nonneg_den _ _ A3 Ha)|lra].
  - destruct (is_neg b) eqn:N; [|discriminate]. pose proof (is_neg_den _ _ N Hb). injection H as <-.
    destruct (Req_EM_T y 0); [lra|]. eexists; split; [reflexivity|exact I].
Qed.
Lemma Rpower_pos x y : (0 < Rpower x y)%R.
Proof. apply exp_pos. Qed.
Lemma d_pow_sound a b d x y : d_pow a b = Some d -> den a x -> den b y -> exists z, rpow x y = Some z /\ den d z.
Proof.
  unfold d_pow, rpow. intros H Ha Hb. destruct (is_pos a) eqn:P.
  - pose proof (is_pos_den _ _ P Ha). injection H as <-. destruct (Rlt_dec 0 x); [|lra].
    eexists; split; [reflexivity|apply Rpower_pos].
  - destruct (is_nonneg a && is_pos b) eqn:N; [|discriminate]. apply andb_prop in N. destruct N as [N1 N2].
    pose proof (is_nonneg_den _ _ N1 Ha). pose proof (is_pos_den _ _ N2 Hb). injection H as <-. cbn.
    destruct (Rlt_dec 0 x); [eexists; split; [reflexivity|left; apply Rpower_pos]|].
    destruct (Req_EM_T x 0); [|lra]. destruct (Rlt_dec 0 y); [|lra]. eexists; split; [reflexivity|lra].
Qed.
Lemma Int_part_IZR z : Int_part (IZR z) = z.
Proof. unfold Int_part. rewrite <- (tech_up (IZR z) (z + 1)); [lia| |]; rewrite plus_IZR; lra. Qed.
Lemma square_sound q x : Qeq_bool q 2 = true -> exists z, rpow x (Q2R q) = Some z /\ (0 <= z)%R.
Proof.
  intros H. apply Qeq_bool_eq, Qeq_eqR in H. rewrite H. replace (Q2R 2) with 2%R by (unfold Q2R; cbn; field).
  unfold rpow. destruct (Rlt_dec 0 x); [eexists; split; [reflexivity|left; apply Rpower_pos]|].
  destruct (Req_EM_T x 0).
  { destruct (Rlt_dec 0 2); [|lra]. eexists; split; [reflexivity|lra]. }
  rewrite Int_part_IZR. destruct (Req_EM_T 2 2); [|lra]. eexists; split; [reflexivity|].
  change (0 <= x ^ 2)%R. apply pow2_ge_0.
Qed.

Lemma d_eval_sound s en (G : sgood s en) e : forall d, d_eval s e = Some d -> exists v, xeval L en e = Some v /\ den d v.
Proof.
  induction e; cbn; intros d H;
    try (match type of H with context [int_arith L && ?b] => destruct (int_arith L && b); [try destruct (is_array L f); discriminate|] end);
    try (destruct (d_eval s e1) as [d1|]; [|discriminate]; destruct (d_eval s e2) as [d2|]; [|discriminate];
         destruct (IHe1 _ eq_refl) as (v1 & E1 & V1); destruct (IHe2 _ eq_refl) as (v2 & E2 & V2); rewrite E1, E2; cbn;
         first [ injection H as <-; eexists; split; [reflexivity|]; first [apply d_add_sound|apply d_sub_sound|apply d_mul_sound]; assumption
               | eapply d_div_sound; eassumption ]).
  - injection H as <-. eexists; split; [reflexivity|apply d_num_sound].
  - apply G, H.
  - destruct (is_array L f) eqn:Ef; [discriminate|]. unfold has_func in H. destruct (func L f) as [g|] eqn:Eg; [|discriminate].
    destruct (d_eval s e) as [d1|]; [|discriminate]. destruct (IHe _ eq_refl) as (v1 & E1 & V1). rewrite E1; cbn.
    eapply HL; eauto. congruence.
  - discriminate.
  - destruct (d_eval s e1) as [d1|]; [|discriminate]; destruct (d_eval s e2) as [d2|]; [|discriminate];
    destruct (IHe1 _ eq_refl) as (v1 & E1 & V1); destruct (IHe2 _ eq_refl) as (v2 & E2 & V2); rewrite E1, E2; cbn.
    destruct (d_pow d1 d2) eqn:P; [injection H as <-; eapply d_pow_sound; eauto|].
    destruct e2; try discriminate. destruct (Qeq_bool q 2) eqn:Q; [|discriminate]. injection H as <-.
    cbn in E2. injection E2 as <-. apply square_sound, Q.
  - destruct (d_eval s e) as [d1|]; [|discriminate]. destruct (IHe _ eq_refl) as (v1 & E1 & V1). rewrite E1; cbn.
    injection H as <-. eexists; split; [reflexivity|apply d_neg_sound, V1].
Qed.

(* Statements.  J: the signs of the entries written. *)
Definition jenv := list (nat * dom).
Fixpoint jlook (k : nat) (l : jenv) : option dom := match l with [] => None | (i, d) :: l' => if k =? i then Some d else jlook k l' end.
Definition astate := (denv * jenv)%type.
Definition d_simple (s : astate) (c : simple) : option astate :=
  match c with
  | SSet x e => option_map (fun d => ((x, d) :: fst s, snd s)) (d_eval (fst s) e)
  | SSetJ k e => option_map (fun d => (fst s, (k, d) :: snd s)) (d_eval (fst s) e)
  end.
Fixpoint d_simples (s : astate) (l : list simple) : option astate :=
  match l with [] => Some s | c :: l' => obind (d_simple s c) (fun s' => d_simples s' l') end.
Definition d_join (a b : dom) : dom :=
  match a, b with
  | DUnit, DUnit => DUnit
  | DNeg, DNeg => DNeg
  | _, _ => if is_pos a && is_pos b then DPos else if is_nonneg a && is_nonneg b then DNonneg else DAny
  end.
(* Names the first branch knows and the second knows too. *)
Definition join_env (a b : denv) : denv :=
  concat (map (fun p => match dlook (fst p) a, dlook (fst p) b with Some d, Some d' => [(fst p, d_join d d')] | _, _ => [] end) a).
Definition refine (s : denv) (a b : xexp) : denv :=
  match a with
  | XVar x => match d_eval s b with Some d => if is_nonneg d then (x, DPos) :: s else s | None => s end
  | _ => s
  end.
Definition no_j (l : list simple) : bool := forallb (fun c => match c with SSet _ _ => true | _ => false end) l.
Definition d_stmt (s : astate) (c : stmt) : option astate :=
  match c with
  | SDo c => d_simple s c
  | SIfLe a b th el =>
      match d_eval (fst s) a, d_eval (fst s) b, no_j th && no_j el with
      | Some _, Some _, true =>
          match d_simples s th, d_simples (refine (fst s) a b, snd s) el with
          | Some s1, Some s2 => Some (join_env (fst s1) (fst s2), snd s)
          | _, _ => None
          end
      | _, _, _ => None
      end
  end.
Fixpoint d_stmts (s : astate) (l : list stmt) : option astate :=
  match l with [] => Some s | c :: l' => obind (d_stmt s c) (fun s' => d_stmts s' l') end.

Definition jgood (s : jenv) (en : renv) : Prop := forall k d, jlook k s = Some d -> exists v, rj en k = Some v /\ den d v.
Definition agood (s : astate) (en : renv) : Prop := sgood (fst s) en /\ jgood (snd s) en.

Lemma d_simple_sound s en c s' : agood s en -> d_simple s c = Some s' -> exists en', run_simple L c en = Some en' /\ agood s' en'.
Proof.
  intros [G J] H. destruct c as [x e|k e]; cbn in H; destruct (d_eval (fst s) e) as [d|] eqn:E; try discriminate; injection H as <-;
    destruct (d_eval_sound _ _ G _ _ E) as (v & V & D); cbn; rewrite V; cbn; eexists; (split; [reflexivity|]); split; cbn.
  - intros y dy Hy. cbn in Hy. cbn. destruct (eqb y x); [injection Hy as <-; eauto|apply G, Hy].
  - exact J.
  - exact G.
  - intros i di Hi. cbn in Hi. cbn. destruct (i =? k); [injection Hi as <-; eauto|apply J, Hi].
Qed.
Lemma d_simples_sound l : forall s en s', agood s en -> d_simples s l = Some s' ->
  exists en', run_simples L l en = Some en' /\ agood s' en'.
Proof.
  induction l as [|c l IH]; cbn; intros s en s' G H.
  - injection H as <-. eauto.
  - destruct (d_simple s c) as [s1|] eqn:E; cbn in H; [|discriminate].
    destruct (d_simple_sound _ _ _ _ G E) as (en1 & R1 & G1). rewrite R1; cbn. eauto.
Qed.
Lemma d_simples_nojs l : forall s s', no_j l = true -> d_simples s l = Some s' -> snd s' = snd s.
Proof.
  induction l as [|c l IH]; cbn; intros s s' N H; [injection H as <-; reflexivity|].
  apply andb_prop in N. destruct N as [N1 N2]. destruct c as [x e|]; [|discriminate]. cbn in H.
  destruct (d_eval (fst s) e); cbn in H; [|discriminate]. apply (IH _ _ N2) in H. exact H.
Qed.
Lemma d_join_l a b x : den a x -> den (d_join a b) x.
Proof. intros; destruct a, b; cbn in *; auto; lra. Qed.
Lemma d_join_r a b x : den b x -> den (d_join a b) x.
Proof. intros; destruct a, b; cbn in *; auto; lra. Qed.
Lemma dlook_app {A} x (l1 l2 : list (str * A)) : dlook x (l1 ++ l2) = match dlook x l1 with Some a => Some a | None => dlook x l2 end.
Proof. induction l1 as [|[k a] l1 IH]; cbn; [reflexivity|]. destruct (eqb x k); auto. Qed.
Lemma join_look a b x d : dlook x (join_env a b) = Some d -> exists d1 d2, dlook x a = Some d1 /\ dlook x b = Some d2 /\ d = d_join d1 d2.
Proof.
  unfold join_env. generalize a at 2 as l. induction l as [|[k d0] l IH]; cbn; [discriminate|].
  rewrite dlook_app. destruct (dlook k a) as [d1|] eqn:E1; [|exact IH]. destruct (dlook k b) as [d2|] eqn:E2; [|exact IH].
  cbn. destruct (eqb x k) eqn:X; [|exact IH]. apply eqb_eq in X; subst. intros H; injection H as <-. eauto.
Qed.
Lemma refine_sound s en a b x y : sgood s en -> xeval L en a = Some x -> xeval L en b = Some y -> ~ (x <= y)%R ->
  sgood (refine s a b) en.
Proof.
  intros G A B N. unfold refine. destruct a as [ |v| | | | | | | | ]; try exact G. destruct (d_eval s b) as [d|] eqn:E; [|exact G].
  destruct (is_nonneg d) eqn:P; [|exact G]. destruct (d_eval_sound _ _ G _ _ E) as (w & W & D).
  rewrite B in W; injection W as <-. pose proof (is_nonneg_den _ _ P D).
  intros z dz Hz. cbn in Hz. destruct (eqb z v) eqn:Z; [|apply G, Hz].
  apply eqb_eq in Z; subst. injection Hz as <-. cbn in A. exists x. split; [exact A|]. cbn. lra.
Qed.
Lemma d_stmt_sound s en c s' : agood s en -> d_stmt s c = Some s' -> exists en', run_stmt L c en = Some en' /\ agood s' en'.
Proof.
  intros G H. destruct c as [c|a b th el]; [eapply d_simple_sound; eauto|].
  cbn in H. destruct (d_eval (fst s) a) as [da|] eqn:Ea; [|discriminate]. destruct (d_eval (fst s) b) as [db|] eqn:Eb; [|discriminate].
  destruct (no_j th && no_j el) eqn:N; [|discriminate]. apply andb_prop in N. destruct N as [N1 N2].
  destruct (d_simples s th) as [s1|] eqn:E1; [|discriminate].
  destruct (d_simples (refine (fst s) a b, snd s) el) as [s2|] eqn:E2; [|discriminate]. injection H as <-.
  pose proof (d_simples_nojs _ _ _ N1 E1) as J1. pose proof (d_simples_nojs _ _ _ N2 E2) as J2. cbn in J2.
  destruct G as [G J].
  destruct (d_eval_sound _ _ G _ _ Ea) as (x & X & _). destruct (d_eval_sound _ _ G _ _ Eb) as (y & Y & _).
  cbn. rewrite X, Y; cbn. destruct (Rle_dec x y) as [LE|GT].
  - destruct (d_simples_sound th s en s1 (conj G J) E1) as (en1 & R1 & G1 & JJ1). exists en1. split; [exact R1|]. split; cbn.
    + intros z d Hz. apply join_look in Hz. destruct Hz as (d1 & d2 & H1 & H2 & ->).
      destruct (G1 _ _ H1) as (v & V & D). eauto using d_join_l.
    + rewrite <- J1. exact JJ1.
  - assert (G' : agood (refine (fst s) a b, snd s) en) by (split; [eapply refine_sound; eauto|exact J]).
    destruct (d_simples_sound el _ en s2 G' E2) as (en1 & R1 & G1 & JJ1). exists en1. split; [exact R1|]. split; cbn.
    + intros z d Hz. apply join_look in Hz. destruct Hz as (d1 & d2 & H1 & H2 & ->).
      destruct (G1 _ _ H2) as (v & V & D). eauto using d_join_r.
    + rewrite <- J2. exact JJ1.
Qed.
Lemma d_stmts_sound l : forall s en s', agood s en -> d_stmts s l = Some s' ->
  exists en', run_stmts L l en = Some en' /\ agood s' en'.
Proof.
  induction l as [|c l IH]; cbn; intros s en s' G H.
  - injection H as <-. eauto.
  - destruct (d_stmt s c) as [s1|] eqn:E; cbn in H; [|discriminate].
    destruct (d_stmt_sound _ _ _ _ G E) as (en1 & R1 & G1). rewrite R1; cbn. eauto.
Qed.
End Sign.

Lemma log10_dom a b x : (match a with DUnit => Some DNeg | DPos => Some DAny | _ => None end) = Some b -> den a x ->
  exists y, rlog10 x = Some y /\ den b y.
Proof.
  intros H D. unfold rlog10. destruct a; try discriminate; injection H as <-; cbn in D; destruct (Rlt_dec 0 x); try lra;
    eexists; (split; [reflexivity|]); cbn; auto.
  assert (ln x < 0)%R by (rewrite <- ln_1; apply ln_increasing; lra).
  assert (0 < ln 10)%R by (rewrite <- ln_1; apply ln_increasing; lra).
  apply Ropp_lt_cancel. rewrite Ropp_0, Ropp_div_distr_l || unfold Rdiv.
  assert (0 < - ln x * / ln 10)%R by (apply Rmult_lt_0_compat; [lra|apply Rinv_0_lt_compat; lra]).
  unfold Rdiv in *. lra.
Qed.
Lemma std_numba : std_funcs numba_lang.
Proof.
  intros f a b H _ _ g x Hg D. unfold d_func in H. cbn in Hg.
  destruct (eqb f (s_ "numba_exp") || eqb f (s_ "exp")) eqn:E1.
  { apply orb_prop in E1. destruct E1 as [E|E]; apply eqb_eq in E; subst; [|discriminate Hg].
    injection Hg as <-. injection H as <-. eexists; split; [reflexivity|apply exp_pos]. }
  destruct (eqb f (s_ "numba_log10") || eqb f (s_ "log10")) eqn:E2.
  { apply orb_prop in E2. destruct E2 as [E|E]; apply eqb_eq in E; subst; [|discriminate Hg].
    injection Hg as <-. eapply log10_dom; eauto. }
  match type of H with (if ?c then _ else _) = _ => destruct c eqn:E3; [|discriminate] end.
  injection H as <-. cbn [existsb] in E3.
  repeat match type of E3 with _ || _ = true => apply orb_prop in E3; destruct E3 as [E3|E3] end; try discriminate;
    apply eqb_eq in E3; subst; first [discriminate Hg | injection Hg as <-; eexists; split; [reflexivity|exact I]].
Qed.
Lemma std_fortran : std_funcs fortran_lang.
Proof.
  intros f a b H _ _ g x Hg D. unfold d_func in H. cbn in Hg.
  destruct (eqb f (s_ "numba_exp") || eqb f (s_ "exp")) eqn:E1.
  { apply orb_prop in E1. destruct E1 as [E|E]; apply eqb_eq in E; subst; [discriminate Hg|].
    injection Hg as <-. injection H as <-. eexists; split; [reflexivity|apply exp_pos]. }
  destruct (eqb f (s_ "numba_log10") || eqb f (s_ "log10")) eqn:E2.
  { apply orb_prop in E2. destruct E2 as [E|E]; apply eqb_eq in E; subst; [discriminate Hg|].
    injection Hg as <-. eapply log10_dom; eauto. }
  match type of H with (if ?c then _ else _) = _ => destruct c eqn:E3; [|discriminate] end.
  injection H as <-. cbn [existsb] in E3.
  repeat match type of E3 with _ || _ = true => apply orb_prop in E3; destruct E3 as [E3|E3] end; try discriminate;
    apply eqb_eq in E3; subst; first [discriminate Hg | injection Hg as <-; eexists; split; [reflexivity|exact I]].
Qed.
