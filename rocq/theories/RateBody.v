(* Facts about the fixed part of the generated rate modules. *)
From Coq Require Import List Bool Arith Lia Ascii String ZArith QArith Reals Qreals Lra.
From Verif Require Import Base PyStr SpecRate ModelExpr ModelRateBody ModelRateRun SpecSun RateSym.
Import ListNotations.
Import Coq.Lists.List.
Open Scope nat_scope.
Open Scope list_scope.
Local Arguments eqb : simpl never.

(* ------------------------------------------------------------------ *)
(* In a list of assignments where nothing is reassigned, the final state
   satisfies every definition. *)
Fixpoint xvars (e : xexp) : list str :=
  match e with
  | XNum _ => []
  | XVar x => [x]
  | XCall _ a | XIdx _ a | XNeg a => xvars a
  | XAdd a b | XSub a b | XMul a b | XDiv a b | XPow a b => xvars a ++ xvars b
  end.
Fixpoint no_arrays (L : rlang) (e : xexp) : bool :=
  match e with
  | XNum _ | XVar _ => true
  | XCall f a => negb (is_array L f) && no_arrays L a
  | XIdx _ _ => false
  | XNeg a => no_arrays L a
  | XAdd a b | XSub a b | XMul a b | XDiv a b | XPow a b => no_arrays L a && no_arrays L b
  end.
Definition assigned (c : stmt) : list str := match c with SDo (SSet x _) => [x] | SDo (SSetJ _ _) => []
  | SIfLe _ _ th el => concat (map (fun s => match s with SSet x _ => [x] | _ => [] end) (th ++ el)) end.
Definition all_assigned (l : list stmt) : list str := concat (map assigned l).
Definition disjointb (a b : list str) : bool := forallb (fun x => negb (inb x b)) a.

Lemma xeval_ext L en en' e : no_arrays L e = true -> (forall x, In x (xvars e) -> rvar en x = rvar en' x) -> xeval L en e = xeval L en' e.
Proof.
  induction e; cbn; intros N H;
    try (apply andb_prop in N; destruct N as [N1 N2]; rewrite IHe1, IHe2; auto; intros; apply H, in_or_app; auto).
  - reflexivity.
  - apply H; auto.
  - apply andb_prop in N; destruct N as [N1 N2]. destruct (is_array L f); [discriminate|]. rewrite IHe; auto.
  - discriminate.
  - rewrite IHe; auto.
Qed.
Lemma run_simple_frame L c en en' x : run_simple L c en = Some en' -> ~ In x (assigned (SDo c)) -> rvar en' x = rvar en x.
Proof.
  destruct c as [y e|k e]; cbn; destruct (xeval L en e); cbn; try discriminate; intros H; injection H as <-; cbn; auto.
  intros N. destruct (eqb x y) eqn:E; auto. apply eqb_eq in E; subst. exfalso; auto.
Qed.
Lemma run_simples_frame L l : forall en en' x, run_simples L l en = Some en' ->
  ~ In x (concat (map (fun s => match s with SSet x _ => [x] | _ => [] end) l)) -> rvar en' x = rvar en x.
Proof.
  induction l as [|c l IH]; cbn; intros en en' x H N; [injection H as <-; reflexivity|].
  destruct (run_simple L c en) as [en1|] eqn:E; cbn in H; [|discriminate].
  rewrite (IH _ _ _ H); [apply (run_simple_frame _ _ _ _ _ E)|]; intros I; apply N, in_or_app; auto.
Qed.
Lemma run_stmt_frame L c en en' x : run_stmt L c en = Some en' -> ~ In x (assigned c) -> rvar en' x = rvar en x.
Proof.
  destruct c as [c|a b th el]; [apply run_simple_frame|]. cbn. rewrite map_app, concat_app.
  destruct (xeval L en a); cbn; [|discriminate]. destruct (xeval L en b); cbn; [|discriminate].
  intros H N. destruct (Rle_dec r r0); eapply run_simples_frame; eauto; intros I; apply N, in_or_app; auto.
Qed.
Lemma run_frame L l : forall en en' x, run_stmts L l en = Some en' -> ~ In x (all_assigned l) -> rvar en' x = rvar en x.
Proof.
  induction l as [|c l IH]; cbn; intros en en' x H N; [injection H as <-; reflexivity|].
  destruct (run_stmt L c en) as [en1|] eqn:E; cbn in H; [|discriminate].
  rewrite (IH _ _ _ H); [apply (run_stmt_frame _ _ _ _ _ E)|]; intros I; apply N, in_or_app; auto.
Qed.
(* The definition of x in l, if neither x nor what it uses is assigned later. *)
Fixpoint defined_by (L : rlang) (x : str) (l : list stmt) : option xexp :=
  match l with
  | [] => None
  | c :: l' =>
      match defined_by L x l' with
      | Some e => Some e
      | None =>
          match c with
          | SDo (SSet y e) =>
              if eqb x y && no_arrays L e && disjointb (x :: xvars e) (all_assigned l') && negb (inb x (xvars e))
              then Some e else None
          | _ => None
          end
      end
  end.
Lemma disjointb_In a b x : disjointb a b = true -> In x a -> ~ In x b.
Proof. unfold disjointb. rewrite forallb_forall. intros H I. specialize (H _ I). apply negb_true_iff, inb_nIn in H. exact H. Qed.
Lemma defined_by_sound L l : forall en en' x e, run_stmts L l en = Some en' -> defined_by L x l = Some e ->
  rvar en' x = xeval L en' e.
Proof.
  induction l as [|c l IH]; cbn [defined_by run_stmts]; intros en en' x e H D; [discriminate|].
  destruct (run_stmt L c en) as [en1|] eqn:E; cbn in H; [|discriminate].
  destruct (defined_by L x l) as [e0|] eqn:D1; [injection D as <-; eapply IH; eauto|].
  destruct c as [[y e1|]|]; try discriminate.
  destruct (eqb x y && no_arrays L e1 && disjointb (x :: xvars e1) (all_assigned l) && negb (inb x (xvars e1))) eqn:C; [|discriminate].
  injection D as ->. apply andb_prop in C; destruct C as [C C4]. apply andb_prop in C; destruct C as [C C3].
  apply andb_prop in C; destruct C as [C1 C2]. apply eqb_eq in C1; subst y.
  apply negb_true_iff, inb_nIn in C4.
  cbn in E. destruct (xeval L en e) as [v|] eqn:V; cbn in E; [|discriminate]. injection E as <-.
  rewrite (run_frame _ _ _ _ x H); [|eapply disjointb_In; [exact C3|left; reflexivity]].
  cbn. rewrite eqb_refl, <- V. apply xeval_ext; [exact C2|]. intros z Z.
  rewrite (run_frame _ _ _ _ z H); [|eapply disjointb_In; [exact C3|right; exact Z]].
  cbn. destruct (eqb z x) eqn:Q; auto. apply eqb_eq in Q; subst. contradiction.
Qed.

(* ------------------------------------------------------------------ *)
(* The two programs *)
Definition get {A} (d : A) (o : option A) : A := match o with Some a => a | None => d end.
Definition numba_prog : list stmt := Eval vm_compute in get [] (numba_program numba_body).
Definition fortran_prog : list stmt := Eval vm_compute in get [] (fortran_program fortran_body).
Lemma numba_prog_eq : numba_program numba_body = Some numba_prog.
Proof. vm_compute. reflexivity. Qed.
Lemma fortran_prog_eq : fortran_program fortran_body = Some fortran_prog.
Proof. vm_compute. reflexivity. Qed.

Fixpoint before_if (l : list stmt) : list stmt := match l with SDo c :: l' => SDo c :: before_if l' | _ => [] end.
Fixpoint from_if (l : list stmt) : list stmt := match l with SDo c :: l' => from_if l' | _ => l end.
Lemma split_if l : l = before_if l ++ from_if l.
Proof. induction l as [|[c|] l IH]; cbn; congruence. Qed.
Fixpoint upto (x : str) (l : list stmt) : list stmt :=
  match l with
  | SDo (SSet y e) :: l' => if eqb y x then [] else SDo (SSet y e) :: upto x l'
  | c :: l' => c :: upto x l'
  | [] => []
  end.
Fixpoint after (x : str) (l : list stmt) : list stmt :=
  match l with
  | SDo (SSet y e) :: l' => if eqb y x then l' else after x l'
  | c :: l' => after x l'
  | [] => []
  end.
Fixpoint rhs_of (x : str) (l : list stmt) : option xexp :=
  match l with
  | SDo (SSet y e) :: l' => if eqb y x then Some e else rhs_of x l'
  | c :: l' => rhs_of x l'
  | [] => None
  end.
Lemma split_upto x l e : rhs_of x l = Some e -> l = upto x l ++ SDo (SSet x e) :: after x l.
Proof.
  induction l as [|[[y f|k f]|] l IH]; cbn; try discriminate; intros H; try (rewrite <- IH; auto; fail).
  destruct (eqb y x) eqn:E; [apply eqb_eq in E; subst; injection H as ->; reflexivity|].
  cbn. rewrite <- IH; auto.
Qed.

(* fc17 stays below 1: needed because nc17 divides by 0.75-1.27 log10 fc17. *)
Lemma exp_neg_bound u : (0 < u -> exp (- u) <= / (1 + u))%R.
Proof.
  intros H. rewrite exp_Ropp. apply Rinv_le_contravar; [lra|]. left. apply exp_ineq1. lra.
Qed.
Lemma fc17_unit T : (0 < T)%R -> (0 < 17/100 * exp (- 51 / T) + exp (- T / 204) < 1)%R.
Proof.
  intros H. split; [pose proof (exp_pos (-51/T)); pose proof (exp_pos (- T/204)); lra|].
  set (x := (T / 204)%R). assert (X : (0 < x)%R) by (unfold x; lra).
  assert (U : (0 < 51 / T)%R) by (apply Rmult_lt_0_compat; [lra|apply Rinv_0_lt_compat; lra]).
  replace (- 51 / T)%R with (- (51 / T))%R by (unfold Rdiv; lra).
  replace (- T / 204)%R with (- x)%R by (unfold x, Rdiv; lra).
  pose proof (exp_neg_bound _ U) as B1. pose proof (exp_neg_bound _ X) as B2.
  replace (/ (1 + 51 / T))%R with (x / (x + /4))%R in B1 by (unfold x; field; lra).
  assert (E : (17/100 * (x / (x + /4)) + / (1 + x) < 1)%R).
  { apply Rmult_lt_reg_r with ((x + /4) * (1 + x))%R; [apply Rmult_lt_0_compat; lra|].
    replace ((17 / 100 * (x / (x + / 4)) + / (1 + x)) * ((x + / 4) * (1 + x)))%R with (17/100 * x * (1 + x) + (x + /4))%R by (field; lra).
    nra. }
  lra.
Qed.

Definition with_unit (x : str) (s : astate) : astate := ((x, DUnit) :: fst s, snd s).
Lemma run_signs L (HL : std_funcs L) x e l s0 s1 s2 en :
  rhs_of x l = Some e -> agood s0 en ->
  d_stmts L s0 (upto x l) = Some s1 -> d_stmts L (with_unit x s1) (after x l) = Some s2 ->
  (forall en1, run_stmts L (upto x l) en = Some en1 -> exists v, xeval L en1 e = Some v /\ (0 < v < 1)%R) ->
  exists en', run_stmts L l en = Some en' /\ agood s2 en'.
Proof.
  intros X G H1 H2 U. rewrite (split_upto _ _ _ X), run_stmts_app.
  destruct (d_stmts_sound L HL _ _ _ _ G H1) as (en1 & R1 & G1 & J1). rewrite R1. cbn.
  destruct (U _ R1) as (v & V & D). rewrite V. cbn.
  apply (d_stmts_sound L HL _ _ _ _) with (2 := H2). split; cbn; [|exact J1].
  intros y d Hy. cbn in Hy. cbn. destruct (eqb y x); [injection Hy as <-; eauto|apply G1, Hy].
Qed.

Definition input_signs (names : list (string * dom)) : denv := map (fun p => (s_ (fst p), snd p)) names.
Definition numba_signs0 : astate := (input_signs [("ttime", DAny); ("RO2", DAny); ("H2O", DNonneg); ("temp", DPos)]%string, []).
Definition fortran_signs0 : astate := (input_signs [("ttime", DAny); ("ro2", DAny); ("h2o", DNonneg); ("temp", DPos)]%string, []).
Definition signs_of (L : rlang) (s0 : astate) (x : str) (l : list stmt) : option astate :=
  obind (d_stmts L s0 (upto x l)) (fun s1 => d_stmts L (with_unit x s1) (after x l)).
Definition numba_signs : astate := Eval vm_compute in get ([], []) (signs_of numba_lang numba_signs0 (s_ "fc17") numba_prog).
Definition fortran_signs : astate := Eval vm_compute in get ([], []) (signs_of fortran_lang fortran_signs0 (s_ "fc17") fortran_prog).
Lemma numba_signs_eq : signs_of numba_lang numba_signs0 (s_ "fc17") numba_prog = Some numba_signs.
Proof. vm_compute. reflexivity. Qed.
Lemma fortran_signs_eq : signs_of fortran_lang fortran_signs0 (s_ "fc17") fortran_prog = Some fortran_signs.
Proof. vm_compute. reflexivity. Qed.

Lemma Q2R_lit n d : Q2R (n # d) = (IZR n / IZR (Zpos d))%R.
Proof. reflexivity. Qed.
Lemma inb_false_In {x : str} {l} : inb x l = false -> ~ In x l.
Proof. apply inb_nIn. Qed.
