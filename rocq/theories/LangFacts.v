(* Facts about the generated languages: reading back printed expressions,
   running a list of assignments. *)
From Coq Require Import List Bool Arith Lia ZArith QArith Reals Qreals Lra.
From Coq Require QArith.Qcanon.
From Verif Require Import Base PyDict ModelLang SpecKin.
Import ListNotations.
Open Scope nat_scope.
Open Scope list_scope.

(* ------------------------------------------------------------------ *)
(* Printing. *)
Definition pr_atom (a : atom) : tok := match a with ANum q => TNum q | ARef v i => TRef v i end.
Definition pr_exp (e : option Q) : list tok := match e with Some q => [TPow; TNum q] | None => [] end.
Definition pr_fac (f : factor) : list tok := pr_atom (fst f) :: pr_exp (snd f).
Definition pr_facs (fs : list factor) : list tok := flat_map (fun f => TStar :: pr_fac f) fs.
(* a signed term with at least one factor, possibly after a continuation *)
Definition sterm := (bool * (bool * (factor * list factor)))%type.
Definition pr_term (t : sterm) : list tok :=
  let '(c, (neg, (f, fs))) := t in
  (if c then [TCont] else []) ++ (if neg then TMinus else TPlus) :: pr_fac f ++ pr_facs fs.
Definition pr_terms (ts : list sterm) : list tok := flat_map pr_term ts.
Definition un (t : sterm) : fterm := let '(_, (neg, (f, fs))) := t in (neg, f :: fs).

Lemma tok_atom_pr a : tok_atom (pr_atom a) = Some a.
Proof. destruct a; reflexivity. Qed.

Lemma p_after_cont b l : p_after b (TCont :: l) = p_after b l.
Proof. reflexivity. Qed.

Lemma p_after_star b a l : p_after b (TStar :: pr_atom a :: l) =
  match p_after true l with Some (e, fs, ts) => Some (None, (a, e) :: fs, ts) | None => None end.
Proof. cbn [p_after]. rewrite tok_atom_pr. reflexivity. Qed.
Lemma p_after_sign b (neg : bool) a l : p_after b ((if neg then TMinus else TPlus) :: pr_atom a :: l) =
  match p_after true l with Some (e, fs, ts) => Some (None, [], (neg, (a, e) :: fs) :: ts) | None => None end.
Proof. destruct neg; cbn [p_after]; rewrite tok_atom_pr; reflexivity. Qed.

Lemma p_after_pow q l : p_after true (TPow :: TNum q :: l) =
  match p_after false l with Some (None, fs, ts) => Some (Some q, fs, ts) | _ => None end.
Proof. reflexivity. Qed.

Lemma p_exp e l fs ts : (forall b, p_after b l = Some (None, fs, ts)) ->
  p_after true (pr_exp e ++ l) = Some (e, fs, ts).
Proof.
  intros H. destruct e as [q|]; cbn [pr_exp app]; [|apply H].
  rewrite p_after_pow, H. reflexivity.
Qed.

Lemma p_facs fs l ts b : (forall b, p_after b l = Some (None, [], ts)) ->
  p_after b (pr_facs fs ++ l) = Some (None, fs, ts).
Proof.
  intros H. revert b. induction fs as [|[a e] fs IH]; intros b; [apply H|].
  match goal with |- p_after _ ?X = _ => replace X with (TStar :: pr_atom a :: (pr_exp e ++ (pr_facs fs ++ l))) end.
  2: { unfold pr_facs; cbn [flat_map pr_fac fst snd app]. rewrite <- app_assoc. reflexivity. }
  rewrite p_after_star, (p_exp e _ fs ts IH). reflexivity.
Qed.

Lemma p_terms ts b : p_after b (pr_terms ts) = Some (None, [], map un ts).
Proof.
  revert b. induction ts as [|[c [neg [[a e] fs]]] ts IH]; intros b; [reflexivity|].
  cbn [pr_terms flat_map map un pr_term].
  match goal with |- p_after _ ?X = _ => replace X
    with ((if c then [TCont] else []) ++ ((if neg then TMinus else TPlus) :: pr_atom a :: (pr_exp e ++ (pr_facs fs ++ pr_terms ts)))) end.
  2: { unfold pr_fac; cbn [fst snd]. rewrite <- app_assoc. cbn [app]. rewrite <- !app_assoc. reflexivity. }
  destruct c; cbn [app]; [rewrite p_after_cont|];
  rewrite p_after_sign, (p_exp e _ fs (map un ts)); try reflexivity; intros b'; apply p_facs, IH.
Qed.

(* A sum of signed terms, at least one, not starting with a continuation. *)
Lemma p_expr_terms t ts : p_expr (pr_terms ((false, t) :: ts)) = Some (un (false, t) :: map un ts).
Proof.
  pose proof (p_terms ((false, t) :: ts) true) as H. cbn [map] in H.
  destruct t as [neg [[a e] fs]].
  destruct neg; cbn [pr_terms flat_map pr_term app] in *; unfold p_expr; rewrite H; reflexivity.
Qed.

(* A product. *)
Lemma p_expr_prod f fs : p_expr (pr_fac f ++ pr_facs fs) = Some [(false, f :: fs)].
Proof.
  destruct f as [a e]. unfold pr_fac; cbn [fst snd app].
  assert (H : p_after true (pr_exp e ++ pr_facs fs) = Some (e, fs, [])).
  { apply p_exp. intros b. rewrite <- (app_nil_r (pr_facs fs)). apply p_facs. reflexivity. }
  destruct a as [q|v i]; cbn [pr_atom p_expr]; cbn [tok_atom]; rewrite H; reflexivity.
Qed.

(* ------------------------------------------------------------------ *)
(* Evaluation of sums and products with known parts. *)
Section Ev.
Variable L : lang.
Variable env : arr -> list R.

Lemma e_expr_sum e xs : Forall2 (fun t x => e_term L env t = Some x) e xs ->
  e_expr L env e = Some (rsum xs).
Proof.
  induction 1 as [|t x e xs Ht H IH]; [reflexivity|].
  cbn [e_expr rsum]. rewrite Ht, IH. reflexivity.
Qed.

Lemma e_factors_prod fs xs : Forall2 (fun f x => e_factor L env f = Some x) fs xs ->
  e_factors L env fs = Some (rprod xs).
Proof.
  induction 1 as [|t x e xs Ht H IH]; [reflexivity|].
  cbn [e_factors rprod]. rewrite Ht, IH. reflexivity.
Qed.

Lemma value_terms ts xs : ts <> [] -> (match ts with (true, _) :: _ => False | _ => True end) ->
  Forall2 (fun t x => e_term L env (un t) = Some x) ts xs ->
  value L env (pr_terms ts) = Some (rsum xs).
Proof.
  intros Hne H0 H. destruct ts as [|[c t] ts]; [congruence|]. destruct c; [contradiction|].
  unfold value. rewrite p_expr_terms. apply e_expr_sum.
  change (un (false, t) :: map un ts) with (map un ((false, t) :: ts)).
  clear Hne H0. induction H; constructor; auto.
Qed.

Lemma value_prod f fs xs : Forall2 (fun f x => e_factor L env f = Some x) (f :: fs) xs ->
  value L env (pr_fac f ++ pr_facs fs) = Some (rprod xs).
Proof.
  intros H. unfold value. rewrite p_expr_prod. cbn [e_expr e_term].
  rewrite (e_factors_prod _ _ H). cbn [omap2]. f_equal. ring.
Qed.
End Ev.

Lemma rsum_app a b : rsum (a ++ b) = (rsum a + rsum b)%R.
Proof. induction a as [|x a IH]; cbn [app rsum]; [ring | rewrite IH; ring]. Qed.
Lemma rprod_app a b : rprod (a ++ b) = (rprod a * rprod b)%R.
Proof. induction a as [|x a IH]; cbn [app rprod]; [ring | rewrite IH; ring]. Qed.
Lemma rsum_scale c l : rsum (map (Rmult c) l) = (c * rsum l)%R.
Proof. induction l as [|x l IH]; cbn [map rsum]; [ring | rewrite IH; ring]. Qed.
Lemma rsum_plus {A} (f g : A -> R) l : rsum (map (fun a => f a + g a)%R l) = (rsum (map f l) + rsum (map g l))%R.
Proof. induction l as [|x l IH]; cbn [map rsum]; [ring | rewrite IH; ring]. Qed.
Lemma rsum_minus {A} (f g : A -> R) l : rsum (map (fun a => f a - g a)%R l) = (rsum (map f l) - rsum (map g l))%R.
Proof. induction l as [|x l IH]; cbn [map rsum]; [ring | rewrite IH; ring]. Qed.
Lemma rsum_mult {A} (f : A -> R) c l : rsum (map (fun a => c * f a)%R l) = (c * rsum (map f l))%R.
Proof. induction l as [|x l IH]; cbn [map rsum]; [ring | rewrite IH; ring]. Qed.
Lemma rsum_zero {A} (f : A -> R) l : (forall a, In a l -> f a = 0%R) -> rsum (map f l) = 0%R.
Proof.
  induction l as [|x l IH]; intros H; cbn [map rsum]; [reflexivity|].
  rewrite H by (left; reflexivity). rewrite IH; [ring|]. intros; apply H; right; assumption.
Qed.
Lemma rsum_ext {A} (f g : A -> R) l : (forall a, In a l -> f a = g a) -> rsum (map f l) = rsum (map g l).
Proof. intros H. f_equal. apply map_ext_in, H. Qed.
Lemma rsum_nonneg l : (forall x, In x l -> (0 <= x)%R) -> (0 <= rsum l)%R.
Proof.
  induction l as [|x l IH]; intros H; cbn [rsum]; [lra|].
  specialize (IH (fun y Hy => H y (or_intror Hy))). specialize (H x (or_introl eq_refl)). lra.
Qed.
Lemma rsum_swap {A B} (f : A -> B -> R) la lb :
  rsum (map (fun a => rsum (map (f a) lb)) la) = rsum (map (fun b => rsum (map (fun a => f a b) la)) lb).
Proof.
  induction la as [|a la IH]; cbn [map rsum].
  - symmetry. apply rsum_zero. reflexivity.
  - rewrite IH, <- rsum_plus. reflexivity.
Qed.
Lemma rprod_nonneg l : (forall x, In x l -> (0 <= x)%R) -> (0 <= rprod l)%R.
Proof.
  induction l as [|x l IH]; intros H; cbn [rprod]; [lra|].
  apply Rmult_le_pos; [apply H; left; reflexivity | apply IH; intros; apply H; right; assumption].
Qed.
Lemma rprod_zero l : In 0%R l -> rprod l = 0%R.
Proof.
  induction l as [|x l IH]; [contradiction|]. intros [->|H]; cbn [rprod]; [ring|].
  rewrite IH by exact H. ring.
Qed.

(* ------------------------------------------------------------------ *)
(* Running assignments. *)
Section RunFacts.
Context {C D X : Type} `{EqB D}.
Variable addr : C -> option D.
Variable val : X -> option R.

Fixpoint assigns (p : list (gitem C X)) : list (C * X) :=
  match p with
  | [] => []
  | Assign c e :: p' => (c, e) :: assigns p'
  | _ :: p' => assigns p'
  end.

Lemma assigns_app p q : assigns (p ++ q) = assigns p ++ assigns q.
Proof. induction p as [|[c e| | | |] p IH]; cbn [app assigns]; [reflexivity | f_equal; exact IH | exact IH..]. Qed.

Lemma assigns_concat ls : assigns (concat ls) = flat_map assigns ls.
Proof. induction ls as [|l ls IH]; cbn [concat flat_map]; [reflexivity | rewrite assigns_app, IH; reflexivity]. Qed.

Fixpoint run_assigns (l : list (C * X)) (m : mem) : option mem :=
  match l with
  | [] => Some m
  | (c, e) :: l' => match assign addr val m c e with Some m' => run_assigns l' m' | None => None end
  end.

Lemma run_is_assigns p m : run addr val p m = run_assigns (assigns p) m.
Proof.
  revert m; induction p as [|[c e| | | |] p IH]; intros m; cbn [run assigns run_assigns]; auto.
  destruct (assign addr val m c e); auto.
Qed.

Definition assign_ok (ce : C * X) : Prop :=
  exists d x, addr (fst ce) = Some d /\ val (snd ce) = Some x.
(* cells are written with one right-hand side only *)
Definition consistent (l : list (C * X)) : Prop :=
  forall c e c' e' d, In (c, e) l -> In (c', e') l -> addr c = Some d -> addr c' = Some d -> e = e'.

Lemma run_assigns_ok l m : Forall assign_ok l ->
  exists m', run_assigns l m = Some m' /\
    (forall d, (forall c e, In (c, e) l -> addr c <> Some d) -> m' d = m d) /\
    (consistent l -> forall c e d x, In (c, e) l -> addr c = Some d -> val e = Some x -> m' d = x).
Proof.
  intros Hf. revert m; induction Hf as [|[c e] l (d & x & Hd & Hx) Hf IH]; intros m.
  - exists m. split; [reflexivity|]. split; [reflexivity | intros _ ? ? ? ? []].
  - cbn [run_assigns fst snd] in *. unfold assign. rewrite Hd, Hx.
    destruct (IH (upd m d x)) as (m' & Hr & Ho & Hw). exists m'. split; [exact Hr|]. split.
    + intros d' Hd'. rewrite Ho.
      * unfold upd. destruct (eqb d' d) eqn:E; [|reflexivity].
        apply eqb_eq in E; subst. exfalso. apply (Hd' c e); [left; reflexivity | exact Hd].
      * intros c' e' Hin. apply Hd' with e'. right; exact Hin.
    + intros Hc c' e' d' x' Hin Hd' Hx'.
      assert (Hc' : consistent l). { intros a1 b1 a2 b2 dd Hi1 Hi2. apply Hc; right; assumption. }
      assert (Hdec : (exists c2 e2, In (c2, e2) l /\ addr c2 = Some d') \/ (forall c2 e2, In (c2, e2) l -> addr c2 <> Some d')).
      { clear - l d' H. induction l as [|[c2 e2] l IHl]; [right; intros ? ? []|].
        destruct IHl as [(c3 & e3 & Hin & Ha)|Hn]; [left; exists c3, e3; split; [right|]; assumption|].
        destruct (addr c2) as [d2|] eqn:E2.
        - destruct (eqb_dec d2 d') as [->|Hne]; [left; exists c2, e2; split; [left; reflexivity | exact E2]|].
          right. intros c3 e3 [Heq|Hin]; [injection Heq as <- <-; congruence | apply (Hn _ _ Hin)].
        - right. intros c3 e3 [Heq|Hin]; [injection Heq as <- <-; congruence | apply (Hn _ _ Hin)]. }
      destruct Hdec as [(c2 & e2 & Hin2 & Ha2)|Hn].
      * assert (e' = e2) by (apply (Hc c' e' c2 e2 d'); [exact Hin | right; exact Hin2 | exact Hd' | exact Ha2]).
        subst e2. apply (Hw Hc' c2 e'); assumption.
      * destruct Hin as [Heq|Hin]; [|exfalso; apply (Hn _ _ Hin), Hd'].
        injection Heq as <- <-. rewrite Ho by exact Hn. unfold upd.
        assert (d' = d) by congruence. subst. rewrite eqb_refl. congruence.
Qed.

(* Conversely a program that runs has only good assignments. *)
Lemma run_assigns_Some l m m' : run_assigns l m = Some m' -> Forall assign_ok l.
Proof.
  revert m; induction l as [|[c e] l IH]; intros m; cbn [run_assigns]; [constructor|].
  unfold assign. destruct (addr c) as [d|] eqn:E1; [|discriminate].
  destruct (val e) as [x|] eqn:E2; [|discriminate].
  intros Hr; constructor; [exists d, x; auto | eapply IH, Hr].
Qed.
End RunFacts.

(* ------------------------------------------------------------------ *)
(* Powers. *)
Lemma Qred_int (q : Q) (z : Z) : q == inject_Z z -> Qnum (Qred q) = z /\ Qden (Qred q) = 1%positive.
Proof.
  intros H. apply Qred_complete in H. rewrite H.
  assert (E : Qred (inject_Z z) = inject_Z z).
  { apply Qcanon.Qred_identity. unfold inject_Z; cbn [Qnum Qden]. apply Z.gcd_1_r. }
  rewrite E. split; reflexivity.
Qed.

Lemma qpow_proper x q q' : q == q' -> qpow x q = qpow x q'.
Proof.
  intros H. unfold qpow. rewrite (Qeq_eqR _ _ H). apply Qred_complete in H. rewrite H. reflexivity.
Qed.

Lemma qpow_nat x q n : q == inject_Z (Z.of_nat n) -> qpow x q = Some (x ^ n)%R.
Proof.
  intros H. unfold qpow. destruct (Qred_int _ _ H) as [-> ->].
  rewrite Pos.eqb_refl. destruct (Z.leb_spec 0 (Z.of_nat n)); [|lia]. rewrite Nat2Z.id. reflexivity.
Qed.

Lemma qpow_one x : qpow x 1 = Some x.
Proof. rewrite (qpow_nat x 1 1) by reflexivity. f_equal. ring. Qed.

Lemma as_nat_spec q n : as_nat q = Some n <-> q == inject_Z (Z.of_nat n).
Proof.
  unfold as_nat. split.
  - destruct (Pos.eqb_spec (Qden (Qred q)) 1) as [E|]; [|discriminate]. cbn [andb].
    destruct (Z.leb_spec 0 (Qnum (Qred q))); [|discriminate]. intros Hn; injection Hn as <-.
    transitivity (Qred q); [symmetry; apply Qred_correct|]. rewrite Z2Nat.id by assumption.
    destruct (Qred q) as [a b]; cbn [Qnum Qden] in *. subst. reflexivity.
  - intros Hq. destruct (Qred_int _ _ Hq) as [-> ->]. cbn [Pos.eqb andb].
    destruct (Z.leb_spec 0 (Z.of_nat n)); [|lia]. rewrite Nat2Z.id. reflexivity.
Qed.

Lemma rpow_proper x q q' : q == q' -> rpow x q = rpow x q'.
Proof.
  intros H. unfold rpow. rewrite (Qeq_eqR _ _ H).
  unfold as_nat. apply Qred_complete in H. rewrite H. reflexivity.
Qed.

(* rpow is the usual power. *)
Lemma rpow_nat x q n : q == inject_Z (Z.of_nat n) -> rpow x q = (x ^ n)%R.
Proof. intros H. unfold rpow. apply as_nat_spec in H. rewrite H. reflexivity. Qed.

Lemma rpow_one x : rpow x 1 = x.
Proof. rewrite (rpow_nat x 1 1) by reflexivity. ring. Qed.

Lemma Q2R_inject z : Q2R (inject_Z z) = IZR z.
Proof. unfold Q2R, inject_Z; cbn [Qnum Qden]. field. Qed.

Lemma rpow_pos x q : (0 < x)%R -> (0 <= q)%Q -> rpow x q = Rpower x (Q2R q).
Proof.
  intros Hx Hq. unfold rpow. destruct (as_nat q) as [n|] eqn:E.
  - apply as_nat_spec in E. rewrite (Qeq_eqR _ _ E), Q2R_inject, <- INR_IZR_INZ, Rpower_pow by exact Hx. reflexivity.
  - destruct (Rlt_dec 0 x); [reflexivity | contradiction].
Qed.

Lemma rpow_nonneg x q : (0 <= x)%R -> (0 <= rpow x q)%R.
Proof.
  intros Hx. unfold rpow. destruct (as_nat q); [apply pow_le, Hx|].
  destruct (Rlt_dec 0 x); [unfold Rpower; left; apply exp_pos | lra].
Qed.

Lemma rpow_zero q : (0 < q)%Q -> rpow 0 q = 0%R.
Proof.
  intros Hq. unfold rpow. destruct (as_nat q) as [n|] eqn:E.
  - apply as_nat_spec in E. destruct n as [|n]; [|cbn [pow]; ring].
    rewrite E in Hq. discriminate.
  - destruct (Rlt_dec 0 0); [lra | reflexivity].
Qed.

(* On nonnegative arguments the generated power never fails. *)
Lemma qpow_rpow x q : (0 <= x)%R -> (0 <= q)%Q -> qpow x q = Some (rpow x q).
Proof.
  intros Hx Hq. unfold qpow, rpow, as_nat.
  assert (Hn : (0 <= Qnum (Qred q))%Z).
  { assert (H : (0 <= Qred q)%Q) by (rewrite Qred_correct; exact Hq). unfold Qle in H; cbn in H. lia. }
  destruct (Pos.eqb_spec (Qden (Qred q)) 1) as [E|E].
  - cbn [andb]. destruct (Z.leb_spec 0 (Qnum (Qred q))); [reflexivity | lia].
  - cbn [andb]. destruct (Rlt_dec 0 x) as [|Hnx]; [reflexivity|].
    destruct (Req_EM_T x 0) as [|Hne]; [|lra].
    destruct (Z.ltb_spec 0 (Qnum (Qred q))) as [|Hz]; [reflexivity|].
    exfalso. apply E. assert (H0 : Qred q == inject_Z 0) by (unfold Qeq; cbn; lia).
    destruct (Qred_int q 0) as [_ H1]; [transitivity (Qred q); [symmetry; apply Qred_correct | exact H0] | exact H1].
Qed.

(* The power is defined and is the mathematical one: nonnegative base, or
   natural exponent. *)
Definition pow_ok (x : R) (q : Q) : Prop := qpow x q = Some (rpow x q).
Lemma pow_ok_nonneg x q : (0 <= x)%R -> (0 <= q)%Q -> pow_ok x q.
Proof. apply qpow_rpow. Qed.
Lemma pow_ok_nat x q n : q == inject_Z (Z.of_nat n) -> pow_ok x q.
Proof. intros H. unfold pow_ok. rewrite (qpow_nat _ _ _ H), (rpow_nat _ _ _ H). reflexivity. Qed.
Lemma pow_ok_proper x q q' : q == q' -> pow_ok x q -> pow_ok x q'.
Proof. intros H. unfold pow_ok. rewrite (qpow_proper x q q' H), (rpow_proper x q q' H). auto. Qed.
