(* Lemmas for reading back the generated source files: lines, continuation
   lines, tokens and statements. *)
From Coq Require Import List Bool Arith Lia Ascii String ZArith QArith.
From Verif Require Import Base PyStr PyDict SpecRate ModelExpr RateParse ModelLang ModelGen ModelSource ModelWrite SpecSource SpecMech ParseItem ParseText ParseShow.
Import ListNotations.
Import Coq.Lists.List.
Open Scope nat_scope.
Open Scope list_scope.
Local Arguments eqb : simpl never.

(* ------------------------------------------------------------------ *)
(* Token sequences as the generators write them: no two operands in a row,
   products and powers between operands, breaks after an operand. *)
Fixpoint spaced (after : bool) (l : list tok) : Prop :=
  match l with
  | [] => True
  | (TNum _ | TRef _ _) :: l' => after = false /\ spaced true l'
  | TCont :: l' => after = true /\ spaced true l'
  | (TStar | TPow) :: l' => after = true /\ spaced false l'
  | (TPlus | TMinus) :: l' => spaced false l'
  end.
Fixpoint after_of (b : bool) (l : list tok) : bool :=
  match l with
  | [] => b
  | (TNum _ | TRef _ _ | TCont) :: l' => after_of true l'
  | (TStar | TPow | TPlus | TMinus) :: l' => after_of false l'
  end.
Lemma spaced_app b l1 l2 : spaced b (l1 ++ l2) <-> spaced b l1 /\ spaced (after_of b l1) l2.
Proof.
  revert b; induction l1 as [|t l1 IH]; intros b; [cbn; tauto|].
  destruct t; cbn [app spaced after_of]; rewrite IH; tauto.
Qed.
Lemma after_app b l1 l2 : after_of b (l1 ++ l2) = after_of (after_of b l1) l2.
Proof. revert b; induction l1 as [|t l1 IH]; intros b; [reflexivity|]. destruct t; cbn [app after_of]; apply IH. Qed.

(* ------------------------------------------------------------------ *)
(* Lexing *)
Section Tokens.
Variable L : rlang.
Hypothesis comment_ok : comment_char L = "#"%char \/ comment_char L = "!"%char.
Hypothesis letter_e : exp_letter L "e"%char = true.
Hypothesis letters : forall c, exp_letter L c = true -> is_ident_char c = true /\ is_mant c = false.

Lemma lexes_space c r ts : is_space c = true -> lexes L r ts -> lexes L (c :: r) ts.
Proof. intros H [f E]. exists (S f). cbn [lex]. rewrite H. exact E. Qed.
Lemma lexes_spaces sp r ts : Forall (fun c => is_space c = true) sp -> lexes L r ts -> lexes L (sp ++ r) ts.
Proof. induction 1; intros E; [exact E|]. cbn [app]. apply lexes_space; auto. Qed.
Lemma lexes_fuel r ts g : lexes L r ts -> List.length r < g -> lex L g r = Some ts.
Proof. intros [f H]. apply (lex_enough L f); exact H. Qed.

Lemma not_letter c : is_mant c = true -> exp_letter L c = false.
Proof. intros H. destruct (exp_letter L c) eqn:E; [|reflexivity]. apply letters in E. destruct E; congruence. Qed.
Lemma e_not_mant c : is_mant c = true -> ("e" =? c)%char = false.
Proof. intros H. destruct (Ascii.eqb_spec "e" c) as [<-|]; [discriminate H | reflexivity]. Qed.
Lemma decimal_mant m : decimal m -> Forall (fun c => is_mant c = true) m.
Proof. intros [_ H]. eapply Forall_impl; [|exact H]. intros c [C| ->]; [unfold is_mant; rewrite C; reflexivity|reflexivity]. Qed.
Lemma decimal_head m : decimal m -> exists c m', m = c :: m' /\ is_mant c = true.
Proof. intros D. pose proof (decimal_mant m D) as F. destruct m as [|c m]; [destruct D; congruence|]. exists c, m. split; [reflexivity|]. exact (Forall_inv F). Qed.

Lemma float_text_lex l q r ts : float_text l q -> stop r -> lexes L r ts -> exists q', q' == q /\ lexes L (l ++ r) (KNum q' :: ts).
Proof.
  intros (m & ex & -> & D & X & q' & R & E) St Hr. exists q'. split; [exact E|].
  destruct (decimal_head m D) as (c & m' & Em & Mc). pose proof (decimal_mant m D) as F.
  assert (Fl : Forall (fun c => exp_letter L c = false) m) by (eapply Forall_impl; [|exact F]; exact not_letter).
  assert (Fe : Forall (fun c => ("e" =? c)%char = false) m) by (eapply Forall_impl; [|exact F]; exact e_not_mant).
  assert (R' : read_literal (exp_letter L) (m ++ ex) = Some q').
  { rewrite <- R. unfold read_literal. destruct X as [-> | (sg & ds & -> & I & Ds)].
    - rewrite app_nil_r. rewrite !split_exponent_no by assumption. reflexivity.
    - rewrite !split_exponent_yes by (try assumption; reflexivity). reflexivity. }
  apply (lexes_literal L comment_ok (m ++ ex) r q' ts c (m' ++ ex)); [rewrite Em; reflexivity | exact Mc | | exact R' | exact Hr].
  unfold span_literal. rewrite <- app_assoc. destruct X as [-> | (sg & ds & -> & I & Ds)].
  - cbn [app]. rewrite app_nil_r. rewrite span_app; [|exact F|intros d r' ->; apply (St d r' eq_refl)].
    destruct r as [|d r]; [reflexivity|]. destruct (St d r eq_refl) as [_ Id].
    destruct (exp_letter L d) eqn:El; [|reflexivity]. apply letters in El. destruct El; congruence.
  - cbn [app]. rewrite span_app; [|exact F|intros d r' Er; injection Er as <- <-; reflexivity].
    rewrite letter_e. rewrite <- app_assoc. destruct Ds as [Nd Fd].
    assert (Sg : span_sign (sg ++ ds ++ r) = (sg, ds ++ r)).
    { destruct I as [<- | [<- | [<- | []]]]; try reflexivity. cbn [app]. destruct ds as [|d ds]; [congruence|]. cbn [app span_sign].
      rewrite (digit_not_sign d (Forall_inv Fd)). reflexivity. }
    rewrite Sg. rewrite span_app; [|exact Fd|].
    + destruct ds as [|d ds]; [congruence|]. reflexivity.
    + intros d r' ->. destruct (St d r' eq_refl) as [Mt _]. unfold is_mant in Mt. apply orb_false_iff in Mt. tauto.
Qed.

Lemma dec_digits_all i : Forall (fun c => is_digit c = true) (dec i) /\ dec i <> [].
Proof. exact (digits_all _ _ (dec_digits_ok i)). Qed.
Lemma lexes_dec i r ts : stop r -> lexes L r ts -> lexes L (dec i ++ r) (KNum (Z.of_nat i # 1) :: ts).
Proof.
  intros St Hr. destruct (dec_digits_all i) as [F N].
  assert (Fm : Forall (fun c => is_mant c = true) (dec i)) by (eapply Forall_impl; [|exact F]; exact digit_mant).
  assert (Fl : Forall (fun c => exp_letter L c = false) (dec i)) by (eapply Forall_impl; [|exact Fm]; exact not_letter).
  destruct (dec i) as [|c d] eqn:Ed; [congruence|].
  apply (lexes_literal L comment_ok (c :: d) r _ ts c d); [reflexivity | exact (Forall_inv Fm) | | | exact Hr].
  - unfold span_literal. rewrite span_app; [|exact Fm|intros x r' ->; apply (St x r' eq_refl)].
    destruct r as [|x r]; [reflexivity|]. destruct (St x r eq_refl) as [_ Id].
    destruct (exp_letter L x) eqn:El; [|reflexivity]. apply letters in El. destruct El; congruence.
  - unfold read_literal. rewrite split_exponent_no by exact Fl. rewrite (digits_no_point (c :: d)) by (split; [discriminate | exact F]). rewrite <- Ed. unfold dec_unsigned.
    assert (S1 : split1 "." (dec i) = [dec i]).
    { assert (Nd : ~ In "."%char (dec i)) by (intros I; rewrite Ed in I; rewrite Forall_forall in F; specialize (F _ I); discriminate F).
      clear - Nd. induction (dec i) as [|x s IH]; [reflexivity|]. cbn [split1]. destruct (Ascii.eqb_spec x ".") as [->|_]; [exfalso; apply Nd; left; reflexivity|].
      rewrite IH by (intros I; apply Nd; right; exact I). reflexivity. }
    rewrite S1, Ed. rewrite <- Ed. rewrite (digits_dec _ _ (dec_digits_ok i)). reflexivity.
Qed.

(* The text of an expression on one line. *)
Hypothesis names : norm L (s_ "y") = s_ "y" /\ norm L (s_ "r") = s_ "r".
Variable num : Q -> str.
Variable sq : bool.
Definition joined_tok (t : tok) : str := match t with TCont => s_ " " ++ s_ "    " | _ => tok_text num sq t end.
Definition joined (l : list tok) : str := flat_map joined_tok l.

Lemma index_nat i : index (Z.of_nat i # 1) = Some i.
Proof.
  unfold index. cbn [Qnum Qden]. rewrite Pos.eqb_refl. destruct (0 <=? Z.of_nat i)%Z eqn:Ez; [|apply Z.leb_gt in Ez; lia].
  cbn [andb]. rewrite Nat2Z.id. reflexivity.
Qed.

Lemma stop_joined l r : spaced true l -> stop r -> stop (joined l ++ r).
Proof.
  intros Hs St. destruct l as [|t l]; [exact St|]. cbn [joined flat_map].
  destruct t; cbn [spaced] in Hs; try (destruct Hs; discriminate); intros c r' E; vm_compute in E; injection E as <- _; split; reflexivity.
Qed.
Lemma digit_not_star c : is_mant c = true -> c <> "*"%char.
Proof. intros H ->. discriminate H. Qed.
Lemma not_star_joined l r : spaced false l -> (forall q, In q (toks_numerals l) -> float_text (num q) q) -> ~ star r -> ~ star (joined l ++ r).
Proof.
  intros Hs P N. destruct l as [|t l]; [exact N|].
  assert (J : joined (t :: l) ++ r = joined_tok t ++ joined l ++ r) by (cbn [joined flat_map]; rewrite <- app_assoc; reflexivity).
  rewrite J. destruct t; cbn [spaced] in Hs; try (destruct Hs; discriminate).
  - destruct (P q) as (m & ex & Eq & D & _); [left; reflexivity|]. destruct (decimal_head m D) as (c & m' & -> & Mc).
    cbn [joined_tok tok_text]. rewrite Eq. cbn [app star]. destruct c as [[] [] [] [] [] [] [] []]; try exact (fun x => x). discriminate Mc.
  - destruct a; exact (fun x => x).
  - exact (fun x => x).
  - exact (fun x => x).
Qed.

Lemma lexes_ref a i r ts : lexes L r ts -> lexes L (joined_tok (TRef a i) ++ r)
  (KName (match a with AY => s_ "y" | AR => s_ "r" end) :: (if sq then KLb else KLp) :: KNum (Z.of_nat i # 1) :: (if sq then KRb else KRp) :: ts).
Proof.
  intros Hr. cbn [joined_tok tok_text]. unfold bracketed.
  set (x := match a with AY => s_ "y" | AR => s_ "r" end).
  assert (Nx : norm L x = x) by (subst x; destruct a; apply names).
  rewrite <- app_assoc.
  match goal with |- lexes _ _ (KName x :: ?l) => replace (KName x :: l) with (KName (norm L x) :: l) by (rewrite Nx; reflexivity) end.
  assert (X : Forall (fun c => is_ident_char c = true) x /\ exists c x', x = c :: x' /\ is_digit c = false).
  { subst x. destruct a; (split; [repeat constructor | eexists _, _; split; [reflexivity|reflexivity]]). }
  destruct X as [X1 X2]. destruct sq.
  - apply lexes_name; [exact comment_ok | exact X1 | exact X2 | intros c r' E; injection E as <- _; split; reflexivity|].
    rewrite <- !app_assoc. apply (lexes_op L comment_ok "["%char KLb); [reflexivity | discriminate|].
    apply lexes_dec; [intros c r' E; injection E as <- _; split; reflexivity|].
    apply (lexes_op L comment_ok "]"%char KRb); [reflexivity | discriminate | exact Hr].
  - apply lexes_name; [exact comment_ok | exact X1 | exact X2 | intros c r' E; injection E as <- _; split; reflexivity|].
    rewrite <- !app_assoc. apply (lexes_op L comment_ok "("%char KLp); [reflexivity | discriminate|].
    apply lexes_dec; [intros c r' E; injection E as <- _; split; reflexivity|].
    apply (lexes_op L comment_ok ")"%char KRp); [reflexivity | discriminate | exact Hr].
Qed.

(* The text of an expression lexes into tokens that read back as the
   expression. *)
Lemma lexes_joined : forall l b r, spaced b l -> (forall q, In q (toks_numerals l) -> float_text (num q) q) ->
  stop r -> ~ star r -> lexes L r [] ->
  exists ts, lexes L (joined l ++ r) ts /\ read_toks sq ts = Some (plain_toks l).
Proof.
  induction l as [|t l IH]; intros b r Hs P St Ns Hr; [exists []; split; [exact Hr | reflexivity]|].
  assert (J : joined (t :: l) ++ r = joined_tok t ++ joined l ++ r) by (cbn [joined flat_map]; rewrite <- app_assoc; reflexivity).
  rewrite J. clear J.
  assert (Pl : forall q, In q (toks_numerals l) -> float_text (num q) q).
  { intros q I. apply P. cbn [toks_numerals flat_map]. apply in_or_app. right. exact I. }
  destruct t; cbn [spaced] in Hs.
  - destruct Hs as [-> Hs]. destruct (IH _ r Hs Pl St Ns Hr) as (ts & H1 & H2).
    destruct (float_text_lex (num q) q (joined l ++ r) ts) as (q' & E & H3); [apply P; left; reflexivity | apply stop_joined; assumption | exact H1|].
    exists (KNum q' :: ts). split; [exact H3|]. cbn [read_toks]. rewrite H2. cbn [ocons plain_toks flat_map app].
    rewrite (Qred_complete q' q E). reflexivity.
  - destruct Hs as [-> Hs]. destruct (IH _ r Hs Pl St Ns Hr) as (ts & H1 & H2).
    eexists. split; [apply lexes_ref; exact H1|].
    assert (A : read_ref (match a with AY => s_ "y" | AR => s_ "r" end) (Z.of_nat i # 1) = Some (TRef a i)).
    { unfold read_ref. rewrite index_nat. destruct a; reflexivity. }
    destruct sq; cbn [read_toks]; rewrite A, H2; reflexivity.
  - destruct Hs as [-> Hs]. destruct (IH _ r Hs Pl St Ns Hr) as (ts & H1 & H2). exists (KMul :: ts). split.
    + apply (lexes_op L comment_ok "*"%char KMul); [reflexivity | intros _; apply not_star_joined; assumption | exact H1].
    + cbn [read_toks]. rewrite H2. reflexivity.
  - destruct Hs as [-> Hs]. destruct (IH _ r Hs Pl St Ns Hr) as (ts & H1 & H2). exists (KPow :: ts). split.
    + apply (lexes_pow L comment_ok). exact H1.
    + cbn [read_toks]. rewrite H2. reflexivity.
  - destruct (IH _ r Hs Pl St Ns Hr) as (ts & H1 & H2). exists (KAdd :: ts). split.
    + apply (lexes_op L comment_ok "+"%char KAdd); [reflexivity | discriminate | exact H1].
    + cbn [read_toks]. rewrite H2. reflexivity.
  - destruct (IH _ r Hs Pl St Ns Hr) as (ts & H1 & H2). exists (KSub :: ts). split.
    + apply (lexes_op L comment_ok "-"%char KSub); [reflexivity | discriminate | exact H1].
    + cbn [read_toks]. rewrite H2. reflexivity.
  - destruct Hs as [-> Hs]. destruct (IH _ r Hs Pl St Ns Hr) as (ts & H1 & H2). exists ts. split.
    + cbn [joined_tok]. rewrite <- app_assoc. apply lexes_spaces; [repeat constructor|]. apply lexes_spaces; [repeat constructor | exact H1].
    + exact H2.
Qed.

(* The cell on the left. *)
Definition cell_ok {C} (cellp : cell_reader C) (ct : C -> str) : Prop :=
  forall c r ts, lexes L r ts -> exists o cts, (o = KLb \/ o = KLp) /\
    lexes L (bracketed sq (ct c) ++ s_ "=" ++ r) (o :: cts) /\ cellp sq (o :: cts) = Some (c, ts).
Lemma cell_ok1 : cell_ok one_subscript cell_text1.
Proof.
  intros c r ts Hr. unfold bracketed, cell_text1. destruct sq.
  - exists KLb, (KNum (Z.of_nat c # 1) :: KRb :: KEq :: ts). split; [left; reflexivity|]. split.
    + rewrite <- !app_assoc. apply (lexes_op L comment_ok "["%char KLb); [reflexivity | discriminate|].
      apply lexes_dec; [intros x r' E; injection E as <- _; split; reflexivity|].
      apply (lexes_op L comment_ok "]"%char KRb); [reflexivity | discriminate|].
      apply (lexes_op L comment_ok "="%char KEq); [reflexivity | discriminate | exact Hr].
    + cbn [one_subscript]. rewrite index_nat. reflexivity.
  - exists KLp, (KNum (Z.of_nat c # 1) :: KRp :: KEq :: ts). split; [right; reflexivity|]. split.
    + rewrite <- !app_assoc. apply (lexes_op L comment_ok "("%char KLp); [reflexivity | discriminate|].
      apply lexes_dec; [intros x r' E; injection E as <- _; split; reflexivity|].
      apply (lexes_op L comment_ok ")"%char KRp); [reflexivity | discriminate|].
      apply (lexes_op L comment_ok "="%char KEq); [reflexivity | discriminate | exact Hr].
    + cbn [one_subscript]. rewrite index_nat. reflexivity.
Qed.
Lemma cell_ok2 : cell_ok two_subscripts cell_text2.
Proof.
  intros [i j] r ts Hr. unfold bracketed, cell_text2. cbn [fst snd]. destruct sq.
  - exists KLb, (KNum (Z.of_nat i # 1) :: KComma :: KNum (Z.of_nat j # 1) :: KRb :: KEq :: ts). split; [left; reflexivity|]. split.
    + rewrite <- !app_assoc. apply (lexes_op L comment_ok "["%char KLb); [reflexivity | discriminate|].
      apply lexes_dec; [intros x r' E; injection E as <- _; split; reflexivity|].
      apply (lexes_op L comment_ok ","%char KComma); [reflexivity | discriminate|].
      apply lexes_dec; [intros x r' E; injection E as <- _; split; reflexivity|].
      apply (lexes_op L comment_ok "]"%char KRb); [reflexivity | discriminate|].
      apply (lexes_op L comment_ok "="%char KEq); [reflexivity | discriminate | exact Hr].
    + cbn [two_subscripts]. rewrite !index_nat. reflexivity.
  - exists KLp, (KNum (Z.of_nat i # 1) :: KComma :: KNum (Z.of_nat j # 1) :: KRp :: KEq :: ts). split; [right; reflexivity|]. split.
    + rewrite <- !app_assoc. apply (lexes_op L comment_ok "("%char KLp); [reflexivity | discriminate|].
      apply lexes_dec; [intros x r' E; injection E as <- _; split; reflexivity|].
      apply (lexes_op L comment_ok ","%char KComma); [reflexivity | discriminate|].
      apply lexes_dec; [intros x r' E; injection E as <- _; split; reflexivity|].
      apply (lexes_op L comment_ok ")"%char KRp); [reflexivity | discriminate|].
      apply (lexes_op L comment_ok "="%char KEq); [reflexivity | discriminate | exact Hr].
    + cbn [two_subscripts]. rewrite !index_nat. reflexivity.
Qed.

(* A whole statement. *)
Definition plain_name (x : str) : Prop :=
  norm L x = x /\ Forall (fun c => is_ident_char c = true) x /\ exists c x', x = c :: x' /\ is_digit c = false.
Lemma statement {C} (cellp : cell_reader C) ct out c l sep : cell_ok cellp ct -> plain_name out ->
  spaced false l -> (forall q, In q (toks_numerals l) -> float_text (num q) q) -> Forall (fun c => is_space c = true) sep ->
  exists o ts, (o = KLb \/ o = KLp) /\
    tokens L (s_ "    " ++ out ++ bracketed sq (ct c) ++ s_ "=" ++ joined l ++ sep) = Some (KName out :: o :: ts) /\
    read_assign cellp sq out (KName out :: o :: ts) = Some (Assign c (plain_toks l)).
Proof.
  intros Hc (N1 & N2 & N3) Hs P Sp.
  destruct (lexes_joined l false sep Hs P) as (ts0 & H1 & H2).
  { intros d r' ->. pose proof (Forall_inv Sp) as E. cbn in E. destruct d as [[] [] [] [] [] [] [] []]; try discriminate E; split; reflexivity. }
  { destruct sep as [|d sep]; [exact (fun x => x)|]. pose proof (Forall_inv Sp) as E. cbn in E. destruct d as [[] [] [] [] [] [] [] []]; try discriminate E; exact (fun x => x). }
  { rewrite <- (app_nil_r sep). apply lexes_spaces; [exact Sp | apply lexes_nil]. }
  destruct (Hc c (joined l ++ sep) ts0 H1) as (o & cts & Ho & H3 & H4).
  exists o, cts. split; [exact Ho|]. split.
  - apply lexes_tokens. apply lexes_spaces; [repeat constructor|]. match goal with |- lexes _ _ (KName out :: ?l) => replace (KName out :: l) with (KName (norm L out) :: l) by (rewrite N1; reflexivity) end. apply lexes_name; [exact comment_ok | exact N2 | exact N3| |exact H3].
    unfold bracketed. intros d r' E. destruct sq; injection E as <- _; split; reflexivity.
  - cbn [read_assign]. rewrite eqb_refl, H4, H2. reflexivity.
Qed.
End Tokens.

(* ------------------------------------------------------------------ *)
(* Lines: a text that consists of the complete lines ls. *)
Definition lines_of (t : str) (ls : list str) : Prop := forall b, split_char NL (t ++ b) = ls ++ split_char NL b.
Lemma lines_nil : lines_of [] [].
Proof. intros b. reflexivity. Qed.
Lemma lines_app t1 ls1 t2 ls2 : lines_of t1 ls1 -> lines_of t2 ls2 -> lines_of (t1 ++ t2) (ls1 ++ ls2).
Proof. intros H1 H2 b. rewrite <- !app_assoc, H1, H2. reflexivity. Qed.
Lemma lines_one l : one_line l -> lines_of (l ++ [NL]) [l].
Proof. intros H b. rewrite <- app_assoc. cbn [app]. apply split_char_some. exact H. Qed.
Lemma lines_unlines ls : Forall one_line ls -> lines_of (unlines ls) ls.
Proof.
  induction 1 as [|l ls H _ IH]; [apply lines_nil|]. cbn [unlines flat_map]. change (l :: ls) with ([l] ++ ls).
  apply lines_app; [apply lines_one; exact H | exact IH].
Qed.

(* Characters that do not interfere with lines, breaks and comments. *)
Definition calm (c : ascii) : bool := negb (Ascii.eqb c NL) && negb (Ascii.eqb c "&") && negb (Ascii.eqb c "!").
Definition calm_text (s : str) : Prop := Forall (fun c => calm c = true) s.
Lemma calm_one_line s : calm_text s -> one_line s.
Proof. intros F I. unfold calm_text in F. rewrite Forall_forall in F. specialize (F _ I). discriminate F. Qed.
Lemma calm_app a b : calm_text a -> calm_text b -> calm_text (a ++ b).
Proof. intros; apply Forall_app; auto. Qed.
Lemma mant_calm c : is_mant c = true -> calm c = true.
Proof. destruct c as [[] [] [] [] [] [] [] []]; vm_compute; congruence. Qed.
Lemma ident_calm c : is_ident_char c = true -> calm c = true.
Proof. destruct c as [[] [] [] [] [] [] [] []]; vm_compute; congruence. Qed.
Lemma dec_calm i : calm_text (dec i).
Proof. destruct (digits_all _ _ (dec_digits_ok i)) as [F _]. eapply Forall_impl; [|exact F]. intros c H. apply mant_calm, digit_mant, H. Qed.
Lemma float_calm l q : float_text l q -> calm_text l.
Proof.
  intros (m & ex & -> & D & X & _). apply calm_app.
  - eapply Forall_impl; [|exact (decimal_mant m D)]. exact mant_calm.
  - destruct X as [-> | (sg & ds & -> & I & [_ Fd])]; [constructor|]. apply Forall_cons; [reflexivity|]. apply calm_app.
    + destruct I as [<- | [<- | [<- | []]]]; repeat constructor.
    + eapply Forall_impl; [|exact Fd]. intros c H. apply mant_calm, digit_mant, H.
Qed.
Lemma bracketed_calm sq s : calm_text s -> calm_text (bracketed sq s).
Proof. intros H. unfold bracketed. destruct sq; apply calm_app; try (apply calm_app; [exact H|]); repeat constructor. Qed.
Lemma tok_calm num sq t : t <> TCont -> (forall q, t = TNum q -> float_text (num q) q) -> calm_text (tok_text num sq t).
Proof.
  intros N P. destruct t; cbn [tok_text]; try congruence; try (repeat constructor).
  - eapply float_calm, P. reflexivity.
  - apply calm_app; [destruct a; repeat constructor | apply bracketed_calm, dec_calm].
Qed.
Lemma cell_text1_calm c : calm_text (cell_text1 c).
Proof. apply dec_calm. Qed.
Lemma cell_text2_calm c : calm_text (cell_text2 c).
Proof. unfold cell_text2. repeat apply calm_app; try apply dec_calm. repeat constructor. Qed.

Lemma py_comment_ok : comment_char py_src = "#"%char \/ comment_char py_src = "!"%char.
Proof. left. reflexivity. Qed.
Lemma f_comment_ok : comment_char f_src = "#"%char \/ comment_char f_src = "!"%char.
Proof. right. reflexivity. Qed.
Lemma py_letters c : exp_letter py_src c = true -> is_ident_char c = true /\ is_mant c = false.
Proof. destruct c as [[] [] [] [] [] [] [] []]; vm_compute; intuition congruence. Qed.
Lemma f_letters c : exp_letter f_src c = true -> is_ident_char c = true /\ is_mant c = false.
Proof. destruct c as [[] [] [] [] [] [] [] []]; vm_compute; intuition congruence. Qed.
Lemma py_names : norm py_src (s_ "y") = s_ "y" /\ norm py_src (s_ "r") = s_ "r".
Proof. split; reflexivity. Qed.
Lemma f_names : norm f_src (s_ "y") = s_ "y" /\ norm f_src (s_ "r") = s_ "r".
Proof. split; reflexivity. Qed.

(* ------------------------------------------------------------------ *)
(* Python *)
Section Python.
Context {C : Type} (cellp : cell_reader C) (ct : C -> str) (num : Q -> str) (out : str).
Hypothesis cell : cell_ok py_src true cellp ct.
Hypothesis ct_calm : forall c, calm_text (ct c).
Hypothesis out_ok : plain_name py_src out.

Definition py_reads (ls : list str) (p : list (item C)) : Prop := forall rest,
  py_result (ls ++ rest) = py_result rest /\ py_body cellp out (ls ++ rest) = option_map (app p) (py_body cellp out rest).
Lemma py_reads_nil : py_reads [] [].
Proof. intros rest. split; [reflexivity|]. cbn [app]. destruct (py_body cellp out rest); reflexivity. Qed.
Lemma py_reads_app ls1 p1 ls2 p2 : py_reads ls1 p1 -> py_reads ls2 p2 -> py_reads (ls1 ++ ls2) (p1 ++ p2).
Proof.
  intros H1 H2 rest. rewrite <- app_assoc. destruct (H1 (ls2 ++ rest)) as [E1 E2]. destruct (H2 rest) as [E3 E4].
  split; [congruence|]. rewrite E2, E4. destruct (py_body cellp out rest); [|reflexivity]. cbn [option_map]. rewrite app_assoc. reflexivity.
Qed.
Lemma py_reads_blank : py_reads [[]] [].
Proof.
  intros rest. split; [reflexivity|]. cbn [app]. change (py_body cellp out ([] :: rest)) with (py_body cellp out rest).
  destruct (py_body cellp out rest); reflexivity.
Qed.

Definition no_break (l : list tok) : Prop := ~ In TCont l.
Lemma joined_no_break sq l : no_break l -> joined num sq l = expr_text num sq l.
Proof.
  unfold no_break. induction l as [|t l IH]; intros N; [reflexivity|]. cbn [joined expr_text flat_map] in *. f_equal.
  - destruct t; try reflexivity. exfalso. apply N. left. reflexivity.
  - apply IH. intros I. apply N. right. exact I.
Qed.
Lemma expr_calm sq l : no_break l -> (forall q, In q (toks_numerals l) -> float_text (num q) q) -> calm_text (expr_text num sq l).
Proof.
  unfold no_break. induction l as [|t l IH]; intros N P; [constructor|]. cbn [expr_text flat_map]. apply calm_app.
  - apply tok_calm; [intros ->; apply N; left; reflexivity|]. intros q ->. apply P. left. reflexivity.
  - apply IH; [intros I; apply N; right; exact I|]. intros q I. apply P. cbn [toks_numerals flat_map]. apply in_or_app. right. exact I.
Qed.
Lemma out_calm : calm_text out.
Proof. destruct out_ok as (_ & F & _). eapply Forall_impl; [|exact F]. exact ident_calm. Qed.

Lemma py_reads_assign c l sep : no_break l -> spaced false l -> (forall q, In q (toks_numerals l) -> float_text (num q) q) ->
  Forall (fun c => is_space c = true) sep ->
  py_reads [assign_text num ct true out c l ++ sep] [Assign c (plain_toks l)].
Proof.
  intros Nb Hs P Sp rest.
  destruct (statement py_src py_comment_ok eq_refl py_letters py_names num true cellp ct out c l sep cell out_ok Hs P Sp) as (o & ts & Ho & T & R).
  assert (E : s_ "    " ++ out ++ bracketed true (ct c) ++ s_ "=" ++ joined num true l ++ sep = assign_text num ct true out c l ++ sep).
  { unfold assign_text. rewrite (joined_no_break true l Nb), <- !app_assoc. reflexivity. }
  rewrite E in T.
  assert (W : List.length (fst (span is_space (assign_text num ct true out c l ++ sep))) = 4).
  { rewrite <- E. destruct out_ok as (_ & F & x & x' & Ex & Dx). rewrite Ex in F |- *. pose proof (Forall_inv F) as Ix. cbn in Ix.
    rewrite span_app; [reflexivity | repeat constructor|]. intros d r' Ed. injection Ed as <- _. apply ident_not_space. exact Ix. }
  cbn [app py_result py_body]. rewrite T, W, R. destruct Ho as [-> | ->]; (split; [reflexivity|]; cbn [Nat.eqb ocons option_map app];
    destruct (py_body cellp out rest); reflexivity).
Qed.

(* The text t reads as the statements p. *)
Definition py_text (t : str) (p : list (item C)) : Prop := exists ls, lines_of t ls /\ py_reads ls p.
Lemma py_text_nil : py_text [] [].
Proof. exists []. split; [apply lines_nil | apply py_reads_nil]. Qed.
Lemma py_text_app t1 p1 t2 p2 : py_text t1 p1 -> py_text t2 p2 -> py_text (t1 ++ t2) (p1 ++ p2).
Proof. intros (l1 & A1 & B1) (l2 & A2 & B2). exists (l1 ++ l2). split; [apply lines_app | apply py_reads_app]; assumption. Qed.
Lemma py_text_flat {A} (f : A -> str) (g : A -> list (item C)) l : (forall a, In a l -> py_text (f a) (g a)) -> py_text (flat_map f l) (flat_map g l).
Proof.
  induction l as [|a l IH]; intros H; [apply py_text_nil|]. cbn [flat_map]. apply py_text_app; [apply H; left; reflexivity|].
  apply IH. intros b I. apply H. right. exact I.
Qed.

(* One assignment per line. *)
Definition good_item (i : item C) : Prop :=
  exists c l, i = Assign c l /\ spaced false l /\ forall q, In q (toks_numerals l) -> float_text (num q) q.
Definition unbroken (i : item C) : Prop := match i with Assign _ l => no_break l | _ => True end.
Lemma py_text_item i sep : good_item i -> unbroken i -> Forall (fun c => is_space c = true) sep -> calm_text sep ->
  py_text (chunk_text num ct true out (sep ++ [NL]) [i]) (plain [i]).
Proof.
  intros (c & l & -> & Hs & P) Nb Sp Cs. exists [assign_text num ct true out c l ++ sep]. split; [|apply py_reads_assign; assumption].
  cbn [chunk_text flat_map]. rewrite app_nil_r, app_assoc. apply lines_one, calm_one_line. unfold assign_text.
  repeat match goal with |- calm_text (_ ++ _) => apply calm_app end; try exact out_calm; try exact Cs;
    [repeat constructor | apply bracketed_calm, ct_calm | repeat constructor | apply expr_calm; assumption].
Qed.
Lemma py_text_chunk l sep : Forall good_item l -> Forall unbroken l -> Forall (fun c => is_space c = true) sep -> calm_text sep ->
  py_text (chunk_text num ct true out (sep ++ [NL]) l) (plain l).
Proof.
  intros G U Sp Cs. induction l as [|i l IH]; [apply py_text_nil|]. inversion G; inversion U; subst.
  change (chunk_text num ct true out (sep ++ [NL]) (i :: l)) with
    ((match i with Assign c e => assign_text num ct true out c e ++ sep ++ [NL] | _ => [] end) ++ chunk_text num ct true out (sep ++ [NL]) l).
  change (plain (i :: l)) with (plain [i] ++ plain l). apply py_text_app; [|apply IH; assumption].
  pose proof (py_text_item i sep) as X. cbn [chunk_text flat_map] in X. rewrite app_nil_r in X. apply X; assumption.
Qed.
(* At most one assignment, and the end of the line in any case. *)
Lemma py_text_line l : List.length l <= 1 -> Forall good_item l -> Forall unbroken l ->
  py_text (chunk_text num ct true out [] l ++ [NL]) (plain l).
Proof.
  intros Ln G U. destruct l as [|i l].
  - exists [[]]. split; [apply (lines_one []); intros [] | apply py_reads_blank].
  - destruct l; [|cbn in Ln; lia]. inversion G; inversion U; subst. pose proof (py_text_item i []) as X. cbn [app chunk_text flat_map] in X |- *.
    destruct H1 as (c & e & -> & H1). rewrite app_nil_r in X |- *. rewrite app_nil_r. apply X; [exists c, e; auto | assumption | constructor | constructor].
Qed.

(* A whole file. *)
Lemma py_file head body ret name args p :
  Forall one_line head -> one_line ret -> py_text body p ->
  (forall rest, py_lines cellp (head ++ rest) = match py_result rest with Some o => option_map (Source name args o) (py_body cellp o rest) | None => None end) ->
  py_result [ret; []] = Some out -> py_body cellp out [ret; []] = Some [] ->
  read_python cellp (unlines head ++ body ++ unlines [ret]) = Some (Source name args out p).
Proof.
  intros Oh Or (ls & A & B) H R1 R2. unfold read_python. rewrite (lines_unlines head Oh). rewrite A.
  assert (E : split_char NL (unlines [ret]) = [ret; []]).
  { rewrite <- (app_nil_r (unlines [ret])). rewrite (lines_unlines [ret]); [reflexivity|]. apply Forall_cons; [exact Or | constructor]. }
  rewrite E, H. destruct (B [ret; []]) as [B1 B2]. rewrite B1, R1, B2, R2. cbn [option_map]. rewrite app_nil_r. reflexivity.
Qed.
End Python.

(* ------------------------------------------------------------------ *)
(* Fortran lines *)
Lemma lstrip_In p s c r : lstrip p s = c :: r -> In c s.
Proof.
  induction s as [|x s IH]; cbn [lstrip]; [discriminate|]. destruct (p x).
  - intros H. right. exact (IH H).
  - intros H. injection H as -> _. left. reflexivity.
Qed.
Lemma calm_In s c : calm_text s -> In c s -> calm c = true.
Proof. intros F I. unfold calm_text in F. rewrite Forall_forall in F. exact (F c I). Qed.
Lemma calm_not_comment l : calm_text l -> is_comment l = false.
Proof.
  intros F. unfold is_comment. destruct (lstrip is_space l) as [|c r] eqn:E; [reflexivity|]. apply lstrip_In in E.
  pose proof (calm_In _ _ F E) as X. destruct (Ascii.eqb_spec c "!") as [->|_]; [discriminate X | reflexivity].
Qed.
Lemma calm_settled l : calm_text l -> continued l = None.
Proof.
  intros F. unfold continued. rewrite calm_not_comment by exact F. destruct (lstrip is_space (rev l)) as [|c r] eqn:E; [reflexivity|].
  apply lstrip_In in E. rewrite <- in_rev in E. pose proof (calm_In _ _ F E) as X.
  destruct c as [[] [] [] [] [] [] [] []]; try reflexivity. discriminate X.
Qed.
Lemma is_comment_amp l : calm_text l -> is_comment (l ++ s_ " & ") = false.
Proof.
  intros F. unfold is_comment. destruct (lstrip is_space (l ++ s_ " & ")) as [|c r] eqn:E; [reflexivity|]. apply lstrip_In in E.
  apply in_app_or in E. destruct (Ascii.eqb_spec c "!") as [->|_]; [|reflexivity]. exfalso. destruct E as [E|E].
  - pose proof (calm_In _ _ F E) as X. discriminate X.
  - cbn in E. intuition discriminate.
Qed.
Lemma continued_amp l : calm_text l -> continued (l ++ s_ " & ") = Some (l ++ s_ " ").
Proof.
  intros F. unfold continued. rewrite is_comment_amp by exact F. rewrite rev_app_distr.
  change (rev (s_ " & ")) with (s_ " & "). change (lstrip is_space (s_ " & " ++ rev l)) with ("&"%char :: " "%char :: rev l).
  cbn [rev]. rewrite rev_involutive. reflexivity.
Qed.
Lemma calm_unmark l : calm_text l -> unmark l = l.
Proof.
  intros F. unfold unmark. destruct l as [|c l]; [reflexivity|]. pose proof (calm_In _ c F (or_introl eq_refl)) as X.
  cbn [s_ list_ascii_of_string prefix_rest]. destruct (Ascii.eqb_spec "!" c) as [<-|_]; [discriminate X | reflexivity].
Qed.
Lemma logical_app : forall ls1 pre o1 ls2, logical pre ls1 = Some o1 -> logical pre (ls1 ++ ls2) = option_map (app o1) (logical None ls2).
Proof.
  induction ls1 as [|l ls1 IH]; intros pre o1 ls2 H.
  - cbn in H. destruct pre; [discriminate|]. injection H as <-. cbn [app]. destruct (logical None ls2); reflexivity.
  - cbn [app logical] in *. destruct (fits l); [|discriminate]. destruct (continued l) as [l0|].
    + exact (IH _ _ ls2 H).
    + destruct (logical None ls1) as [o|] eqn:E; [|discriminate H]. cbn [ocons] in H. injection H as <-.
      rewrite (IH None o ls2 E). destruct (logical None ls2); reflexivity.
Qed.
Lemma logical_fits : forall ls pre o, logical pre ls = Some o -> Forall (fun l => fits l = true) ls.
Proof.
  induction ls as [|l ls IH]; intros pre o H; [constructor|]. cbn [logical] in H. destruct (fits l) eqn:Ef; [|discriminate].
  apply Forall_cons; [exact Ef|]. destruct (continued l).
  - exact (IH _ _ H).
  - destruct (logical None ls) as [o'|] eqn:E; [|discriminate]. exact (IH _ _ E).
Qed.
Lemma logical_settled ls : Forall (fun l => fits l = true) ls -> Forall (fun l => continued l = None) ls -> logical None ls = Some ls.
Proof.
  induction 1 as [|l ls F _ IH]; intros S; [reflexivity|]. inversion S; subst. cbn [logical]. rewrite F, H1, IH by assumption. reflexivity.
Qed.

Section Fortran.
Context {C : Type} (cellp : cell_reader C) (ct : C -> str) (num : Q -> str) (out : str).
Hypothesis cell : cell_ok f_src false cellp ct.
Hypothesis ct_calm : forall c, calm_text (ct c).
Hypothesis out_ok : plain_name f_src out.
Notation all_fit := (Forall (fun l => fits l = true)).

Definition whole (pre : option str) (l : str) : str := match pre with None => l | Some p => p ++ l end.
(* A broken expression is one line again. *)
Lemma logical_expr sep : calm_text sep -> forall l acc, calm_text acc -> (forall q, In q (toks_numerals l) -> float_text (num q) q) ->
  exists ls, lines_of (acc ++ expr_text num false l ++ sep ++ [NL]) ls /\
    (all_fit ls -> forall pre, logical pre ls = Some [whole pre (acc ++ joined num false l ++ sep)]).
Proof.
  intros Cs. induction l as [|t l IH]; intros acc Ca P.
  - cbn [expr_text joined flat_map app]. exists [acc ++ sep]. split.
    + rewrite app_assoc. apply lines_one, calm_one_line, calm_app; assumption.
    + intros F pre. cbn [logical]. rewrite (Forall_inv F). assert (K : calm_text (acc ++ sep)) by (apply calm_app; assumption).
      rewrite calm_settled by exact K. cbn [ocons]. unfold whole. destruct pre; [rewrite calm_unmark by exact K|]; reflexivity.
  - assert (Pl : forall q, In q (toks_numerals l) -> float_text (num q) q).
    { intros q I. apply P. cbn [toks_numerals flat_map]. apply in_or_app. right. exact I. }
    assert (D : t = TCont \/ t <> TCont) by (destruct t; (right; discriminate) || (left; reflexivity)).
    destruct D as [-> | Nt].
    + destruct (IH (s_ "    ")) as (ls & A & B); [repeat constructor | exact Pl|].
      exists ((acc ++ s_ " & ") :: ls). split.
      * assert (E : acc ++ expr_text num false (TCont :: l) ++ sep ++ [NL] = ((acc ++ s_ " & ") ++ [NL]) ++ (s_ "    " ++ expr_text num false l ++ sep ++ [NL])).
        { cbn [expr_text flat_map tok_text]. rewrite <- !app_assoc. reflexivity. }
        rewrite E. change ((acc ++ s_ " & ") :: ls) with ([acc ++ s_ " & "] ++ ls). apply lines_app; [|exact A]. apply lines_one.
        intros I. apply in_app_or in I. destruct I as [I|I]; [exact (calm_one_line _ Ca I)|]. cbn in I. intuition discriminate.
      * intros F pre. pose proof (Forall_inv F) as F1. pose proof (Forall_inv_tail F) as F2. cbv beta in F1. cbn [logical]. rewrite F1, continued_amp by exact Ca.
        rewrite (B F2). f_equal. f_equal.
        assert (K : calm_text (acc ++ s_ " ")) by (apply calm_app; [exact Ca | repeat constructor]).
        cbn [joined flat_map joined_tok]. unfold whole. destruct pre as [p|].
        -- rewrite (calm_unmark _ K). rewrite <- !app_assoc. reflexivity.
        -- rewrite <- !app_assoc. reflexivity.
    + destruct (IH (acc ++ tok_text num false t)) as (ls & A & B).
      { apply calm_app; [exact Ca|]. apply tok_calm; [exact Nt|]. intros q ->. apply P. left. reflexivity. }
      { exact Pl. }
      assert (J : joined_tok num false t = tok_text num false t) by (destruct t; reflexivity || congruence).
      exists ls. split.
      * cbn [expr_text flat_map] in *. rewrite <- !app_assoc in *. exact A.
      * intros F pre. rewrite (B F). cbn [joined flat_map]. rewrite J, <- !app_assoc. reflexivity.
Qed.

Definition f_reads (lg : list str) (p : list (item C)) : Prop := forall rest,
  f_body cellp out (lg ++ rest) = option_map (app p) (f_body cellp out rest).
Lemma f_reads_nil : f_reads [] [].
Proof. intros rest. cbn [app]. destruct (f_body cellp out rest); reflexivity. Qed.
Lemma f_reads_app l1 p1 l2 p2 : f_reads l1 p1 -> f_reads l2 p2 -> f_reads (l1 ++ l2) (p1 ++ p2).
Proof.
  intros H1 H2 rest. rewrite <- app_assoc, H1, H2. destruct (f_body cellp out rest); [|reflexivity]. cbn [option_map]. rewrite app_assoc. reflexivity.
Qed.
Lemma f_reads_assign c l sep : spaced false l -> (forall q, In q (toks_numerals l) -> float_text (num q) q) ->
  Forall (fun c => is_space c = true) sep ->
  f_reads [(s_ "    " ++ out ++ bracketed false (ct c) ++ s_ "=") ++ joined num false l ++ sep] [Assign c (plain_toks l)].
Proof.
  intros Hs P Sp rest.
  destruct (statement f_src f_comment_ok eq_refl f_letters f_names num false cellp ct out c l sep cell out_ok Hs P Sp) as (o & ts & Ho & T & R).
  rewrite <- !app_assoc. cbn [app f_body].
  assert (O : omp_line (C := C) (s_ "    " ++ out ++ bracketed false (ct c) ++ s_ "=" ++ joined num false l ++ sep) = None) by reflexivity.
  rewrite O, T, R. destruct Ho as [-> | ->]; cbn [ocons option_map app]; destruct (f_body cellp out rest); reflexivity.
Qed.

(* The text t, if its lines are not too long, reads as the statements p. *)
Definition f_text (t : str) (p : list (item C)) : Prop := exists ls, lines_of t ls /\
  (all_fit ls -> exists lg, logical None ls = Some lg /\ f_reads lg p).
Lemma f_text_nil : f_text [] [].
Proof. exists []. split; [apply lines_nil|]. intros _. exists []. split; [reflexivity | apply f_reads_nil]. Qed.
Lemma f_text_app t1 p1 t2 p2 : f_text t1 p1 -> f_text t2 p2 -> f_text (t1 ++ t2) (p1 ++ p2).
Proof.
  intros (l1 & A1 & B1) (l2 & A2 & B2). exists (l1 ++ l2). split; [apply lines_app; assumption|].
  intros F. apply Forall_app in F. destruct F as [F1 F2]. destruct (B1 F1) as (g1 & G1 & R1). destruct (B2 F2) as (g2 & G2 & R2).
  exists (g1 ++ g2). split; [rewrite (logical_app _ _ _ _ G1), G2; reflexivity | apply f_reads_app; assumption].
Qed.
Lemma f_text_flat {A} (f : A -> str) (g : A -> list (item C)) l : (forall a, In a l -> f_text (f a) (g a)) -> f_text (flat_map f l) (concat (map g l)).
Proof.
  induction l as [|a l IH]; intros H; [apply f_text_nil|]. cbn [flat_map map concat]. apply f_text_app; [apply H; left; reflexivity|].
  apply IH. intros b I. apply H. right. exact I.
Qed.
(* Closed lines. *)
Lemma f_text_lines ls lg p : Forall one_line ls -> logical None ls = Some lg -> f_reads lg p -> f_text (unlines ls) p.
Proof. intros O G R. exists ls. split; [apply lines_unlines; exact O|]. intros _. exists lg. auto. Qed.

Lemma f_text_item i sep : good_item num i -> Forall (fun c => is_space c = true) sep -> calm_text sep ->
  f_text (chunk_text num ct false out (sep ++ [NL]) [i]) (plain [i]).
Proof.
  intros (c & l & -> & Hs & P) Sp Cs. cbn [chunk_text flat_map]. rewrite app_nil_r.
  destruct (logical_expr sep Cs l (s_ "    " ++ out ++ bracketed false (ct c) ++ s_ "=")) as (ls & A & B); [|exact P|].
  { repeat match goal with |- calm_text (_ ++ _) => apply calm_app end; [repeat constructor| |apply bracketed_calm, ct_calm | repeat constructor].
    destruct out_ok as (_ & F & _). eapply Forall_impl; [|exact F]. exact ident_calm. }
  exists ls. split.
  - unfold assign_text. rewrite <- !app_assoc in *. exact A.
  - intros F. eexists. split; [exact (B F None)|]. apply f_reads_assign; assumption.
Qed.
Lemma f_text_chunk l sep : Forall (good_item num) l -> Forall (fun c => is_space c = true) sep -> calm_text sep ->
  f_text (chunk_text num ct false out (sep ++ [NL]) l) (plain l).
Proof.
  intros G Sp Cs. induction l as [|i l IH]; [apply f_text_nil|]. inversion G; subst.
  change (chunk_text num ct false out (sep ++ [NL]) (i :: l)) with
    ((match i with Assign c e => assign_text num ct false out c e ++ sep ++ [NL] | _ => [] end) ++ chunk_text num ct false out (sep ++ [NL]) l).
  change (plain (i :: l)) with (plain [i] ++ plain l). apply f_text_app; [|apply IH; assumption].
  pose proof (f_text_item i sep) as X. cbn [chunk_text flat_map] in X. rewrite app_nil_r in X. apply X; assumption.
Qed.
Lemma f_text_line l sep : List.length l <= 1 -> Forall (good_item num) l -> sep = [] \/ sep = s_ " " ->
  f_text (chunk_text num ct false out [] l ++ sep ++ [NL]) (plain l).
Proof.
  intros Ln G Es.
  assert (Sp : Forall (fun c => is_space c = true) sep /\ calm_text sep) by (destruct Es as [-> | ->]; split; repeat constructor).
  destruct Sp as [Sp Cs]. destruct l as [|i l].
  - cbn [chunk_text flat_map app]. exists [sep]. split.
    + apply lines_one, calm_one_line, Cs.
    + intros F. exists [sep]. split; [apply logical_settled; [exact F|]; apply Forall_cons; [apply calm_settled, Cs | constructor]|].
      intros rest. destruct Es as [-> | ->]; cbn [app f_body omp_line prefix_rest omp_mark s_ list_ascii_of_string Ascii.eqb Bool.eqb];
        change (tokens f_src []) with (Some (@nil rtok)); try change (tokens f_src (s_ " ")) with (Some (@nil rtok));
        cbn [plain map]; destruct (f_body cellp out rest); reflexivity.
  - destruct l; [|cbn in Ln; lia]. inversion G as [|? ? Gi _]; subst. pose proof (f_text_item i sep Gi Sp Cs) as X.
    destruct Gi as (c & e & -> & _). cbn [chunk_text flat_map app] in X |- *. rewrite app_nil_r in X |- *. rewrite app_nil_r. exact X.
Qed.

(* Directives *)
Variable share : str.
Hypothesis share_ok : one_line (s_ "!$OMP& SHARED(" ++ share ++ s_ ")  ") /\ exists pl,
  logical None [s_ "!$OMP PARALLEL &"; s_ "!$OMP& SHARED(" ++ share ++ s_ ")  "] = Some [pl] /\ omp_line (C := C) pl = Some (Some OmpParallel).

Lemma one_line_dec s : existsb (Ascii.eqb NL) s = false -> one_line s.
Proof.
  intros H I. assert (existsb (Ascii.eqb NL) s = true) by (apply existsb_exists; exists NL; split; [exact I | apply Ascii.eqb_refl]). congruence.
Qed.
Lemma f_reads_omp l o : omp_line l = Some (Some o) -> f_reads [l] [o].
Proof. intros H rest. cbn [app f_body]. rewrite H. cbn [ocons]. destruct (f_body cellp out rest); reflexivity. Qed.
Lemma f_text_start : f_text (unlines [s_ "!$OMP PARALLEL &"; s_ "!$OMP& SHARED(" ++ share ++ s_ ")  "; s_ "!$OMP SINGLE "]) [OmpParallel; OmpSingle].
Proof.
  destruct share_ok as (O & pl & G & R). apply f_text_lines with (lg := [pl; s_ "!$OMP SINGLE "]).
  - repeat (apply Forall_cons; [first [exact O | apply one_line_dec; reflexivity]|]). constructor.
  - change [s_ "!$OMP PARALLEL &"; s_ "!$OMP& SHARED(" ++ share ++ s_ ")  "; s_ "!$OMP SINGLE "]
      with ([s_ "!$OMP PARALLEL &"; s_ "!$OMP& SHARED(" ++ share ++ s_ ")  "] ++ [s_ "!$OMP SINGLE "]).
    rewrite (logical_app _ _ _ _ G). reflexivity.
  - change [pl; s_ "!$OMP SINGLE "] with ([pl] ++ [s_ "!$OMP SINGLE "]). change [OmpParallel; OmpSingle] with ([@OmpParallel C (list tok)] ++ [OmpSingle]).
    apply f_reads_app; apply f_reads_omp; [exact R | reflexivity].
Qed.
Lemma f_text_break : f_text (unlines [s_ "!$OMP END SINGLE NOWAIT"; s_ "!$OMP SINGLE "]) [OmpEndSingle; OmpSingle].
Proof.
  apply f_text_lines with (lg := [s_ "!$OMP END SINGLE NOWAIT"; s_ "!$OMP SINGLE "]).
  - repeat (apply Forall_cons; [apply one_line_dec; reflexivity|]). constructor.
  - reflexivity.
  - apply (f_reads_app [_] [_] [_] [_]); apply f_reads_omp; reflexivity.
Qed.
Lemma f_text_stop : f_text (unlines [s_ "!$OMP END SINGLE NOWAIT"; s_ "!$OMP END PARALLEL "]) [OmpEndSingle; OmpEndParallel].
Proof.
  apply f_text_lines with (lg := [s_ "!$OMP END SINGLE NOWAIT"; s_ "!$OMP END PARALLEL "]).
  - repeat (apply Forall_cons; [apply one_line_dec; reflexivity|]). constructor.
  - reflexivity.
  - apply (f_reads_app [_] [_] [_] [_]); apply f_reads_omp; reflexivity.
Qed.
Lemma f_text_chunks {A} (text : A -> str) (g : A -> list (item C)) breaks : forall ls i, (forall a, In a ls -> f_text (text a) (g a)) ->
  f_text (omp_chunks_text share i breaks text ls) (omp_chunks i breaks (map g ls)).
Proof.
  induction ls as [|a ls IH]; intros i H; [apply f_text_nil|]. cbn [omp_chunks_text map omp_chunks].
  apply f_text_app; [destruct (i =? 0); [apply f_text_start | apply f_text_nil]|].
  apply f_text_app; [destruct (inb i breaks); [apply f_text_break | apply f_text_nil]|].
  apply f_text_app; [apply H; left; reflexivity|]. apply IH. intros b I. apply H. right. exact I.
Qed.
Lemma f_text_omp {A} (text : A -> str) (g : A -> list (item C)) omp ls : (forall a, In a ls -> f_text (text a) (g a)) ->
  f_text (omp_text omp share text ls) (omp_frame omp (map g ls)).
Proof.
  intros H. unfold omp_text, omp_frame. destruct omp as [breaks|].
  - apply f_text_app; [apply f_text_chunks; exact H | apply f_text_stop].
  - apply f_text_flat. exact H.
Qed.

(* A whole file: it is read exactly when no line is too long. *)
Definition fine (text : str) : Prop := Forall (fun l => fits l = true) (split_char NL text).
Lemma f_file head body last (K : list (item C) -> fsource C) p :
  Forall one_line head -> one_line last -> continued last = None -> Forall (fun l => continued l = None) head -> f_text body p ->
  (forall rest q, f_body cellp out rest = Some q -> f_lines cellp (head ++ rest) = Some (K q)) ->
  f_body cellp out [last; []] = Some [] ->
  fine (unlines head ++ body ++ unlines [last]) ->
  read_fortran cellp (unlines head ++ body ++ unlines [last]) = Some (K p).
Proof.
  intros Oh Ol Sl Sh (ls & A & B) H R. unfold fine, read_fortran. rewrite (lines_unlines head Oh), A.
  assert (E : split_char NL (unlines [last]) = [last; []]).
  { rewrite <- (app_nil_r (unlines [last])). rewrite (lines_unlines [last]); [reflexivity|]. apply Forall_cons; [exact Ol | constructor]. }
  rewrite E. intros F. apply Forall_app in F. destruct F as [F1 F]. apply Forall_app in F. destruct F as [F2 F3].
  rewrite (logical_app head None head) by (apply logical_settled; assumption).
  destruct (B F2) as (lg & G & Rd). rewrite (logical_app _ _ _ _ G).
  rewrite (logical_settled [last; []]); [|exact F3|apply Forall_cons; [exact Sl | apply Forall_cons; [reflexivity | constructor]]].
  cbn [option_map]. apply H. rewrite Rd, R. cbn [option_map]. rewrite app_nil_r. reflexivity.
Qed.
Lemma read_fine text s : read_fortran cellp text = Some s -> fine text.
Proof. unfold read_fortran, fine. destruct (logical None (split_char NL text)) eqn:E; [|discriminate]. intros _. eapply logical_fits, E. Qed.
End Fortran.
