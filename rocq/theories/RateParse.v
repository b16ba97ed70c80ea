(* Reading back a printed rate expression: lexer and parser of ModelExpr on the
   texts of SpecRate. *)
From Coq Require Import List Bool Arith Lia Ascii String ZArith QArith Reals Qreals Lra.
From Verif Require Import Base PyStr SpecRate SpecRateValue ModelExpr RateSym.
Import ListNotations.
Import Coq.Lists.List.
Open Scope nat_scope.
Open Scope list_scope.
Local Arguments eqb : simpl never.

Lemma span_app p a r : Forall (fun c => p c = true) a -> (forall c r', r = c :: r' -> p c = false) -> span p (a ++ r) = (a, r).
Proof.
  intros H N. induction H as [|c a Hc _ IH]; cbn [app span].
  - destruct r as [|c r]; [reflexivity|]. cbn. rewrite (N c r eq_refl). reflexivity.
  - rewrite Hc, IH. reflexivity.
Qed.
Lemma span_length p s : List.length (snd (span p s)) <= List.length s.
Proof. induction s as [|c s IH]; cbn; [lia|]. destruct (p c); [|cbn; lia]. destruct (span p s); cbn in *; lia. Qed.
Lemma span_shorter p c s : p c = true -> List.length (snd (span p (c :: s))) <= List.length s.
Proof. intros H. cbn. rewrite H. pose proof (span_length p s). destruct (span p s); cbn in *; lia. Qed.
Lemma span_sign_length s : List.length (snd (span_sign s)) <= List.length s.
Proof. unfold span_sign. destruct s as [|c s]; [cbn; lia|]. destruct (is_sign c); cbn; lia. Qed.
Lemma span_literal_shorter letter c s : is_mant c = true -> List.length (snd (span_literal letter (c :: s))) <= List.length s.
Proof.
  intros H. unfold span_literal. pose proof (span_shorter is_mant c s H) as L1. destruct (span is_mant (c :: s)) as [m r]; cbn in *.
  destruct r as [|d r]; [cbn; lia|]. destruct (letter d); [|cbn in *; lia].
  pose proof (span_sign_length r) as L2. destruct (span_sign r) as [sg r2]; cbn in *.
  pose proof (span_length is_digit r2) as L3. destruct (span is_digit r2) as [ds r3]; cbn in *.
  destruct ds; cbn in *; lia.
Qed.

Section Lexing.
Variable L : rlang.
Lemma omap_inv {A B} (f : A -> B) o b : option_map f o = Some b -> exists a, o = Some a /\ b = f a.
Proof. destruct o; cbn; [|discriminate]. intros H; injection H as <-. eauto. Qed.
Lemma lex_enough : forall f s ts, lex L f s = Some ts -> forall g, List.length s < g -> lex L g s = Some ts.
Proof.
  induction f as [|f IH]; intros s ts H g G; [discriminate|]. destruct g as [|g]; [lia|].
  cbn [lex] in H |- *. destruct s as [|c s]; [exact H|]. cbn [List.length] in G.
  destruct (is_space c); [apply (IH _ _ H); lia|]. destruct (Ascii.eqb c (comment_char L)); [exact H|].
  destruct (is_mant c) eqn:M.
  { pose proof (span_literal_shorter (exp_letter L) c s M) as LL. destruct (span_literal (exp_letter L) (c :: s)) as [l r]; cbn in LL.
    destruct (read_literal (exp_letter L) l); [|discriminate]. apply omap_inv in H. destruct H as (t & H & ->).
    rewrite (IH _ _ H g) by lia. reflexivity. }
  destruct (is_ident_char c) eqn:M2.
  { pose proof (span_shorter is_ident_char c s M2) as LL. destruct (span is_ident_char (c :: s)) as [l r]; cbn in LL.
    apply omap_inv in H. destruct H as (t & H & ->). rewrite (IH _ _ H g) by lia. reflexivity. }
  assert (D : match op_tok c with Some t => option_map (cons t) (lex L f s) | None => None end = Some ts ->
              match op_tok c with Some t => option_map (cons t) (lex L g s) | None => None end = Some ts).
  { destruct (op_tok c); [|discriminate]. intros E. apply omap_inv in E. destruct E as (t & E & ->). rewrite (IH _ _ E g) by lia. reflexivity. }
  destruct c as [[] [] [] [] [] [] [] []]; try (exact (D H));
    (destruct s as [|[[] [] [] [] [] [] [] []] s]; try (exact (D H));
     apply omap_inv in H; destruct H as (t & H & ->); cbn [List.length] in G; rewrite (IH _ _ H g) by lia; reflexivity).
Qed.

Definition lexes (s : str) (ts : list rtok) : Prop := exists f, lex L f s = Some ts.
Lemma lexes_tokens s ts : lexes s ts -> tokens L s = Some ts.
Proof. intros [f H]. unfold tokens. eapply lex_enough; eauto. Qed.
Lemma lexes_nil : lexes [] [].
Proof. exists 1. reflexivity. Qed.

(* Characters that end a name or literal. *)
Definition stop (r : str) : Prop := forall c r', r = c :: r' -> is_mant c = false /\ is_ident_char c = false.
Variable comment_ok : comment_char L = "#"%char \/ comment_char L = "!"%char.
Lemma not_comment c : c <> "#"%char -> c <> "!"%char -> Ascii.eqb c (comment_char L) = false.
Proof. intros H1 H2. apply Ascii.eqb_neq. destruct comment_ok; congruence. Qed.
Lemma ident_not_space c : is_ident_char c = true -> is_space c = false.
Proof. destruct c as [[] [] [] [] [] [] [] []]; vm_compute; congruence. Qed.
Lemma ident_not_comment c : is_ident_char c = true -> Ascii.eqb c (comment_char L) = false.
Proof. intros H. apply not_comment; intros ->; discriminate. Qed.
Lemma ident_not_mant c : is_ident_char c = true -> is_digit c = false -> is_mant c = false.
Proof. destruct c as [[] [] [] [] [] [] [] []]; vm_compute; congruence. Qed.
Lemma lexes_name x r ts : Forall (fun c => is_ident_char c = true) x -> (exists c x', x = c :: x' /\ is_digit c = false) ->
  stop r -> lexes r ts -> lexes (x ++ r) (KName (norm L x) :: ts).
Proof.
  intros F (c & x' & -> & D) S [f H]. exists (Datatypes.S f). cbn [app lex].
  pose proof (Forall_inv F) as C. rewrite (ident_not_space c C), (ident_not_comment c C), (ident_not_mant c C D), C.
  change (c :: x' ++ r) with ((c :: x') ++ r). rewrite span_app; [rewrite H; reflexivity | exact F|]. intros d r' E. apply (S d r' E).
Qed.
Lemma mant_not_space c : is_mant c = true -> is_space c = false.
Proof. destruct c as [[] [] [] [] [] [] [] []]; vm_compute; congruence. Qed.
Lemma lexes_literal l r q ts c l' : l = c :: l' -> is_mant c = true -> span_literal (exp_letter L) (l ++ r) = (l, r) ->
  read_literal (exp_letter L) l = Some q -> lexes r ts -> lexes (l ++ r) (KNum q :: ts).
Proof.
  intros -> M E Q [f H]. exists (Datatypes.S f). cbn [app lex]. rewrite (mant_not_space c M).
  rewrite not_comment by (intros ->; discriminate). rewrite M. change (c :: l' ++ r) with ((c :: l') ++ r). rewrite E, Q, H. reflexivity.
Qed.
Definition star r := match r with "*"%char :: _ => True | _ => False end.
Lemma lexes_op c t r ts : op_tok c = Some t -> (c = "*"%char -> ~ star r) -> lexes r ts -> lexes (c :: r) (t :: ts).
Proof.
  intros O S [f H]. exists (Datatypes.S f). unfold op_tok in O. cbn [lex].
  repeat match type of O with (if Ascii.eqb c ?d then _ else _) = _ =>
    let E := fresh in destruct (Ascii.eqb c d) eqn:E; [apply Ascii.eqb_eq in E; subst c; injection O as <-|] end; [..|discriminate];
  cbn [is_space nat_of_ascii]; rewrite not_comment by discriminate;
  (match goal with |- context [is_space ?c] => change (is_space c) with false; change (is_mant c) with false; change (is_ident_char c) with false end;
   cbv iota);
  try (cbn [op_tok Ascii.eqb Bool.eqb]; rewrite H; reflexivity).
  destruct r as [|d r]; [cbn; rewrite H; reflexivity|].
  destruct d as [[] [] [] [] [] [] [] []]; try (cbn [op_tok Ascii.eqb Bool.eqb]; rewrite H; reflexivity).
  exfalso. apply (S eq_refl). exact I.
Qed.
Lemma lexes_pow r ts : lexes r ts -> lexes ("*"%char :: "*"%char :: r) (KPow :: ts).
Proof.
  intros [f H]. exists (Datatypes.S f). cbn [lex]. rewrite not_comment by discriminate.
  change (is_space "*") with false. change (is_mant "*") with false. change (is_ident_char "*") with false. cbv iota. rewrite H. reflexivity.
Qed.
End Lexing.

(* ------------------------------------------------------------------ *)
(* Tokens and tree of a printed expression *)
Section Reading.
Variable L : rlang.
Variable S : syntax.
Variables (op cl : ascii) (opt clt : rtok).
Hypothesis comment_ok : comment_char L = "#"%char \/ comment_char L = "!"%char.
Hypothesis exp_ident : Forall (fun c => is_ident_char c = true) (exp_name S) /\ exists c x', exp_name S = c :: x' /\ is_digit c = false.
Hypothesis exp_func : func L (norm L (exp_name S)) = Some (some1 exp) /\ is_array L (norm L (exp_name S)) = false /\
  eqb (norm L (exp_name S)) (s_ "floor") = false /\ eqb (norm L (exp_name S)) (s_ "abs") = false.
Hypothesis exponent_E : exponent S = e_exponent.
Hypothesis letter_E : exp_letter L "E"%char = true /\ forall c, exp_letter L c = true -> kpp_letter c = true.
Hypothesis phot_text : forall k, phot S k = "J"%char :: op :: k ++ [cl].
Hypothesis brackets : (op, cl, opt, clt) = ("("%char, ")"%char, KLp, KRp) \/ (op, cl, opt, clt) = ("["%char, "]"%char, KLb, KRb).
Hypothesis J_array : is_array L (norm L ["J"%char]) = true /\
  eqb (norm L ["J"%char]) (s_ "floor") = false /\ eqb (norm L ["J"%char]) (s_ "abs") = false.

Definition lit_q (e : rexpr) : Q := match read_literal (exp_letter L) (show S e) with Some q => q | None => 0%Q end.
Definition op_toks (o : str) : list rtok :=
  if eqb o (s_ "+") then [KAdd] else if eqb o (s_ "-") then [KSub] else if eqb o (s_ "*") then [KMul]
  else if eqb o (s_ "/") then [KDiv] else [KPow].
Fixpoint toks (e : rexpr) : list rtok :=
  match e with
  | RLit m ex => [KNum (lit_q e)]
  | RVar x => [KName (norm L x)]
  | RPhot k => [KName (norm L ["J"%char]); opt; KNum (lit_q (RLit k None)); clt]
  | RExp e => KName (norm L (exp_name S)) :: KLp :: toks e ++ [KRp]
  | RParen e => KLp :: toks e ++ [KRp]
  | RNeg e => KSub :: toks e
  | RBin o a b => toks a ++ op_toks o ++ toks b
  end.
Definition index (x : str) (e : xexp) : xexp := match opt with KLb => XIdx x e | _ => XCall x e end.
Definition xbin (o : str) (a b : xexp) : xexp :=
  if eqb o (s_ "+") then XAdd a b else if eqb o (s_ "-") then XSub a b else if eqb o (s_ "*") then XMul a b
  else if eqb o (s_ "/") then XDiv a b else XPow a b.
Fixpoint tree (e : rexpr) : xexp :=
  match e with
  | RLit m ex => XNum (lit_q e)
  | RVar x => XVar (norm L x)
  | RPhot k => index (norm L ["J"%char]) (XNum (lit_q (RLit k None)))
  | RExp e => XCall (norm L (exp_name S)) (tree e)
  | RParen e => tree e
  | RNeg e => XNeg (tree e)
  | RBin o a b => xbin o (tree a) (tree b)
  end.

(* Every literal has a value. *)
Fixpoint valued (e : rexpr) : Prop :=
  match e with
  | RLit m ex => exists q, read_literal kpp_letter (show kpp e) = Some q
  | RVar _ => True
  | RPhot k => exists z, dec_digits 0 k = Some z
  | RExp e | RParen e | RNeg e => valued e
  | RBin _ a b => valued a /\ valued b
  end.

Lemma stop_cons c r : is_mant c = false -> is_ident_char c = false -> stop (c :: r).
Proof. intros H1 H2 d r' E. injection E as <- <-. auto. Qed.
Lemma stop_nil : stop [].
Proof. intros c r E. discriminate. Qed.
Lemma not_letter c : is_mant c = true -> exp_letter L c = false.
Proof.
  intros H. destruct (exp_letter L c) eqn:E; [|reflexivity]. apply letter_E in E. unfold kpp_letter in E.
  apply orb_prop in E. destruct E as [E|E]; apply Ascii.eqb_eq in E; subst; discriminate.
Qed.
Lemma letter_ident c : exp_letter L c = true -> is_ident_char c = true.
Proof. intros E. apply letter_E in E. unfold kpp_letter in E. apply orb_prop in E. destruct E as [E|E]; apply Ascii.eqb_eq in E; subst; reflexivity. Qed.
Lemma kpp_E_not_mant c : is_mant c = true -> kpp_letter c = false.
Proof.
  intros H. destruct (kpp_letter c) eqn:E; [|reflexivity]. unfold kpp_letter in E. apply orb_prop in E.
  destruct E as [E|E]; apply Ascii.eqb_eq in E; subst; discriminate.
Qed.
Lemma split_exponent_no letter m : Forall (fun c => letter c = false) m -> split_exponent letter m = (m, None).
Proof. induction 1 as [|d m Hd _ IH]; cbn [split_exponent]; [reflexivity|]. rewrite Hd, IH. reflexivity. Qed.
Lemma split_exponent_yes letter m c e : Forall (fun c => letter c = false) m -> letter c = true ->
  split_exponent letter (m ++ c :: e) = (m, Some e).
Proof.
  induction 1 as [|d m Hd _ IH]; intros Hc; cbn [app split_exponent]; [rewrite Hc; reflexivity|].
  rewrite Hd, IH by exact Hc. reflexivity.
Qed.
Lemma mant_forall m : mantissa m -> Forall (fun c => is_mant c = true) m.
Proof. intros [_ H]. eapply Forall_impl; [|exact H]. intros c [C| ->]; [unfold is_mant; rewrite C; reflexivity|reflexivity]. Qed.
Lemma digit_mant c : is_digit c = true -> is_mant c = true.
Proof. intros H. unfold is_mant. rewrite H. reflexivity. Qed.
Lemma digit_not_sign c : is_digit c = true -> is_sign c = false.
Proof. destruct c as [[] [] [] [] [] [] [] []]; vm_compute; congruence. Qed.
Lemma plus_same sg ds d : In sg [[]; ["-"%char]; ["+"%char]] -> digits ds ->
  exponent_value ((if d : bool then sign_or_plus sg else sg) ++ ds) = exponent_value (sg ++ ds).
Proof.
  intros I [N F]. destruct d; [|reflexivity]. destruct sg as [|s sg]; [|reflexivity]. cbn [sign_or_plus app].
  destruct ds as [|c ds]; [congruence|]. pose proof (Forall_inv F) as C. cbn [exponent_value Ascii.eqb Bool.eqb].
  destruct (Ascii.eqb_spec c "-") as [->|_]; [discriminate|]. destruct (Ascii.eqb_spec c "+") as [->|_]; [discriminate | reflexivity].
Qed.

(* The literal as written by S is read as the value of the KPP literal. *)
Lemma literal_reads m ex q : mantissa m -> good_exponent ex -> read_literal kpp_letter (show kpp (RLit m ex)) = Some q ->
  read_literal (exp_letter L) (show S (RLit m ex)) = Some q.
Proof.
  intros M G. pose proof (mant_forall m M) as F. cbn [show]. rewrite exponent_E.
  assert (F1 : Forall (fun c => kpp_letter c = false) m) by (eapply Forall_impl; [|exact F]; intros; apply kpp_E_not_mant; assumption).
  assert (F2 : Forall (fun c => exp_letter L c = false) m) by (eapply Forall_impl; [|exact F]; intros; apply not_letter; assumption).
  destruct ex as [[[d sg] ds]|]; cbn [show_ex].
  - unfold kpp, kpp_exponent, e_exponent. cbn [exponent].
    unfold read_literal. rewrite split_exponent_yes; [|exact F1|destruct d; reflexivity].
    rewrite split_exponent_yes; [|exact F2|apply letter_E]. destruct G as (G1 & G2 & _).
    rewrite (plus_same sg ds d G1 G2). auto.
  - rewrite !app_nil_r. unfold read_literal. rewrite !split_exponent_no; auto.
Qed.
Lemma span_literal_show m ex r : mantissa m -> good_exponent ex -> stop r ->
  span_literal (exp_letter L) (show S (RLit m ex) ++ r) = (show S (RLit m ex), r).
Proof.
  intros M G St. pose proof (mant_forall m M) as F. cbn [show]. rewrite exponent_E. unfold span_literal.
  destruct ex as [[[d sg] ds]|]; cbn [show_ex].
  - unfold e_exponent. rewrite <- app_assoc. rewrite span_app; [|exact F|intros c r' E; injection E as <- <-; reflexivity].
    cbn [app]. rewrite (proj1 letter_E). destruct G as (G1 & [N G2] & _).
    match goal with |- context [(?x ++ ds) ++ r] => set (sg' := x) end.
    assert (Sg : sg' = [] \/ exists c, sg' = [c] /\ is_sign c = true).
    { unfold sg'. cbn [In] in G1. destruct d, G1 as [<-|[<-|[<-|[]]]]; cbn [sign_or_plus]; eauto. }
    rewrite <- (app_assoc sg' ds r).
    assert (Sp : span_sign (sg' ++ ds ++ r) = (sg', ds ++ r)).
    { destruct Sg as [->|(c & -> & C)]; cbn [app span_sign]; [|rewrite C; reflexivity].
      destruct ds as [|c ds]; [congruence|]. cbn [app span_sign]. rewrite (digit_not_sign c (Forall_inv G2)). reflexivity. }
    rewrite Sp. rewrite span_app; [|exact G2|].
    + destruct ds as [|c ds]; [congruence|]. reflexivity.
    + intros c r' E. destruct (St c r' E) as [X _]. destruct (is_digit c) eqn:D; [|reflexivity]. rewrite (digit_mant c D) in X. discriminate.
  - rewrite app_nil_r. rewrite span_app; [|exact F|intros c r' E; apply (St c r' E)].
    destruct r as [|c r]; [reflexivity|]. destruct (exp_letter L c) eqn:E; [|reflexivity].
    destruct (St c r eq_refl) as [_ X]. rewrite (letter_ident c E) in X. discriminate.
Qed.
Lemma digits_no_point k : digits k -> has_point k = false.
Proof.
  intros [_ F]. unfold has_point. induction F as [|c k C _ IH]; [reflexivity|]. cbn [existsb]. rewrite IH, orb_false_r.
  destruct (Ascii.eqb_spec c "."); [subst; discriminate | reflexivity].
Qed.
Lemma real_den q : (Qden (real_literal q) =? 1)%positive = false.
Proof. unfold real_literal. destruct (Qden q =? 1)%positive eqn:E; [reflexivity | exact E]. Qed.
(* Exactly the integer literals have denominator 1. *)
Lemma literal_int m ex q : mantissa m -> good_exponent ex -> read_literal kpp_letter (show kpp (RLit m ex)) = Some q ->
  (Qden q =? 1)%positive = integer (RLit m ex).
Proof.
  intros M G. pose proof (mant_forall m M) as F. cbn [show integer].
  assert (F1 : Forall (fun c => kpp_letter c = false) m) by (eapply Forall_impl; [|exact F]; intros; apply kpp_E_not_mant; assumption).
  destruct ex as [[[d sg] ds]|]; cbn [show_ex].
  - unfold kpp, kpp_exponent. cbn [exponent]. unfold read_literal. rewrite split_exponent_yes; [|exact F1|destruct d; reflexivity].
    destruct (dec_unsigned m); [|discriminate]. destruct (exponent_value (sg ++ ds)); [|discriminate]. intros H. assert (H' := f_equal (fun o => match o with Some x => x | None => q end) H). cbv beta iota in H'. subst q. apply real_den.
  - rewrite app_nil_r. unfold read_literal. rewrite split_exponent_no by exact F1. destruct (has_point m) eqn:P.
    + destruct (dec_unsigned m); [|discriminate]. cbn [option_map]. intros H. assert (H' := f_equal (fun o => match o with Some x => x | None => q end) H). cbv beta iota in H'. subst q. apply real_den.
    + unfold dec_unsigned. assert (E : split1 "." m = [m]).
      { clear - P. unfold has_point in P. induction m as [|c m IH]; [reflexivity|]. cbn [existsb] in P. apply orb_false_iff in P. destruct P as [P1 P2].
        cbn [split1]. rewrite P1, (IH P2). reflexivity. }
      rewrite E. destruct m; [discriminate|]. destruct (dec_digits 0 _); cbn [option_map]; [|discriminate]. intros H; injection H as <-. reflexivity.
Qed.
Lemma digits_value k z : digits k -> dec_digits 0 k = Some z -> read_literal (exp_letter L) k = Some (Qmake z 1).
Proof.
  intros [N F] H. unfold read_literal. rewrite split_exponent_no.
  - unfold dec_unsigned. assert (E : split1 "." k = [k]).
    { clear - F. induction F as [|c k C _ IH]; [reflexivity|]. cbn [split1]. destruct (Ascii.eqb_spec c ".") as [->|_]; [discriminate|]. rewrite IH. reflexivity. }
    rewrite E, (digits_no_point k (conj N F)). destruct k; [congruence|]. rewrite H. reflexivity.
  - eapply Forall_impl; [|exact F]. intros c C. apply not_letter, digit_mant, C.
Qed.
Lemma digits_mantissa k : digits k -> mantissa k.
Proof. intros [N F]. split; [exact N|]. eapply Forall_impl; [|exact F]. cbn. auto. Qed.
Lemma star_show e r : good e -> proper_names e -> ~ star (show S e ++ r).
Proof.
  revert r. induction e as [m ex|x|k|e IH|e IH|o a IHa b IHb|e IH]; intros r G P; cbn [show good proper_names] in *.
  - destruct G as [[N F] _]. destruct m as [|c m]; [congruence|]. pose proof (Forall_inv F) as C. cbn.
    destruct (Ascii.eqb_spec c "*") as [->|E]; [destruct C as [C|C]; discriminate|]. destruct c as [[] [] [] [] [] [] [] []]; auto.
  - destruct G as (N & F & _). destruct x as [|c x]; [congruence|]. pose proof (Forall_inv F) as C. cbn in C |- *.
    destruct c as [[] [] [] [] [] [] [] []]; try exact (fun H => H). discriminate.
  - rewrite phot_text. exact (fun H => H).
  - destruct exp_ident as [F (c & x & E & _)]. rewrite E in *. pose proof (Forall_inv F) as C. cbn in C |- *.
    destruct c as [[] [] [] [] [] [] [] []]; try exact (fun H => H). discriminate.
  - exact (fun H => H).
  - destruct G as (_ & G1 & _), P as [P1 _]. rewrite <- app_assoc. apply IHa; assumption.
  - exact (fun H => H).
Qed.

Lemma lexes_show e : forall r ts, good e -> proper_names e -> valued e -> stop r -> lexes L r ts -> lexes L (show S e ++ r) (toks e ++ ts).
Proof.
  induction e as [m ex|x|k|e IH|e IH|o a IHa b IHb|e IH]; intros r ts G P V St H; cbn [good proper_names valued] in *.
  - cbn [toks app]. destruct V as [q V]. destruct G as [M X]. pose proof (literal_reads m ex q M X V) as Q.
    unfold lit_q. rewrite Q. assert (E : exists c l', show S (RLit m ex) = c :: l' /\ is_mant c = true).
    { pose proof (mant_forall m M) as F. destruct m as [|c m]; [destruct M; congruence|]. exists c. cbn [show app]. eexists. split; [reflexivity|]. apply (Forall_inv F). }
    destruct E as (c & l' & E & C). eapply lexes_literal; eauto. apply span_literal_show; assumption.
  - cbn [show toks app]. destruct G as (N & F & _). apply lexes_name; auto. destruct x as [|c x]; [contradiction|]. eauto.
  - cbn [show toks app]. rewrite phot_text. destruct V as [z V].
    assert (Q : lit_q (RLit k None) = Qmake z 1) by (unfold lit_q; cbn [show show_ex]; rewrite app_nil_r, (digits_value k z G V); reflexivity).
    rewrite Q.
    assert (St' : stop (cl :: r)) by (destruct brackets as [B|B]; injection B as -> -> -> ->; apply stop_cons; reflexivity).
    assert (H1 : lexes L (cl :: r) (clt :: ts)) by (destruct brackets as [B|B]; injection B as -> -> -> ->; apply lexes_op; auto; discriminate).
    assert (H2 : lexes L (k ++ cl :: r) (KNum (Qmake z 1) :: clt :: ts)).
    { assert (E : exists c l', k = c :: l' /\ is_digit c = true).
      { destruct G as [N F]. destruct k as [|c k]; [congruence|]. pose proof (Forall_inv F). eauto. }
      destruct E as (c & l' & E & C). eapply lexes_literal; eauto using digit_mant, digits_value.
      pose proof (span_literal_show k None (cl :: r) (digits_mantissa k G) I St') as X. cbn [show show_ex] in X. rewrite app_nil_r in X. exact X. }
    assert (H3 : lexes L (op :: k ++ cl :: r) (opt :: KNum (Qmake z 1) :: clt :: ts)).
    { destruct brackets as [B|B]; injection B as -> -> -> ->; apply lexes_op; auto; discriminate. }
    cbn [app]. change ("J"%char :: op :: (k ++ [cl]) ++ r) with (["J"%char] ++ op :: (k ++ [cl]) ++ r).
    rewrite <- app_assoc. apply lexes_name; auto.
    + exists "J"%char, []. auto.
    + destruct brackets as [B|B]; injection B as -> -> -> ->; apply stop_cons; reflexivity.
  - cbn [show toks app]. rewrite <- !app_assoc. cbn [app]. rewrite <- !app_assoc. destruct exp_ident as [F N].
    apply lexes_name; auto; [apply stop_cons; reflexivity|]. apply lexes_op; auto; [discriminate|].
    apply IH; auto; [apply stop_cons; reflexivity|]. cbn [app]. apply lexes_op; auto. discriminate.
  - cbn [show toks app]. rewrite <- !app_assoc. cbn [app]. apply lexes_op; auto; [discriminate|].
    apply IH; auto; [apply stop_cons; reflexivity|]. cbn [app]. apply lexes_op; auto. discriminate.
  - cbn [show toks]. rewrite <- !app_assoc. destruct G as (O & G1 & G2), P as [P1 P2], V as [V1 V2].
    pose proof (star_show b r G2 P2) as NS. specialize (IHb r ts G2 P2 V2 St H).
    assert (IHa' := fun r ts X Y => IHa r ts G1 P1 V1 X Y).
    cbn [In] in O. destruct O as [<-|[<-|[<-|[<-|[<-|[]]]]]]; (apply IHa'; [apply stop_cons; reflexivity|]);
      cbn [s_ list_ascii_of_string app];
      first [apply lexes_pow; assumption | apply lexes_op; [assumption|reflexivity|intros; try discriminate; assumption|assumption]].
  - cbn [show toks app]. apply lexes_op; auto. discriminate.
Qed.

(* ---- parser ---- *)
Definition head_in (l : list rtok) (r : list rtok) : Prop := match r with t :: _ => In t l | [] => False end.
Definition calls := [KLp; KLb].
Definition ends2 r := ~ head_in (KPow :: calls) r.
Definition ends1 r := ~ head_in (KMul :: KDiv :: KPow :: calls) r.
Definition ends0 r := ~ head_in (KAdd :: KSub :: KMul :: KDiv :: KPow :: calls) r.
Ltac no_head := unfold ends0, ends1, ends2, head_in, calls; cbn [In]; intuition discriminate.
Lemma ends1_2 r : ends1 r -> ends2 r.
Proof. unfold ends1, ends2, head_in. destruct r; cbn; tauto. Qed.
Lemma ends0_1 r : ends0 r -> ends1 r.
Proof. unfold ends0, ends1, head_in. destruct r; cbn; tauto. Qed.

Notation len := (@List.length rtok).
Definition P0 e := forall f r, at_level 0 e -> ends1 r -> 8 * len (toks e) + 3 <= f ->
  exists f', p_sum f (toks e ++ r) = p_sum_rest f' (tree e) r /\ f <= f' + 8 * len (toks e).
Definition P1 e := forall f r, at_level 1 e -> ends2 r -> 8 * len (toks e) + 2 <= f ->
  exists f', p_term f (toks e ++ r) = p_term_rest f' (tree e) r /\ f <= f' + 8 * len (toks e).
Definition P2 e := forall f r, at_level 2 e -> ends2 r -> 8 * len (toks e) + 1 <= f ->
  p_unary f (toks e ++ r) = Some (tree e, r).
Definition P3 e := forall f r, at_level 3 e -> ~ head_in calls r -> 8 * len (toks e) <= f ->
  p_atom f (toks e ++ r) = Some (tree e, r).

Lemma toks_pos e : 1 <= len (toks e).
Proof. induction e; cbn [toks]; rewrite ?app_length; cbn [List.length]; try lia. Qed.
Lemma sum_stop f a r : ends0 r -> p_sum_rest (Datatypes.S f) a r = Some (a, r).
Proof. intros E. destruct r as [|t r]; [reflexivity|]. destruct t; try reflexivity; exfalso; apply E; cbn; tauto. Qed.
Lemma term_stop f a r : ends1 r -> p_term_rest (Datatypes.S f) a r = Some (a, r).
Proof. intros E. destruct r as [|t r]; [reflexivity|]. destruct t; try reflexivity; exfalso; apply E; cbn; tauto. Qed.
Lemma up10 e : at_level 1 e -> P1 e -> P0 e.
Proof.
  intros A H f r _ E F. destruct f as [|f]; [lia|]. destruct (H f r A (ends1_2 r E) ltac:(lia)) as (f' & H1 & H2).
  cbn [p_sum]. rewrite H1. destruct f' as [|f']; [lia|]. rewrite term_stop by exact E. exists f. split; [reflexivity|]. pose proof (toks_pos e). lia.
Qed.
Lemma up21 e : at_level 2 e -> P2 e -> P1 e.
Proof.
  intros A H f r _ E F. destruct f as [|f]; [lia|]. cbn [p_term]. rewrite (H f r A E) by lia. exists f. split; [reflexivity|].
  pose proof (toks_pos e). lia.
Qed.
Lemma up32 e : at_level 3 e -> (forall r, ~ head_in [KSub] (toks e ++ r)) -> P3 e -> P2 e.
Proof.
  intros A N H f r _ E F. destruct f as [|f]; [lia|]. cbn [p_unary].
  assert (E' : ~ head_in calls r) by (intros X; apply E; destruct r; cbn in *; tauto).
  specialize (H f r A E' ltac:(lia)). specialize (N r).
  assert (G : match p_atom f (toks e ++ r) with
     | Some (a, KPow :: r) => match p_unary f r with Some (b, r') => Some (XPow a b, r') | None => None end
     | o => o end = Some (tree e, r)).
  { rewrite H. destruct r as [|t r']; [reflexivity|]. destruct t; try reflexivity. exfalso; apply E; cbn; tauto. }
  destruct (toks e ++ r) as [|t ts]; [exact G|]. destruct t; try exact G. exfalso; apply N; cbn; tauto.
Qed.
Lemma sum_all e f r : P0 e -> at_level 0 e -> ends0 r -> 8 * len (toks e) + 4 <= f -> p_sum f (toks e ++ r) = Some (tree e, r).
Proof.
  intros H A E F. destruct (H f r A (ends0_1 r E) ltac:(lia)) as (f' & H1 & H2). rewrite H1. destruct f' as [|f']; [lia|].
  apply sum_stop, E.
Qed.
Lemma all_up e : at_level 3 e -> (forall r, ~ head_in [KSub] (toks e ++ r)) -> P3 e -> P0 e /\ P1 e /\ P2 e /\ P3 e.
Proof.
  intros A N H. assert (A2 : at_level 2 e /\ at_level 1 e).
  { destruct e; cbn [at_level] in A |- *; auto; [destruct A as [(_ & X & _)|[(_ & X & _)|(_ & X & _)]]; lia | destruct A; lia]. }
  pose proof (up32 e A N H) as H2. pose proof (up21 e (proj1 A2) H2) as H1. pose proof (up10 e (proj2 A2) H1) as H0. auto.
Qed.

Lemma parse_all e : good e -> P0 e /\ P1 e /\ P2 e /\ P3 e.
Proof.
  induction e as [m ex|x|k|e IH|e IH|o a IHa b IHb|e IH]; intros G; cbn [good] in G.
  - apply all_up; [exact I|cbn; intros r [X|[]]; discriminate|]. intros f r _ E F. cbn in F. destruct f; [lia|]. reflexivity.
  - apply all_up; [exact I|cbn; intros r [X|[]]; discriminate|]. intros f r _ E F. cbn in F. destruct f; [lia|]. cbn [toks app p_atom tree].
    destruct r as [|t r]; [reflexivity|]. destruct t; try reflexivity; exfalso; apply E; cbn; tauto.
  - apply all_up; [exact I|cbn; intros r [X|[]]; discriminate|]. intros f r _ E F. cbn in F. destruct f; [lia|]. cbn [toks app p_atom tree].
    unfold index. destruct brackets as [B|B]; injection B as -> -> -> ->;
      (do 6 (destruct f as [|f]; [lia|]); reflexivity).
  - cbn [at_level]. destruct (IH G) as [H0 _].
    assert (X : at_level 0 e -> P3 (RExp e)).
    { intros A f r _ E F. cbn [toks tree app]. rewrite <- app_assoc. cbn [app]. cbn [toks List.length] in F. rewrite app_length in F. cbn in F.
      destruct f as [|f]; [lia|]. cbn [p_atom]. rewrite (sum_all e f (KRp :: r) H0 A); [reflexivity| |lia].
      no_head. }
    split; [|split; [|split]]; intros f r A; cbn [at_level] in A;
      (assert (AU := all_up (RExp e) A ltac:(cbn; intros r0 [Y|[]]; discriminate) (X A))); destruct AU as (U0 & U1 & U2 & U3);
      first [apply U0; exact A | apply U1; exact A | apply U2; exact A | apply U3; exact A].
  - destruct (IH G) as [H0 _].
    assert (X : at_level 0 e -> P3 (RParen e)).
    { intros A f r _ E F. cbn [toks tree app]. rewrite <- app_assoc. cbn [app]. cbn [toks List.length] in F. rewrite app_length in F. cbn in F.
      destruct f as [|f]; [lia|]. cbn [p_atom]. rewrite (sum_all e f (KRp :: r) H0 A); [reflexivity| |lia].
      no_head. }
    split; [|split; [|split]]; intros f r A; cbn [at_level] in A;
      (assert (AU := all_up (RParen e) A ltac:(cbn; intros r0 [Y|[]]; discriminate) (X A))); destruct AU as (U0 & U1 & U2 & U3);
      first [apply U0; exact A | apply U1; exact A | apply U2; exact A | apply U3; exact A].
  - destruct G as (O & Ga & Gb). destruct (IHa Ga) as (A0 & A1 & A2 & A3), (IHb Gb) as (B0 & B1 & B2 & B3). clear IHa IHb.
    assert (T : len (toks (RBin o a b)) = len (toks a) + 1 + len (toks b)).
    { cbn [toks]. rewrite !app_length. assert (X : len (op_toks o) = 1) by (cbn [In] in O; destruct O as [<-|[<-|[<-|[<-|[<-|[]]]]]]; reflexivity).
      rewrite X. lia. }
    assert (Q2 : P2 (RBin o a b)).
    { intros f r A E F. rewrite T in F. cbn [at_level] in A. destruct A as [(_ & X & _)|[(_ & X & _)|(-> & _ & Aa & Ab)]]; [lia|lia|].
      cbn [toks tree]. change (op_toks (s_ "**")) with [KPow]. change (xbin (s_ "**") (tree a) (tree b)) with (XPow (tree a) (tree b)).
      rewrite <- !app_assoc. cbn [app]. destruct f as [|f]; [lia|]. cbn [p_unary].
      pose proof (A3 f (KPow :: toks b ++ r) Aa ltac:(no_head) ltac:(lia)) as H.
      assert (Gm : match p_atom f (toks a ++ KPow :: toks b ++ r) with
         | Some (a, KPow :: r) => match p_unary f r with Some (b, r') => Some (XPow a b, r') | None => None end
         | o => o end = Some (XPow (tree a) (tree b), r)).
      { rewrite H. rewrite (B2 f r Ab E) by lia. reflexivity. }
      destruct (toks a ++ KPow :: toks b ++ r) as [|t ts] eqn:TT; [exact Gm|]. destruct t; try exact Gm.
      exfalso. destruct f as [|f]; [lia|]. cbn [p_atom] in H. discriminate. }
    assert (Q1 : P1 (RBin o a b)).
    { intros f r A E F. cbn [at_level] in A. destruct A as [(_ & X & _)|[(I2 & _ & Aa & Ab)|(X & _ & Aa & Ab)]]; [lia| |].
      - rewrite T in F. assert (W : exists t, op_toks o = [t] /\ ends2 (t :: toks b ++ r) /\
            forall f x, p_term_rest (Datatypes.S f) x (t :: toks b ++ r) =
                        match p_unary f (toks b ++ r) with Some (y, r') => p_term_rest f (xbin o x y) r' | None => None end).
        { destruct I2 as [<-|[<-|[]]]; eexists; (split; [reflexivity|]; split; [no_head|]; intros; reflexivity). }
        destruct W as (t & W1 & W2 & W3). cbn [toks tree]. rewrite W1, <- !app_assoc. cbn [app].
        destruct (A1 f (t :: toks b ++ r) Aa W2 ltac:(lia)) as (f1 & H1 & H2). rewrite H1. destruct f1 as [|f1]; [lia|].
        rewrite W3, (B2 f1 r Ab E) by lia. exists f1. split; [reflexivity|]. rewrite !app_length. cbn [List.length]. lia.
      - apply (up21 (RBin o a b)); auto; cbn [at_level]; right; right; repeat split; auto. }
    assert (Q0 : P0 (RBin o a b)).
    { intros f r A E F. cbn [at_level] in A. destruct A as [(I2 & _ & Aa & Ab)|A].
      - rewrite T in F. assert (W : exists t, op_toks o = [t] /\ ends1 (t :: toks b ++ r) /\
            forall f x, p_sum_rest (Datatypes.S f) x (t :: toks b ++ r) =
                        match p_term f (toks b ++ r) with Some (y, r') => p_sum_rest f (xbin o x y) r' | None => None end).
        { destruct I2 as [<-|[<-|[]]]; eexists; (split; [reflexivity|]; split; [no_head|]; intros; reflexivity). }
        destruct W as (t & W1 & W2 & W3). cbn [toks tree]. rewrite W1, <- !app_assoc. cbn [app].
        destruct (A0 f (t :: toks b ++ r) Aa W2 ltac:(lia)) as (f1 & H1 & H2). rewrite H1. destruct f1 as [|f1]; [lia|].
        rewrite W3. destruct (B1 f1 r Ab (ends1_2 r E) ltac:(lia)) as (f2 & H3 & H4). rewrite H3. destruct f2 as [|f2]; [lia|].
        rewrite term_stop by exact E. exists f1. split; [reflexivity|]. rewrite !app_length. cbn [List.length]. lia.
      - assert (A1' : at_level 1 (RBin o a b)).
        { cbn [at_level]. destruct A as [(X1 & X2 & X3)|(X1 & X2 & X3)]; [right; left; auto | right; right; auto]. }
        apply (up10 (RBin o a b)); auto. cbn [at_level]. right. exact A. }
    split; [exact Q0|]. split; [exact Q1|]. split; [exact Q2|].
    intros f r A. cbn [at_level] in A. destruct A as [(_ & X & _)|[(_ & X & _)|(_ & X & _)]]; lia.
  - destruct (IH G) as (H0 & H1 & H2 & H3).
    assert (Q2 : P2 (RNeg e)).
    { intros f r A E F. cbn [at_level] in A. cbn [toks tree app]. cbn [toks List.length] in F. destruct f as [|f]; [lia|].
      cbn [p_unary]. rewrite (H2 f r (proj2 A) E) by lia. reflexivity. }
    assert (Q1 : P1 (RNeg e)).
    { intros f r A. cbn [at_level] in A. assert (A' : at_level 2 (RNeg e)) by (cbn [at_level]; split; [lia|apply A]).
      apply (up21 (RNeg e) A' Q2). exact A. }
    assert (Q0 : P0 (RNeg e)).
    { intros f r A. cbn [at_level] in A. assert (A' : at_level 1 (RNeg e)) by (cbn [at_level]; split; [lia|apply A]).
      apply (up10 (RNeg e) A' Q1). exact A. }
    split; [exact Q0|]. split; [exact Q1|]. split; [exact Q2|]. intros f r A. cbn [at_level] in A. lia.
Qed.
Lemma parse_show e : good e -> well_formed e -> parse_expr (toks e) = Some (tree e).
Proof.
  intros G W. destruct (parse_all e G) as [H _]. unfold parse_expr, fuel_for.
  pose proof (sum_all e (8 * Datatypes.S (len (toks e))) [] H W ltac:(no_head) ltac:(lia)) as E. rewrite app_nil_r in E.
  rewrite E. reflexivity.
Qed.

(* ---- value ---- *)
Variable en : renv.
Variable var : str -> option R.
Hypothesis var_ok : forall x, var x = rvar en (norm L x).
Lemma subscript_Z z n : (0 <= z)%Z -> n = Z.to_nat z -> subscript (XNum (Qmake z 1)) = Some n.
Proof.
  intros Z ->. unfold subscript. cbn [Qden Qnum]. rewrite Pos.eqb_refl. destruct (0 <=? z)%Z eqn:Q; [reflexivity|]. lia.
Qed.
Lemma dec_digits_nonneg s : forall a z, (0 <= a)%Z -> dec_digits a s = Some z -> (0 <= z)%Z.
Proof.
  induction s as [|c s IH]; cbn [dec_digits]; intros a z A H; [injection H as <-; exact A|]. destruct (is_digit c); [|discriminate].
  refine (IH _ _ _ H). pose proof (Nat2Z.is_nonneg (digit_val c)). lia.
Qed.
Lemma rpow_gt x y : (0 < x)%R -> rpow x y = Some (Rpower x y).
Proof. intros. unfold rpow. destruct (Rlt_dec 0 x); [reflexivity|contradiction]. Qed.
Lemma rpow_int x n : x <> 0%R -> rpow x (IZR n) = Some (powerRZ x n).
Proof.
  intros N. unfold rpow. destruct (Rlt_dec 0 x); [rewrite powerRZ_Rpower; auto|]. destruct (Req_EM_T x 0); [contradiction|].
  rewrite Int_part_IZR. destruct (Req_EM_T (IZR n) (IZR n)); [reflexivity|contradiction].
Qed.
Lemma rpow_0 y : (0 < y)%R -> rpow 0 y = Some 0%R.
Proof.
  intros Y. unfold rpow. destruct (Rlt_dec 0 0); [lra|]. destruct (Req_EM_T 0 0); [|contradiction].
  destruct (Rlt_dec 0 y); [reflexivity|contradiction].
Qed.
Lemma means_valued var0 J e v : means var0 J e v -> good e -> valued e.
Proof. intros M. induction M; cbn [good valued]; intuition eauto. Qed.
Lemma tree_int e : good e -> valued e -> x_int (tree e) = integer e.
Proof.
  induction e as [m ex|x|k|e IH|e IH|o a IHa b IHb|e IH]; intros G V; cbn [good valued] in G, V; cbn [tree].
  - destruct V as (q & Q). destruct G as [G1 G2]. cbn [x_int]. rewrite <- (literal_int m ex q G1 G2 Q). unfold lit_q. rewrite (literal_reads m ex q G1 G2 Q). reflexivity.
  - reflexivity.
  - unfold index. destruct brackets as [B|B]; injection B as -> -> -> ->; cbn [x_int integer]; [|reflexivity].
    rewrite (proj1 (proj2 J_array)), (proj2 (proj2 J_array)). reflexivity.
  - cbn [x_int integer]. rewrite (proj1 (proj2 (proj2 exp_func))), (proj2 (proj2 (proj2 exp_func))). reflexivity.
  - exact (IH G V).
  - destruct G as (_ & Ga & Gb). destruct V as [Va Vb]. cbn [integer]. rewrite <- (IHa Ga Va), <- (IHb Gb Vb). unfold xbin.
    destruct (eqb o (s_ "+")); [reflexivity|]. destruct (eqb o (s_ "-")); [reflexivity|]. destruct (eqb o (s_ "*")); [reflexivity|]. destruct (eqb o (s_ "/")); reflexivity.
  - exact (IH G V).
Qed.
Lemma tree_value e v : means var (rj en) e v -> good e -> xeval L en (tree e) = Some v.
Proof.
  intros M. induction M as [m ex q Q|x v V|k z v Z V|e v M IH NI|e v M IH|e v M IH|a b x y Ma IHa Mb IHb|a b x y Ma IHa Mb IHb|
    a b x y Ma IHa Mb IHb|a b x y Ma IHa Mb IHb N NI|a b x y Ma IHa Mb IHb N NI|a b x n Ma IHa Mb IHb N NI|a b y Ma IHa Mb IHb N NI];
    intros G; cbn [good] in G; cbn [tree]; try (destruct G as (_ & Ga & Gb); specialize (IHa Ga); specialize (IHb Gb));
    try (rewrite <- (tree_int a Ga (means_valued _ _ _ _ Ma Ga)), <- (tree_int b Gb (means_valued _ _ _ _ Mb Gb)) in NI).
  - cbn [xeval]. unfold lit_q. destruct G as [G1 G2]. rewrite (literal_reads m ex q G1 G2 Q). reflexivity.
  - cbn [xeval]. rewrite <- var_ok. exact V.
  - assert (Q : lit_q (RLit k None) = Qmake z 1) by (unfold lit_q; cbn [show show_ex]; rewrite app_nil_r, (digits_value k z G Z); reflexivity).
    rewrite Q. unfold index.
    assert (SS : subscript (XNum (z # 1)) = Some (Z.to_nat z)) by (apply subscript_Z; [eapply dec_digits_nonneg; [|exact Z]; lia|reflexivity]).
    destruct brackets as [B|B]; injection B as -> -> -> ->; cbn [xeval]; rewrite (proj1 J_array), SS; exact V.
  - cbn [xeval]. rewrite (proj1 (proj2 exp_func)), (proj1 exp_func), (IH G). unfold refused. rewrite (tree_int e G (means_valued _ _ _ _ M G)), NI. cbn [andb].
    rewrite andb_false_r. reflexivity.
  - exact (IH G).
  - cbn [xeval]. rewrite (IH G). reflexivity.
  - change (xbin (s_ "+") (tree a) (tree b)) with (XAdd (tree a) (tree b)). cbn [xeval]. rewrite IHa, IHb. reflexivity.
  - change (xbin (s_ "-") (tree a) (tree b)) with (XSub (tree a) (tree b)). cbn [xeval]. rewrite IHa, IHb. reflexivity.
  - change (xbin (s_ "*") (tree a) (tree b)) with (XMul (tree a) (tree b)). cbn [xeval]. rewrite IHa, IHb. reflexivity.
  - change (xbin (s_ "/") (tree a) (tree b)) with (XDiv (tree a) (tree b)). cbn [xeval]. rewrite IHa, IHb, NI, andb_false_r. cbn [obind].
    unfold rdiv. destruct (Req_EM_T y 0); [contradiction|reflexivity].
  - change (xbin (s_ "**") (tree a) (tree b)) with (XPow (tree a) (tree b)). cbn [xeval]. rewrite IHa, IHb, NI, andb_false_r. apply rpow_gt, N.
  - change (xbin (s_ "**") (tree a) (tree b)) with (XPow (tree a) (tree b)). cbn [xeval]. rewrite IHa, IHb, NI, andb_false_r. apply rpow_int, N.
  - change (xbin (s_ "**") (tree a) (tree b)) with (XPow (tree a) (tree b)). cbn [xeval]. rewrite IHa, IHb, NI, andb_false_r. apply rpow_0, N.
Qed.
Lemma show_value e v : good e -> well_formed e -> proper_names e -> means var (rj en) e v -> text_value L en (show S e) = Some v.
Proof.
  intros G W P M. unfold text_value.
  pose proof (lexes_show e [] [] G P (means_valued _ _ _ _ M G) stop_nil (lexes_nil L)) as X. rewrite !app_nil_r in X.
  rewrite (lexes_tokens L _ _ X). cbn [obind]. rewrite (parse_show e G W). cbn [obind]. apply tree_value; assumption.
Qed.
Lemma show_tree e var' J v : good e -> well_formed e -> proper_names e -> means var' J e v -> obind (tokens L (show S e)) parse_expr = Some (tree e).
Proof.
  intros G W P M.
  pose proof (lexes_show e [] [] G P (means_valued _ _ _ _ M G) stop_nil (lexes_nil L)) as X. rewrite !app_nil_r in X.
  rewrite (lexes_tokens L _ _ X). cbn [obind]. apply (parse_show e G W).
Qed.
End Reading.
