(* A blank after a text does not change its tokens. *)
From Coq Require Import List Bool Arith Lia Ascii String ZArith QArith.
From Verif Require Import Base PyStr SpecRate ModelExpr RateParse ModelLang ModelSource SourceRead.
Import ListNotations.
Import Coq.Lists.List.
Open Scope nat_scope.
Open Scope list_scope.

Lemma span_space p s : p " "%char = false -> span p (s ++ s_ " ") = (fst (span p s), snd (span p s) ++ s_ " ").
Proof.
  intros H. induction s as [|c s IH]; [cbn; rewrite H; reflexivity|]. cbn [app span]. destruct (p c); [|reflexivity].
  rewrite IH. destruct (span p s); reflexivity.
Qed.
Lemma span_sign_space s : span_sign (s ++ s_ " ") = (fst (span_sign s), snd (span_sign s) ++ s_ " ").
Proof. destruct s as [|c s]; [reflexivity|]. cbn [app span_sign]. destruct (is_sign c); reflexivity. Qed.
Lemma span_literal_space letter s : letter " "%char = false -> span_literal letter (s ++ s_ " ") = (fst (span_literal letter s), snd (span_literal letter s) ++ s_ " ").
Proof.
  intros H. unfold span_literal. rewrite span_space by reflexivity. destruct (span is_mant s) as [m r]. cbn [fst snd].
  destruct r as [|c r]; [change (s_ " ") with [" "%char]; cbn [app fst snd]; rewrite H; reflexivity|]. cbn [app]. destruct (letter c); [|reflexivity].
  rewrite span_sign_space. destruct (span_sign r) as [sg r2]. cbn [fst snd].
  rewrite span_space by reflexivity. destruct (span is_digit r2) as [ds r3]. cbn [fst snd]. destruct ds; reflexivity.
Qed.
Section Trailing.
Variable L : rlang.
Hypothesis letter_sp : exp_letter L " "%char = false.
Lemma lexes_trailing : forall f s ts, lex L f s = Some ts -> lexes L (s ++ s_ " ") ts.
Proof.
  induction f as [|f IH]; intros s ts H; [discriminate|]. cbn [lex] in H.
  destruct s as [|c s].
  - injection H as <-. exists 2. reflexivity.
  - destruct (is_space c) eqn:Sp; [cbn [app]; apply lexes_space; [exact Sp | apply IH, H]|].
    destruct (Ascii.eqb c (comment_char L)) eqn:Cm; [exists 1; cbn [app lex]; rewrite Sp, Cm; exact H|].
    destruct (is_mant c) eqn:M.
    { destruct (span_literal (exp_letter L) (c :: s)) as [l r] eqn:E. destruct (read_literal (exp_letter L) l) as [q|] eqn:Q; [|discriminate].
      apply omap_inv in H. destruct H as (t & H & ->). destruct (IH _ _ H) as [g G]. exists (S g). cbn [app lex]. rewrite Sp, Cm, M.
      change (c :: s ++ s_ " ") with ((c :: s) ++ s_ " "). rewrite span_literal_space by exact letter_sp. rewrite E. cbn [fst snd]. rewrite Q, G. reflexivity. }
    destruct (is_ident_char c) eqn:I.
    { destruct (span is_ident_char (c :: s)) as [l r] eqn:E. apply omap_inv in H. destruct H as (t & H & ->). destruct (IH _ _ H) as [g G].
      exists (S g). cbn [app lex]. rewrite Sp, Cm, M, I. change (c :: s ++ s_ " ") with ((c :: s) ++ s_ " ").
      rewrite span_space by reflexivity. rewrite E. cbn [fst snd]. rewrite G. reflexivity. }
    assert (D : match op_tok c with Some t => option_map (cons t) (lex L f s) | None => None end = Some ts ->
                exists g, match op_tok c with Some t => option_map (cons t) (lex L g (s ++ s_ " ")) | None => None end = Some ts).
    { destruct (op_tok c); [|discriminate]. intros X. apply omap_inv in X. destruct X as (t & X & ->). destruct (IH _ _ X) as [g G]. exists g. rewrite G. reflexivity. }
    assert (K : forall g, lex L (S g) ((c :: s) ++ s_ " ") = lex L (S g) (c :: s ++ s_ " ")) by reflexivity.
    destruct c as [[] [] [] [] [] [] [] []]; try (destruct (D H) as [g G]; exists (S g); cbn [app lex]; rewrite Sp, Cm, M, I; exact G);
    (destruct s as [|[[] [] [] [] [] [] [] []] s];
      try (destruct (D H) as [g G]; exists (S g); cbn [app lex]; rewrite Sp, Cm, M, I; exact G);
      apply omap_inv in H; destruct H as (t & H & ->); destruct (IH _ _ H) as [g G]; exists (S g); cbn [app lex]; rewrite Sp, Cm, M, I, G; reflexivity).
Qed.
End Trailing.

