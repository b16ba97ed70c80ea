(* Reading back the text of Partitioning.f90. *)
From Coq Require Import List Bool Arith Lia Ascii String ZArith QArith.
From Verif Require Import Base PyStr SpecRate ModelExpr RateParse ModelLang ModelSource ModelWrite ParseText ParseShow SourceRead SourceWidth ModelPartText ModelFort.
Import ListNotations.
Import Coq.Lists.List.
Open Scope nat_scope.
Open Scope list_scope.
Local Arguments eqb : simpl never.

(* ------------------------------------------------------------------ *)
(* Lexing a text that ends in a character which is a token (or a blank) of its
   own, followed by something else. *)
Definition edge (c : ascii) : bool := Ascii.eqb c "(" || Ascii.eqb c "," || Ascii.eqb c " ".
Definition edged (s : str) : Prop := exists s0 c, s = s0 ++ [c] /\ edge c = true.
Lemma edge_cases c : edge c = true -> c = "("%char \/ c = ","%char \/ c = " "%char.
Proof.
  unfold edge. rewrite !orb_true_iff. rewrite !Ascii.eqb_eq. tauto.
Qed.
Lemma edged_tail c s : edged (c :: s) -> s <> [] -> edged s.
Proof.
  intros (s0 & d & E & H) N. destruct s0 as [|x s0]; cbn [app] in E.
  - injection E as -> ->. congruence.
  - exists s0, d. split; [congruence | exact H].
Qed.
Lemma edged_one c : edged [c] -> edge c = true.
Proof. intros (s0 & d & E & H). destruct s0 as [|x [|y s0]]; cbn [app] in E; try discriminate. injection E as <-. exact H. Qed.
Lemma edged_nonempty s : edged s -> s <> [].
Proof. intros (s0 & c & -> & _). destruct s0; discriminate. Qed.
Lemma span_edged p s r : edged s -> (forall c, edge c = true -> p c = false) ->
  span p (s ++ r) = (fst (span p s), snd (span p s) ++ r) /\ edged (snd (span p s)).
Proof.
  intros E P. induction s as [|c s IH]; [destruct (edged_nonempty _ E eq_refl)|].
  cbn [app span]. destruct (p c) eqn:Pc.
  - assert (N : s <> []). { intros ->. apply edged_one, P in E. congruence. }
    destruct (IH (edged_tail _ _ E N)) as [IH1 IH2]. rewrite IH1. destruct (span p s) as [a b]. cbn [fst snd] in *. auto.
  - cbn [fst snd]. auto.
Qed.
Lemma f_src_letter c : edge c = true -> exp_letter f_src c = false /\ is_sign c = false /\ is_mant c = false /\ is_digit c = false /\ is_ident_char c = false.
Proof. intros H. destruct (edge_cases c H) as [->|[->| ->]]; repeat split; reflexivity. Qed.
Lemma span_sign_edged s r : edged s -> span_sign (s ++ r) = (fst (span_sign s), snd (span_sign s) ++ r) /\ edged (snd (span_sign s)).
Proof.
  intros E. destruct s as [|c s]; [destruct (edged_nonempty _ E eq_refl)|]. cbn [app span_sign]. destruct (is_sign c) eqn:S; cbn [fst snd]; [|auto].
  split; [reflexivity|]. apply (edged_tail c); [exact E|]. intros ->. apply edged_one, f_src_letter in E. destruct E as (_ & E & _). congruence.
Qed.
Lemma literal_edged s r : edged s ->
  span_literal (exp_letter f_src) (s ++ r) = (fst (span_literal (exp_letter f_src) s), snd (span_literal (exp_letter f_src) s) ++ r) /\
  edged (snd (span_literal (exp_letter f_src) s)).
Proof.
  intros E. unfold span_literal.
  destruct (span_edged is_mant s r E (fun c H => proj1 (proj2 (proj2 (f_src_letter c H))))) as [E1 D1]. rewrite E1.
  destruct (span is_mant s) as [m q]. cbn [fst snd] in *. destruct q as [|c q]; [destruct (edged_nonempty _ D1 eq_refl)|]. cbn [app].
  destruct (exp_letter f_src c) eqn:Lc; [|cbn [fst snd]; auto].
  assert (Nq : q <> []). { intros ->. apply edged_one, f_src_letter in D1. destruct D1. congruence. }
  pose proof (edged_tail _ _ D1 Nq) as Dq. destruct (span_sign_edged q r Dq) as [E2 D2]. rewrite E2.
  destruct (span_sign q) as [sg q2]. cbn [fst snd] in *.
  destruct (span_edged is_digit q2 r D2 (fun c H => proj1 (proj2 (proj2 (proj2 (f_src_letter c H)))))) as [E3 D3]. rewrite E3.
  destruct (span is_digit q2) as [ds q3]. cbn [fst snd] in *. destruct ds; cbn [fst snd]; auto.
Qed.
Lemma lex_edged : forall f s r ts1 ts2, edged s -> existsb (Ascii.eqb "!") s = false -> lex f_src f s = Some ts1 -> lexes f_src r ts2 -> lexes f_src (s ++ r) (ts1 ++ ts2).
Proof.
  assert (NB : forall p s, existsb (Ascii.eqb "!") s = false -> existsb (Ascii.eqb "!") (snd (span p s)) = false).
  { intros p s. induction s as [|c s IH]; [reflexivity|]. cbn [span]. intros H. destruct (p c); [|exact H].
    cbn [existsb] in H. apply orb_false_elim in H. destruct H as [_ H]. specialize (IH H). destruct (span p s); exact IH. }
  induction f as [|f IH]; intros s r ts1 ts2 E NX H Hr; [discriminate|].
  destruct s as [|c s]; [destruct (edged_nonempty _ E eq_refl)|]. cbn [lex] in H.
  assert (NX' : Ascii.eqb "!" c = false /\ existsb (Ascii.eqb "!") s = false) by (cbn [existsb] in NX; apply orb_false_elim in NX; exact NX).
  assert (Done : forall s' ts', edged s' \/ s' = [] -> existsb (Ascii.eqb "!") s' = false -> lex f_src f s' = Some ts' -> lexes f_src (s' ++ r) (ts' ++ ts2)).
  { intros s' ts' [D| ->] N L; [exact (IH s' r ts' ts2 D N L Hr)|]. destruct f; [discriminate|]. injection L as <-. exact Hr. }
  assert (Dt : edged s \/ s = []). { destruct s; [right; reflexivity | left; apply (edged_tail c); [exact E | discriminate]]. }
  cbn [app]. destruct (is_space c) eqn:Sp; [apply lexes_space; [exact Sp|]; apply Done; tauto|].
  change (comment_char f_src) with "!"%char in H. rewrite (proj2 (Ascii.eqb_neq c "!")) in H by (intros ->; destruct NX'; discriminate).
  destruct (is_mant c) eqn:M.
  { destruct (literal_edged (c :: s) r E) as [L1 L2].
    destruct (span_literal (exp_letter f_src) (c :: s)) as [l q] eqn:SL. cbn [fst snd] in *.
    destruct (read_literal (exp_letter f_src) l) as [v|] eqn:RL; [|discriminate].
    destruct (lex f_src f q) as [ts'|] eqn:Lq; [|discriminate]. injection H as <-.
    assert (NQ : existsb (Ascii.eqb "!") q = false).
    { unfold span_literal in SL. pose proof (NB is_mant _ NX) as Q1. destruct (span is_mant (c :: s)) as [m q1]. cbn [snd] in Q1.
      destruct q1 as [|c1 q1]; [injection SL as <- <-; reflexivity|]. destruct (exp_letter f_src c1); [|injection SL as <- <-; exact Q1].
      assert (Q2 : existsb (Ascii.eqb "!") q1 = false) by (cbn [existsb] in Q1; apply orb_false_elim in Q1; apply Q1).
      assert (Q3 : existsb (Ascii.eqb "!") (snd (span_sign q1)) = false).
      { destruct q1 as [|c2 q1]; [reflexivity|]. cbn [span_sign]. destruct (is_sign c2); [|exact Q2]. cbn [existsb] in Q2. apply orb_false_elim in Q2; apply Q2. }
      destruct (span_sign q1) as [sg q2]. cbn [snd] in Q3. pose proof (NB is_digit _ Q3) as Q4. destruct (span is_digit q2) as [ds q3]. cbn [snd] in Q4.
      destruct ds; injection SL as <- <-; assumption. }
    destruct (Done q ts' (or_introl L2) NQ Lq) as [g Hg]. exists (S g). cbn [lex]. rewrite Sp.
    change (comment_char f_src) with "!"%char. rewrite (proj2 (Ascii.eqb_neq c "!")) by (intros ->; destruct NX'; discriminate).
    rewrite M. change (c :: s ++ r) with ((c :: s) ++ r). rewrite L1, RL, Hg. reflexivity. }
  destruct (is_ident_char c) eqn:I.
  { destruct (span_edged is_ident_char (c :: s) r E (fun c H => proj2 (proj2 (proj2 (proj2 (f_src_letter c H)))))) as [L1 L2].
    pose proof (NB is_ident_char _ NX) as NQ. destruct (span is_ident_char (c :: s)) as [x q]. cbn [fst snd] in *.
    destruct (lex f_src f q) as [ts'|] eqn:Lq; [|discriminate]. injection H as <-.
    destruct (Done q ts' (or_introl L2) NQ Lq) as [g Hg]. exists (S g). cbn [lex]. rewrite Sp.
    change (comment_char f_src) with "!"%char. rewrite (proj2 (Ascii.eqb_neq c "!")) by (intros ->; destruct NX'; discriminate).
    rewrite M, I. change (c :: s ++ r) with ((c :: s) ++ r). rewrite L1, Hg. reflexivity. }
  assert (One : forall t, op_tok c = Some t -> (c = "*"%char -> ~ star s) -> c <> "<"%char -> option_map (cons t) (lex f_src f s) = Some ts1 -> lexes f_src (c :: s ++ r) (ts1 ++ ts2)).
  { intros t O St Lt L. destruct (lex f_src f s) as [ts'|] eqn:Ls; [|discriminate]. injection L as <-. cbn [app].
    apply (lexes_op f_src); [right; reflexivity | exact O | | apply Done; tauto].
    intros -> Q. apply (St eq_refl). destruct Dt as [Dt| ->]; [|apply edged_one in E; discriminate E].
    destruct s as [|x s]; [destruct (edged_nonempty _ Dt eq_refl)|]. exact Q. }
  destruct s as [|d s].
  { apply edged_one in E. destruct (edge_cases c E) as [->|[->| ->]]; try discriminate Sp.
    - apply (One KLp); [reflexivity | discriminate | discriminate | exact H].
    - apply (One KComma); [reflexivity | discriminate | discriminate | exact H]. }
  assert (Two : forall t d', d' = d -> option_map (cons t) (lex f_src f s) = Some ts1 ->
     (forall g u, lex f_src g (s ++ r) = Some u -> lex f_src (S g) (c :: d :: s ++ r) = Some (t :: u)) -> edged s \/ s = [] -> lexes f_src (c :: (d :: s) ++ r) (ts1 ++ ts2)).
  { intros t d' _ L K D. destruct (lex f_src f s) as [ts'|] eqn:Ls; [|discriminate]. injection L as <-.
    destruct (Done s ts' D) as [g Hg]; [|exact Ls|]. { destruct NX' as [_ N]. cbn [existsb] in N. apply orb_false_elim in N. apply N. }
    exists (S g). cbn [app]. apply K. exact Hg. }
  assert (Ds : edged s \/ s = []). { destruct Dt as [Dt|Dt]; [|discriminate]. destruct s; [right; reflexivity | left; apply (edged_tail d); [exact Dt | discriminate]]. }
  destruct (Ascii.eqb_spec c "*") as [->|C1].
  { destruct (Ascii.eqb_spec d "*") as [->|D1].
    - apply (Two KPow "*"%char eq_refl H); [|exact Ds]. intros g u Hu. cbn [lex]. change (is_space "*") with false. change (comment_char f_src) with "!"%char. change (("*" =? "!")%char) with false. change (is_mant "*") with false. change (is_ident_char "*") with false. cbv iota. rewrite Hu. reflexivity.
    - apply (One KMul); [reflexivity | | discriminate |].
      + intros _ Q. unfold star in Q. destruct d as [[] [] [] [] [] [] [] []]; try contradiction; apply D1; reflexivity.
      + destruct d as [[] [] [] [] [] [] [] []]; try exact H; destruct (D1 eq_refl). }
  destruct (Ascii.eqb_spec c "<") as [->|C2].
  { destruct (Ascii.eqb_spec d "=") as [->|D1].
    - apply (Two KLe "="%char eq_refl H); [|exact Ds]. intros g u Hu. cbn [lex]. change (is_space "<") with false. change (comment_char f_src) with "!"%char. change (("<" =? "!")%char) with false. change (is_mant "<") with false. change (is_ident_char "<") with false. cbv iota. rewrite Hu. reflexivity.
    - exfalso. destruct d as [[] [] [] [] [] [] [] []]; try discriminate H; destruct (D1 eq_refl). }
  destruct (op_tok c) as [t|] eqn:O.
  - apply (One t eq_refl); [congruence | exact C2|]. clear - H C1 C2.
    destruct c as [[] [] [] [] [] [] [] []]; try exact H; try (destruct (C1 eq_refl)); try (destruct (C2 eq_refl)).
  - exfalso. clear - H C1 C2. destruct c as [[] [] [] [] [] [] [] []]; try discriminate H; try (destruct (C1 eq_refl)); try (destruct (C2 eq_refl)).
Qed.
Definition open_text (a : str) : Prop := edged a /\ existsb (Ascii.eqb "!") a = false.
Lemma lexes_open a r ts1 ts2 : open_text a -> tokens f_src a = Some ts1 -> lexes f_src r ts2 -> lexes f_src (a ++ r) (ts1 ++ ts2).
Proof. intros [E N] H Hr. exact (lex_edged _ _ _ _ _ E N H Hr). Qed.
Lemma one_number a n b t1 t2 : open_text a -> stop b -> tokens f_src a = Some t1 -> tokens f_src b = Some t2 ->
  tokens f_src (a ++ dec n ++ b) = Some (t1 ++ KNum (Z.of_nat n # 1) :: t2).
Proof.
  intros O S H1 H2. apply lexes_tokens. apply lexes_open; [exact O | exact H1|].
  apply lexes_dec; [right; reflexivity | exact f_letters | exact S|]. eexists. exact H2.
Qed.
Lemma two_numbers a n b k c t1 t2 t3 : open_text a -> stop b -> open_text b -> stop c -> tokens f_src a = Some t1 -> tokens f_src b = Some t2 -> tokens f_src c = Some t3 ->
  tokens f_src (a ++ dec n ++ b ++ dec k ++ c) = Some (t1 ++ KNum (Z.of_nat n # 1) :: t2 ++ KNum (Z.of_nat k # 1) :: t3).
Proof.
  intros O S O2 S2 H1 H2 H3. apply lexes_tokens. apply lexes_open; [exact O | exact H1|].
  apply lexes_dec; [right; reflexivity | exact f_letters | destruct b; [destruct O2 as [E _]; destruct (edged_nonempty _ E eq_refl) | exact (fun c0 r' E => S c0 b ltac:(injection E as <- _; reflexivity))] |].
  apply lexes_open; [exact O2 | exact H2|].
  apply lexes_dec; [right; reflexivity | exact f_letters | exact S2|]. eexists. exact H3.
Qed.
