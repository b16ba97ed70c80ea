(* A printer for mechanisms in the usual layout
   "{1.} APINENE + NO3 = NAPINAO2 : 1.2D-12 ;", and the proof that what it
   prints is a mechanism file.  It shows that [written] is met by every well
   formed mechanism. *)
From Coq Require Import List Bool Arith Lia Ascii String ZArith QArith.
From Verif Require Import Base PyStr SpecMech ParseText ParseItem.
Import ListNotations.
Open Scope nat_scope.
Open Scope list_scope.

Definition digit_char (d : nat) : ascii := ascii_of_nat (48 + d).

Fixpoint dec_aux (fuel n : nat) : str :=
  match fuel with
  | 0 => []
  | S f => if n <? 10 then [digit_char n] else dec_aux f (n / 10) ++ [digit_char (n mod 10)]
  end.
Definition dec (n : nat) : str := dec_aux (S n) n.

Lemma digit_char_ok d : d < 10 -> is_digit (digit_char d) = true /\ digit_val (digit_char d) = d.
Proof.
  intros H. do 10 (destruct d as [|d]; [split; reflexivity|]). lia.
Qed.

Lemma dec_aux_digits fuel n : n < fuel -> digits (dec_aux fuel n) (Z.of_nat n).
Proof.
  revert n; induction fuel as [|f IH]; intros n H; [lia|]. cbn [dec_aux].
  destruct (n <? 10) eqn:E.
  - apply Nat.ltb_lt in E. destruct (digit_char_ok n E) as [H1 H2].
    assert (D := dig_one _ H1). rewrite H2 in D. exact D.
  - apply Nat.ltb_ge in E.
    assert (Hm : n mod 10 < 10) by (apply Nat.mod_upper_bound; lia).
    destruct (digit_char_ok _ Hm) as [H1 H2].
    assert (Hd : n / 10 < f) by (assert (n / 10 < n) by (apply Nat.div_lt; lia); lia).
    assert (D := dig_more _ _ _ (IH _ Hd) H1). rewrite H2 in D.
    replace (Z.of_nat n) with (10 * Z.of_nat (n / 10) + Z.of_nat (n mod 10))%Z; [exact D|].
    rewrite (Nat.div_mod n 10) at 3 by lia. lia.
Qed.

Lemma dec_digits_ok n : digits (dec n) (Z.of_nat n).
Proof. apply dec_aux_digits. lia. Qed.

Definition wrx := (list str * list str * str)%type.

Fixpoint join (ws : list str) : str :=
  match ws with
  | [] => []
  | [w] => SP :: w ++ [SP]
  | w :: ws' => SP :: w ++ SP :: "+"%char :: join ws'
  end.

Definition show_body (x : wrx) : str :=
  let '(ls, rs, k) := x in join ls ++ "="%char :: join rs ++ ":"%char :: SP :: k ++ [SP].

Fixpoint show_from (n : nat) (ws : list wrx) : str :=
  match ws with
  | [] => []
  | x :: ws' => "{"%char :: (dec n ++ ["."%char]) ++ "}"%char :: show_body x ++ ";"%char :: ([NL] ++ show_from (S n) ws')
  end.
Definition show (ws : list wrx) : str := show_from 1 ws.

(* The words x are a way of writing the reaction r. *)
Definition words_for (r : reaction) (x : wrx) : Prop :=
  let '(ls, rs, k) := x in
  lhs r <> [] /\ Forall2 term_word (lhs r) ls /\ Forall2 term_word (rhs r) rs /\
  k = rtext r /\ Forall (fun c => is_space c = false) k /\ free_of [";"; "{"; "}"]%char k.

Lemma blank_SP : blank [SP].
Proof. constructor; [reflexivity | constructor]. Qed.

Lemma join_written ts ws : Forall2 term_word ts ws -> ts <> [] -> side_written ts (join ws).
Proof.
  induction 1 as [|t w ts ws Hw H IH]; [congruence|]. intros _. cbn [join].
  destruct ws as [|w' ws].
  - inversion H; subst. apply side_one. exists [SP], w, [SP].
    split; [reflexivity|]. split; [exact blank_SP|]. split; [exact blank_SP | exact Hw].
  - assert (Hne : ts <> []) by (intros ->; inversion H).
    change (SP :: w ++ SP :: "+"%char :: join (w' :: ws)) with
      (SP :: w ++ [SP] ++ "+"%char :: join (w' :: ws)).
    replace (SP :: w ++ [SP] ++ "+"%char :: join (w' :: ws)) with
      (([SP] ++ w ++ [SP]) ++ "+"%char :: join (w' :: ws))
      by (cbn [app]; rewrite <- app_assoc; reflexivity).
    apply side_more; [|apply IH, Hne]. exists [SP], w, [SP].
    split; [reflexivity|]. split; [exact blank_SP|]. split; [exact blank_SP | exact Hw].
Qed.

Lemma filter_all {A} (f : A -> bool) l : Forall (fun c => f c = true) l -> filter f l = l.
Proof. induction 1 as [|c l Hc H IH]; [reflexivity|]. cbn [filter]. rewrite Hc, IH. reflexivity. Qed.

Lemma body_written r x : words_for r x -> reaction_written r (show_body x).
Proof.
  destruct x as [[ls rs] k]. intros (Hne & Hl & Hr & Hk & Hs & Hf).
  exists (join ls), (join rs), (SP :: k ++ [SP]). split; [reflexivity|].
  split; [apply join_written; assumption|]. split; [|split].
  - destruct (rhs r) as [|t ts] eqn:E.
    + right. inversion Hr; subst. split; [reflexivity | constructor].
    + left. apply join_written; [exact Hr | discriminate].
  - cbn [filter]. change (is_space SP) with true. cbn [negb].
    rewrite filter_app. cbn [filter]. change (is_space SP) with true. cbn [negb].
    rewrite app_nil_r, filter_all; [symmetry; exact Hk|].
    eapply Forall_impl; [|exact Hs]. cbn. intros c ->. reflexivity.
  - constructor; [reflexivity|]. apply Forall_app; split; [exact Hf|]. constructor; [reflexivity | constructor].
Qed.

Lemma digits_free ds v l : digits ds v -> (forall c, In c l -> is_digit c = false) -> free_of l ds.
Proof.
  intros H Hl. destruct (digits_all _ _ H) as [Ha _]. eapply Forall_impl; [|exact Ha].
  cbn. intros c Hc. destruct (existsb (Ascii.eqb c) l) eqn:E; [|reflexivity].
  apply existsb_exists in E as (x & Hx & Ex). apply Ascii.eqb_eq in Ex; subst. rewrite Hl in Hc by exact Hx. discriminate.
Qed.

Lemma label_free n : free_of ["{"; "}"]%char (dec n ++ ["."%char]).
Proof.
  apply Forall_app; split; [|constructor; [reflexivity | constructor]].
  apply (digits_free _ _ _ (dec_digits_ok n)). intros c [<-|[<-|[]]]; reflexivity.
Qed.

Lemma label_is n : label_number (no_breaks (dec n ++ ["."%char])) n.
Proof.
  exists [], (dec n), [], ["."%char]. cbn [app].
  split; [|split; [constructor | split; [constructor | split; [apply dec_digits_ok | constructor; [reflexivity | constructor]]]]].
  unfold no_breaks. apply filter_all. apply Forall_app; split; [|constructor; [reflexivity | constructor]].
  destruct (digits_all _ _ (dec_digits_ok n)) as [Ha _]. eapply Forall_impl; [|exact Ha].
  intros c Hc. apply negb_true_iff, orb_false_iff. split; apply Ascii.eqb_neq; intros ->; discriminate.
Qed.

Lemma free_NL : free_of ["{"; "}"]%char [NL].
Proof. constructor; [reflexivity | constructor]. Qed.

Lemma show_from_records k m ws : Forall2 words_for m ws -> m <> [] ->
  records (k + List.length m - 1) m (show_from k ws).
Proof.
  intros H. revert k. induction H as [|r x m ws Hx H IH]; intros k Hne; [congruence|].
  cbn [show_from]. destruct m as [|r' m].
  - inversion H; subst. cbn [show_from List.length]. apply rec_last.
    + replace (k + 1 - 1) with k by lia. apply label_is.
    + apply label_free.
    + apply body_written, Hx.
    + apply free_NL.
  - apply rec_more; [apply label_free | apply body_written, Hx | apply free_NL |].
    replace (k + List.length (r :: r' :: m) - 1) with (S k + List.length (r' :: m) - 1)
      by (cbn [List.length]; lia).
    apply IH. discriminate.
Qed.

Lemma show_written m ws : Forall2 words_for m ws -> m <> [] -> written m (show ws).
Proof.
  intros H Hne. exists [], (show ws). split; [reflexivity|]. split; [constructor|].
  unfold show. replace (List.length m) with (1 + List.length m - 1) by lia.
  apply show_from_records; assumption.
Qed.

(* A boolean test for bare words, to settle concrete files. *)
Definition bare_okb (w : str) : bool :=
  match w with
  | [] => false
  | c :: _ => negb (is_digit c || Ascii.eqb c "." || Ascii.eqb c "-" || Ascii.eqb c "+")
  end && forallb (fun c => negb (is_space c) && negb (structural c)) w.

Lemma bare_ok w : bare_okb w = true -> term_word (1%Q, w) w.
Proof.
  unfold bare_okb. intros H. apply andb_true_iff in H as [H1 H2].
  apply tw_bare.
  - split; [destruct w; [discriminate | discriminate]|].
    apply Forall_forall. rewrite forallb_forall in H2. intros c Hc. apply H2 in Hc.
    apply andb_true_iff in Hc as [Ha Hb]. rewrite negb_true_iff in Ha, Hb. auto.
  - destruct w as [|c w]; [discriminate|]. cbn [starts_name]. apply negb_true_iff in H1.
    rewrite !orb_false_iff, !Ascii.eqb_neq in H1. destruct H1 as [[[A B] C] D]. repeat split; assumption.
Qed.

(* Mechanisms whose terms are all bare words. *)
Definition bare (r : wrx) : reaction :=
  let '(ls, rs, k) := r in Rx (map (fun w => (1%Q, w)) ls) (map (fun w => (1%Q, w)) rs) k.

Definition bare_rxb (x : wrx) : bool :=
  let '(ls, rs, k) := x in
  negb (match ls with [] => true | _ => false end) && forallb bare_okb ls && forallb bare_okb rs &&
  forallb (fun c => negb (is_space c) && negb (existsb (Ascii.eqb c) [";"; "{"; "}"]%char)) k.

Lemma bare_words ls : forallb bare_okb ls = true -> Forall2 term_word (map (fun w => (1%Q, w)) ls) ls.
Proof.
  induction ls as [|w ls IH]; [constructor|]. cbn [forallb map]. intros H.
  apply andb_true_iff in H as [H1 H2]. constructor; [apply bare_ok, H1 | apply IH, H2].
Qed.

Lemma bare_written ws : ws <> [] -> forallb bare_rxb ws = true -> written (map bare ws) (show ws).
Proof.
  intros Hne H. apply show_written; [|destruct ws; [congruence | discriminate]]. clear Hne.
  induction ws as [|x ws IH]; [constructor|]. cbn [forallb map] in *.
  apply andb_true_iff in H as [Hx H]. constructor; [|apply IH, H].
  destruct x as [[ls rs] k]. cbn [bare_rxb] in Hx. rewrite !andb_true_iff in Hx.
  destruct Hx as [[[H1 H2] H3] H4]. unfold words_for, bare. cbn [lhs rhs rtext].
  split; [destruct ls; discriminate|]. split; [apply bare_words, H2|]. split; [apply bare_words, H3|].
  split; [reflexivity|]. rewrite forallb_forall in H4. split; apply Forall_forall; intros c Hc; apply H4 in Hc;
    apply andb_true_iff in Hc as [A B]; rewrite negb_true_iff in A, B; assumption.
Qed.
