(* How long the lines of the generated Fortran files get. *)
From Coq Require Import List Bool Arith Lia Ascii String ZArith QArith.
From Verif Require Import Base PyStr PyDict SpecRate ModelParse ModelLang ModelGen ParseShow PropsOmp
  RateParse ModelSource ModelWrite SpecSource SourceRead SourceGen PropsSource.
Import ListNotations.
Import Coq.Lists.List.
Open Scope nat_scope.
Open Scope list_scope.
Local Arguments eqb : simpl never.

(* Decimal notation. *)
Lemma dec_aux_width : forall f n k, n < f -> n < 10 ^ (S k) -> List.length (dec_aux f n) <= S k.
Proof.
  induction f as [|f IH]; intros n k H1 H2; [lia|]. cbn [dec_aux]. destruct (n <? 10) eqn:E; [cbn; lia|].
  apply Nat.ltb_ge in E. destruct k as [|k]; [cbn in H2; lia|]. rewrite app_length. cbn [List.length].
  assert (n / 10 < 10 ^ S k). { apply Nat.div_lt_upper_bound; [lia|]. rewrite <- Nat.pow_succ_r'. exact H2. }
  pose proof (Nat.div_lt n 10 ltac:(lia) ltac:(lia)). specialize (IH (n / 10) k ltac:(lia) ltac:(assumption)). lia.
Qed.
Lemma dec_width n k : 0 < k -> n < 10 ^ k -> List.length (dec n) <= k.
Proof. intros K H. destruct k; [lia|]. apply dec_aux_width; [lia | exact H]. Qed.

(* Short lines *)
Definition short_text (t : str) : Prop := exists ls, lines_of t ls /\ Forall (fun l => fits l = true) ls.
Lemma short_nil : short_text [].
Proof. exists []. split; [apply lines_nil | constructor]. Qed.
Lemma short_app a b : short_text a -> short_text b -> short_text (a ++ b).
Proof. intros (l1 & A1 & B1) (l2 & A2 & B2). exists (l1 ++ l2). split; [apply lines_app; assumption | apply Forall_app; auto]. Qed.
Lemma short_flat {A} (f : A -> str) l : (forall a, In a l -> short_text (f a)) -> short_text (flat_map f l).
Proof. induction l as [|a l IH]; intros H; [apply short_nil|]. cbn [flat_map]. apply short_app; [apply H; left; reflexivity|]. apply IH. intros b I. apply H. right. exact I. Qed.
Lemma short_unlines ls : Forall one_line ls -> Forall (fun l => fits l = true) ls -> short_text (unlines ls).
Proof. intros A B. exists ls. split; [apply lines_unlines; exact A | exact B]. Qed.
Lemma short_fine t : short_text t -> fine t.
Proof.
  intros (ls & A & B). unfold fine. rewrite <- (app_nil_r t), (A []). apply Forall_app. split; [exact B|].
  apply Forall_cons; [reflexivity | constructor].
Qed.
Lemma lstrip_length p s : List.length (lstrip p s) <= List.length s.
Proof. induction s as [|c s IH]; [cbn; lia|]. cbn [lstrip]. destruct (p c); cbn [List.length]; lia. Qed.
Lemma fits_short l : List.length l <= 132 -> fits l = true.
Proof.
  intros H. unfold fits. apply orb_true_iff. right. apply Nat.leb_le. unfold rstrip. rewrite rev_length.
  pose proof (lstrip_length is_space (rev l)) as X. rewrite rev_length in X. lia.
Qed.
Lemma short_omp {A} share omp (text : A -> str) ls : one_line (s_ "!$OMP& SHARED(" ++ share ++ s_ ")  ") -> List.length share <= 100 ->
  (forall a, In a ls -> short_text (text a)) -> short_text (omp_text omp share text ls).
Proof.
  intros O S H. unfold omp_text. destruct omp as [breaks|]; [|apply short_flat; exact H].
  apply short_app; [|apply short_unlines; repeat (apply Forall_cons; [first [apply one_line_dec; reflexivity | reflexivity]|]); constructor].
  generalize 0. revert H. induction ls as [|a ls IH]; intros H i; [apply short_nil|]. cbn [omp_chunks_text].
  apply short_app.
  { destruct (i =? 0); [|apply short_nil]. apply short_unlines.
    - apply Forall_cons; [apply one_line_dec; reflexivity|]. apply Forall_cons; [exact O|]. apply Forall_cons; [apply one_line_dec; reflexivity | constructor].
    - apply Forall_cons; [reflexivity|]. apply Forall_cons; [|apply Forall_cons; [reflexivity | constructor]]. apply fits_short.
      rewrite !app_length. change (List.length (s_ "!$OMP& SHARED(")) with 14. change (List.length (s_ ")  ")) with 3. lia. }
  apply short_app.
  { destruct (inb i breaks); [|apply short_nil]. apply short_unlines; repeat (apply Forall_cons; [first [apply one_line_dec; reflexivity | reflexivity]|]); constructor. }
  apply short_app; [apply H; left; reflexivity|]. apply IH. intros b I. apply H. right. exact I.
Qed.

(* The columns of an expression. *)
Section Columns.
Variable num : Q -> str.
Definition tok_width (t : tok) : nat := List.length (tok_text num false t).
Fixpoint keeps (a : nat) (l : list tok) : Prop :=
  match l with
  | [] => True
  | TCont :: l' => a + 3 <= 132 /\ keeps 4 l'
  | t :: l' => keeps (a + tok_width t) l'
  end.
Fixpoint ends (a : nat) (l : list tok) : nat :=
  match l with
  | [] => a
  | TCont :: l' => ends 4 l'
  | t :: l' => ends (a + tok_width t) l'
  end.
Lemma keeps_app a l1 l2 : keeps a (l1 ++ l2) <-> keeps a l1 /\ keeps (ends a l1) l2.
Proof. revert a. induction l1 as [|t l1 IH]; intros a; [cbn; tauto|]. destruct t; cbn [app keeps ends]; rewrite IH; tauto. Qed.
Lemma ends_app a l1 l2 : ends a (l1 ++ l2) = ends (ends a l1) l2.
Proof. revert a. induction l1 as [|t l1 IH]; intros a; [reflexivity|]. destruct t; cbn [app ends]; apply IH. Qed.
Definition width (l : list tok) : nat := fold_right (fun t n => tok_width t + n) 0 l.
Lemma width_app l1 l2 : width (l1 ++ l2) = width l1 + width l2.
Proof. unfold width. induction l1 as [|t l1 IH]; [reflexivity|]. cbn [app fold_right]. lia. Qed.
Lemma unbroken_keeps l : no_break l -> forall a, keeps a l /\ ends a l = a + width l.
Proof.
  unfold no_break, width. induction l as [|t l IH]; intros N a; [cbn; split; [exact I | lia]|].
  assert (N' : ~ In TCont l) by (intros I; apply N; right; exact I). cbn [fold_right].
  destruct (IH N' (a + tok_width t)) as [K E]. destruct t; cbn [keeps ends]; try (split; [exact K | lia]). exfalso. apply N. left. reflexivity.
Qed.

Lemma short_expr sep : calm_text sep -> forall l acc, calm_text acc -> (forall q, In q (toks_numerals l) -> float_text (num q) q) ->
  keeps (List.length acc) l -> ends (List.length acc) l + List.length sep <= 132 -> short_text (acc ++ expr_text num false l ++ sep ++ [NL]).
Proof.
  intros Cs. induction l as [|t l IH]; intros acc Ca P K E.
  - cbn [expr_text flat_map app]. cbn [ends] in E. exists [acc ++ sep]. split.
    + rewrite app_assoc. apply lines_one, calm_one_line, calm_app; assumption.
    + apply Forall_cons; [|constructor]. apply fits_short. rewrite app_length. exact E.
  - assert (Pl : forall q, In q (toks_numerals l) -> float_text (num q) q).
    { intros q I. apply P. cbn [toks_numerals flat_map]. apply in_or_app. right. exact I. }
    assert (D : t = TCont \/ t <> TCont) by (destruct t; (right; discriminate) || (left; reflexivity)).
    destruct D as [-> | Nt].
    + cbn [keeps ends] in K, E. destruct K as [K1 K2].
      assert (Eq : acc ++ expr_text num false (TCont :: l) ++ sep ++ [NL] = ((acc ++ s_ " & ") ++ [NL]) ++ (s_ "    " ++ expr_text num false l ++ sep ++ [NL])).
      { cbn [expr_text flat_map tok_text]. rewrite <- !app_assoc. reflexivity. }
      rewrite Eq. apply short_app; [|apply IH; [repeat constructor | exact Pl | exact K2 | exact E]].
      exists [acc ++ s_ " & "]. split.
      * apply lines_one. intros I. apply in_app_or in I. destruct I as [I|I]; [exact (calm_one_line _ Ca I)|]. cbn in I. intuition discriminate.
      * apply Forall_cons; [|constructor]. apply fits_short. rewrite app_length. change (List.length (s_ " & ")) with 3. exact K1.
    + assert (Eq : acc ++ expr_text num false (t :: l) ++ sep ++ [NL] = (acc ++ tok_text num false t) ++ expr_text num false l ++ sep ++ [NL]).
      { cbn [expr_text flat_map]. rewrite <- !app_assoc. reflexivity. }
      rewrite Eq.
      assert (L : List.length (acc ++ tok_text num false t) = List.length acc + tok_width t) by apply app_length.
      apply IH; [|exact Pl| |].
      * apply calm_app; [exact Ca|]. apply tok_calm; [exact Nt|]. intros q ->. apply P. left. reflexivity.
      * rewrite L. destruct t; try exact K. congruence.
      * rewrite L. destruct t; try exact E. congruence.
Qed.

Lemma width_one q w : List.length (num q) <= w -> tok_width (TNum q) <= w.
Proof. exact (fun H => H). Qed.
Lemma width_ref a i D : List.length (dec i) <= D -> tok_width (TRef a i) <= D + 3.
Proof.
  intros H. unfold tok_width. destruct a; cbn [tok_text]; unfold bracketed; rewrite !app_length;
  change (List.length (s_ "y")) with 1; change (List.length (s_ "r")) with 1; change (List.length (s_ "(")) with 1; change (List.length (s_ ")")) with 1; lia.
Qed.
End Columns.

(* One statement. *)
Lemma assign_prefix {C} num (ct : C -> str) out c l : assign_text num ct false out c l = (s_ "    " ++ out ++ bracketed false (ct c) ++ s_ "=") ++ expr_text num false l.
Proof. unfold assign_text. rewrite <- !app_assoc. reflexivity. Qed.
Lemma short_assign {C} num (ct : C -> str) out sep c l : (forall c, calm_text (ct c)) -> calm_text out -> calm_text sep ->
  (forall q, In q (toks_numerals l) -> float_text (num q) q) ->
  keeps num (7 + List.length out + List.length (ct c)) l -> ends num (7 + List.length out + List.length (ct c)) l + List.length sep <= 132 ->
  short_text (assign_text num ct false out c l ++ sep ++ [NL]).
Proof.
  intros Cc Co Cs P K E. rewrite assign_prefix, <- app_assoc.
  assert (L : List.length (s_ "    " ++ out ++ bracketed false (ct c) ++ s_ "=") = 7 + List.length out + List.length (ct c)).
  { unfold bracketed. rewrite !app_length. change (List.length (s_ "    ")) with 4. change (List.length (s_ "(")) with 1. change (List.length (s_ ")")) with 1. change (List.length (s_ "=")) with 1. lia. }
  apply short_expr; [exact Cs | | exact P | rewrite L; exact K | rewrite L; exact E].
  apply calm_app; [repeat constructor|]. apply calm_app; [exact Co|]. apply calm_app; [apply bracketed_calm, Cc | repeat constructor].
Qed.
