(* Which words survive the rewriting of rate texts. *)
From Coq Require Import List Bool Arith Lia Ascii String ZArith.
From Verif Require Import Base PyStr ModelRate RateText RateBrackets SpecRate RateExpr.
Import ListNotations.
Import Coq.Lists.List.
Open Scope nat_scope.
Open Scope list_scope.

(* replace: a word that cannot overlap old stays. *)
Lemma occurs_replace old new w t : old <> [] ->
  (forall b, replace old new (w ++ b) = w ++ replace old new b) ->
  (forall a b r, a ++ w ++ b = old ++ r -> a <> [] -> List.length old <= List.length a) ->
  occurs w t -> occurs w (replace old new t).
Proof.
  intros Ho H1 H2 (a & b & ->). remember (List.length a) as n eqn:En. assert (Hn : List.length a <= n) by lia. clear En.
  revert a Hn. induction n as [|n IH]; intros [|x a] Hn; cbn [List.length] in Hn; try lia.
  - cbn [app]. rewrite H1. exists [], (replace old new b). reflexivity.
  - cbn [app]. rewrite H1. exists [], (replace old new b). reflexivity.
  - destruct (prefix_rest old ((x :: a) ++ w ++ b)) as [r|] eqn:E.
    + apply (proj1 (prefix_rest_Some _ _ _)) in E. rewrite E, replace_hit by exact Ho.
      assert (L : List.length old <= List.length (x :: a)) by (apply (H2 _ b r E); discriminate).
      assert (R : r = skipn (List.length old) (x :: a) ++ w ++ b).
      { apply (f_equal (skipn (List.length old))) in E. rewrite !skipn_app, skipn_all, Nat.sub_diag in E. cbn [app skipn] in E.
        replace (List.length old - List.length (x :: a)) with 0 in E by lia. cbn [skipn] in E. symmetry. exact E. }
      rewrite R. destruct (IH (skipn (List.length old) (x :: a))) as (a' & b' & ->).
      { rewrite skipn_length. cbn [List.length] in *. destruct old; [congruence|]. cbn [List.length]. lia. }
      exists (new ++ a'), b'. rewrite app_assoc. reflexivity.
    + cbn [app] in *. rewrite prefix_rest_None in E. rewrite replace_miss by exact E.
      destruct (IH a ltac:(lia)) as (a' & b' & ->). exists (x :: a'), b'. reflexivity.
Qed.

(* replace removes the word, when the new text shares no character with it. *)
Lemma replace_prefix old new p : new <> [] -> (forall c, In c new -> ~ In c p) -> old <> [] ->
  forall t r, replace old new t = p ++ r -> exists r', t = p ++ r'.
Proof.
  intros Hn Hd Ho. induction p as [|c p IH]; intros t r E; [exists t; reflexivity|].
  destruct t as [|x t]; [discriminate|].
  destruct (prefix_rest old (x :: t)) as [r'|] eqn:Ep.
  - apply (proj1 (prefix_rest_Some _ _ _)) in Ep. rewrite Ep, replace_hit in E by exact Ho.
    destruct new as [|d new]; [congruence|]. injection E as E _. subst d. exfalso. apply (Hd c); left; reflexivity.
  - rewrite prefix_rest_None in Ep. rewrite replace_miss in E by exact Ep. injection E as -> E.
    destruct (IH ltac:(intros d H1 H2; apply (Hd d H1); right; exact H2) t r E) as (r' & ->). exists r'. reflexivity.
Qed.
Lemma occurs_skip w a t : (forall c, In c a -> ~ In c w) -> w <> [] -> occurs w (a ++ t) -> occurs w t.
Proof.
  intros H Hw. induction a as [|x a IH]; [auto|]. cbn [app]. rewrite occurs_cons. intros [(b & E)|G].
  - destruct w as [|c w]; [congruence|]. injection E as -> _. exfalso. apply (H c); left; reflexivity.
  - apply IH; [intros d Hd; apply H; right; exact Hd | exact G].
Qed.
Lemma replace_removes old new t : new <> [] -> (forall c, In c new -> ~ In c old) -> old <> [] ->
  ~ occurs old (replace old new t).
Proof.
  intros Hn Hd Ho. remember (List.length t) as n eqn:En. assert (L : List.length t <= n) by lia. clear En.
  revert t L. induction n as [|n IH]; intros [|x t] L H; cbn [List.length] in L; try lia.
  - destruct H as (a & b & E). symmetry in E. apply app_eq_nil in E as [_ E]. apply app_eq_nil in E as [E _]. congruence.
  - destruct H as (a & b & E). symmetry in E. apply app_eq_nil in E as [_ E]. apply app_eq_nil in E as [E _]. congruence.
  - destruct (prefix_rest old (x :: t)) as [r|] eqn:Ep.
    + apply (proj1 (prefix_rest_Some _ _ _)) in Ep. rewrite Ep, replace_hit in H by exact Ho.
      apply occurs_skip in H; [|exact Hd | exact Ho]. apply (IH r); [|exact H].
      apply (f_equal (@List.length ascii)) in Ep. rewrite app_length in Ep. destruct old; [congruence|]. cbn [List.length] in Ep. lia.
    + rewrite prefix_rest_None in Ep. rewrite replace_miss in H by exact Ep. apply occurs_cons in H.
      destruct H as [(b & E)|H]; [|apply (IH t ltac:(lia) H)].
      rewrite <- replace_miss in E by exact Ep. destruct (replace_prefix old new old Hn Hd Ho (x :: t) b E) as (r' & G).
      apply (Ep r' G).
Qed.

(* ------------------------------------------------------------------ *)
(* exponents *)
Lemma pass_cut cs ins a c r : inb c cs = false -> pass cs ins (a ++ c :: r) = pass cs ins a ++ pass cs ins (c :: r).
Proof.
  intros Hc. induction a as [|x a IH]; [reflexivity|]. cbn [app]. change (x :: a ++ c :: r) with (x :: (a ++ c :: r)).
  cbn [pass]. cbn [pass] in IH. rewrite IH, app_assoc. f_equal. f_equal. destruct (Ascii.eqb x "D"); [|reflexivity].
  destruct a as [|d a]; [cbn [app]; rewrite Hc; reflexivity | reflexivity].
Qed.
Lemma occurs_pass cs ins w t : (exists c w', w = c :: w' /\ inb c cs = false) -> ~ In "D"%char w ->
  occurs w t -> occurs w (pass cs ins t).
Proof.
  intros (c & w' & Ew & Hc) HD (a & b & ->). subst w. cbn [app].
  change (c :: w' ++ b) with (c :: (w' ++ b)). rewrite pass_cut by exact Hc.
  change (c :: (w' ++ b)) with ((c :: w') ++ b). rewrite (pass_app cs ins (c :: w') b) by (apply no_D_end_In; exact HD).
  rewrite (pass_noD cs ins (c :: w')) by exact HD. exists (pass cs ins a), (pass cs ins b). reflexivity.
Qed.

Lemma plus_of_chars c d : In d (plus_of c) -> d = "+"%char.
Proof. unfold plus_of. destruct (is_digit c); cbn; intuition. Qed.
Lemma pass_prefix p : ~ In "D"%char p -> ~ In "E"%char p ->
  forall cs t r, pass cs plus_of t = p ++ r -> exists r', t = p ++ r'.
Proof.
  intros HD HE cs. induction p as [|c p IH]; intros t r E; [exists t; reflexivity|].
  destruct t as [|x t]; [discriminate|]. cbn [pass] in E. destruct (Ascii.eqb_spec x "D") as [->|Hx].
  - exfalso. destruct t as [|d t]; [injection E as E _; subst; apply HD; left; reflexivity|].
    destruct (inb d cs); injection E as E _; subst; [apply HE | apply HD]; left; reflexivity.
  - injection E as -> E. destruct (IH ltac:(intros G; apply HD; right; exact G) ltac:(intros G; apply HE; right; exact G) t r E) as (r' & ->).
    exists r'. reflexivity.
Qed.
Lemma pass_cons cs ins x t : pass cs ins (x :: t) =
  (if Ascii.eqb x "D" then match t with c :: _ => if inb c cs then "E"%char :: ins c else [x] | [] => [x] end else [x]) ++ pass cs ins t.
Proof. reflexivity. Qed.
(* No new occurrence of a word without D and E, or of a word that starts with E
   and goes on with something that is neither sign nor digit. *)
Lemma pass_occurs w cs t : (forall c, inb c cs = true -> inb c exponent_chars = true) -> ~ In "D"%char w -> ~ In "E"%char (tl w) -> ~ In "+"%char w ->
  (hd_error w = Some "E"%char -> exists c w', w = "E"%char :: c :: w' /\ inb c exponent_chars = false) ->
  w <> [] -> occurs w (pass cs plus_of t) -> occurs w t.
Proof.
  intros Hcs HD HE HP H2 Hw. induction t as [|x t IH]; [auto|]. rewrite pass_cons.
  destruct (Ascii.eqb_spec x "D") as [->|Hx].
  - intros H. apply occurs_cons. right. apply IH. destruct t as [|c t].
    + cbn [pass app] in *. apply (occurs_skip w ["D"%char]) in H; [exact H| |exact Hw].
      intros d [<-|[]]. exact HD.
    + destruct (inb c cs) eqn:Ec.
      * rewrite <- app_comm_cons in H. apply occurs_cons in H. destruct H as [(b & E)|H].
        -- exfalso. destruct (pass_head cs plus_of c t) as (y & r & Ey & Hy). rewrite Ey in E.
           destruct w as [|e w]; [congruence|]. injection E as <- E.
           destruct (H2 eq_refl) as (c' & w' & E' & Hc'). injection E' as ->. cbn [app] in E.
           destruct (plus_of c) as [|d l] eqn:Ep.
           ++ cbn [app] in E. injection E as E _. subst y. destruct Hy as [Hy|[-> _]].
              ** subst c'. rewrite (Hcs _ Ec) in Hc'. discriminate.
              ** apply Hcs in Ec. discriminate.
           ++ injection E as E _. subst c'. apply HP. right. left. apply (plus_of_chars c). rewrite Ep. left. reflexivity.
        -- apply occurs_skip in H; [exact H| |exact Hw]. intros d Hd. apply plus_of_chars in Hd. subst d. exact HP.
      * apply (occurs_skip w ["D"%char]) in H; [exact H| |exact Hw]. intros d [<-|[]]. exact HD.
  - cbn [app]. intros H. apply occurs_cons in H. apply occurs_cons. destruct H as [(b & E)|H]; [left | right; apply IH, H].
    destruct w as [|e w]; [congruence|]. injection E as <- E. cbn [tl] in HE.
    destruct (pass_prefix w ltac:(intros G; apply HD; right; exact G) HE cs t b E) as (r & ->). exists r. reflexivity.
Qed.

(* ------------------------------------------------------------------ *)
(* brackets *)
Definition no_brackets (w : str) : Prop := forall c, In c w -> ~ In c (s_ "()[]").
Lemma jpass_split a s : forall w p, exists w' p', jpass w p (a ++ s) = jpass w p a ++ jpass w' p' s.
Proof.
  induction a as [|c a IH]; intros w p; [exists w, p; reflexivity|]. cbn [app jpass].
  destruct (p && Ascii.eqb c "(").
  - destruct (IH true false) as (w' & p' & ->). exists w', p'. reflexivity.
  - destruct (w && Ascii.eqb c ")").
    + destruct (IH false false) as (w' & p' & ->). exists w', p'. reflexivity.
    + destruct (IH w (Ascii.eqb c "J")) as (w' & p' & ->). exists w', p'. reflexivity.
Qed.
Lemma jpass_word u : no_brackets u -> forall w p, jpass w p u = u.
Proof.
  induction u as [|c u IH]; intros H w p; [reflexivity|]. cbn [jpass].
  assert (Hc : ~ In c (s_ "()[]")) by (apply H; left; reflexivity).
  destruct (Ascii.eqb_spec c "(") as [->|_]; [exfalso; apply Hc; cbn; auto|].
  destruct (Ascii.eqb_spec c ")") as [->|_]; [exfalso; apply Hc; cbn; auto|]. rewrite !andb_false_r.
  rewrite IH by (intros d Hd; apply H; right; exact Hd). reflexivity.
Qed.
(* A word followed by something stays. *)
Lemma occurs_jbrackets u c t : no_brackets u -> occurs (u ++ [c]) t -> occurs u (jbrackets t).
Proof.
  intros Hu (a & b & ->). unfold jbrackets.
  assert (E : exists r, jpass false false (a ++ (u ++ [c]) ++ b) = jpass false false a ++ u ++ r /\ r <> []).
  { rewrite <- app_assoc. destruct (jpass_split a (u ++ [c] ++ b) false false) as (w1 & p1 & ->).
    destruct (jpass_split u ([c] ++ b) w1 p1) as (w2 & p2 & ->). rewrite (jpass_word u Hu).
    eexists; split; [reflexivity|]. intros G. apply (f_equal (@List.length ascii)) in G. rewrite jpass_length in G. discriminate. }
  destruct E as (r & E & Hr). destruct (jopen _ _ _).
  - assert (L : List.length (a ++ (u ++ [c]) ++ b) = List.length (jpass false false a ++ u ++ r)) by (rewrite <- E, jpass_length; reflexivity).
    rewrite L, E. destruct (exists_last Hr) as (r' & d & ->).
    exists (jpass false false a), (r' ++ ["]"%char]).
    rewrite !app_assoc. rewrite app_length. cbn [List.length]. rewrite Nat.add_sub.
    generalize ((jpass false false a ++ u) ++ r'). clear. intros l. induction l as [|x l IH]; [reflexivity|].
    cbn [List.length app set_nth]. rewrite IH. reflexivity.
  - exists (jpass false false a), r. exact E.
Qed.
(* No new word. *)
Lemma jbrackets_occurs u t : u <> [] -> no_brackets u -> occurs u (jbrackets t) -> occurs u t.
Proof.
  intros Hn Hu. rewrite <- photolysis_is_jbrackets. intros (a & b & E).
  exists (firstn (List.length a) t), (skipn (List.length (a ++ u)) t).
  pose proof (photolysis_length t) as L. rewrite E in L. rewrite !app_length in L.
  rewrite app_length, (Nat.add_comm (List.length a)), <- skipn_skipn.
  rewrite <- (firstn_skipn (List.length a) t) at 1. f_equal.
  rewrite <- (firstn_skipn (List.length u) (skipn (List.length a) t)) at 1. f_equal.
  apply nth_error_ext.
  - rewrite firstn_length, skipn_length. lia.
  - intros i x c Hx Ec.
    assert (Hi' : i < List.length u) by (apply nth_error_Some; congruence).
    assert (P : nth_error (photolysis_brackets t) (List.length a + i) = Some c).
    { rewrite E, nth_error_app2 by lia. replace (List.length a + i - List.length a) with i by lia. rewrite nth_error_app1 by exact Hi'. exact Ec. }
    assert (T : nth_error (firstn (List.length u) (skipn (List.length a) t)) i = nth_error t (List.length a + i)).
    { rewrite <- (firstn_skipn (List.length a) t) at 2. rewrite nth_error_app2; rewrite firstn_length; [|lia].
      replace (List.length a + i - Nat.min (List.length a) (List.length t)) with i by lia.
      rewrite <- (firstn_skipn (List.length u) (skipn (List.length a) t)) at 2. rewrite nth_error_app1; [reflexivity|].
      rewrite firstn_length, skipn_length. lia. }
    rewrite T in Hx. clear T. assert (Hc : ~ In c (s_ "()[]")) by (apply Hu, (nth_error_In _ _ Ec)).
    assert (D : ~ open_before t (List.length t) \/ open_before t (List.length t)).
    { destruct (jpass_nth t _ 0 false eq_refl) as [_ H2].
      { split; [discriminate | intros G; destruct (open_before_0 t G)]. }
      cbn [prevJ skipn Nat.max] in H2. destruct (jopen false false t); [right; apply H2; reflexivity | left; intros G; apply H2 in G; discriminate]. }
    assert (J : jchar t (List.length a + i) c -> nth_error t (List.length a + i) = Some c).
    { intros (d & Hd & [(E1 & E2 & E3)|[(E1 & E2 & E3)|(_ & _ & E3)]]); subst.
      - exfalso; apply Hc; cbn; auto.
      - exfalso; apply Hc; cbn; auto.
      - congruence. }
    assert (Q : nth_error t (List.length a + i) = Some c); [|congruence].
    destruct D as [D|D].
    + apply J, photolysis_jchar; auto.
    + destruct (Nat.eq_dec (List.length a + i) (List.length t - 1)) as [Hl|Hl].
      * rewrite Hl, (photolysis_last t D) in P. injection P as <-. exfalso; apply Hc; cbn; auto.
      * apply J, photolysis_jchar; auto.
Qed.
