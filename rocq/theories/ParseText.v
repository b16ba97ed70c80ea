(* From texts to terms: regular expressions, splitting and stripping. *)
From Coq Require Import List Bool Arith Lia Ascii String ZArith QArith.
From Verif Require Import Base PyStr PyRe PyDict ModelParse SpecMech.
Import ListNotations.
Open Scope nat_scope.
Open Scope list_scope.

(* ------------------------------------------------------------------ *)
(* read_data deletes exactly the line-break characters. *)

Lemma universal_newlines_filter s :
  remove_char NL (universal_newlines s) = no_breaks s.
Proof.
  assert (H : forall n s, List.length s <= n ->
            remove_char NL (universal_newlines s) = no_breaks s).
  { clear s; induction n as [|n IH]; intros [|c s] Hl; cbn [List.length] in Hl;
      try reflexivity; [lia|].
    cbn [universal_newlines]. unfold no_breaks; cbn [filter].
    destruct (Ascii.eqb c CR) eqn:Ec.
    - rewrite orb_true_r; cbn [negb]. destruct s as [|d s]; [reflexivity|].
      cbn [List.length] in Hl.
      destruct (Ascii.eqb d NL) eqn:Ed.
      + unfold remove_char; cbn [filter].
        rewrite (Ascii.eqb_refl NL); cbn [negb].
        rewrite Ed; cbn [orb negb]. apply IH; lia.
      + unfold remove_char; cbn [filter]. rewrite (Ascii.eqb_refl NL); cbn [negb].
        apply (IH (d :: s)); cbn [List.length]; lia.
    - rewrite orb_false_r. unfold remove_char; cbn [filter].
      destruct (Ascii.eqb c NL) eqn:En; cbn [negb].
      + apply IH; lia.
      + f_equal; apply IH; lia. }
  apply (H (List.length s)); lia.
Qed.

Lemma read_data_spec s : read_data s = no_breaks s.
Proof. apply universal_newlines_filter. Qed.

Lemma no_breaks_NL s : ~ In NL (no_breaks s).
Proof.
  unfold no_breaks; rewrite filter_In; intros [_ H].
  rewrite Ascii.eqb_refl in H; discriminate.
Qed.

Lemma no_breaks_app a b : no_breaks (a ++ b) = no_breaks a ++ no_breaks b.
Proof. apply filter_app. Qed.

(* ------------------------------------------------------------------ *)
(* findall on c(.*?)d patterns. *)

Fixpoint index_of (b : ascii) (s : str) : option nat :=
  match s with
  | [] => None
  | c :: s' => if Ascii.eqb b c then Some 0 else option_map S (index_of b s')
  end.

Lemma index_of_None b s : index_of b s = None <-> ~ In b s.
Proof.
  induction s as [|c s IH]; simpl; [split; auto|].
  destruct (Ascii.eqb b c) eqn:E.
  - apply Ascii.eqb_eq in E; subst; split; [discriminate | intros H; exfalso; auto].
  - apply Ascii.eqb_neq in E. destruct (index_of b s); simpl; split; intros H.
    + discriminate.
    + assert (Hn : ~ In b s) by auto. apply IH in Hn; discriminate.
    + intros [Hc|Hc]; [congruence|]. apply IH; auto.
    + reflexivity.
Qed.

Lemma index_of_app b pre post : ~ In b pre -> index_of b (pre ++ b :: post) = Some (List.length pre).
Proof.
  induction pre as [|c pre IH]; simpl; intros H.
  - rewrite Ascii.eqb_refl; reflexivity.
  - destruct (Ascii.eqb b c) eqn:E.
    + apply Ascii.eqb_eq in E; subst; exfalso; auto.
    + rewrite IH by auto; reflexivity.
Qed.

Lemma star_lazy_seq s : ~ In NL s -> star_lazy not_nl s = seq 0 (S (List.length s)).
Proof.
  induction s as [|c s IH]; intros H; [reflexivity|].
  assert (Hc : not_nl c = true).
  { unfold not_nl. apply negb_true_iff, Ascii.eqb_neq. intros ->; apply H; left; reflexivity. }
  simpl. rewrite Hc, IH by (intros Hi; apply H; right; exact Hi).
  rewrite seq_shift. reflexivity.
Qed.

Lemma lazy_then_lit b s :
  ~ In NL s ->
  hd_error (flat_map (fun n => map (Nat.add n) (rmatch (lit b) (skipn n s)))
            (star_lazy not_nl s)) = option_map S (index_of b s).
Proof.
  intros H; rewrite star_lazy_seq by exact H. clear H.
  assert (G : forall k, hd_error (flat_map
            (fun n => map (Nat.add (k + n)) (rmatch (lit b) (skipn n s)))
            (seq 0 (S (List.length s)))) = option_map (fun i => S (k + i)) (index_of b s)).
  { induction s as [|c s IH]; intros k.
    - reflexivity.
    - change (seq 0 (S (List.length (c :: s)))) with (0 :: seq 1 (S (List.length s))).
      cbn [flat_map]. change (skipn 0 (c :: s)) with (c :: s).
      unfold lit at 1; cbn [rmatch]. cbn [index_of].
      destruct (Ascii.eqb b c) eqn:E.
      + cbn [map app hd_error option_map]. f_equal; lia.
      + cbn [map app]. rewrite <- seq_shift, flat_map_concat_map, map_map, <- flat_map_concat_map.
        rewrite (flat_map_ext _ (fun n => map (Nat.add (S k + n)) (rmatch (lit b) (skipn n s)))).
        * specialize (IH (S k)). rewrite IH. destruct (index_of b s); simpl; f_equal; lia.
        * intros n. replace (k + S n) with (S k + n) by lia. reflexivity. }
  specialize (G 0). cbn [Nat.add] in G. rewrite G. destruct (index_of b s); reflexivity.
Qed.

Definition re_between (a b : ascii) : re := RSeq (lit a) (RSeq (RLazy not_nl) (lit b)).

Lemma rmatch_between a b c s :
  ~ In NL s ->
  hd_error (rmatch (re_between a b) (c :: s)) =
  if Ascii.eqb a c then option_map (fun i => S (S i)) (index_of b s) else None.
Proof.
  intros H. unfold re_between.
  change (rmatch (RSeq (lit a) (RSeq (RLazy not_nl) (lit b))) (c :: s)) with
    (flat_map (fun n => map (Nat.add n) (rmatch (RSeq (RLazy not_nl) (lit b)) (skipn n (c :: s))))
     (if Ascii.eqb a c then [1] else [])).
  destruct (Ascii.eqb a c); [|reflexivity].
  cbn [flat_map skipn]. rewrite app_nil_r.
  change (rmatch (RSeq (RLazy not_nl) (lit b)) s) with
    (flat_map (fun n => map (Nat.add n) (rmatch (lit b) (skipn n s))) (star_lazy not_nl s)).
  pose proof (lazy_then_lit b s H) as L.
  destruct (flat_map _ _) as [|n l]; cbn [map hd_error] in *.
  - destruct (index_of b s); [discriminate | reflexivity].
  - destruct (index_of b s); [|discriminate]. injection L as ->. reflexivity.
Qed.

Lemma findall_skip r out k s :
  k <= List.length s -> findall_aux r out k s = findall_aux r out 0 (skipn k s).
Proof.
  revert k; induction s as [|c s IH]; intros [|k] Hk; cbn [List.length] in Hk; try reflexivity.
  cbn [skipn]. cbn [findall_aux]. apply IH; lia.
Qed.

Lemma findall_pre a b pre s :
  ~ In NL (pre ++ s) -> ~ In a pre ->
  findall_aux (re_between a b) inner 0 (pre ++ s) = findall_aux (re_between a b) inner 0 s.
Proof.
  induction pre as [|c pre IH]; intros Hn Ha; [reflexivity|].
  assert (Hm : rmatch (re_between a b) (c :: pre ++ s) = []).
  { assert (H := rmatch_between a b c (pre ++ s)).
    rewrite (proj2 (Ascii.eqb_neq a c)) in H.
    - destruct (rmatch _ _); [reflexivity|]. discriminate H.
      intros Hi; apply Hn; right; exact Hi.
    - intros ->; apply Ha; left; reflexivity. }
  cbn [app findall_aux]. rewrite Hm. apply IH.
  - intros Hi; apply Hn; right; exact Hi.
  - intros Hi; apply Ha; right; exact Hi.
Qed.

Lemma findall_noclose a b s :
  ~ In NL s -> ~ In b s -> findall_aux (re_between a b) inner 0 s = [].
Proof.
  induction s as [|c s IH]; intros Hn Hb; [reflexivity|].
  cbn [findall_aux].
  assert (Hm : rmatch (re_between a b) (c :: s) = []).
  { assert (H := rmatch_between a b c s).
    rewrite (proj2 (index_of_None b s)) in H.
    - destruct (Ascii.eqb a c); (destruct (rmatch _ _); [reflexivity|]); discriminate H;
        intros Hi; apply Hn; right; exact Hi.
    - intros Hi; apply Hb; right; exact Hi. }
  rewrite Hm; apply IH; intros Hi; [apply Hn | apply Hb]; right; exact Hi.
Qed.

Lemma findall_hit a b mid post :
  ~ In NL (mid ++ b :: post) -> ~ In b mid ->
  findall_aux (re_between a b) inner 0 (a :: mid ++ b :: post) =
  mid :: findall_aux (re_between a b) inner 0 post.
Proof.
  intros Hn Hb. cbn [findall_aux].
  assert (H := rmatch_between a b a (mid ++ b :: post) Hn).
  rewrite Ascii.eqb_refl, index_of_app in H by exact Hb.
  destruct (rmatch _ _) as [|n l]; [discriminate H|]. injection H as ->.
  f_equal.
  - unfold inner. cbn [skipn].
    replace (S (S (List.length mid)) - 2) with (List.length mid) by lia.
    rewrite firstn_app, firstn_all, Nat.sub_diag. cbn [firstn]. apply app_nil_r.
  - replace (S (S (List.length mid)) - 1) with (List.length (mid ++ [b]))
      by (rewrite app_length; cbn [List.length]; lia).
    rewrite findall_skip by (rewrite !app_length; cbn [List.length]; lia).
    replace (mid ++ b :: post) with ((mid ++ [b]) ++ post) by (rewrite <- app_assoc; reflexivity).
    rewrite skipn_app, skipn_all, Nat.sub_diag. reflexivity.
Qed.

Lemma sections_findall a b s l :
  sections a b s l -> ~ In NL s -> findall (re_between a b) inner s = l.
Proof.
  unfold findall; induction 1 as [s Ha | pre s Ha Hb | pre mid post l Ha Hb Hs IH]; intros Hn.
  - rewrite <- (app_nil_r s) in Hn |- *. rewrite findall_pre by assumption. reflexivity.
  - rewrite findall_pre by assumption.
    cbn [findall_aux]. rewrite in_app_iff in Hn.
    assert (Hns : ~ In NL s) by (intros Hi; apply Hn; right; right; exact Hi).
    assert (H := rmatch_between a b a s Hns).
    rewrite Ascii.eqb_refl, (proj2 (index_of_None b s) Hb) in H.
    destruct (rmatch _ _); [|discriminate H]. apply findall_noclose; assumption.
  - rewrite findall_pre by assumption.
    assert (Hn2 : ~ In NL (a :: mid ++ b :: post)).
    { intros Hi; apply Hn; rewrite in_app_iff; right; exact Hi. }
    assert (Hn3 : ~ In NL (mid ++ b :: post)) by (intros Hi; apply Hn2; right; exact Hi).
    rewrite findall_hit by assumption. f_equal. apply IH.
    intros Hi; apply Hn3. rewrite in_app_iff; right; right; exact Hi.
Qed.

Lemma split_first (a : ascii) s : In a s -> exists pre post, s = pre ++ a :: post /\ ~ In a pre.
Proof.
  induction s as [|c s IH]; [contradiction|].
  intros Hin. destruct (Ascii.eqb a c) eqn:E.
  - apply Ascii.eqb_eq in E; subst. exists [], s; split; [reflexivity | auto].
  - apply Ascii.eqb_neq in E. destruct Hin as [->|Hin]; [congruence|].
    destruct (IH Hin) as (pre & post & -> & Hp). exists (c :: pre), post.
    split; [reflexivity|]. intros [|]; [congruence | auto].
Qed.

Lemma sections_exist a b s : exists l, sections a b s l.
Proof.
  assert (H : forall n s, List.length s <= n -> exists l, sections a b s l).
  { clear s; induction n as [|n IH]; intros s Hl.
    - destruct s; [|cbn in Hl; lia]. exists []; constructor; auto.
    - destruct (in_dec Ascii.ascii_dec a s) as [Hin|Hni].
      + destruct (split_first a s Hin) as (pre & post & -> & Hp).
        destruct (in_dec Ascii.ascii_dec b post) as [Hb|Hb].
        * destruct (split_first b post Hb) as (mid & post' & -> & Hm).
          destruct (IH post') as (l & Hs).
          { rewrite app_length in Hl. cbn [List.length] in Hl. rewrite app_length in Hl.
            cbn [List.length] in Hl. lia. }
          exists (mid :: l). constructor; assumption.
        * exists []; constructor; assumption.
      + exists []; constructor; assumption. }
  apply (H (List.length s)); lia.
Qed.

Lemma findall_sections a b s :
  ~ In NL s -> sections a b s (findall (re_between a b) inner s).
Proof.
  intros Hn. destruct (sections_exist a b s) as (l & Hl).
  rewrite (sections_findall a b s l Hl Hn). exact Hl.
Qed.

Lemma sections_det a b s l1 l2 :
  sections a b (no_breaks s) l1 -> sections a b (no_breaks s) l2 -> l1 = l2.
Proof.
  intros H1 H2. apply sections_findall in H1; [|apply no_breaks_NL].
  apply sections_findall in H2; [|apply no_breaks_NL]. congruence.
Qed.

(* ------------------------------------------------------------------ *)
(* Splitting. *)

Lemma split1_none c s : ~ In c s -> split1 c s = [s].
Proof.
  induction s as [|x s IH]; intros H; [reflexivity|]. cbn [split1].
  destruct (Ascii.eqb x c) eqn:E.
  - apply Ascii.eqb_eq in E; subst; exfalso; apply H; left; reflexivity.
  - rewrite IH by (intros Hi; apply H; right; exact Hi). reflexivity.
Qed.

Lemma split1_some c a b : ~ In c a -> split1 c (a ++ c :: b) = [a; b].
Proof.
  induction a as [|x a IH]; intros H; cbn [app split1].
  - rewrite Ascii.eqb_refl; reflexivity.
  - destruct (Ascii.eqb x c) eqn:E.
    + apply Ascii.eqb_eq in E; subst; exfalso; apply H; left; reflexivity.
    + rewrite IH by (intros Hi; apply H; right; exact Hi). reflexivity.
Qed.

Lemma split_char_none c s : ~ In c s -> split_char c s = [s].
Proof.
  induction s as [|x s IH]; intros H; [reflexivity|]. cbn [split_char].
  destruct (Ascii.eqb x c) eqn:E.
  - apply Ascii.eqb_eq in E; subst; exfalso; apply H; left; reflexivity.
  - rewrite IH by (intros Hi; apply H; right; exact Hi). reflexivity.
Qed.

Lemma split_char_some c a b : ~ In c a -> split_char c (a ++ c :: b) = a :: split_char c b.
Proof.
  induction a as [|x a IH]; intros H; cbn [app split_char].
  - rewrite Ascii.eqb_refl; reflexivity.
  - destruct (Ascii.eqb x c) eqn:E.
    + apply Ascii.eqb_eq in E; subst; exfalso; apply H; left; reflexivity.
    + rewrite IH by (intros Hi; apply H; right; exact Hi). reflexivity.
Qed.

Lemma split_char_nonempty c s : split_char c s <> [].
Proof.
  induction s as [|x s IH]; [discriminate|]. cbn [split_char].
  destruct (Ascii.eqb x c); [discriminate|]. destruct (split_char c s); discriminate.
Qed.

(* Whitespace splitting. *)
Lemma split_ws_aux_word cur w s :
  Forall (fun c => is_space c = false) w ->
  split_ws_aux cur (w ++ s) = split_ws_aux (rev w ++ cur) s.
Proof.
  revert cur; induction w as [|c w IH]; intros cur H; [reflexivity|].
  inversion H; subst. cbn [app split_ws_aux rev]. rewrite H2.
  rewrite IH by assumption. rewrite <- app_assoc; reflexivity.
Qed.

Lemma split_ws_blank b s : blank b -> split_ws (b ++ s) = split_ws s.
Proof.
  unfold split_ws; induction b as [|c b IH]; intros H; [reflexivity|].
  inversion H; subst. cbn [app split_ws_aux]. rewrite H2. apply IH; assumption.
Qed.

Lemma split_ws_aux_blank cur b :
  blank b -> cur <> [] -> split_ws_aux cur b = [rev cur].
Proof.
  revert cur; induction b as [|c b IH]; intros cur H Hc; cbn [split_ws_aux].
  - destruct cur; [congruence | reflexivity].
  - inversion H; subst. rewrite H2. destruct cur; [congruence|].
    f_equal. clear IH H Hc H2. induction b as [|d b IH]; [reflexivity|].
    inversion H3; subst. cbn [split_ws_aux]. rewrite H1. apply IH; assumption.
Qed.

Lemma split_ws_all_blank b : blank b -> split_ws b = [].
Proof.
  intros H. rewrite <- (app_nil_r b), split_ws_blank by exact H. reflexivity.
Qed.

Lemma split_ws_one b1 w b2 :
  blank b1 -> blank b2 -> w <> [] -> Forall (fun c => is_space c = false) w ->
  split_ws (b1 ++ w ++ b2) = [w].
Proof.
  intros H1 H2 Hne Hw. rewrite split_ws_blank by exact H1. unfold split_ws.
  rewrite split_ws_aux_word by exact Hw. rewrite app_nil_r.
  rewrite split_ws_aux_blank; [rewrite rev_involutive; reflexivity | exact H2 |].
  intros Hr. apply Hne. rewrite <- (rev_involutive w), Hr. reflexivity.
Qed.

Lemma concat_split_ws_aux cur s :
  Forall (fun c => is_space c = false) cur ->
  List.concat (split_ws_aux cur s) = rev cur ++ filter (fun c => negb (is_space c)) s.
Proof.
  revert cur; induction s as [|c s IH]; intros cur H; cbn [split_ws_aux filter].
  - destruct cur; [reflexivity|]. cbn [List.concat]. reflexivity.
  - destruct (is_space c) eqn:E; cbn [negb].
    + destruct cur as [|d cur].
      * rewrite IH by constructor. reflexivity.
      * cbn [List.concat]. rewrite IH by constructor. reflexivity.
    + rewrite IH by (constructor; assumption). cbn [rev]. rewrite <- app_assoc. reflexivity.
Qed.

Lemma concat_split_ws s :
  List.concat (split_ws s) = filter (fun c => negb (is_space c)) s.
Proof. unfold split_ws; rewrite concat_split_ws_aux by constructor; reflexivity. Qed.

(* Stripping. *)
Lemma lstrip_split p s : exists b, s = b ++ lstrip p s /\ Forall (fun c => p c = true) b.
Proof.
  induction s as [|c s (b & Hb & Hf)]; cbn [lstrip].
  - exists []; split; [reflexivity | constructor].
  - destruct (p c) eqn:E.
    + exists (c :: b). split; [cbn [app]; congruence | constructor; assumption].
    + exists []; split; [reflexivity | constructor].
Qed.

Lemma strip_split p s : exists b1 b2, s = b1 ++ strip p s ++ b2 /\
  Forall (fun c => p c = true) b1 /\ Forall (fun c => p c = true) b2.
Proof.
  unfold strip. destruct (lstrip_split p s) as (b1 & H1 & F1).
  destruct (lstrip_split p (rev (lstrip p s))) as (b2 & H2 & F2).
  exists b1, (rev b2). split; [|split].
  - rewrite <- rev_app_distr, <- H2, rev_involutive. exact H1.
  - exact F1.
  - apply Forall_rev, F2.
Qed.

Lemma filter_space_strip p s :
  (forall c, p c = true -> is_space c = true) ->
  filter (fun c => negb (is_space c)) (strip p s) = filter (fun c => negb (is_space c)) s.
Proof.
  intros Hp. destruct (strip_split p s) as (b1 & b2 & Hs & F1 & F2).
  assert (Hb : forall b, Forall (fun c => p c = true) b ->
            filter (fun c => negb (is_space c)) b = []).
  { induction 1 as [|c b Hc Hb IHb]; [reflexivity|]. cbn [filter]. rewrite Hp by exact Hc. exact IHb. }
  rewrite Hs at 2. rewrite !filter_app, (Hb _ F1), (Hb _ F2), app_nil_r. reflexivity.
Qed.

Lemma split_ws_aux_app_blank cur s b : blank b -> split_ws_aux cur (s ++ b) = split_ws_aux cur s.
Proof.
  intros Hb. revert cur; induction s as [|c s IH]; intros cur; cbn [app split_ws_aux].
  - destruct cur as [|d cur].
    + apply split_ws_all_blank; exact Hb.
    + apply split_ws_aux_blank; [exact Hb | discriminate].
  - destruct (is_space c); [destruct cur|]; rewrite ?IH; reflexivity.
Qed.

Lemma split_ws_strip p s :
  (forall c, p c = true -> is_space c = true) -> split_ws (strip p s) = split_ws s.
Proof.
  intros Hp. destruct (strip_split p s) as (b1 & b2 & Hs & F1 & F2).
  assert (Hb : forall b, Forall (fun c => p c = true) b -> blank b).
  { intros b Hf; eapply Forall_impl; [|exact Hf]. intros; apply Hp; assumption. }
  rewrite Hs at 2. rewrite split_ws_blank by (apply Hb, F1).
  unfold split_ws. rewrite split_ws_aux_app_blank by (apply Hb, F2). reflexivity.
Qed.

Lemma is_space_SP c : Ascii.eqb SP c = true -> is_space c = true.
Proof. intros H; apply Ascii.eqb_eq in H; subst; reflexivity. Qed.
