(* Parsing a written mechanism gives back the mechanism. *)
From Coq Require Import List Bool Arith Lia Ascii String ZArith QArith.
From Verif Require Import Base PyStr PyRe PyDict ModelParse SpecMech ParseText ParseItem ParseStruct.
Import ListNotations.
Open Scope nat_scope.
Open Scope list_scope.

Definition clean (s : str) : str := no_tabs (no_breaks s).

Lemma clean_app a b : clean (a ++ b) = clean a ++ clean b.
Proof. unfold clean, no_tabs. rewrite no_breaks_app. apply filter_app. Qed.

Lemma clean_In c s : In c (clean s) -> In c s.
Proof. unfold clean, no_tabs, no_breaks. rewrite !filter_In. tauto. Qed.

Lemma no_breaks_In c s : In c (no_breaks s) -> In c s.
Proof. unfold no_breaks. rewrite !filter_In. tauto. Qed.

Lemma clean_cons c s : is_space c = false -> clean (c :: s) = c :: clean s.
Proof.
  intros H. unfold clean, no_breaks, no_tabs. cbn [filter].
  assert (H1 : Ascii.eqb c NL = false) by (apply Ascii.eqb_neq; intros ->; discriminate H).
  assert (H2 : Ascii.eqb c CR = false) by (apply Ascii.eqb_neq; intros ->; discriminate H).
  assert (H3 : Ascii.eqb c TAB = false) by (apply Ascii.eqb_neq; intros ->; discriminate H).
  rewrite H1, H2. cbn [orb negb filter]. rewrite H3. reflexivity.
Qed.

Lemma no_breaks_cons c s : is_space c = false -> no_breaks (c :: s) = c :: no_breaks s.
Proof.
  intros H. unfold no_breaks. cbn [filter].
  assert (H1 : Ascii.eqb c NL = false) by (apply Ascii.eqb_neq; intros ->; discriminate H).
  assert (H2 : Ascii.eqb c CR = false) by (apply Ascii.eqb_neq; intros ->; discriminate H).
  rewrite H1, H2. reflexivity.
Qed.

Lemma clean_word w : Forall (fun c => is_space c = false) w -> clean w = w.
Proof.
  induction 1 as [|c w Hc H IH]; [reflexivity|]. rewrite clean_cons by exact Hc. congruence.
Qed.

Lemma clean_blank b : blank b -> blank (clean b).
Proof.
  unfold blank. rewrite !Forall_forall. intros H c Hc. apply H, clean_In, Hc.
Qed.

Lemma no_breaks_blank b : blank b -> blank (no_breaks b).
Proof.
  unfold blank. rewrite !Forall_forall. intros H c Hc. apply H, no_breaks_In, Hc.
Qed.

(* Filtering white space ignores the removed control characters. *)
Lemma filter_space_clean s :
  filter (fun c => negb (is_space c)) (clean s) = filter (fun c => negb (is_space c)) s.
Proof.
  induction s as [|c s IH]; [reflexivity|].
  destruct (is_space c) eqn:E.
  - cbn [filter]. rewrite E. cbn [negb]. change (c :: s) with ([c] ++ s). rewrite clean_app, filter_app, IH.
    assert (Hb : blank (clean [c])) by (apply clean_blank; constructor; [exact E | constructor]).
    rewrite <- (app_nil_l (filter (fun c0 => negb (is_space c0)) s)) at 2. f_equal.
    induction Hb as [|d b Hd Hb IHb]; [reflexivity|]. cbn [filter]. rewrite Hd. exact IHb.
  - rewrite clean_cons by exact E. cbn [filter]. rewrite E. cbn [negb]. congruence.
Qed.

(* Characters of written words. *)
Definition wordlike (s : str) : Prop :=
  Forall (fun c => is_space c = false /\ structural c = false) s.

Lemma is_digit_range c : is_digit c = true -> 48 <= nat_of_ascii c <= 57.
Proof.
  unfold is_digit. rewrite andb_true_iff, !Nat.leb_le. lia.
Qed.

Lemma is_digit_wordlike c : is_digit c = true -> is_space c = false /\ structural c = false.
Proof.
  intros H. assert (Hr := is_digit_range c H). split.
  - unfold is_space. apply orb_false_iff; split; apply andb_false_iff.
    + right. apply Nat.leb_gt. lia.
    + right. apply Nat.leb_gt. lia.
  - unfold structural. apply not_true_iff_false. intros Hs.
    apply existsb_exists in Hs as (x & Hx & He). apply Ascii.eqb_eq in He; subst x.
    repeat (destruct Hx as [<-|Hx]; [discriminate H|]). contradiction.
Qed.

Lemma digits_wordlike s v : digits s v -> wordlike s.
Proof.
  intros H. apply digits_all in H as [H _]. eapply Forall_impl; [|exact H].
  intros; apply is_digit_wordlike; assumption.
Qed.

Lemma numeral_wordlike s c : numeral s c -> wordlike s.
Proof.
  intros [s' v H | a b v H Hb].
  - eapply digits_wordlike, H.
  - apply digits_wordlike, Forall_app in H as [H1 H2].
    apply Forall_app; split; [exact H1|]. constructor; [split; reflexivity | exact H2].
Qed.

Lemma numeral_nonempty s c : numeral s c -> s <> [].
Proof. intros H. destruct (numeral_head s c H) as (d & t & -> & _). discriminate. Qed.

Lemma term_word_wordlike t w : term_word t w -> w <> [] /\ wordlike w.
Proof.
  intros [w' [H1 H2] Hs | num c nm Hn [H1 H2] Hs Hd].
  - auto.
  - split.
    + intros E. apply app_eq_nil in E as [E _]. exact (numeral_nonempty _ _ Hn E).
    + apply Forall_app; split; [exact (numeral_wordlike _ _ Hn) | exact H2].
Qed.

Lemma wordlike_nospace w : wordlike w -> Forall (fun c => is_space c = false) w.
Proof. intros H; eapply Forall_impl; [|exact H]. intros c [Hc _]; exact Hc. Qed.

(* A structural character other than those listed does not occur. *)
Lemma blank_notin b c : blank b -> is_space c = false -> ~ In c b.
Proof. intros H Hc Hi. apply (proj1 (Forall_forall _ b) H) in Hi. congruence. Qed.

Lemma wordlike_notin w c : wordlike w -> structural c = true -> ~ In c w.
Proof. intros H Hc Hi. apply (proj1 (Forall_forall _ w) H) in Hi as [_ Hi]. congruence. Qed.

Lemma structural_nospace c : structural c = true -> is_space c = false.
Proof.
  intros Hs. apply existsb_exists in Hs as (x & Hx & He). apply Ascii.eqb_eq in He; subst x.
  repeat (destruct Hx as [<-|Hx]; [reflexivity|]). contradiction.
Qed.

Lemma term_written_notin t s c : term_written t s -> structural c = true -> ~ In c s.
Proof.
  intros (b1 & w & b2 & -> & H1 & H2 & Hw) Hc. apply term_word_wordlike in Hw as [_ Hw].
  assert (Hs := structural_nospace c Hc).
  rewrite !in_app_iff. intros [Hi|[Hi|Hi]].
  - exact (blank_notin _ _ H1 Hs Hi).
  - exact (wordlike_notin _ _ Hw Hc Hi).
  - exact (blank_notin _ _ H2 Hs Hi).
Qed.

Lemma side_written_notin ts s c :
  side_written ts s -> structural c = true -> c <> "+"%char -> ~ In c s.
Proof.
  intros H Hc Hp. induction H as [t s Ht | t s1 ts s2 Ht Hs IH].
  - exact (term_written_notin _ _ _ Ht Hc).
  - rewrite in_app_iff. cbn [In]. intros [Hi|[Hi|Hi]].
    + exact (term_written_notin _ _ _ Ht Hc Hi).
    + congruence.
    + exact (IH Hi).
Qed.

Lemma rhs_written_notin ts s c :
  rhs_written ts s -> structural c = true -> c <> "+"%char -> ~ In c s.
Proof.
  intros [H|[_ H]] Hc Hp.
  - exact (side_written_notin _ _ _ H Hc Hp).
  - exact (blank_notin _ _ H (structural_nospace c Hc)).
Qed.

Lemma term_written_word t s : term_written t s ->
  exists w, first_word_of (clean s) w /\ split_coef w = t.
Proof.
  intros (b1 & w & b2 & -> & H1 & H2 & Hw). exists w. split.
  - apply term_word_wordlike in Hw as [Hne Hwl]. exists (clean b1), (clean b2).
    rewrite !clean_app, (clean_word w) by (apply wordlike_nospace, Hwl).
    split; [reflexivity|]. split; [apply clean_blank, H1|]. split; [exact Hne|].
    split; [apply wordlike_nospace, Hwl|].
    apply clean_blank in H2. destruct (clean b2); [exact I|]. inversion H2; assumption.
  - apply term_word_split, Hw.
Qed.

Lemma side_written_words ts s : side_written ts s ->
  exists pl ls, pieces "+"%char (clean s) pl /\ Forall2 first_word_of pl ls /\ map split_coef ls = ts.
Proof.
  induction 1 as [t s Ht | t s1 ts s2 Ht Hs (pl & ls & IH1 & IH2 & IH3)].
  - destruct (term_written_word _ _ Ht) as (w & Hw & E). exists [clean s], [w].
    split; [apply pc_one; intros Hi; apply clean_In in Hi;
            exact (term_written_notin _ _ "+"%char Ht eq_refl Hi)|].
    split; [constructor; [exact Hw | constructor]|]. cbn [map]. rewrite E; reflexivity.
  - destruct (term_written_word _ _ Ht) as (w & Hw & E). exists (clean s1 :: pl), (w :: ls).
    rewrite clean_app, clean_cons by reflexivity. split.
    + apply pc_more; [|exact IH1]. intros Hi; apply clean_In in Hi.
      exact (term_written_notin _ _ "+"%char Ht eq_refl Hi).
    + split; [constructor; assumption|]. cbn [map]. rewrite E, IH3; reflexivity.
Qed.

Lemma Forall2_first_words pl ls : Forall2 first_word_of pl ls -> first_words pl ls.
Proof. induction 1; [constructor | apply fw_word; assumption]. Qed.

Lemma rhs_written_words ts s : rhs_written ts s ->
  exists pl ls, pieces "+"%char (clean s) pl /\ first_words pl ls /\ map split_coef ls = ts.
Proof.
  intros [H|[-> Hb]].
  - destruct (side_written_words _ _ H) as (pl & ls & H1 & H2 & H3).
    exists pl, ls. split; [exact H1|]. split; [apply Forall2_first_words, H2 | exact H3].
  - exists [clean s], []. split.
    + apply pc_one. intros Hi; apply clean_In in Hi. exact (blank_notin _ "+"%char Hb eq_refl Hi).
    + split; [|reflexivity]. apply fw_blank; [apply clean_blank, Hb | constructor].
Qed.

Lemma reaction_written_reads r b : reaction_written r b -> read_body (no_breaks b) = Ok r.
Proof.
  intros (l & p & k & -> & Hl & Hp & Hk & Hf).
  destruct (side_written_words _ _ Hl) as (pl & ls & H1 & H2 & H3).
  destruct (rhs_written_words _ _ Hp) as (pr & rs & H4 & H5 & H6).
  apply read_body_Ok. exists ls, rs. split; [|auto].
  exists (clean l), (clean p), (clean k), pl, pr. split.
  - unfold body_parts. split.
    + change (no_tabs (no_breaks (l ++ "="%char :: p ++ ":"%char :: k)))
        with (clean (l ++ "="%char :: p ++ ":"%char :: k)).
      rewrite clean_app, clean_cons, clean_app, clean_cons by reflexivity. reflexivity.
    + split; [|split]; intros Hi; apply clean_In in Hi.
      * eapply side_written_notin in Hi; [assumption | exact Hl | reflexivity | discriminate].
      * eapply side_written_notin in Hi; [assumption | exact Hl | reflexivity | discriminate].
      * eapply rhs_written_notin in Hi; [assumption | exact Hp | reflexivity | discriminate].
  - split; [exact H1|]. split; [exact H2|]. split; [exact H4|]. split; [exact H5|].
    rewrite filter_space_clean. exact Hk.
Qed.

Lemma free_of_notin l s c : free_of l s -> In c l -> ~ In c s.
Proof.
  intros H Hc Hi. apply (proj1 (Forall_forall _ s) H) in Hi.
  apply not_true_iff_false in Hi. apply Hi, existsb_exists. exists c. split; [exact Hc | apply Ascii.eqb_refl].
Qed.

Lemma free_braces s : free_of ["{"; "}"]%char s -> ~ In "{"%char s /\ ~ In "}"%char s.
Proof.
  intros H; split; intros Hi.
  - exact (free_of_notin _ _ "{"%char H (or_introl eq_refl) Hi).
  - exact (free_of_notin _ _ "}"%char H (or_intror (or_introl eq_refl)) Hi).
Qed.

Lemma reaction_written_notin r b c :
  reaction_written r b -> In c [";"; "{"; "}"]%char -> ~ In c b.
Proof.
  intros (l & p & k & -> & Hl & Hp & Hk & Hf) Hc.
  assert (Hs : structural c = true /\ c <> "+"%char /\ c <> "="%char /\ c <> ":"%char).
  { repeat (destruct Hc as [<-|Hc]; [repeat split; discriminate|]). contradiction. }
  destruct Hs as (Hs & Hn1 & Hn2 & Hn3).
  rewrite in_app_iff. cbn [In]. rewrite in_app_iff. cbn [In].
  intros [Hi|[Hi|[Hi|[Hi|Hi]]]]; try congruence.
  - exact (side_written_notin _ _ _ Hl Hs Hn1 Hi).
  - exact (rhs_written_notin _ _ _ Hp Hs Hn1 Hi).
  - exact (free_of_notin _ _ _ Hf Hc Hi).
Qed.

(* The bodies and labels of a sequence of records. *)
Lemma records_bodies n m s : records n m s ->
  forall pre, ~ In "}"%char pre ->
  exists bs, sections "}" ";" (pre ++ no_breaks s) bs /\ Forall2 (fun b r => read_body b = Ok r) bs m.
Proof.
  induction 1 as [lab r b junk Hn Hlab Hb Hj | lab r b junk rs s Hlab Hb Hj Hrec IH]; intros pre Hpre.
  - exists [no_breaks b]. split.
    + rewrite no_breaks_cons by reflexivity.
      rewrite no_breaks_app, no_breaks_cons, no_breaks_app, no_breaks_cons by reflexivity.
      change (pre ++ "{"%char :: no_breaks lab ++ "}"%char :: no_breaks b ++ ";"%char :: no_breaks junk)
        with (pre ++ ("{"%char :: no_breaks lab) ++ "}"%char :: no_breaks b ++ ";"%char :: no_breaks junk).
      rewrite app_assoc. constructor.
      * rewrite in_app_iff. cbn [In]. intros [Hi|[Hi|Hi]]; [auto | discriminate |].
        apply no_breaks_In in Hi. exact (proj2 (free_braces _ Hlab) Hi).
      * intros Hi. apply no_breaks_In in Hi.
        exact (reaction_written_notin _ _ ";"%char Hb (or_introl eq_refl) Hi).
      * apply sec_none. intros Hi. apply no_breaks_In in Hi.
        exact (proj2 (free_braces _ Hj) Hi).
    + constructor; [apply reaction_written_reads, Hb | constructor].
  - assert (Hj' : ~ In "}"%char (no_breaks junk)).
    { intros Hi. apply no_breaks_In in Hi.
      exact (proj2 (free_braces _ Hj) Hi). }
    destruct (IH (no_breaks junk) Hj') as (bs & IH1 & IH2).
    exists (no_breaks b :: bs). split.
    + rewrite no_breaks_cons by reflexivity.
      rewrite no_breaks_app, no_breaks_cons, no_breaks_app, no_breaks_cons, no_breaks_app by reflexivity.
      match goal with |- sections _ _ (pre ++ "{"%char :: no_breaks lab ++ ?X) _ =>
        change (pre ++ "{"%char :: no_breaks lab ++ X) with (pre ++ ("{"%char :: no_breaks lab) ++ X) end.
      rewrite app_assoc. constructor.
      * rewrite in_app_iff. cbn [In]. intros [Hi|[Hi|Hi]]; [auto | discriminate |].
        apply no_breaks_In in Hi. exact (proj2 (free_braces _ Hlab) Hi).
      * intros Hi. apply no_breaks_In in Hi.
        exact (reaction_written_notin _ _ ";"%char Hb (or_introl eq_refl) Hi).
      * exact IH1.
    + constructor; [apply reaction_written_reads, Hb | exact IH2].
Qed.

Lemma records_labels n m s : records n m s ->
  forall pre, ~ In "{"%char pre ->
  exists ls l, sections "{" "}" (pre ++ no_breaks s) (ls ++ [l]) /\ label_number l n.
Proof.
  induction 1 as [lab r b junk Hn Hlab Hb Hj | lab r b junk rs s Hlab Hb Hj Hrec IH]; intros pre Hpre.
  - exists [], (no_breaks lab). split; [|exact Hn]. cbn [app].
    rewrite no_breaks_cons by reflexivity.
    rewrite no_breaks_app, no_breaks_cons, no_breaks_app, no_breaks_cons by reflexivity.
    constructor; [exact Hpre | |].
    + intros Hi. apply no_breaks_In in Hi.
      exact (proj2 (free_braces _ Hlab) Hi).
    + apply sec_none. rewrite in_app_iff. cbn [In].
      intros [Hi|[Hi|Hi]]; [| discriminate |]; apply no_breaks_In in Hi.
      * exact (reaction_written_notin _ _ "{"%char Hb (or_intror (or_introl eq_refl)) Hi).
      * exact (proj1 (free_braces _ Hj) Hi).
  - assert (Hpre' : ~ In "{"%char (no_breaks b ++ ";"%char :: no_breaks junk)).
    { rewrite in_app_iff. cbn [In].
      intros [Hi|[Hi|Hi]]; [| discriminate |]; apply no_breaks_In in Hi.
      * exact (reaction_written_notin _ _ "{"%char Hb (or_intror (or_introl eq_refl)) Hi).
      * exact (proj1 (free_braces _ Hj) Hi). }
    destruct (IH _ Hpre') as (ls & l & IH1 & IH2).
    exists (no_breaks lab :: ls), l. split; [|exact IH2].
    rewrite no_breaks_cons by reflexivity.
    rewrite no_breaks_app, no_breaks_cons, no_breaks_app, no_breaks_cons, no_breaks_app by reflexivity.
    cbn [app]. constructor; [exact Hpre | |].
    + intros Hi. apply no_breaks_In in Hi.
      exact (proj2 (free_braces _ Hlab) Hi).
    + rewrite <- app_assoc in IH1. cbn [app] in IH1. exact IH1.
Qed.

(* int() of a label. *)
Lemma int_digits_digits s v acc : digits s v -> forall w, int_digits w acc s =
  Some (acc * 10 ^ Z.of_nat (List.length s) + v)%Z.
Proof.
  intros H. assert (G : forall acc w s2, all_digits s2 -> forall s1, all_digits s1 -> s1 <> [] ->
    int_digits w acc (s1 ++ s2) = match dec_digits acc s1 with Some z => int_digits false z s2 | None => None end).
  { clear. intros acc w s2 H2 s1 H1. revert acc w. induction H1 as [|c s1 Hc H1 IH]; intros acc w Hne; [congruence|].
    cbn [app int_digits dec_digits]. rewrite Hc.
    destruct s1 as [|d s1]; [reflexivity|]. apply IH. discriminate. }
  destruct (digits_all _ _ H) as [Ha Hne]. intros w.
  rewrite <- (app_nil_r s) at 1. rewrite G by (assumption || constructor).
  assert (D : forall acc, dec_digits acc s = Some (acc * 10 ^ Z.of_nat (List.length s) + v)%Z).
  { clear -H. induction H as [c Hc | s v c H IH Hc]; intros acc.
    - cbn [dec_digits List.length]. rewrite Hc. f_equal. lia.
    - rewrite dec_digits_app, IH. cbn [dec_digits]. rewrite Hc. f_equal.
      rewrite app_length. cbn [List.length].
      replace (Z.of_nat (List.length s + 1)) with (Z.succ (Z.of_nat (List.length s))) by lia.
      rewrite Z.pow_succ_r by lia. ring. }
  rewrite D. reflexivity.
Qed.

Lemma lstrip_all p b s : Forall (fun c => p c = true) b -> lstrip p (b ++ s) = lstrip p s.
Proof. induction 1 as [|c b Hc H IH]; [reflexivity|]. cbn [app lstrip]. rewrite Hc. exact IH. Qed.

Lemma lstrip_stop p c s : p c = false -> lstrip p (c :: s) = c :: s.
Proof. intros H; cbn [lstrip]; rewrite H; reflexivity. Qed.

(* Stripping both ends of  b1 ++ core ++ b2. *)
Lemma strip_core p b1 core b2 c1 c2 mid :
  Forall (fun c => p c = true) b1 -> Forall (fun c => p c = true) b2 ->
  core = c1 :: mid -> p c1 = false -> (exists mid', core = mid' ++ [c2]) -> p c2 = false ->
  strip p (b1 ++ core ++ b2) = core.
Proof.
  intros H1 H2 E1 Hc1 (mid' & E2) Hc2. unfold strip. rewrite lstrip_all by exact H1.
  rewrite E1 at 1. cbn [app]. rewrite lstrip_stop by exact Hc1.
  change (c1 :: mid ++ b2) with ((c1 :: mid) ++ b2). rewrite <- E1, rev_app_distr.
  rewrite lstrip_all by (apply Forall_rev, H2).
  rewrite E2 at 1. rewrite rev_app_distr. cbn [rev app]. rewrite lstrip_stop by exact Hc2.
  change (c2 :: rev mid') with ([c2] ++ rev mid').
  change [c2] with (rev [c2]). rewrite <- rev_app_distr, rev_involutive. congruence.
Qed.

Lemma digits_ends s v : digits s v -> exists c1 mid mid' c2, s = c1 :: mid /\ s = mid' ++ [c2] /\
  is_digit c1 = true /\ is_digit c2 = true.
Proof.
  intros H. destruct (digits_all _ _ H) as [Ha Hne].
  destruct s as [|c1 mid]; [congruence|].
  destruct (exists_last Hne) as (mid' & c2 & E).
  exists c1, mid, mid', c2. split; [reflexivity|]. split; [exact E|].
  split; [inversion Ha; assumption|]. rewrite E in Ha. apply Forall_app in Ha as [_ Ha].
  inversion Ha; assumption.
Qed.

Lemma space_not_dot c : is_space c = true -> Ascii.eqb "."%char c = false.
Proof. intros H. apply Ascii.eqb_neq. intros <-. discriminate H. Qed.

Lemma label_int l n : label_number l n -> py_int (strip (Ascii.eqb "."%char) l) = Ok (Z.of_nat n).
Proof.
  intros (b1 & ds & b2 & dots & -> & Hb1 & Hb2 & Hd & Hdots).
  destruct (digits_ends _ _ Hd) as (c1 & mid & mid' & c2 & E1 & E2 & Hc1 & Hc2).
  assert (Hdig : forall c, is_digit c = true -> Ascii.eqb "."%char c = false /\ is_space c = false).
  { intros c Hc. split; [apply Ascii.eqb_neq; intros <-; discriminate Hc | apply is_digit_wordlike, Hc]. }
  assert (Hst : strip (Ascii.eqb "."%char) (b1 ++ ds ++ b2 ++ dots) = b1 ++ ds ++ b2).
  { replace (b1 ++ ds ++ b2 ++ dots) with ([] ++ (b1 ++ ds ++ b2) ++ dots)
      by (cbn [app]; rewrite <- !app_assoc; reflexivity).
    assert (Hf : exists x y, b1 ++ ds ++ b2 = x :: y /\ Ascii.eqb "."%char x = false).
    { destruct b1 as [|x b1].
      - rewrite E1. cbn [app]. exists c1, (mid ++ b2). split; [reflexivity | apply Hdig, Hc1].
      - cbn [app]. exists x, (b1 ++ ds ++ b2). split; [reflexivity|]. inversion Hb1; subst.
        apply space_not_dot; assumption. }
    assert (Hl : exists x y, b1 ++ ds ++ b2 = y ++ [x] /\ Ascii.eqb "."%char x = false).
    { destruct (rev b2) as [|x t] eqn:Er.
      - assert (b2 = []) by (rewrite <- (rev_involutive b2), Er; reflexivity). subst b2.
        exists c2, (b1 ++ mid'). rewrite app_nil_r, E2, <- app_assoc.
        split; [reflexivity | apply Hdig, Hc2].
      - assert (Eb : b2 = rev t ++ [x]) by (rewrite <- (rev_involutive b2), Er; reflexivity).
        exists x, (b1 ++ ds ++ rev t). rewrite Eb, <- !app_assoc. split; [reflexivity|].
        rewrite Eb in Hb2. apply Forall_app in Hb2 as [_ Hb2]. inversion Hb2; subst.
        apply space_not_dot; assumption. }
    destruct Hf as (x & y & Ex & Hx). destruct Hl as (x2 & y2 & Ex2 & Hx2).
    apply (strip_core _ [] (b1 ++ ds ++ b2) dots x x2 y); try assumption; try constructor.
    - eapply Forall_impl; [|exact Hdots]. intros c ->. reflexivity.
    - eauto. }
  rewrite Hst. unfold py_int.
  rewrite (strip_core is_space b1 ds b2 c1 c2 mid Hb1 Hb2 E1); [| apply Hdig, Hc1 | eauto | apply Hdig, Hc2].
  rewrite E1 at 1.
  assert (Hs : Ascii.eqb c1 "-"%char = false /\ Ascii.eqb c1 "+"%char = false).
  { split; apply Ascii.eqb_neq; intros ->; discriminate Hc1. }
  destruct Hs as [-> ->]. rewrite (int_digits_digits _ _ 0%Z Hd). reflexivity.
Qed.

Theorem written_extract m text :
  written m text -> extract_mechanism text = Ok (Z.of_nat (List.length m), interp m).
Proof.
  intros (intro_ & s & -> & Hi & Hr). rewrite extract_struct.
  assert (H1 : ~ In "}"%char (no_breaks intro_)).
  { intros Hx. apply no_breaks_In in Hx.
    exact (proj2 (free_braces _ Hi) Hx). }
  assert (H2 : ~ In "{"%char (no_breaks intro_)).
  { intros Hx. apply no_breaks_In in Hx.
    exact (proj1 (free_braces _ Hi) Hx). }
  destruct (records_bodies _ _ _ Hr _ H1) as (bs & Hb1 & Hb2).
  destruct (records_labels _ _ _ Hr _ H2) as (ls & l & Hl1 & Hl2).
  assert (Hc : count_equations (read_data (intro_ ++ s)) = Ok (Z.of_nat (List.length m))).
  { apply announces_count. exists ls, l. rewrite no_breaks_app. split; [exact Hl1|].
    apply label_int, Hl2. }
  rewrite Hc. cbn [bind]. rewrite Nat2Z.id.
  assert (Hbs := bodies_sections (intro_ ++ s)). rewrite <- no_breaks_app in Hb1.
  rewrite (sections_det _ _ _ _ _ Hbs Hb1).
  assert (Hm : mapM (read_nth bs) (seq 0 (List.length m)) = Ok m).
  { apply read_all. split; [reflexivity|]. intros i Hlt.
    apply nth_error_Forall2 in Hb2 as [Hlen Hb2].
    destruct (nth_error m i) as [r|] eqn:Er; [|apply nth_error_None in Er; lia].
    destruct (nth_error bs i) as [b|] eqn:Eb; [|apply nth_error_None in Eb; lia].
    exists b, r. eauto. }
  rewrite Hm. reflexivity.
Qed.
