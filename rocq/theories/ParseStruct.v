(* The parser as a function of the terms of each equation. *)
From Coq Require Import List Bool Arith Lia Ascii String ZArith QArith.
From Verif Require Import Base PyStr PyRe PyDict ModelParse SpecMech ParseText ParseItem.
Import ListNotations.
Open Scope nat_scope.
Open Scope list_scope.

Definition first_word (x : str) : res str := py_nth (split_ws x) 0.

Definition product_words (ps : list str) : list str :=
  flat_map (fun x => match split_ws x with [] => [] | w :: _ => [w] end) ps.

Definition read_body (b : str) : res reaction :=
  do '(rs, ps, rt) <- parse_body b;
  do ws <- mapM first_word rs;
  Ok (Rx (map split_coef ws) (map split_coef (product_words ps)) rt).

Fixpoint proc_reactants (eq step : nat) (ts : list term) (st : pstate) : pstate :=
  match ts with
  | [] => st
  | t :: ts' => proc_reactants eq (S step) ts' (proc_reactant eq step t st)
  end.

Definition last_name (ts : list term) : str := snd (last ts (1%Q, [])).

Definition proc_products (eq : nat) (lst : str) (ts : list term) (st : pstate) : pstate :=
  fold_left (fun s t => proc_product eq lst t s) ts st.

Definition proc_reaction (eq : nat) (r : reaction) (st : pstate) : pstate :=
  proc_products eq (last_name (lhs r)) (rhs r)
    (proc_reactants eq 0 (lhs r) (set_rate eq (rtext r) st)).

Fixpoint proc_from (eq : nat) (m : mech) (st : pstate) : pstate :=
  match m with
  | [] => st
  | r :: m' => proc_from (S eq) m' (proc_reaction eq r st)
  end.

(* The dictionaries as a function of the terms. *)
Definition interp (m : mech) : pstate := proc_from 0 m pstate0.

Lemma reactant_loop eq rs st step l0 :
  foldM (reactant_iter eq) rs (st, step, l0) =
  do ws <- mapM first_word rs;
  Ok (proc_reactants eq step (map split_coef ws) st, step + List.length ws,
      match ws with [] => l0 | _ => last_name (map split_coef ws) end).
Proof.
  revert st step l0; induction rs as [|x rs IH]; intros st step l0; cbn [foldM mapM bind map].
  - cbn [List.length]. rewrite Nat.add_0_r. reflexivity.
  - unfold first_word at 1. destruct (py_nth (split_ws x) 0) as [w|e] eqn:E.
    + unfold reactant_iter at 1. rewrite E. cbn [bind]. rewrite IH.
      destruct (mapM first_word rs) as [ws|e]; cbn [bind]; [|reflexivity].
      cbn [map proc_reactants List.length]. f_equal. f_equal; [f_equal; lia|].
      destruct ws as [|w2 ws]; [reflexivity|].
      unfold last_name. cbn [map last]. reflexivity.
    + unfold reactant_iter at 1. rewrite E. reflexivity.
Qed.

Lemma product_loop eq lst ps st :
  fold_left (product_iter eq lst) ps st =
  proc_products eq lst (map split_coef (product_words ps)) st.
Proof.
  revert st; induction ps as [|x ps IH]; intros st; [reflexivity|].
  cbn [fold_left product_words flat_map]. rewrite IH. unfold product_iter.
  destruct (split_ws x) as [|w ws]; reflexivity.
Qed.

Lemma mapM_nil A B (f : A -> res B) l : mapM f l = Ok [] -> l = [].
Proof.
  destruct l as [|a l]; [reflexivity|]. cbn [mapM]. intros H.
  apply bind_Ok in H as (b & _ & H). apply bind_Ok in H as (bs & _ & H). discriminate.
Qed.

Lemma parse_body_nonempty b rs ps rt : parse_body b = Ok (rs, ps, rt) -> rs <> [].
Proof.
  unfold parse_body. intros H.
  apply bind_Ok in H as (h & _ & H). apply bind_Ok in H as (l & _ & H).
  apply bind_Ok in H as (r & _ & H). apply bind_Ok in H as (k & _ & H).
  injection H as <- _ _. intros Hm. apply map_eq_nil in Hm.
  exact (split_char_nonempty _ _ Hm).
Qed.

Lemma equation_iter_struct bodies st eq :
  equation_iter bodies st eq =
  do b <- py_nth bodies eq; do r <- read_body b; Ok (proc_reaction eq r st).
Proof.
  unfold equation_iter, read_body. destruct (py_nth bodies eq) as [b|]; [|reflexivity].
  cbn [bind]. destruct (parse_body b) as [[[rs ps] rt]|e] eqn:E; [|reflexivity].
  cbn [bind]. rewrite reactant_loop.
  destruct (mapM first_word rs) as [ws|] eqn:Ew; [|reflexivity]. cbn [bind].
  destruct ws as [|w ws].
  - exfalso. apply mapM_nil in Ew. exact (parse_body_nonempty _ _ _ _ E Ew).
  - rewrite product_loop. reflexivity.
Qed.

Definition read_nth (bodies : list str) (i : nat) : res reaction :=
  do b <- py_nth bodies i; read_body b.

Lemma loop_struct bodies k n st :
  foldM (equation_iter bodies) (seq k n) st =
  do m <- mapM (read_nth bodies) (seq k n); Ok (proc_from k m st).
Proof.
  revert k st; induction n as [|n IH]; intros k st; [reflexivity|].
  cbn [seq foldM mapM]. rewrite equation_iter_struct. unfold read_nth at 1.
  destruct (py_nth bodies k) as [b|]; [|reflexivity]. cbn [bind].
  destruct (read_body b) as [r|]; [|reflexivity]. cbn [bind].
  rewrite IH. destruct (mapM (read_nth bodies) (seq (S k) n)); reflexivity.
Qed.

(* The whole parser. *)
Lemma extract_struct content :
  extract_mechanism content =
  do n <- count_equations (read_data content);
  do m <- mapM (read_nth (findall_bodies (read_data content))) (seq 0 (Z.to_nat n));
  Ok (n, interp m).
Proof.
  unfold extract_mechanism. destruct (count_equations (read_data content)) as [n|]; [|reflexivity].
  cbn [bind]. rewrite loop_struct.
  destruct (mapM _ _); reflexivity.
Qed.

(* ------------------------------------------------------------------ *)
(* Reading bodies, declaratively. *)

Lemma pieces_split c s : pieces c s (split_char c s).
Proof.
  induction s as [|x s IH]; cbn [split_char].
  - constructor; auto.
  - destruct (Ascii.eqb x c) eqn:E.
    + apply Ascii.eqb_eq in E; subst. apply (pc_more c []); [auto | exact IH].
    + apply Ascii.eqb_neq in E.
      destruct IH as [p Hp | p s ps Hp Hs].
      * constructor. intros [|]; [congruence | auto].
      * change (x :: p ++ c :: s) with ((x :: p) ++ c :: s).
        constructor; [|exact Hs]. intros [|]; [congruence | auto].
Qed.

Lemma pieces_det c s ps : pieces c s ps -> ps = split_char c s.
Proof.
  induction 1 as [p Hp | p s ps Hp Hs IH].
  - rewrite split_char_none by exact Hp; reflexivity.
  - rewrite split_char_some by exact Hp. congruence.
Qed.

Lemma split_ws_nil p : split_ws p = [] <-> blank p.
Proof.
  split; [|apply split_ws_all_blank].
  unfold split_ws. intros H. assert (G : forall cur, split_ws_aux cur p = [] -> cur = [] /\ blank p).
  { clear H. induction p as [|c p IH]; intros cur H; cbn [split_ws_aux] in H.
    - destruct cur; [|discriminate]. split; [reflexivity | constructor].
    - destruct (is_space c) eqn:E.
      + destruct cur; [|discriminate]. apply IH in H as [_ H].
        split; [reflexivity | constructor; assumption].
      + apply IH in H as [H _]; discriminate. }
  apply G in H; apply H.
Qed.

Lemma split_ws_first p w ws : split_ws p = w :: ws -> first_word_of p w.
Proof.
  unfold split_ws.
  assert (G : forall cur, Forall (fun c => is_space c = false) cur -> cur <> [] ->
     forall p, split_ws_aux cur p = w :: ws ->
     exists w2 rest, p = w2 ++ rest /\ w = rev cur ++ w2 /\
       Forall (fun c => is_space c = false) w2 /\
       match rest with [] => True | c :: _ => is_space c = true end).
  { intros cur Hc Hne q. revert cur Hc Hne. induction q as [|c q IH]; intros cur Hc Hne H; cbn [split_ws_aux] in H.
    - destruct cur; [congruence|]. injection H as <- _. exists [], [].
      split; [reflexivity|]. split; [symmetry; apply app_nil_r|]. split; constructor.
    - destruct (is_space c) eqn:E.
      + destruct cur; [congruence|]. injection H as <- _. exists [], (c :: q).
        split; [reflexivity|]. split; [symmetry; apply app_nil_r|]. split; [constructor | exact E].
      + apply IH in H as (w2 & rest & -> & -> & Hw & Hr); [|constructor; assumption|discriminate].
        exists (c :: w2), rest. cbn [rev app]. rewrite <- app_assoc. cbn [app].
        repeat split; [constructor; assumption | exact Hr]. }
  intros H. induction p as [|c p IH]; cbn [split_ws_aux] in H; [discriminate|].
  destruct (is_space c) eqn:E.
  - destruct (IH H) as (b & rest & -> & Hb & Hr). exists (c :: b), rest.
    split; [reflexivity|]. split; [constructor; assumption | exact Hr].
  - apply G in H as (w2 & rest & -> & -> & Hw & Hr); [|constructor; [exact E | constructor]|discriminate].
    exists [], rest. cbn [rev app]. repeat split; [constructor | discriminate | | exact Hr].
    constructor; assumption.
Qed.

Lemma first_word_of_split p w : first_word_of p w -> exists ws, split_ws p = w :: ws.
Proof.
  intros (b & rest & -> & Hb & Hne & Hw & Hr).
  rewrite split_ws_blank by exact Hb. unfold split_ws.
  rewrite split_ws_aux_word by exact Hw. rewrite app_nil_r.
  assert (Hrev : rev w <> []) by (intros E; apply Hne; rewrite <- (rev_involutive w), E; reflexivity).
  destruct rest as [|c rest]; cbn [split_ws_aux].
  - destruct (rev w) eqn:E; [congruence|]. rewrite <- E, rev_involutive. eexists; reflexivity.
  - rewrite Hr. destruct (rev w) eqn:E; [congruence|]. rewrite <- E, rev_involutive.
    eexists; reflexivity.
Qed.

Lemma first_word_Ok x w : first_word x = Ok w <-> first_word_of x w.
Proof.
  unfold first_word, py_nth. split; intros H.
  - destruct (split_ws x) as [|w' ws] eqn:E; [discriminate|]. injection H as ->.
    exact (split_ws_first _ _ _ E).
  - destruct (first_word_of_split _ _ H) as (ws & ->). reflexivity.
Qed.

Lemma product_words_spec ps : first_words ps (product_words ps).
Proof.
  induction ps as [|p ps IH]; [constructor|]. cbn [product_words flat_map].
  destruct (split_ws p) as [|w ws] eqn:E.
  - apply fw_blank; [apply split_ws_nil, E | exact IH].
  - apply fw_word; [exact (split_ws_first _ _ _ E) | exact IH].
Qed.

Lemma product_words_det ps ws : first_words ps ws -> ws = product_words ps.
Proof.
  induction 1 as [| p ps ws Hb H IH | p ps w ws Hw H IH]; cbn [product_words flat_map].
  - reflexivity.
  - apply split_ws_nil in Hb; rewrite Hb. exact IH.
  - destruct (first_word_of_split _ _ Hw) as (l & ->). cbn [app]. f_equal. exact IH.
Qed.

Lemma first_word_strip x : first_word (strip (Ascii.eqb SP) x) = first_word x.
Proof. unfold first_word. rewrite split_ws_strip by apply is_space_SP. reflexivity. Qed.

Lemma product_words_strip ps :
  product_words (map (strip (Ascii.eqb SP)) ps) = product_words ps.
Proof.
  induction ps as [|p ps IH]; [reflexivity|]. cbn [map product_words flat_map].
  rewrite split_ws_strip by apply is_space_SP. f_equal. exact IH.
Qed.

Lemma remove_char_no_tabs b : remove_char TAB b = no_tabs b.
Proof. reflexivity. Qed.

Lemma split1_cases c s :
  (~ In c s /\ split1 c s = [s]) \/
  exists a b, s = a ++ c :: b /\ ~ In c a /\ split1 c s = [a; b].
Proof.
  destruct (in_dec Ascii.ascii_dec c s) as [Hi|Hn].
  - right. destruct (split_first c s Hi) as (a & b & -> & Ha). exists a, b.
    rewrite split1_some by exact Ha. auto.
  - left. rewrite split1_none by exact Hn. auto.
Qed.

Lemma parse_body_Ok b rs ps rt :
  parse_body b = Ok (rs, ps, rt) <->
  exists L R K, body_parts b L R K /\
    rs = map (strip (Ascii.eqb SP)) (split_char "+"%char L) /\
    ps = map (strip (Ascii.eqb SP)) (split_char "+"%char R) /\
    rt = filter (fun c => negb (is_space c)) K.
Proof.
  unfold parse_body, body_parts. rewrite remove_char_no_tabs. split.
  - intros H. destruct (split1_cases ":"%char (no_tabs b)) as [[Hn E] | (h & k & Es & Hh & E)].
    + rewrite E in H. cbn [py_nth nth_error bind] in H.
      apply bind_Ok in H as (l & _ & H). apply bind_Ok in H as (r & _ & H). discriminate.
    + rewrite E in H. cbn [py_nth nth_error bind] in H.
      destruct (split1_cases "="%char h) as [[Hn E2] | (l & r & Er & Hl & E2)].
      * rewrite E2 in H. cbn [py_nth nth_error bind] in H. discriminate.
      * rewrite E2 in H. cbn [py_nth nth_error bind] in H. injection H as <- <- <-.
        exists l, r, k. subst h. rewrite in_app_iff in Hh. cbn [In] in Hh.
        rewrite concat_split_ws, filter_space_strip by auto.
        rewrite Es, <- app_assoc. repeat split; auto.
  - intros (L & R & K & (Es & H1 & H2 & H3) & -> & -> & ->).
    rewrite Es. change (L ++ "="%char :: R ++ ":"%char :: K) with (L ++ ("="%char :: R) ++ ":"%char :: K).
    rewrite app_assoc.
    rewrite split1_some.
    + cbn [py_nth nth_error bind]. rewrite split1_some by exact H1.
      cbn [py_nth nth_error bind]. rewrite concat_split_ws, filter_space_strip by auto. reflexivity.
    + rewrite in_app_iff. cbn [In]. intros [|[Hc|]]; auto. discriminate.
Qed.

Lemma mapM_map A B C (f : B -> res C) (g : A -> B) l : mapM f (map g l) = mapM (fun a => f (g a)) l.
Proof.
  induction l as [|a l IH]; [reflexivity|]. cbn [map mapM]. rewrite IH. reflexivity.
Qed.

Lemma mapM_ext A B (f g : A -> res B) l : (forall a, f a = g a) -> mapM f l = mapM g l.
Proof. intros H; induction l as [|a l IH]; [reflexivity|]. cbn [mapM]. rewrite H, IH. reflexivity. Qed.

Lemma read_body_Ok b r :
  read_body b = Ok r <->
  exists ls rs, body_reads b ls rs (rtext r) /\
    lhs r = map split_coef ls /\ rhs r = map split_coef rs.
Proof.
  unfold read_body, body_reads. split.
  - intros H. apply bind_Ok in H as ([[ps qs] rt] & Hp & H).
    apply bind_Ok in H as (ws & Hw & H). injection H as <-. cbn [lhs rhs rtext].
    apply parse_body_Ok in Hp as (L & R & K & Hparts & -> & -> & ->).
    rewrite mapM_map in Hw. rewrite (mapM_ext _ _ _ first_word) in Hw by apply first_word_strip.
    apply mapM_Ok_Forall2 in Hw.
    exists ws, (product_words (split_char "+"%char R)). split.
    + exists L, R, K, (split_char "+"%char L), (split_char "+"%char R).
      split; [exact Hparts|]. split; [apply pieces_split|]. split.
      * eapply Forall2_impl; [|exact Hw]. intros; apply first_word_Ok; assumption.
      * split; [apply pieces_split|]. split; [apply product_words_spec | reflexivity].
    + rewrite product_words_strip. auto.
  - intros (ls & rs & (L & R & K & pl & pr & Hparts & Hpl & Hls & Hpr & Hrs & Hk) & Hl & Hr).
    destruct r as [l r k]; cbn [lhs rhs rtext] in *. subst l r k.
    assert (Hp : parse_body b = Ok (map (strip (Ascii.eqb SP)) (split_char "+"%char L),
                map (strip (Ascii.eqb SP)) (split_char "+"%char R),
                filter (fun c => negb (is_space c)) K)).
    { apply parse_body_Ok. exists L, R, K. auto. }
    rewrite Hp. cbn [bind]. rewrite mapM_map, (mapM_ext _ _ _ first_word) by apply first_word_strip.
    apply pieces_det in Hpl, Hpr. subst pl pr.
    assert (Hw : mapM first_word (split_char "+"%char L) = Ok ls).
    { apply mapM_Ok_Forall2. eapply Forall2_impl; [|exact Hls].
      intros; apply first_word_Ok; assumption. }
    rewrite Hw. cbn [bind]. rewrite product_words_strip.
    rewrite <- (product_words_det _ _ Hrs). reflexivity.
Qed.

Lemma blank_dec p : {blank p} + {~ blank p}.
Proof.
  destruct (forallb is_space p) eqn:E.
  - left. apply Forall_forall. rewrite forallb_forall in E. exact E.
  - right. intros H. apply not_true_iff_false in E. apply E, forallb_forall, Forall_forall, H.
Qed.

Lemma body_ok_reads b : body_ok b <-> exists ls rs k, body_reads b ls rs k.
Proof.
  unfold body_ok, body_reads. split.
  - intros (L & R & K & ps & Hp & Hps & Hnb).
    assert (Hls : exists ls, Forall2 first_word_of ps ls).
    { clear Hps. induction Hnb as [|p ps Hb Hnb (ls & IH)]; [exists []; constructor|].
      destruct (split_ws p) as [|w ws] eqn:E; [apply split_ws_nil in E; contradiction|].
      exists (w :: ls). constructor; [exact (split_ws_first _ _ _ E) | exact IH]. }
    destruct Hls as (ls & Hls).
    exists ls, (product_words (split_char "+"%char R)), (filter (fun c => negb (is_space c)) K).
    exists L, R, K, ps, (split_char "+"%char R).
    repeat (split; [first [exact Hp | exact Hps | exact Hls | apply pieces_split | apply product_words_spec] |]).
    reflexivity.
  - intros (ls & rs & k & L & R & K & pl & pr & Hp & Hpl & Hls & _).
    exists L, R, K, pl. split; [exact Hp|]. split; [exact Hpl|].
    clear Hpl. induction Hls as [|p w pl ls Hw Hls IH]; constructor; [|exact IH].
    intros Hb. apply split_ws_nil in Hb. destruct (first_word_of_split _ _ Hw) as (ws & E).
    congruence.
Qed.

(* ------------------------------------------------------------------ *)
(* Which texts are accepted. *)

Lemma py_last_snoc A (l : list A) a : py_last (l ++ [a]) = Ok a.
Proof. unfold py_last. rewrite rev_app_distr. reflexivity. Qed.

Lemma py_last_Ok A (l : list A) a : py_last l = Ok a -> exists l', l = l' ++ [a].
Proof.
  unfold py_last. destruct (rev l) as [|x t] eqn:E; [discriminate|].
  intros H; injection H as ->. exists (rev t).
  rewrite <- (rev_involutive l), E. reflexivity.
Qed.

Lemma announces_count text n :
  count_equations (read_data text) = Ok n <-> announces text n.
Proof.
  rewrite read_data_spec. unfold count_equations, announces, findall_labels.
  change re_label with (re_between "{" "}").
  assert (Hs := findall_sections "{" "}" (no_breaks text) (no_breaks_NL text)). split.
  - intros H. apply bind_Ok in H as (l & Hl & H). apply py_last_Ok in Hl as (ls & E).
    exists ls, l. rewrite E in Hs. auto.
  - intros (ls & l & H1 & H2). rewrite (sections_det _ _ _ _ _ Hs H1), py_last_snoc. exact H2.
Qed.

Lemma bodies_sections text :
  sections "}" ";" (no_breaks text) (findall_bodies (read_data text)).
Proof.
  rewrite read_data_spec. unfold findall_bodies. change re_body with (re_between "}" ";").
  apply findall_sections, no_breaks_NL.
Qed.

Lemma nth_error_Forall2 A B (P : A -> B -> Prop) l1 l2 :
  Forall2 P l1 l2 <-> List.length l1 = List.length l2 /\
  forall i a b, nth_error l1 i = Some a -> nth_error l2 i = Some b -> P a b.
Proof.
  split.
  - induction 1 as [|a b l1 l2 Hab H [IH1 IH2]]; split; try reflexivity.
    + intros [|i]; discriminate.
    + cbn; congruence.
    + intros [|i] x y Hx Hy; cbn in *; [congruence | eauto].
  - revert l2; induction l1 as [|a l1 IH]; intros [|b l2] [Hl H]; try discriminate; constructor.
    + apply (H 0); reflexivity.
    + apply IH; split; [cbn in Hl; congruence|]. intros i; apply (H (S i)).
Qed.

Lemma read_all bodies n m :
  mapM (read_nth bodies) (seq 0 n) = Ok m <->
  List.length m = n /\
  forall i, i < n -> exists b r, nth_error bodies i = Some b /\ nth_error m i = Some r /\ read_body b = Ok r.
Proof.
  rewrite mapM_Ok_Forall2, nth_error_Forall2, seq_length. split.
  - intros [Hl H]. split; [congruence|]. intros i Hi.
    destruct (nth_error m i) as [r|] eqn:Er; [|apply nth_error_None in Er; lia].
    assert (Hs : nth_error (seq 0 n) i = Some i).
    { rewrite (nth_error_nth' _ 0) by (rewrite seq_length; exact Hi). rewrite seq_nth by exact Hi. reflexivity. }
    specialize (H i i r Hs Er). unfold read_nth, py_nth in H.
    destruct (nth_error bodies i) as [b|]; [|discriminate]. cbn [bind] in H.
    exists b, r. auto.
  - intros [Hl H]. split; [congruence|]. intros i a r Ha Hr.
    assert (Hi : i < n) by (rewrite <- Hl; apply nth_error_Some; congruence).
    assert (Hs : nth_error (seq 0 n) i = Some i).
    { rewrite (nth_error_nth' _ 0) by (rewrite seq_length; exact Hi). rewrite seq_nth by exact Hi. reflexivity. }
    replace a with i by congruence.
    destruct (H i Hi) as (b & r' & Hb & Hr' & E). unfold read_nth, py_nth. rewrite Hb. cbn [bind].
    congruence.
Qed.

Lemma mapM_all_Ok A B (f : A -> res B) l :
  (forall a, In a l -> exists b, f a = Ok b) -> exists bs, mapM f l = Ok bs.
Proof.
  induction l as [|a l IH]; intros H; [exists []; reflexivity|].
  destruct (H a) as (b & Hb); [left; reflexivity|].
  destruct IH as (bs & Hbs); [intros; apply H; right; assumption|].
  exists (b :: bs). cbn [mapM]. rewrite Hb, Hbs. reflexivity.
Qed.

Lemma extract_Ok text n st :
  extract_mechanism text = Ok (n, st) ->
  announces text n /\
  exists m bodies, sections "}" ";" (no_breaks text) bodies /\ List.length m = Z.to_nat n /\
    (forall i, i < Z.to_nat n -> exists b r ls rs,
       nth_error bodies i = Some b /\ nth_error m i = Some r /\
       body_reads b ls rs (rtext r) /\ lhs r = map split_coef ls /\ rhs r = map split_coef rs) /\
    st = interp m.
Proof.
  rewrite extract_struct. intros H. apply bind_Ok in H as (n' & Hn & H).
  apply bind_Ok in H as (m & Hm & H). injection H as <- <-.
  split; [apply announces_count, Hn|].
  exists m, (findall_bodies (read_data text)). split; [apply bodies_sections|].
  apply read_all in Hm as [Hl Hm]. split; [exact Hl|]. split; [|reflexivity].
  intros i Hi. destruct (Hm i Hi) as (b & r & Hb & Hr & E).
  apply read_body_Ok in E as (ls & rs & H1 & H2 & H3). exists b, r, ls, rs. auto.
Qed.

Lemma accepts_iff text :
  (exists out, extract_mechanism text = Ok out) <-> file_ok text.
Proof.
  split.
  - intros ([n st] & H). apply extract_Ok in H as (Ha & m & bodies & Hs & Hl & Hb & _).
    exists n, bodies. split; [exact Ha|]. split; [exact Hs|]. intros i Hi.
    destruct (Hb i Hi) as (b & r & ls & rs & Hnb & _ & Hr & _). exists b. split; [exact Hnb|].
    apply body_ok_reads. eauto.
  - intros (n & bodies & Ha & Hs & Hb). rewrite extract_struct.
    apply announces_count in Ha. rewrite Ha. cbn [bind].
    assert (Hbs := sections_det _ _ _ _ _ (bodies_sections text) Hs). rewrite Hbs.
    destruct (mapM_all_Ok _ _ (read_nth bodies) (seq 0 (Z.to_nat n))) as (m & Hm).
    + intros i Hi. apply in_seq in Hi. destruct (Hb i) as (b & Hnb & Hok); [lia|].
      unfold read_nth, py_nth. rewrite Hnb. cbn [bind].
      apply body_ok_reads in Hok as (ls & rs & k & Hr).
      exists (Rx (map split_coef ls) (map split_coef rs) k). apply read_body_Ok.
      exists ls, rs. auto.
    + rewrite Hm. cbn [bind]. eauto.
Qed.
