(* The conversions on expressions, and on occurrences of names. *)
From Coq Require Import List Bool Arith Lia Ascii String ZArith QArith.
From Verif Require Import Base PyStr PyDict ModelRate RateText RateBrackets SpecRate.
Import ListNotations.
Import Coq.Lists.List.
Open Scope nat_scope.
Open Scope list_scope.

(* ------------------------------------------------------------------ *)
(* replace over a separator *)
Lemma replace_sep old new c a b : old <> [] -> ~ In c old ->
  replace old new (a ++ c :: b) = replace old new a ++ c :: replace old new b.
Proof.
  intros Ho Hc. remember (List.length a) as n eqn:Hn. revert a Hn.
  induction n as [n IH] using lt_wf_ind. intros a Hn. destruct a as [|x a].
  - cbn [app]. rewrite replace_miss; [reflexivity|]. intros r Hr. apply Hc.
    destruct old as [|o old]; [congruence|]. cbn [app] in Hr. injection Hr as -> _. left; reflexivity.
  - destruct (prefix_rest old (x :: a)) as [r|] eqn:E.
    + apply (proj1 (prefix_rest_Some _ _ _)) in E. rewrite E, <- app_assoc, !replace_hit by exact Ho.
      rewrite <- app_assoc. f_equal. apply (IH (List.length r)); [|reflexivity].
      assert (G := f_equal (@List.length ascii) E). rewrite app_length in G. cbn [List.length] in G, Hn.
      destruct old; [congruence|]. cbn [List.length] in G. lia.
    + rewrite prefix_rest_None in E. cbn [app]. rewrite replace_miss.
      * rewrite replace_miss by exact E. cbn [app]. f_equal. apply (IH (List.length a)); [cbn in Hn; lia | reflexivity].
      * intros r Hr. clear IH. change (x :: a ++ c :: b) with ((x :: a) ++ c :: b) in Hr.
        assert (G : exists r', x :: a = old ++ r').
        { clear - Hr Hc. remember (x :: a) as l eqn:Hl. clear Hl. revert l Hr; induction old as [|o old IHo]; intros l Hr.
          - exists l. reflexivity.
          - destruct l as [|y l]; cbn [app] in Hr.
            + injection Hr as H _. exfalso; apply Hc; left; congruence.
            + injection Hr as -> Hr. destruct (IHo (fun H => Hc (or_intror H)) l Hr) as (r' & ->). exists r'. reflexivity. }
        destruct G as (r' & G). apply (E r' G).
Qed.

(* pass over a boundary *)
Definition no_D_end (a : str) : Prop := forall y, a <> y ++ ["D"%char].
Lemma pass_app cs ins a b : no_D_end a -> pass cs ins (a ++ b) = pass cs ins a ++ pass cs ins b.
Proof.
  induction a as [|x a IH]; intros H; [reflexivity|].
  assert (Ha : no_D_end a) by (intros y Hy; apply (H (x :: y)); rewrite Hy; reflexivity).
  cbn [app pass]. rewrite IH by exact Ha. rewrite app_assoc. f_equal. f_equal.
  destruct (Ascii.eqb_spec x "D") as [->|]; [|reflexivity].
  destruct a as [|d a]; [exfalso; apply (H []); reflexivity | reflexivity].
Qed.
Lemma pass_noD cs ins a : ~ In "D"%char a -> pass cs ins a = a.
Proof.
  induction a as [|x a IH]; intros H; cbn [pass]; [reflexivity|]. rewrite IH by (intros G; apply H; right; exact G).
  destruct (Ascii.eqb_spec x "D") as [->|]; [exfalso; apply H; left; reflexivity | reflexivity].
Qed.
Lemma no_D_end_In a : ~ In "D"%char a -> no_D_end a.
Proof. intros H y ->. apply H, in_app_iff. right; left; reflexivity. Qed.
Lemma no_D_end_app a b : b <> [] -> no_D_end b -> no_D_end (a ++ b).
Proof.
  intros Hb H y Hy. destruct (exists_last Hb) as (b' & c & ->). rewrite app_assoc in Hy.
  apply app_inj_tail in Hy as [_ ->]. apply (H b'). reflexivity.
Qed.
Lemma pass_safe cs ins x : (forall c, In c cs -> ~ contains ["D"%char; c] x) -> pass cs ins x = x.
Proof.
  induction x as [|c x IH]; intros H; cbn [pass]; [reflexivity|].
  rewrite IH. 2:{ intros d Hd (a & b & E). apply (H d Hd). exists (c :: a), b. rewrite E. reflexivity. }
  destruct (Ascii.eqb_spec c "D") as [->|]; [|reflexivity].
  destruct x as [|d x]; [reflexivity|]. destruct (inb d cs) eqn:E; [|reflexivity].
  exfalso. apply (H d); [apply inb_In, E|]. exists [], x. reflexivity.
Qed.

Lemma Forall_notIn {A} (P : A -> Prop) l a : Forall P l -> ~ P a -> ~ In a l.
Proof. intros H Ha Hi. apply Ha. rewrite Forall_forall in H. apply H, Hi. Qed.

Definition mid (name : str) : syntax := Syntax name kpp_exponent (phot kpp).
Definition mid2 (name : str) : syntax := Syntax name e_exponent (phot kpp).

(* Stage 1: renaming a function. *)
Definition ident_only (w : str) : Prop := w <> [] /\ forall c, In c ["("; ")"; "+"; "-"; "*"; "/"]%char -> ~ In c w.

Lemma op_chars op c : In op [s_ "+"; s_ "-"; s_ "*"; s_ "/"; s_ "**"] -> In c op -> In c ["+"; "-"; "*"; "/"]%char.
Proof. cbn. intros H Hc. repeat (destruct H as [<-|H]; [cbn in Hc; intuition|]). destruct H. Qed.

Lemma replace_op old new op a b : ident_only old -> In op [s_ "+"; s_ "-"; s_ "*"; s_ "/"; s_ "**"] ->
  replace old new (a ++ op ++ b) = replace old new a ++ op ++ replace old new b.
Proof.
  intros [Ho Hc] Hop. cbn in Hop.
  assert (G : forall c l, In c ["("; ")"; "+"; "-"; "*"; "/"]%char -> replace old new (c :: l) = c :: replace old new l).
  { intros c l Hcc. apply (replace_sep old new c [] l); [exact Ho | apply Hc, Hcc]. }
  repeat (destruct Hop as [<-|Hop]; [cbn [s_ list_ascii_of_string app]; rewrite replace_sep by (try exact Ho; apply Hc; cbn; tauto); rewrite ?G by (cbn; tauto); reflexivity|]).
  destruct Hop.
Qed.

Lemma replace_lparen old new a : ident_only old -> replace old new ("("%char :: a) = "("%char :: replace old new a.
Proof. intros [Ho Hc]. apply (replace_sep old new "("%char [] a); [exact Ho | apply Hc; cbn; tauto]. Qed.
Lemma replace_rparen old new a : ident_only old -> replace old new (a ++ [")"%char]) = replace old new a ++ [")"%char].
Proof. intros [Ho Hc]. apply (replace_sep old new ")"%char a []); [exact Ho | apply Hc; cbn; tauto]. Qed.
Lemma replace_minus old new a : ident_only old -> replace old new ("-"%char :: a) = "-"%char :: replace old new a.
Proof. intros [Ho Hc]. apply (replace_sep old new "-"%char [] a); [exact Ho | apply Hc; cbn; tauto]. Qed.

(* a word containing a character that the text lacks *)
Lemma replace_lacks old new t c : In c old -> ~ In c t -> replace old new t = t.
Proof.
  intros Hc Ht. apply replace_absent; [intros ->; destruct Hc|]. intros (a & b & ->). apply Ht.
  rewrite !in_app_iff. auto.
Qed.

Definition lit_char (c : ascii) : Prop := is_digit c = true \/ In c ["."; "D"; "E"; "+"; "-"]%char.
Lemma lit_chars m ex : mantissa m -> good_exponent ex -> Forall lit_char (m ++ show_ex kpp_exponent ex).
Proof.
  intros [_ Hm] Hx. apply Forall_app. split.
  - eapply Forall_impl; [|exact Hm]. intros c [H| ->]; [left; exact H | right; cbn; tauto].
  - destruct ex as [[[d sg] ds]|]; cbn [show_ex]; [|constructor]. destruct Hx as (Hs & [_ Hd] & _).
    unfold kpp_exponent. constructor; [right; destruct d; cbn; tauto|]. apply Forall_app. split.
    + cbn in Hs. destruct Hs as [<-|[<-|[<-|[]]]]; repeat constructor; right; cbn; tauto.
    + eapply Forall_impl; [|exact Hd]. intros c H; left; exact H.
Qed.

Lemma stage1 old new S e :
  S = Syntax old kpp_exponent (phot kpp) -> ident_only old ->
  (exists c, In c old /\ ~ lit_char c /\ ~ In c (s_ "J()") ) ->
  (forall x, safe_name x -> ~ contains old x) ->
  good e -> replace old new (show S e) = show (Syntax new kpp_exponent (phot kpp)) e.
Proof.
  intros -> Hid (c & Hc1 & Hc2 & Hc3) Hx. induction e as [m ex|x|k|e IH|e IH|op a IHa b IHb|e IH]; cbn [good show exp_name exponent phot]; intros He.
  - apply (replace_lacks _ _ _ c Hc1). destruct He as [Hm Hex]. apply (Forall_notIn lit_char); [apply lit_chars; assumption | exact Hc2].
  - apply replace_absent; [apply Hid | apply Hx, He].
  - apply (replace_lacks _ _ _ c Hc1). cbn [phot kpp]. intros Hin. rewrite !in_app_iff in Hin.
    destruct Hin as [H|[H|H]].
    + apply Hc3. cbn in *. tauto.
    + apply Hc2. left. destruct He as [_ He]. rewrite Forall_forall in He. apply He, H.
    + apply Hc3. cbn in *. tauto.
  - rewrite replace_hit by apply Hid. rewrite replace_lparen, replace_rparen, IH by assumption. reflexivity.
  - rewrite replace_lparen, replace_rparen, IH by assumption. reflexivity.
  - destruct He as (Hop & Ha & Hb). rewrite replace_op, IHa, IHb by assumption. reflexivity.
  - rewrite replace_minus, IH by assumption. reflexivity.
Qed.

(* Fortran: no text of the grammar contains dlog. *)
Lemma stage1_absent old new e : ident_only old ->
  (exists c, In c old /\ ~ lit_char c /\ ~ In c (s_ "J()") ) -> (exists c, In c old /\ ~ In c (s_ "EXP")) ->
  (forall x, safe_name x -> ~ contains old x) ->
  good e -> replace old new (show kpp e) = show kpp e.
Proof.
  intros Hid (c & Hc1 & Hc2 & Hc3) (c' & Hc1' & Hc2') Hx. induction e as [m ex|x|k|e IH|e IH|op a IHa b IHb|e IH]; cbn [good show exp_name exponent phot kpp]; intros He.
  - apply (replace_lacks _ _ _ c Hc1). destruct He as [Hm Hex]. apply (Forall_notIn lit_char); [apply lit_chars; assumption | exact Hc2].
  - apply replace_absent; [apply Hid | apply Hx, He].
  - apply (replace_lacks _ _ _ c Hc1). intros Hin. rewrite !in_app_iff in Hin.
    destruct Hin as [H|[H|H]].
    + apply Hc3. cbn in *. tauto.
    + apply Hc2. left. destruct He as [_ He]. rewrite Forall_forall in He. apply He, H.
    + apply Hc3. cbn in *. tauto.
  - rewrite replace_sep by (try apply Hid; cbn; tauto). rewrite replace_rparen by assumption.
    change (show (Syntax (s_ "EXP") kpp_exponent (fun k => s_ "J(" ++ k ++ s_ ")")) e) with (show kpp e).
    rewrite IH by assumption. rewrite (replace_lacks old new (s_ "EXP") c' Hc1' Hc2'). reflexivity.
  - change (show (Syntax (s_ "EXP") kpp_exponent (fun k => s_ "J(" ++ k ++ s_ ")")) e) with (show kpp e).
    rewrite replace_lparen, replace_rparen, IH by assumption. reflexivity.
  - change (show (Syntax (s_ "EXP") kpp_exponent (fun k => s_ "J(" ++ k ++ s_ ")"))) with (show kpp).
    destruct He as (Hop & Ha & Hb). rewrite replace_op, IHa, IHb by assumption. reflexivity.
  - change (show (Syntax (s_ "EXP") kpp_exponent (fun k => s_ "J(" ++ k ++ s_ ")"))) with (show kpp).
    rewrite replace_minus, IH by assumption. reflexivity.
Qed.

(* ------------------------------------------------------------------ *)
(* Stage 2: exponents. *)
Lemma no_D_digits s : Forall (fun c => is_digit c = true) s -> ~ In "D"%char s.
Proof. intros H. apply (Forall_notIn _ _ _ H). discriminate. Qed.
Lemma no_D_mantissa m : mantissa m -> ~ In "D"%char m.
Proof. intros [_ H]. apply (Forall_notIn _ _ _ H). intros [G|G]; discriminate. Qed.

Lemma digit_cases c : is_digit c = true -> In c ["0"; "1"; "2"; "3"; "4"; "5"; "6"; "7"; "8"; "9"]%char.
Proof.
  destruct c as [[] [] [] [] [] [] [] []]; try (intros H; discriminate H); intros _; cbn; tauto.
Qed.
Lemma digit_exponent c : is_digit c = true -> c <> "0"%char -> inb c exponent_chars = true /\ plus_of c = ["+"%char].
Proof.
  intros H H0. apply digit_cases in H. repeat (destruct H as [<-|H]; [|]); try destruct H; try congruence; split; reflexivity.
Qed.

Lemma exponents_D sg ds : In sg [[]; ["-"%char]; ["+"%char]] -> digits ds -> (sg = [] -> hd_error ds <> Some "0"%char) ->
  exponents ("D"%char :: sg ++ ds) = "E"%char :: sign_or_plus sg ++ ds.
Proof.
  intros Hs [Hne Hd] H0. unfold exponents. cbn [pass Ascii.eqb Bool.eqb].
  assert (Hn : ~ In "D"%char (sg ++ ds)).
  { rewrite in_app_iff. intros [H|H]; [|apply (no_D_digits ds Hd H)].
    cbn in Hs. destruct Hs as [<-|[<-|[<-|[]]]]; cbn in H; intuition discriminate. }
  rewrite (pass_noD _ _ _ Hn). cbn in Hs. destruct Hs as [<-|[<-|[<-|[]]]]; [|reflexivity|reflexivity].
  cbn [app]. destruct ds as [|c ds]; [congruence|]. inversion Hd as [|? ? Hc _]; subst.
  destruct (digit_exponent c Hc) as [E1 E2]; [intros ->; apply (H0 eq_refl); reflexivity|].
  rewrite E1, E2. reflexivity.
Qed.

Lemma exponents_lit m ex : mantissa m -> good_exponent ex ->
  exponents (m ++ show_ex kpp_exponent ex) = m ++ show_ex e_exponent ex.
Proof.
  intros Hm Hx. unfold exponents. rewrite pass_app by (apply no_D_end_In, no_D_mantissa, Hm).
  rewrite pass_noD by (apply no_D_mantissa, Hm). f_equal.
  destruct ex as [[[d sg] ds]|]; cbn [show_ex]; [|reflexivity]. destruct Hx as (Hs & Hd & H0).
  unfold kpp_exponent, e_exponent. destruct d.
  - apply exponents_D; auto.
  - apply pass_noD. intros [H|H]; [discriminate|]. apply in_app_iff in H as [H|H]; [|apply (no_D_digits ds (proj2 Hd) H)].
    cbn in Hs. destruct Hs as [<-|[<-|[<-|[]]]]; cbn in H; intuition discriminate.
Qed.

Lemma show_nonempty S e : (forall k, phot S k <> []) -> exp_name S <> [] -> good e -> show S e <> [].
Proof.
  intros Hp Hn. destruct e; cbn [good show]; intros H.
  - destruct H as [[H _] _]. destruct mant; [congruence | discriminate].
  - apply H.
  - apply Hp.
  - destruct (exp_name S); [congruence | discriminate].
  - discriminate.
  - destruct H as (Hop & _). repeat (destruct Hop as [<-|Hop]; [intros E; apply app_eq_nil in E as [_ E]; discriminate|]). destruct Hop.
  - discriminate.
Qed.

Lemma show_no_D_end name e : name <> [] -> good e -> no_D_end (show (mid name) e).
Proof.
  intros Hn. induction e as [m ex|x|k|e IH|e IH|op a IHa b IHb|e IH]; cbn [good show mid exp_name exponent phot]; intros He.
  - destruct He as [Hm Hx]. destruct ex as [[[d sg] ds]|]; cbn [show_ex].
    + apply no_D_end_app; [unfold kpp_exponent; destruct d; discriminate|]. destruct Hx as (Hs & [Hd1 Hd2] & _).
      unfold kpp_exponent. match goal with |- no_D_end (?c :: ?l) => change (no_D_end ([c] ++ l)) end.
      rewrite app_assoc. apply no_D_end_app; [exact Hd1 | apply no_D_end_In, no_D_digits, Hd2].
    + rewrite app_nil_r. apply no_D_end_In, no_D_mantissa, Hm.
  - destruct He as (_ & _ & _ & _ & _ & He). exact He.
  - cbn [phot kpp]. rewrite app_assoc. apply no_D_end_app; [discriminate|]. apply no_D_end_In. cbn. intuition discriminate.
  - rewrite app_comm_cons, app_assoc. apply no_D_end_app; [discriminate|]. apply no_D_end_In. cbn. intuition discriminate.
  - rewrite app_comm_cons. apply no_D_end_app; [discriminate|]. apply no_D_end_In. cbn. intuition discriminate.
  - destruct He as (_ & _ & Hb). rewrite app_assoc. apply no_D_end_app; [|apply IHb, Hb].
    apply show_nonempty; [intros k E; discriminate | exact Hn | exact Hb].
  - change ("-"%char :: show (mid name) e) with (["-"%char] ++ show (mid name) e). apply no_D_end_app; [|apply IH, He].
    apply show_nonempty; [intros k E; discriminate | exact Hn | exact He].
Qed.

Lemma exponents_app a b : no_D_end a -> exponents (a ++ b) = exponents a ++ exponents b.
Proof. apply pass_app. Qed.
Lemma exponents_noD a : ~ In "D"%char a -> exponents a = a.
Proof. apply pass_noD. Qed.

Lemma exponents_name x : safe_name x -> exponents x = x.
Proof.
  intros (_ & Hi & _ & _ & Hd & _). apply pass_safe. intros c Hc. unfold exponent_chars in Hc.
  destruct Hc as [<-|[<-|Hc]].
  - intros (a & b & ->). rewrite Forall_app in Hi. destruct Hi as [_ Hi]. inversion Hi as [|? ? _ Hi']; subst.
    inversion Hi' as [|? ? Hi'' _]; subst. discriminate.
  - intros (a & b & ->). rewrite Forall_app in Hi. destruct Hi as [_ Hi]. inversion Hi as [|? ? _ Hi']; subst.
    inversion Hi' as [|? ? Hi'' _]; subst. discriminate.
  - apply Hd, Hc.
Qed.

Lemma stage2 name e : name <> [] -> ~ In "D"%char name -> good e -> exponents (show (mid name) e) = show (mid2 name) e.
Proof.
  intros Hn HD. induction e as [m ex|x|k|e IH|e IH|op a IHa b IHb|e IH]; cbn [good show mid mid2 exp_name exponent phot]; intros He.
  - apply exponents_lit; apply He.
  - apply exponents_name, He.
  - apply exponents_noD. cbn [phot kpp]. rewrite !in_app_iff. intros [H|[H|H]]; [cbn in H; intuition discriminate | apply (no_D_digits k (proj2 He) H) | cbn in H; intuition discriminate].
  - change (show {| exp_name := name; exponent := kpp_exponent; phot := phot kpp |}) with (show (mid name)).
    change (show {| exp_name := name; exponent := e_exponent; phot := phot kpp |}) with (show (mid2 name)).
    rewrite exponents_app by (apply no_D_end_In, HD). rewrite (exponents_noD name HD). f_equal.
    change ("("%char :: show (mid name) e ++ [")"%char]) with (["("%char] ++ show (mid name) e ++ [")"%char]).
    rewrite exponents_app by (apply no_D_end_In; cbn; intuition discriminate).
    rewrite exponents_app by (apply show_no_D_end; assumption). rewrite IH by assumption. reflexivity.
  - change (show {| exp_name := name; exponent := kpp_exponent; phot := phot kpp |}) with (show (mid name)).
    change (show {| exp_name := name; exponent := e_exponent; phot := phot kpp |}) with (show (mid2 name)).
    change ("("%char :: show (mid name) e ++ [")"%char]) with (["("%char] ++ show (mid name) e ++ [")"%char]).
    rewrite exponents_app by (apply no_D_end_In; cbn; intuition discriminate).
    rewrite exponents_app by (apply show_no_D_end; assumption). rewrite IH by assumption. reflexivity.
  - change (show {| exp_name := name; exponent := kpp_exponent; phot := phot kpp |}) with (show (mid name)).
    change (show {| exp_name := name; exponent := e_exponent; phot := phot kpp |}) with (show (mid2 name)).
    destruct He as (Hop & Ha & Hb). rewrite exponents_app by (apply show_no_D_end; assumption).
    assert (Hopd : ~ In "D"%char op).
    { intros H. apply (op_chars op) in H; [|exact Hop]. cbn in H. intuition discriminate. }
    rewrite exponents_app by (apply no_D_end_In, Hopd). rewrite (exponents_noD op Hopd), IHa, IHb by assumption. reflexivity.
  - change (show {| exp_name := name; exponent := kpp_exponent; phot := phot kpp |}) with (show (mid name)).
    change (show {| exp_name := name; exponent := e_exponent; phot := phot kpp |}) with (show (mid2 name)).
    change ("-"%char :: show (mid name) e) with (["-"%char] ++ show (mid name) e).
    rewrite exponents_app by (apply no_D_end_In; cbn; intuition discriminate). rewrite IH by assumption. reflexivity.
Qed.

(* ------------------------------------------------------------------ *)
(* Stage 3: brackets. *)
(* text without brackets *)
Lemma jpass_plain a p r : ~ In "("%char a -> ~ In ")"%char a -> (a <> [] \/ True) ->
  exists p', jpass false p (a ++ r) = a ++ jpass false p' r /\ jopen false p (a ++ r) = jopen false p' r /\
    (a = [] -> p' = p) /\ (a <> [] -> p' = Ascii.eqb (last a "x"%char) "J").
Proof.
  intros H1 H2 _. revert p; induction a as [|c a IH]; intros p.
  - exists p. repeat split; congruence.
  - cbn [app jpass jopen].
    destruct (Ascii.eqb_spec c "("); [exfalso; apply H1; left; congruence|].
    rewrite andb_false_r. cbn [andb].
    destruct (IH ltac:(intros H; apply H1; right; exact H) ltac:(intros H; apply H2; right; exact H) (Ascii.eqb c "J")) as (p' & G1 & G2 & G3 & G4).
    exists p'. rewrite G1, G2. split; [reflexivity|]. split; [reflexivity|]. split; [discriminate|]. intros _.
    destruct a as [|d a]; [rewrite G3 by reflexivity; reflexivity|]. apply G4. discriminate.
Qed.

(* what may follow an expression *)
Definition follow (r : str) : Prop := match r with [] => True | c :: _ => c <> "("%char end.
Lemma jpass_follow p r : follow r -> jpass false p r = jpass false false r /\ jopen false p r = jopen false false r.
Proof.
  destruct r as [|c r]; [auto|]. cbn [follow jpass jopen]. intros H. destruct (Ascii.eqb_spec c "("); [contradiction|].
  rewrite !andb_false_r. cbn [andb]. auto.
Qed.

Lemma stage3 name e r : name <> [] -> ~ In "("%char name -> ~ In ")"%char name -> last name "x"%char <> "J"%char ->
  good e -> follow r ->
  jpass false false (show (mid2 name) e ++ r) = show (Syntax name e_exponent (phot numba)) e ++ jpass false false r /\
  jopen false false (show (mid2 name) e ++ r) = jopen false false r.
Proof.
  intros Hn Hn1 Hn2 Hn3. revert e r.
  assert (Plain : forall a p r, ~ In "("%char a -> ~ In ")"%char a -> follow r ->
    jpass false p (a ++ r) = a ++ jpass false false r /\ jopen false p (a ++ r) = jopen false false r).
  { intros a p r H1 H2 Hr. destruct (jpass_plain a p r H1 H2 (or_intror I)) as (p' & G1 & G2 & _).
    destruct (jpass_follow p' r Hr) as [F1 F2]. rewrite G1, G2, F1, F2. auto. }
  assert (Par : forall e r, (forall r, follow r ->
       jpass false false (show (mid2 name) e ++ r) = show (Syntax name e_exponent (phot numba)) e ++ jpass false false r /\
       jopen false false (show (mid2 name) e ++ r) = jopen false false r) ->
     jpass false false ("("%char :: show (mid2 name) e ++ [")"%char] ++ r) =
       "("%char :: show (Syntax name e_exponent (phot numba)) e ++ [")"%char] ++ jpass false false r /\
     jopen false false ("("%char :: show (mid2 name) e ++ [")"%char] ++ r) = jopen false false r).
  { intros e r H. destruct (H ([")"%char] ++ r)) as [H1 H2]; [discriminate|]. cbn [jpass jopen andb Ascii.eqb Bool.eqb] in *.
    rewrite H1, H2. split; reflexivity. }
  intros e; induction e as [m ex|x|k|e IH|e IH|op a IHa b IHb|e IH]; cbn [good]; intros r He Hr; cbn [show mid2 exp_name exponent phot].
  - assert (Hc : Forall lit_char (m ++ show_ex e_exponent ex)).
    { destruct He as [Hm Hx]. apply Forall_app. split.
      - eapply Forall_impl; [|apply Hm]. intros c [H| ->]; [left; exact H | right; cbn; tauto].
      - destruct ex as [[[d sg] ds]|]; cbn [show_ex]; [|constructor]. destruct Hx as (Hs & [_ Hd] & _).
        unfold e_exponent. constructor; [right; cbn; tauto|]. apply Forall_app. split.
        + cbn in Hs. destruct d, Hs as [<-|[<-|[<-|[]]]]; repeat constructor; right; cbn; tauto.
        + eapply Forall_impl; [|exact Hd]. intros c H; left; exact H. }
    apply Plain; [| |exact Hr]; apply (Forall_notIn _ _ _ Hc); intros [H|H]; cbn in H; intuition discriminate.
  - destruct He as (_ & Hi & _). apply Plain; [| |exact Hr]; apply (Forall_notIn _ _ _ Hi); discriminate.
  - cbn [phot kpp numba]. rewrite <- !app_assoc. cbn [s_ list_ascii_of_string app]. cbn [jpass jopen andb Ascii.eqb Bool.eqb].
    assert (Hd : forall k, Forall (fun c => is_digit c = true) k -> forall p, 
       jpass true p (k ++ ")"%char :: r) = (if (match k with [] => false | _ => false end) then [] else k) ++ "]"%char :: jpass false false r /\
       jopen true p (k ++ ")"%char :: r) = jopen false false r).
    { clear - Hr. induction k as [|c k IHk]; intros Hk p; cbn [app jpass jopen].
      - rewrite andb_false_r. cbn [andb Ascii.eqb Bool.eqb]. auto.
      - inversion Hk as [|? ? Hc Hk']; subst.
        destruct (Ascii.eqb_spec c "("); [subst; discriminate|]. rewrite andb_false_r.
        destruct (Ascii.eqb_spec c ")"); [subst; discriminate|]. cbn [andb].
        destruct (IHk Hk' (Ascii.eqb c "J")) as [G1 G2]. rewrite G1, G2. destruct k; auto. }
    destruct (Hd k (proj2 He) false) as [G1 G2]. rewrite G1, G2. destruct k; auto.
  - rewrite <- app_assoc. cbn [app]. rewrite <- app_assoc.
    destruct (jpass_plain name false ("("%char :: show (mid2 name) e ++ [")"%char] ++ r) Hn1 Hn2 (or_intror I)) as (p' & G1 & G2 & _ & G4).
    change (show {| exp_name := name; exponent := e_exponent; phot := phot kpp |}) with (show (mid2 name)).
    rewrite G1, G2. rewrite G4 by exact Hn. destruct (Ascii.eqb_spec (last name "x"%char) "J"); [contradiction|].
    destruct (Par e r (fun r' Hr' => IH r' He Hr')) as [P1 P2]. rewrite P1, P2. rewrite <- app_assoc. cbn [app]. rewrite <- app_assoc. auto.
  - change (show {| exp_name := name; exponent := e_exponent; phot := phot kpp |}) with (show (mid2 name)).
    cbn [app]. rewrite <- app_assoc.
    destruct (Par e r (fun r' Hr' => IH r' He Hr')) as [P1 P2]. rewrite P1, P2. rewrite <- app_assoc. auto.
  - change (show {| exp_name := name; exponent := e_exponent; phot := phot kpp |}) with (show (mid2 name)).
    destruct He as (Hop & Ha & Hb).
    assert (Hopn : op <> []) by (intros ->; cbn in Hop; intuition discriminate).
    assert (Ho1 : ~ In "("%char op) by (intros H; apply (op_chars op) in H; [cbn in H; intuition discriminate | exact Hop]).
    assert (Ho2 : ~ In ")"%char op) by (intros H; apply (op_chars op) in H; [cbn in H; intuition discriminate | exact Hop]).
    rewrite <- !app_assoc.
    destruct (IHa (op ++ show (mid2 name) b ++ r)) as [A1 A2]; [exact Ha | |].
    { destruct op as [|c op]; [congruence|]. intros ->. apply Ho1. left; reflexivity. }
    rewrite A1, A2.
    destruct (jpass_plain op false (show (mid2 name) b ++ r) Ho1 Ho2 (or_intror I)) as (p' & G1 & G2 & _ & G4).
    rewrite G1, G2, G4 by exact Hopn.
    assert (Hl : Ascii.eqb (last op "x"%char) "J" = false).
    { cbn in Hop. repeat (destruct Hop as [<-|Hop]; [reflexivity|]). destruct Hop. }
    rewrite Hl. destruct (IHb r Hb Hr) as [B1 B2]. rewrite B1, B2. auto.
  - change (show {| exp_name := name; exponent := e_exponent; phot := phot kpp |}) with (show (mid2 name)).
    cbn [app jpass jopen andb Ascii.eqb Bool.eqb]. destruct (IH r He Hr) as [B1 B2]. rewrite B1, B2. auto.
Qed.

Lemma convert_numba_eq t : convert_numba t = jbrackets (exponents (replace (s_ "EXP") (s_ "numba_exp") t)).
Proof. unfold convert_numba. rewrite photolysis_is_jbrackets, conv_map_full. reflexivity. Qed.
Lemma convert_fortran_eq t : convert_fortran t = exponents (replace (s_ "dlog") (s_ "LOG") t).
Proof. unfold convert_fortran. rewrite conv_map_full. reflexivity. Qed.

Lemma not_lit_X : ~ lit_char "X"%char.
Proof. intros [H|H]; [discriminate | cbn in H; intuition discriminate]. Qed.
Lemma not_lit_l : ~ lit_char "l"%char.
Proof. intros [H|H]; [discriminate | cbn in H; intuition discriminate]. Qed.

Lemma convert_numba_show e : good e -> convert_numba (show kpp e) = show numba e.
Proof.
  intros He. rewrite convert_numba_eq.
  rewrite (stage1 (s_ "EXP") (s_ "numba_exp") kpp e eq_refl).
  - change (Syntax (s_ "numba_exp") kpp_exponent (phot kpp)) with (mid (s_ "numba_exp")).
    rewrite stage2; [|discriminate|cbn; intuition discriminate|exact He].
    unfold jbrackets.
    destruct (stage3 (s_ "numba_exp") e []) as [H1 H2]; try exact He; try exact I; try discriminate; try (cbn; intuition discriminate).
    cbn [jpass jopen] in H1, H2. rewrite !app_nil_r in H1. rewrite app_nil_r in H2. rewrite H2. exact H1.
  - split; [discriminate|]. intros c Hc. cbn in Hc. intros H. cbn in H. intuition (subst; discriminate).
  - exists "X"%char. split; [cbn; tauto|]. split; [exact not_lit_X|]. cbn. intuition discriminate.
  - intros x (_ & _ & H & _). exact H.
  - exact He.
Qed.

Lemma convert_fortran_show e : good e -> convert_fortran (show kpp e) = show fortran_text e.
Proof.
  intros He. rewrite convert_fortran_eq.
  rewrite (stage1_absent (s_ "dlog") (s_ "LOG") e).
  - change kpp with (mid (s_ "EXP")) at 1.
    rewrite stage2; [reflexivity|discriminate|cbn; intuition discriminate|exact He].
  - split; [discriminate|]. intros c Hc. cbn in Hc. intros H. cbn in H. intuition (subst; discriminate).
  - exists "l"%char. split; [cbn; tauto|]. split; [exact not_lit_l|]. cbn. intuition discriminate.
  - exists "l"%char. split; [cbn; tauto|]. cbn. intuition discriminate.
  - intros x (_ & _ & _ & H & _). exact H.
  - exact He.
Qed.
