(* C81: which mechanisms give Fortran files whose lines a compiler accepts. *)
From Coq Require Import List Bool Arith Lia Ascii String ZArith QArith Reals.
From Verif Require Import Base PyStr PyDict SpecRate ModelParse SpecMech ParseStruct ParseWritten ParseTables ModelLang ModelGen ParseShow PropsOmp GenReact GenLossGain GenParsed PropsParse
  RateParse ModelSource ModelWrite SpecSource SourceRead SourceGen PropsSource SourceWidth
  SpecKin ModelRhs ModelOmp LangFacts PropsKin PropsRhs ModelGas PropsGas SourceRun PropsSourceRun.
Import ListNotations.
Import Coq.Lists.List.
Open Scope nat_scope.
Open Scope list_scope.
Local Arguments eqb : simpl never.

(* Numbers below 10^D; coefficients printed with at most w characters. *)
Definition below (D : nat) (sp2a : dict str nat) : Prop := List.length sp2a < 10 ^ D /\ Forall (fun p => snd p + 1 < 10 ^ D) sp2a.
Definition printed_within (num : Q -> str) (w : nat) {C} (p : list (item C)) : Prop := forall q, In q (numerals p) -> List.length (num q) <= w.

Lemma below_get D sp2a s i : below D sp2a -> dget s sp2a = Some i -> i + 1 < 10 ^ D.
Proof. intros [_ F] G. apply dget_Some_In in G. rewrite Forall_forall in F. exact (F _ G). Qed.
Lemma numerals_toks l1 l2 : toks_numerals (l1 ++ l2) = toks_numerals l1 ++ toks_numerals l2.
Proof. unfold toks_numerals. apply flat_map_app. Qed.

Section Bounds.
Variable num : Q -> str.
Variables D w : nat.
Hypothesis D0 : 0 < D.
Notation okn l := (forall q, In q (toks_numerals l) -> List.length (num q) <= w).
Lemma okn_l l1 l2 : okn (l1 ++ l2) -> okn l1.
Proof. intros H q I. apply H. rewrite numerals_toks. apply in_or_app. auto. Qed.
Lemma okn_r l1 l2 : okn (l1 ++ l2) -> okn l2.
Proof. intros H q I. apply H. rewrite numerals_toks. apply in_or_app. auto. Qed.

Lemma three_parts (P : nat -> Prop) a c t r : keeps num a c -> keeps num (ends num a c) t -> keeps num (ends num (ends num a c) t) r ->
  P (ends num (ends num (ends num a c) t) r) -> keeps num a ((c ++ t) ++ r) /\ P (ends num a ((c ++ t) ++ r)).
Proof. intros K1 K2 K3 A. rewrite !ends_app. split; [|exact A]. apply keeps_app. split; [apply keeps_app; auto|]. rewrite ends_app. exact K3. Qed.
Lemma width_power off i q : i + off < 10 ^ D -> okn (power_toks off i q) -> width num (power_toks off i q) <= D + 5 + w.
Proof.
  intros H N. pose proof (width_ref num AY (i + off) D (dec_width _ _ D0 H)) as X. unfold power_toks in *. destruct (isone q); cbn [width fold_right]; [lia|].
  assert (Y : tok_width num (TNum q) <= w) by (apply width_one, N; left; reflexivity). change (tok_width num TPow) with 2. lia.
Qed.

(* Reactant products *)
Lemma react_width sp2a loss eq : below D sp2a -> forall row acc l, foldM (react_step 1 sp2a loss eq) row acc = Ok l ->
  exists t, l = acc ++ t /\ no_break t /\ (okn t -> width num t <= List.length row * (D + 6 + w)).
Proof.
  intros B. induction row as [|p row IH]; intros acc l H.
  - injection H as <-. exists []. split; [symmetry; apply app_nil_r|]. split; [intros []|]. cbn. lia.
  - cbn [foldM] in H. destruct (react_step 1 sp2a loss eq acc p) as [acc'|e] eqn:E; cbn [bind] in H; [|discriminate].
    destruct (IH _ _ H) as (t & -> & N & Ht). unfold react_step in E. destruct (eqb (snd p) hv).
    + injection E as <-. exists t. split; [reflexivity|]. split; [exact N|]. intros K. specialize (Ht K). cbn [List.length]. lia.
    + destruct (dget2 (snd p) eq loss) as [q|]; [|discriminate]. cbn [key bind] in E. destruct (dget (snd p) sp2a) as [i|] eqn:G; [|discriminate]. cbn [key bind] in E.
      injection E as <-. exists ((match acc with [] => [] | _ => [TStar] end ++ power_toks 1 i q) ++ t).
      split; [rewrite <- !app_assoc; reflexivity|]. split.
      { apply no_break_app; [apply no_break_app; [destruct acc; [intros [] | intros [X|[]]; discriminate X] | apply power_no_break] | exact N]. }
      intros K. rewrite width_app. pose proof (Ht (okn_r _ _ K)) as X1. pose proof (okn_l _ _ K) as K1. pose proof (okn_r _ _ K1) as K2.
      pose proof (width_power 1 i q (below_get _ _ _ _ B G) K2) as X2. rewrite width_app. cbn [List.length].
      assert (width num (match acc with [] => [] | _ => [TStar] end) <= 1) by (destruct acc; cbn; lia). lia.
Qed.

(* Gains and losses: at most five terms on a line. *)
Lemma width_rate k q : k + 1 < 10 ^ D -> okn (rate_toks_f k q) -> width num (rate_toks_f k q) <= D + 4 + w.
Proof.
  intros H N. pose proof (width_ref num AR (k + 1) D (dec_width _ _ D0 H)) as X. unfold rate_toks_f in *. destruct (isone q); cbn [width fold_right]; [lia|].
  assert (Y : tok_width num (TNum (q + 1)) <= w) by (apply width_one, N; left; reflexivity). change (tok_width num TStar) with 1. lia.
Qed.
Lemma rate_f_no_break k q : no_break (rate_toks_f k q).
Proof. unfold rate_toks_f. destruct (isone q); intros I; cbn in I; intuition discriminate. Qed.
Definition room := 22 + D + (w + 1) + 5 * (D + 5 + w) + 3 <= 132.
Notation at_ flag first a := (flag <= 5 /\ a <= 22 + D + (if first then 0 else w + 1) + flag * (D + 5 + w)).
Lemma cont_step (first : bool) flag c flag1 a : room -> cont 4 flag = (c, flag1) -> at_ flag first a ->
  keeps num a c /\ flag1 <= 4 /\ ends num a c <= 22 + D + (if first then 0 else w + 1) + flag1 * (D + 5 + w).
Proof.
  unfold room, cont. intros R E [F A]. destruct (4 <? flag) eqn:X.
  - injection E as <- <-. cbn [keeps ends]. repeat split; destruct first; try lia.
    + apply Nat.ltb_lt in X. replace flag with 5 in * by lia. lia.
    + apply Nat.ltb_lt in X. replace flag with 5 in * by lia. lia.
  - injection E as <- <-. apply Nat.ltb_ge in X. cbn [keeps ends]. repeat split; assumption || lia.
Qed.
Lemma term_step (first : bool) flag lead k q a : k + 1 < 10 ^ D -> no_break lead -> okn (lead ++ rate_toks_f k q) ->
  width num lead <= 1 + (if first then w + 1 else 0) ->
  flag <= 4 -> a <= 22 + D + (if first then 0 else w + 1) + flag * (D + 5 + w) ->
  keeps num a (lead ++ rate_toks_f k q) /\ at_ (S flag) false (ends num a (lead ++ rate_toks_f k q)).
Proof.
  intros K N O W F A. destruct (unbroken_keeps num (lead ++ rate_toks_f k q)) with (a := a) as [X Y]; [apply no_break_app; [exact N | apply rate_f_no_break]|].
  split; [exact X|]. split; [lia|]. rewrite Y, width_app. pose proof (width_rate k q K (okn_r _ _ O)). destruct first; cbn [Nat.mul]; lia.
Qed.
Lemma losses_width : room -> forall row flag (first : bool) a l flag', Forall (fun p => fst p + 1 < 10 ^ D) row ->
  losses_fortran flag first row = (l, flag') -> okn l -> at_ flag first a -> keeps num a l /\ at_ flag' false (ends num a l).
Proof.
  intros R. induction row as [|[k q] row IH]; intros flag first a l flag' B E O A.
  - injection E as <- <-. cbn [keeps ends]. split; [exact I|]. destruct A. split; [assumption|]. destruct first; lia.
  - cbn [losses_fortran] in E. destruct (cont 4 flag) as [c flag1] eqn:Ec. destruct (losses_fortran (S flag1) false row) as [rest flag2] eqn:El.
    assert (El' : l = (c ++ (if first then [TMinus; TNum 1; TStar] else [TMinus]) ++ rate_toks_f k q) ++ rest) by (rewrite <- !app_assoc; congruence).
    assert (flag2 = flag') by congruence. subst flag2 l. clear E. pose proof (okn_l _ _ O) as O1. pose proof (okn_r _ _ O) as O2. pose proof (okn_r _ _ O1) as O3.
    destruct (cont_step first _ _ _ _ R Ec A) as (K1 & F1 & A1).
    set (lead := if first then [TMinus; TNum 1; TStar] else [TMinus]) in *.
    destruct (term_step first flag1 lead k q (ends num a c)) as (K2 & A2); [exact (Forall_inv B) | | exact O3 | | exact F1 | exact A1|].
    { unfold lead. destruct first; intros I; cbn in I; intuition discriminate. }
    { unfold lead. destruct first; [|cbn; lia]. assert (tok_width num (TNum 1) <= w) by (apply width_one, O3; left; reflexivity).
      cbn [width fold_right]. change (tok_width num TMinus) with 1. change (tok_width num TStar) with 1. lia. }
    destruct (IH (S flag1) false _ _ _ (Forall_inv_tail B) El O2 A2) as (K3 & A3). match type of A3 with context [ends num ?b ?r] => pattern (ends num b r) in A3 end. match type of A3 with ?P _ => exact (three_parts P _ _ _ _ K1 K2 K3 A3) end.
Qed.
Lemma gains_width : room -> forall row flag a, Forall (fun p => fst p + 1 < 10 ^ D) row -> okn (gains_fortran flag row) -> at_ flag false a ->
  keeps num a (gains_fortran flag row) /\ exists flag', at_ flag' false (ends num a (gains_fortran flag row)).
Proof.
  intros R. induction row as [|[k q] row IH]; intros flag a B O A.
  - cbn [gains_fortran keeps ends]. split; [exact I | exists flag; exact A].
  - cbn [gains_fortran] in *. destruct (cont 4 flag) as [c flag1] eqn:Ec.
    assert (El : c ++ TPlus :: rate_toks_f k q ++ gains_fortran (S flag1) row = (c ++ [TPlus] ++ rate_toks_f k q) ++ gains_fortran (S flag1) row) by (rewrite <- !app_assoc; reflexivity).
    rewrite El in *. pose proof (okn_l _ _ O) as O1. pose proof (okn_r _ _ O) as O2. pose proof (okn_r _ _ O1) as O3.
    destruct (cont_step false _ _ _ _ R Ec A) as (K1 & F1 & A1).
    destruct (term_step false flag1 [TPlus] k q (ends num a c)) as (K2 & A2); [exact (Forall_inv B) | | exact O3 | cbn; lia | exact F1 | exact A1|].
    { intros I; cbn in I; intuition discriminate. }
    destruct (IH (S flag1) _ (Forall_inv_tail B) O2 A2) as (K3 & A3). match type of A3 with context [ends num ?b ?r] => pattern (ends num b r) in A3 end. match type of A3 with ?P _ => exact (three_parts P _ _ _ _ K1 K2 K3 A3) end.
Qed.

(* The Jacobian: at most four terms on a line. *)
Variable sp2a : dict str nat.
Variable rt : rtable.
Variable loss gain : table.
Variable ord : set_order.
Hypothesis Hord : is_set_order ord.
Hypothesis Bsp : below D sp2a.
(* At most two reactants with coefficient one, or one reactant taken twice. *)
Definition two_body (eq : nat) : Prop :=
  (exists a b, incl (reactants_of rt eq) [a; b] /\ forall r q, In r (reactants_of rt eq) -> dget2 r eq loss = Some q -> q == 1) \/
  (exists a, incl (reactants_of rt eq) [a] /\ forall q, dget2 a eq loss = Some q -> q == 1 \/ q == 2).

Lemma jac_skip sgn eq reactant sf acc r2 acc' : r2 = reactant -> isone sf = true -> jac_factor 1 sp2a loss sgn eq reactant sf acc r2 = Ok acc' -> acc' = acc.
Proof.
  intros -> O H. unfold jac_factor in H. destruct acc as [f l]. destruct (eqb reactant hv); [congruence|]. rewrite eqb_refl, O in H. congruence.
Qed.
Lemma isone_eq q : q == 1 -> isone q = true.
Proof. intros H. apply Qeq_bool_iff. exact H. Qed.

(* What one factor adds when every coefficient is 1. *)
Lemma jac_other sgn eq reactant sf l r2 acc' : is_signt sgn -> (forall q, dget2 r2 eq loss = Some q -> q == 1) -> isone sf = true ->
  jac_factor 1 sp2a loss sgn eq reactant sf (true, l) r2 = Ok acc' ->
  acc' = (true, l) \/ (reactant <> r2 /\ exists i, i + 1 < 10 ^ D /\ acc' = (false, l ++ [sgn; TNum 1; TStar; TRef AY (i + 1)])).
Proof.
  intros Sg U O H. unfold jac_factor in H. destruct (eqb r2 hv); [left; congruence|].
  destruct (eqb r2 reactant) eqn:E; [rewrite O in H; left; congruence|]. right. split; [intros ->; rewrite eqb_refl in E; discriminate|].
  destruct (dget2 r2 eq loss) as [q|] eqn:G1; [|discriminate]. destruct (dget r2 sp2a) as [i|] eqn:G2; [|discriminate]. cbn [key bind] in H.
  exists i. split; [exact (below_get _ _ _ _ Bsp G2)|]. unfold power_toks in H. rewrite (isone_eq _ (U q eq_refl)) in H. rewrite <- app_assoc in H || idtac. cbn [app] in H. congruence.
Qed.
Lemma jac_factor_true sgn eq reactant sf f l r2 : isone sf = true -> eqb r2 reactant = true ->
  jac_factor 1 sp2a loss sgn eq reactant sf (f, l) r2 = Ok (f, l).
Proof. intros O E. unfold jac_factor. destruct (eqb r2 hv); [reflexivity|]. rewrite E, O. reflexivity. Qed.

Lemma sub_two (a b : str) (l : list str) : NoDup l -> incl l [a; b] -> List.length l <= 2.
Proof. intros N I. exact (NoDup_incl_length N I). Qed.

Definition jterm := 2 * D + 9 + w.
Lemma width_lead sgn i : is_signt sgn -> i + 1 < 10 ^ D -> List.length (num 1) <= w -> width num [sgn; TNum 1; TStar; TRef AY (i + 1)] <= D + 5 + w.
Proof.
  intros Sg Hi H1. pose proof (width_ref num AY (i + 1) D (dec_width _ _ D0 Hi)) as X.
  cbn [width fold_right]. change (tok_width num TStar) with 1. change (tok_width num (TNum 1)) with (List.length (num 1)).
  assert (tok_width num sgn <= 1) by (destruct Sg as [-> | ->]; cbn; lia). lia.
Qed.
Lemma jac_term_width sgn s reactant gainp eq l : is_signt sgn -> two_body eq -> eq + 1 < 10 ^ D ->
  inb reactant (reactants_of rt eq) = true ->
  jac_term 1 sp2a rt loss ord sgn s reactant gainp eq = Ok l -> okn l -> width num l <= jterm /\ no_break l.
Proof.
  intros Sg TB He Hin H O. unfold jac_term in H. destruct (dget2 reactant eq loss) as [sf|] eqn:Gs; [|discriminate]. cbn [key bind] in H.
  destruct (Hord (SiteEq s reactant eq gainp) (reactants_of rt eq)) as [ND Mem].
  set (rs := ord (SiteEq s reactant eq gainp) (reactants_of rt eq)) in *. apply inb_In in Hin.
  assert (Hir : In reactant rs) by (apply Mem; exact Hin).
  pose proof (width_ref num AR (eq + 1) D (dec_width _ _ D0 He)) as WR.
  assert (Sw : tok_width num sgn <= 1) by (destruct Sg as [-> | ->]; cbn; lia).
  assert (Nb : sgn <> TCont) by (destruct Sg as [-> | ->]; discriminate).
  destruct (foldM (jac_factor 1 sp2a loss sgn eq reactant sf) rs (true, [])) as [[first l0]|] eqn:EF; [|discriminate]. cbn [bind] in H.
  assert (El : l0 ++ (if first then [sgn; TNum 1; TStar; TRef AR (eq + 1)] else [TStar; TRef AR (eq + 1)]) = l) by congruence. clear H. subst l.
  assert (Wtail : forall l1 : list tok, width num l1 <= D + 5 + w -> width num (l1 ++ [TStar; TRef AR (eq + 1)]) <= jterm).
  { intros l1 H1. rewrite width_app. cbn [width fold_right]. change (tok_width num TStar) with 1. unfold jterm. lia. }
  assert (Whole : okn ([] ++ [sgn; TNum 1; TStar; TRef AR (eq + 1)]) -> width num [sgn; TNum 1; TStar; TRef AR (eq + 1)] <= jterm).
  { intros K. assert (N1 : List.length (num 1) <= w) by (apply K; destruct Sg as [-> | ->]; left; reflexivity).
    cbn [width fold_right]. change (tok_width num TStar) with 1. change (tok_width num (TNum 1)) with (List.length (num 1)). unfold jterm. lia. }
  destruct TB as [(a & b & Iab & U) | (a & Ia & U)].
  - assert (O1 : isone sf = true) by (apply isone_eq, (U reactant); assumption).
    assert (Lrs : List.length rs <= 2) by (apply (sub_two a b); [exact ND | intros x I; apply Iab, Mem, I]).
    assert (Ur : forall r, In r rs -> forall q, dget2 r eq loss = Some q -> q == 1) by (intros r I q G; apply (U r q); [apply Mem; exact I | exact G]).
    (* the other reactant, if any *)
    assert (Sh : (first = true /\ l0 = []) \/ (first = false /\ exists i, i + 1 < 10 ^ D /\ l0 = [sgn; TNum 1; TStar; TRef AY (i + 1)])).
    { destruct rs as [|x [|y [|z rs']]]; [destruct Hir | | | cbn in Lrs; lia].
      - destruct Hir as [<- | []]. cbn [foldM] in EF. rewrite jac_factor_true in EF by (exact O1 || apply eqb_refl). cbn [bind] in EF.
        left. split; congruence.
      - assert (Nxy : x <> y) by (apply NoDup_cons_iff in ND; intros ->; apply (proj1 ND); left; reflexivity).
        cbn [foldM] in EF. destruct Hir as [<- | [<- | []]].
        + rewrite jac_factor_true in EF by (exact O1 || apply eqb_refl). cbn [bind] in EF.
          destruct (jac_factor 1 sp2a loss sgn eq x sf (true, []) y) as [acc'|] eqn:E2; [|discriminate]. cbn [bind] in EF. assert (acc' = (first, l0)) by congruence. subst acc'.
          destruct (jac_other sgn eq x sf [] y _ Sg (Ur y (or_intror (or_introl eq_refl))) O1 E2) as [X | (_ & i & Hi & X)]; [left | right]; [split; congruence|].
          split; [congruence|]. exists i. split; [exact Hi | cbn [app] in X; congruence].
        + destruct (jac_factor 1 sp2a loss sgn eq y sf (true, []) x) as [[f1 l1]|] eqn:E2; [|discriminate]. cbn [bind] in EF.
          rewrite jac_factor_true in EF by (exact O1 || apply eqb_refl). cbn [bind] in EF.
          assert (X0 : (f1, l1) = (first, l0)) by congruence. rewrite X0 in E2.
          destruct (jac_other sgn eq y sf [] x _ Sg (Ur x (or_introl eq_refl)) O1 E2) as [X | (_ & i & Hi & X)]; [left | right]; [split; congruence|].
          split; [congruence|]. exists i. split; [exact Hi | cbn [app] in X; congruence]. }
    destruct Sh as [[-> ->] | [-> (i & Hi & ->)]].
    + split; [apply Whole; exact O | intros I; cbn in I; intuition congruence].
    + assert (N1 : List.length (num 1) <= w) by (apply O; destruct Sg as [-> | ->]; left; reflexivity).
      split; [apply Wtail, width_lead; assumption | intros I; cbn in I; intuition congruence].
  - assert (Ers : rs = [reactant]).
    { assert (L1 : List.length rs <= 1) by (apply (NoDup_incl_length (l' := [a]) ND); intros x I; apply Ia, Mem, I).
      destruct rs as [|x [|]]; [destruct Hir | | cbn in L1; lia]. destruct Hir as [<- | []]. reflexivity. }
    assert (Ear : a = reactant) by (destruct (Ia _ Hin) as [X | []]; exact X). subst a.
    rewrite Ers in EF. cbn [foldM] in EF. unfold jac_factor in EF. destruct (eqb reactant hv).
    { cbn [bind] in EF. assert (E0 : (true, @nil tok) = (first, l0)) by congruence. injection E0 as <- <-. split; [apply Whole; exact O | intros I; cbn in I; intuition congruence]. }
    rewrite eqb_refl in EF. destruct (isone sf) eqn:O1.
    { cbn [bind] in EF. assert (E0 : (true, @nil tok) = (first, l0)) by congruence. injection E0 as <- <-. split; [apply Whole; exact O | intros I; cbn in I; intuition congruence]. }
    destruct (dget reactant sp2a) as [i|] eqn:Gi; [|discriminate]. cbn [key bind] in EF.
    destruct (U sf Gs) as [X | X]; [rewrite (isone_eq _ X) in O1; discriminate|]. apply Qeq_bool_iff in X. rewrite X in EF. cbn [bind app] in EF.
    assert (E0 : (false, [sgn; TNum sf; TStar; TRef AY (i + 1)]) = (first, l0)) by congruence. injection E0 as <- <-.
    assert (N1 : List.length (num sf) <= w) by (apply O; destruct Sg as [-> | ->]; left; reflexivity).
    split; [|intros I; cbn in I; intuition congruence]. apply Wtail. pose proof (below_get _ _ _ _ Bsp Gi) as Hi.
    pose proof (width_ref num AY (i + 1) D (dec_width _ _ D0 Hi)) as Y. cbn [width fold_right]. change (tok_width num TStar) with 1.
    change (tok_width num (TNum sf)) with (List.length (num sf)). lia.
Qed.

Definition jroom := 13 + 2 * D + 4 * jterm + 3 <= 132.
Notation jat flag a := (flag <= 4 /\ a <= 13 + 2 * D + flag * jterm).
Lemma jac_terms_width sgn s reactant gainp : jroom -> is_signt sgn -> forall eqs flag a l flag', Forall (fun e => two_body e /\ e + 1 < 10 ^ D) eqs ->
  jac_terms 1 sp2a rt loss ord true sgn s reactant gainp flag eqs = Ok (l, flag') -> okn l -> jat flag a ->
  keeps num a l /\ jat flag' (ends num a l).
Proof.
  intros R Sg. induction eqs as [|e eqs IH]; intros flag a l flag' B H O A.
  - cbn [jac_terms] in H. injection H as <- <-. cbn [keeps ends]. split; [exact I | exact A].
  - cbn [jac_terms] in H. destruct (inb reactant (reactants_of rt e)) eqn:Hin; [|exact (IH _ _ _ _ (Forall_inv_tail B) H O A)].
    destruct (cont 3 flag) as [c flag1] eqn:Ec.
    destruct (jac_term 1 sp2a rt loss ord sgn s reactant gainp e) as [t|] eqn:Et; [|discriminate]. cbn [bind] in H.
    destruct (jac_terms 1 sp2a rt loss ord true sgn s reactant gainp (S flag1) eqs) as [[rest flag2]|] eqn:Er; [|discriminate]. cbn [bind] in H.
    assert (El : l = (c ++ t) ++ rest) by (rewrite <- app_assoc; congruence). assert (flag2 = flag') by congruence. subst l flag2. clear H.
    pose proof (okn_l _ _ O) as O1. pose proof (okn_r _ _ O) as O2. pose proof (okn_r _ _ O1) as O3.
    destruct (Forall_inv B) as [TB He]. destruct (jac_term_width _ _ _ _ _ _ Sg TB He Hin Et O3) as [Wt Nt].
    assert (Cs : keeps num a c /\ flag1 <= 3 /\ ends num a c <= 13 + 2 * D + flag1 * jterm).
    { destruct A as [F A]. unfold jroom in R. unfold cont in Ec. destruct (3 <? flag) eqn:X.
      - injection Ec as <- <-. cbn [keeps ends]. apply Nat.ltb_lt in X. replace flag with 4 in A by lia. repeat split; try lia.
      - injection Ec as <- <-. apply Nat.ltb_ge in X. cbn [keeps ends]. repeat split; assumption || lia. }
    destruct Cs as (K1 & F1 & A1). destruct (unbroken_keeps num t Nt (ends num a c)) as [K2 E2].
    assert (A2 : jat (S flag1) (ends num (ends num a c) t)) by (rewrite E2; split; [lia | cbn [Nat.mul]; lia]).
    destruct (IH (S flag1) _ _ _ (Forall_inv_tail B) Er O2 A2) as (K3 & A3). match type of A3 with context [ends num ?b ?r] => pattern (ends num b r) in A3 end. match type of A3 with ?P _ => exact (three_parts P _ _ _ _ K1 K2 K3 A3) end.
Qed.
End Bounds.

(* ------------------------------------------------------------------ *)
(* The heads *)
Lemma comment_fits s : (forall r, s <> "$"%char :: r) -> fits ("!"%char :: s) = true.
Proof.
  intros H. unfold fits. assert (E : is_comment ("!"%char :: s) = true); [|rewrite E; reflexivity].
  unfold is_comment. change (lstrip is_space ("!"%char :: s)) with ("!"%char :: s). destruct s as [|c s]; [reflexivity|].
  change (prefix_rest omp_mark ("!"%char :: c :: s)) with (if Ascii.eqb "$" c then prefix_rest (s_ "OMP") s else None).
  destruct (Ascii.eqb_spec "$" c) as [<-|_]; [exfalso; exact (H s eq_refl) | reflexivity].
Qed.
Lemma header_fits rule titles date : starts_dollar rule = false -> forallb (fun t => negb (starts_dollar t)) titles = true ->
  Forall (fun l => fits l = true) (header "!" rule titles date).
Proof.
  intros Hr Ht. unfold header. apply Forall_app. split.
  - apply Forall_map. rewrite Forall_forall. intros l I. apply comment_fits. intros r E.
    assert (A : forallb (fun t => negb (starts_dollar t)) ([rule] ++ titles ++ licence ++ [rule]) = true).
    { rewrite !forallb_app. cbn [forallb]. rewrite Hr, Ht. reflexivity. }
    rewrite forallb_forall in A. specialize (A l I). unfold starts_dollar in A. rewrite E in A. discriminate A.
  - apply Forall_cons; [|constructor]. apply comment_fits. intros r E. discriminate E.
Qed.
Lemma fits_decl a b k : List.length (dec k) <= 20 -> List.length (s_ a) + List.length (s_ b) <= 112 -> fits (s_ a ++ dec k ++ s_ b) = true.
Proof. intros H1 H2. apply fits_short. rewrite !app_length. lia. Qed.
Lemma fits_decl2 a b k : List.length (dec k) <= 20 -> List.length (s_ a) + List.length (s_ b) <= 91 -> fits (s_ a ++ dec k ++ s_ "," ++ dec k ++ s_ b) = true.
Proof. intros H1 H2. apply fits_short. rewrite !app_length. change (List.length (s_ ",")) with 1. lia. Qed.
Ltac fits_heads Hn Hs := repeat (apply Forall_cons; [first
  [ match goal with |- fits (_ ++ dec _ ++ s_ "," ++ _) = true => apply fits_decl2; [assumption | vm_compute; lia] end
  | match goal with |- fits (_ ++ _) = true => apply fits_decl; [assumption | vm_compute; lia] end | reflexivity]|]); constructor.
Lemma decimals n D : 0 < D -> D <= 20 -> n < 10 ^ D -> List.length (dec n) <= 20.
Proof. intros H0 H1 H. pose proof (dec_width n D H0 H). lia. Qed.

(* Files written from tables. *)
Section Files.
Variable num : Q -> str.
Variable date : str.
Variables D w : nat.
Hypothesis D0 : 0 < D.
Hypothesis D1 : D <= 20.
Hypothesis Hd : one_line date.

Lemma reactants_fine omp n sp2a rt loss text p k : write_reactants_fortran num date omp n sp2a rt loss = Ok text ->
  gen_reactants_fortran omp n sp2a rt loss = Ok p -> prints num p -> printed_within num w p ->
  n < 10 ^ D -> below D sp2a -> (forall eq, eq < n -> List.length (row_of eq rt) <= k) -> 21 + D + k * (D + 6 + w) <= 132 -> fine text.
Proof.
  intros W G P Pw Hn B Hk R. unfold write_reactants_fortran in W. unfold gen_reactants_fortran in G.
  destruct (mapM (react_line 1 sp2a loss rt) (seq 0 n)) as [ls|e] eqn:M; cbn [bind] in *; [|discriminate W].
  assert (W' : unlines (reactants_fortran_head date n (List.length sp2a)) ++
      omp_text omp (s_ "y,reactants_conc") (fun l => chunk_text num cell_text1 false (s_ "reactants_conc") [] l ++ [NL]) ls ++
      unlines [s_ "end subroutine"] = text) by congruence. assert (Ep : p = omp_frame omp ls) by congruence. clear W G. subst p text.
  pose proof (decimals _ _ D0 D1 Hn) as X1. pose proof (decimals _ _ D0 D1 (proj1 B)) as X2. apply short_fine. apply short_app.
  { apply short_unlines; unfold reactants_fortran_head; apply Forall_app; split.
    - apply header_one_line; [discriminate | reflexivity | reflexivity | exact Hd].
    - heads.
    - apply header_fits; reflexivity.
    - fits_heads X1 X2. }
  apply short_app; [|apply short_unlines; repeat (apply Forall_cons; [first [apply one_line_dec; reflexivity | reflexivity]|]); constructor].
  apply short_omp; [apply one_line_dec; reflexivity | vm_compute; lia|]. intros l I.
  assert (Nl : forall q, In q (numerals l) -> In q (numerals (omp_frame omp ls))) by (intros q J; rewrite numerals_frame; eapply numerals_In; eauto).
  apply mapM_inv in M. assert (Ex : exists eq, In eq (seq 0 n) /\ react_line 1 sp2a loss rt eq = Ok l).
  { clear - M I. induction M as [|a b l1 l2 H _ IH]; [destruct I|]. destruct I as [<-|I]; [exists a; split; [left; reflexivity | exact H]|].
    destruct (IH I) as (e & E1 & E2). exists e. split; [right; exact E1 | exact E2]. }
  destruct Ex as (eq & Ie & El). apply in_seq in Ie. unfold react_line in El.
  destruct (foldM (react_step 1 sp2a loss eq) (row_of eq rt) []) as [t|] eqn:F; [|discriminate]. cbn [bind] in El.
  destruct (react_width num D w D0 sp2a loss eq B _ _ _ F) as (t' & Et & Nb & Wt). cbn [app] in Et. subst t'.
  destruct t as [|x t]; [assert (l = []) by congruence; subst l; cbn [chunk_text flat_map app]; exists [[]]; split; [apply (lines_one []), one_line_dec; reflexivity | apply Forall_cons; [reflexivity | constructor]]|].
  assert (El' : l = [Assign (eq + 1) (x :: t)]) by congruence. clear El. subst l. cbn [chunk_text flat_map]. rewrite !app_nil_r.
  change (assign_text num cell_text1 false (s_ "reactants_conc") (eq + 1) (x :: t) ++ [NL]) with (assign_text num cell_text1 false (s_ "reactants_conc") (eq + 1) (x :: t) ++ [] ++ [NL]).
  assert (Nt : forall q, In q (toks_numerals (x :: t)) -> In q (numerals (omp_frame omp ls))).
  { intros q J. apply Nl. unfold numerals. cbn [flat_map]. rewrite app_nil_r. exact J. }
  destruct (unbroken_keeps num _ Nb (7 + List.length (s_ "reactants_conc") + List.length (cell_text1 (eq + 1)))) as [K E].
  apply short_assign; [apply cell_text1_calm | apply calm_dec; reflexivity | constructor | intros q J; apply P, Nt, J | exact K|].
  rewrite E. assert (Y : width num (x :: t) <= List.length (row_of eq rt) * (D + 6 + w)) by (apply Wt; intros q J; apply Pw, Nt, J).
  assert (Z : List.length (cell_text1 (eq + 1)) <= D) by (apply dec_width; [exact D0 | lia]).
  assert (V : List.length (row_of eq rt) * (D + 6 + w) <= k * (D + 6 + w)) by (apply Nat.mul_le_mono_r, Hk; lia).
  change (List.length (s_ "reactants_conc")) with 14. change (List.length (@nil ascii)) with 0. lia.
Qed.

Lemma srow_keys (d : table) s B : (forall e, In e (dkeys (srow s d)) -> e + 1 < B) -> Forall (fun p => fst p + 1 < B) (srow s d).
Proof. intros H. apply Forall_forall. intros p I. apply H. unfold dkeys. apply in_map. exact I. Qed.

Lemma dydt_fine omp n nsp sp2a loss gain : prints num (gen_loss_gain_fortran omp sp2a loss gain) -> printed_within num w (gen_loss_gain_fortran omp sp2a loss gain) ->
  n < 10 ^ D -> nsp < 10 ^ D -> below D sp2a -> (forall s e, In e (dkeys (srow s loss)) \/ In e (dkeys (srow s gain)) -> e < n) -> D + w <= 13 ->
  fine (write_loss_gain_fortran num date omp n nsp sp2a loss gain).
Proof.
  intros P Pw Hn Hs B Hk R. unfold write_loss_gain_fortran. unfold gen_loss_gain_fortran in *.
  pose proof (decimals _ _ D0 D1 Hn) as X1. pose proof (decimals _ _ D0 D1 Hs) as X2. apply short_fine. apply short_app.
  { apply short_unlines; unfold loss_gain_fortran_head; apply Forall_app; split.
    - apply header_one_line; [discriminate | reflexivity | reflexivity | exact Hd].
    - heads.
    - apply header_fits; reflexivity.
    - fits_heads X1 X2. }
  apply short_app; [|apply short_unlines; repeat (apply Forall_cons; [first [apply one_line_dec; reflexivity | reflexivity]|]); constructor].
  apply short_omp; [apply one_line_dec; reflexivity | vm_compute; lia|]. intros l I.
  assert (Nl : forall q, In q (numerals l) -> In q (numerals (omp_frame omp (map (lg_line_fortran loss gain) sp2a)))) by (intros q J; rewrite numerals_frame; eapply numerals_In; eauto).
  apply in_map_iff in I. destruct I as ([s i] & El & Is). unfold lg_line_fortran in El.
  assert (Blank : short_text (chunk_text num cell_text1 false (s_ "loss_gain_array") [] [] ++ s_ " " ++ [NL])).
  { cbn [chunk_text flat_map app]. exists [s_ " "]. split; [apply lines_one, one_line_dec; reflexivity | apply Forall_cons; [reflexivity | constructor]]. }
  destruct (inb s excluded); [subst l; exact Blank|]. destruct (dmem s loss || dmem s gain); [|subst l; exact Blank]. clear Blank.
  destruct (losses_fortran 0 true (srow s loss)) as [t flag] eqn:F. subst l. cbn [chunk_text flat_map]. rewrite !app_nil_r.
  assert (Nt : forall q, In q (toks_numerals (t ++ gains_fortran flag (srow s gain))) -> In q (numerals (omp_frame omp (map (lg_line_fortran loss gain) sp2a)))).
  { intros q J. apply Nl. unfold numerals. cbn [flat_map]. rewrite app_nil_r. exact J. }
  assert (O : forall q, In q (toks_numerals (t ++ gains_fortran flag (srow s gain))) -> List.length (num q) <= w) by (intros q J; apply Pw, Nt, J).
  assert (Rm : room D w) by (unfold room; lia).
  assert (Z : List.length (cell_text1 (i + 1)) <= D) by (apply dec_width; [exact D0 | destruct B as [_ B]; rewrite Forall_forall in B; exact (B _ Is)]).
  set (a := 7 + List.length (s_ "loss_gain_array") + List.length (cell_text1 (i + 1))) in *.
  assert (Ha : a <= 22 + D) by (unfold a; change (List.length (s_ "loss_gain_array")) with 15; lia).
  destruct (losses_width num D w D0 Rm (srow s loss) 0 true a t flag) as (K1 & A1).
  { apply srow_keys. intros e J. specialize (Hk s e (or_introl J)). lia. }
  { exact F. }
  { exact (okn_l num w _ _ O). }
  { split; [lia|]. cbn [Nat.mul]. lia. }
  destruct (gains_width num D w D0 Rm (srow s gain) flag (ends num a t)) as (K2 & flag' & A2).
  { apply srow_keys. intros e J. specialize (Hk s e (or_intror J)). lia. }
  { exact (okn_r num w _ _ O). }
  { exact A1. }
  apply short_assign; [apply cell_text1_calm | apply calm_dec; reflexivity | repeat constructor | intros q J; apply P, Nt, J | |].
  - apply keeps_app. split; [exact K1 | exact K2].
  - rewrite ends_app. change (7 + List.length (s_ "loss_gain_array") + List.length (cell_text1 (i + 1))) with a. destruct A2 as [F2 A2]. change (List.length (s_ " ")) with 1.
    assert (flag' * (D + 5 + w) <= 5 * (D + 5 + w)) by (apply Nat.mul_le_mono_r; exact F2). unfold room in Rm. lia.
Qed.

Lemma jacobian_fine ord omp n nsp sp2a rt loss gain text p : is_set_order ord ->
  write_jacobian_fortran num date ord omp n nsp sp2a rt loss gain = Ok text ->
  gen_jacobian_fortran ord omp sp2a rt loss gain = Ok p -> prints num p -> printed_within num w p ->
  n < 10 ^ D -> nsp < 10 ^ D -> below D sp2a ->
  (forall s e, In e (dkeys (srow s loss)) \/ In e (dkeys (srow s gain)) -> two_body rt loss e /\ e < n) ->
  10 * D + 4 * w <= 80 -> fine text.
Proof.
  intros Ho W G P Pw Hn Hs B Hk R. unfold write_jacobian_fortran in W. unfold gen_jacobian_fortran in G.
  destruct (mapM (jac_row 1 sp2a rt loss gain ord true) sp2a) as [ls|e] eqn:M; cbn [bind] in *; [|discriminate W].
  assert (W' : unlines (jacobian_fortran_head date n nsp) ++
      omp_text omp (s_ "r,y,dy_dy") (chunk_text num cell_text2 false (s_ "dy_dy") (s_ " " ++ [NL])) ls ++
      unlines [s_ "end subroutine "] = text) by congruence. assert (Ep : p = omp_frame omp ls) by congruence. clear W G. subst p text.
  pose proof (decimals _ _ D0 D1 Hn) as X1. pose proof (decimals _ _ D0 D1 Hs) as X2. apply short_fine. apply short_app.
  { apply short_unlines; unfold jacobian_fortran_head; apply Forall_app; split.
    - apply header_one_line; [discriminate | reflexivity | reflexivity | exact Hd].
    - heads.
    - apply header_fits; reflexivity.
    - fits_heads X1 X2. }
  apply short_app; [|apply short_unlines; repeat (apply Forall_cons; [first [apply one_line_dec; reflexivity | reflexivity]|]); constructor].
  apply short_omp; [apply one_line_dec; reflexivity | vm_compute; lia|]. intros l I.
  assert (Nl : forall q, In q (numerals l) -> In q (numerals (omp_frame omp ls))) by (intros q J; rewrite numerals_frame; eapply numerals_In; eauto).
  assert (Ex : exists s i, In (s, i) sp2a /\ jac_row 1 sp2a rt loss gain ord true (s, i) = Ok l).
  { apply mapM_inv in M. clear - M I. revert M. generalize sp2a at 2 3. intros sp M. induction M as [|[s i] b l1 l2 H _ IH]; [destruct I|].
    destruct I as [<-|I]; [exists s, i; split; [left; reflexivity | exact H]|]. destruct (IH I) as (s' & i' & E1 & E2). exists s', i'. split; [right; exact E1 | exact E2]. }
  destruct Ex as (s & i & Is & El). unfold jac_row in El. destruct (inb s excluded); [assert (l = []) by congruence; subst l; apply short_nil|].
  match type of El with mapM ?f ?r = _ => set (F := f) in El; generalize dependent r end. intros fl El.
  apply mapM_inv in El. unfold chunk_text. apply short_flat. intros it J.
  assert (Ex : exists r, F r = Ok it).
  { clear - El J. induction El as [|a b l1 l2 H _ IH]; [destruct J|]. destruct J as [<-|J]; [exists a; exact H | exact (IH J)]. }
  destruct Ex as (r & Er). unfold F in Er. destruct (dget r sp2a) as [j|] eqn:Gj; [|discriminate]. cbn [key bind] in Er.
  destruct (jac_terms 1 sp2a rt loss ord true TMinus s r false 0 (dkeys (srow s loss))) as [[tl flag]|] eqn:T1; [|discriminate]. cbn [bind] in Er.
  destruct (jac_terms 1 sp2a rt loss ord true TPlus s r true flag (dkeys (srow s gain))) as [[tg flag']|] eqn:T2; [|discriminate]. cbn [bind] in Er.
  assert (Ei : it = Assign (i + 1, j + 1) (tl ++ tg)) by congruence. subst it. clear Er.
  assert (Nt : forall q, In q (toks_numerals (tl ++ tg)) -> In q (numerals (omp_frame omp ls))).
  { intros q K. apply Nl. unfold numerals. apply in_flat_map. eexists. split; [exact J | exact K]. }
  assert (O : forall q, In q (toks_numerals (tl ++ tg)) -> List.length (num q) <= w) by (intros q K; apply Pw, Nt, K).
  assert (Rm : jroom D w) by (unfold jroom, jterm; lia).
  assert (Z1 : List.length (dec (i + 1)) <= D) by (apply dec_width; [exact D0 | destruct B as [_ B]; rewrite Forall_forall in B; exact (B _ Is)]).
  assert (Z2 : List.length (dec (j + 1)) <= D) by (apply dec_width; [exact D0 | exact (below_get _ _ _ _ B Gj)]).
  set (a := 7 + List.length (s_ "dy_dy") + List.length (cell_text2 (i + 1, j + 1))) in *.
  assert (Ha : a <= 13 + 2 * D).
  { unfold a, cell_text2. cbn [fst snd]. rewrite !app_length. change (List.length (s_ "dy_dy")) with 5. change (List.length (s_ ",")) with 1. lia. }
  destruct (jac_terms_width num D w D0 sp2a rt loss ord Ho B TMinus s r false Rm (or_intror eq_refl) (dkeys (srow s loss)) 0 a tl flag) as (K1 & A1).
  { apply Forall_forall. intros e K. destruct (Hk s e (or_introl K)) as [U V]. split; [exact U | lia]. }
  { exact T1. }
  { exact (okn_l num w _ _ O). }
  { split; [lia|]. cbn [Nat.mul]. lia. }
  destruct (jac_terms_width num D w D0 sp2a rt loss ord Ho B TPlus s r true Rm (or_introl eq_refl) (dkeys (srow s gain)) flag (ends num a tl) tg flag') as (K2 & A2).
  { apply Forall_forall. intros e K. destruct (Hk s e (or_intror K)) as [U V]. split; [exact U | lia]. }
  { exact T2. }
  { exact (okn_r num w _ _ O). }
  { exact A1. }
  apply short_assign; [apply cell_text2_calm | apply calm_dec; reflexivity | repeat constructor | intros q K; apply P, Nt, K | |].
  - apply keeps_app. split; [exact K1 | exact K2].
  - rewrite ends_app. change (7 + List.length (s_ "dy_dy") + List.length (cell_text2 (i + 1, j + 1))) with a. destruct A2 as [F2 A2]. change (List.length (s_ " ")) with 1.
    assert (flag' * jterm D w <= 4 * jterm D w) by (apply Nat.mul_le_mono_r; exact F2). unfold jroom in Rm. lia.
Qed.
End Files.

(* ------------------------------------------------------------------ *)
(* The tables of a mechanism. *)
Lemma interp_below D m : List.length (species m) < 10 ^ D -> below D (p_sp2a (interp m)).
Proof.
  intros H. split; [rewrite sp2a_length; exact H|]. apply Forall_forall. intros [s i] I.
  pose proof (wf_range _ _ _ _ _ (interp_lg_wf m) s i I) as X. cbn [snd]. lia.
Qed.
Lemma interp_keys m s e : In e (dkeys (srow s (p_loss (interp m)))) \/ In e (dkeys (srow s (p_gain (interp m)))) -> e < List.length m.
Proof. intros [I|I]; [exact (proj2 (wf_loss _ _ _ _ _ (interp_lg_wf m) s) e I) | exact (proj2 (wf_gain _ _ _ _ _ (interp_lg_wf m) s) e I)]. Qed.
Lemma interp_row m k : Forall (fun r => List.length (names (lhs r)) <= k) m -> forall eq, eq < List.length m -> List.length (row_of eq (p_reac (interp m))) <= k.
Proof.
  intros F eq H. destruct (nth_error m eq) as [r|] eqn:E; [|apply nth_error_None in E; lia].
  pose proof (reactants_of_interp m eq r E) as X. unfold reactants_of in X. apply (f_equal (@List.length str)) in X. rewrite map_length in X. rewrite X.
  rewrite Forall_forall in F. apply F. eapply nth_error_In, E.
Qed.

(* Fortran files of a mechanism with fewer than 10^D reactions and species
   whose coefficients are printed with at most w characters. *)
Theorem C81_dydt_fits : forall m text num date D w omp st, written m text -> one_line date ->
  extract_mechanism text = Ok (Z.of_nat (List.length m), st) ->
  0 < D -> D <= 20 -> List.length m < 10 ^ D -> List.length (first_seen (reading_order m)) < 10 ^ D ->
  prints num (gen_loss_gain_fortran omp (p_sp2a st) (p_loss st) (p_gain st)) ->
  printed_within num w (gen_loss_gain_fortran omp (p_sp2a st) (p_loss st) (p_gain st)) ->
  D + w <= 13 ->
  fine (write_loss_gain_fortran num date omp (List.length m) (species_count st) (p_sp2a st) (p_loss st) (p_gain st)).
Proof.
  intros m text num date D w omp st W Hd E D0 D1 Hm Hs P Pw R. rewrite (written_extract _ _ W) in E. assert (st = interp m) by congruence. subst st.
  eapply dydt_fine; try eassumption.
  - unfold species_count. rewrite sp2a_length. exact Hs.
  - apply interp_below. exact Hs.
  - intros s e I. exact (interp_keys m s e I).
Qed.
Theorem C81_reactants_fits : forall m text num date D w k omp st p t, written m text -> one_line date ->
  extract_mechanism text = Ok (Z.of_nat (List.length m), st) ->
  0 < D -> D <= 20 -> List.length m < 10 ^ D -> List.length (first_seen (reading_order m)) < 10 ^ D ->
  Forall (fun r => List.length (names (lhs r)) <= k) m ->
  gen_reactants_fortran omp (List.length m) (p_sp2a st) (p_reac st) (p_loss st) = Ok p -> prints num p -> printed_within num w p ->
  write_reactants_fortran num date omp (List.length m) (p_sp2a st) (p_reac st) (p_loss st) = Ok t ->
  21 + D + k * (D + 6 + w) <= 132 -> fine t.
Proof.
  intros m text num date D w k omp st p t W Hd E D0 D1 Hm Hs Hk G P Pw Wt R. rewrite (written_extract _ _ W) in E. assert (st = interp m) by congruence. subst st.
  eapply reactants_fine; try eassumption.
  - apply interp_below. exact Hs.
  - apply interp_row. exact Hk.
Qed.
(* The Jacobian: reactions of at most two species. *)
Definition at_most_bimolecular (r : reaction) : Prop :=
  (exists a b, incl (names (lhs r)) [a; b] /\ forall s, In s (names (lhs r)) -> total s (lhs r) == 1) \/
  (exists a, incl (names (lhs r)) [a] /\ (total a (lhs r) == 1 \/ total a (lhs r) == 2)).
Lemma interp_two_body m e r : nth_error m e = Some r -> at_most_bimolecular r -> two_body (p_reac (interp m)) (p_loss (interp m)) e.
Proof.
  intros E B. assert (L : forall s q, dget2 s e (p_loss (interp m)) = Some q -> q == total s (lhs r)).
  { intros s q G. pose proof (interp_loss m s e) as X. rewrite E, G in X. exact (proj2 X). }
  unfold two_body. rewrite (reactants_of_interp m e r E). destruct B as [(a & b & I & U) | (a & I & U)].
  - left. exists a, b. split; [exact I|]. intros s q J G. rewrite (L s q G). exact (U s J).
  - right. exists a. split; [exact I|]. intros q G. rewrite (L a q G). exact U.
Qed.
Theorem C81_jacobian_fits : forall m text num date ord D w omp st p t, written m text -> one_line date -> is_set_order ord ->
  extract_mechanism text = Ok (Z.of_nat (List.length m), st) ->
  0 < D -> D <= 20 -> List.length m < 10 ^ D -> List.length (first_seen (reading_order m)) < 10 ^ D ->
  Forall at_most_bimolecular m ->
  gen_jacobian_fortran ord omp (p_sp2a st) (p_reac st) (p_loss st) (p_gain st) = Ok p -> prints num p -> printed_within num w p ->
  write_jacobian_fortran num date ord omp (List.length m) (species_count st) (p_sp2a st) (p_reac st) (p_loss st) (p_gain st) = Ok t ->
  10 * D + 4 * w <= 80 -> fine t.
Proof.
  intros m text num date ord D w omp st p t W Hd Ho E D0 D1 Hm Hs Hb G P Pw Wt R. rewrite (written_extract _ _ W) in E. assert (st = interp m) by congruence. subst st.
  eapply jacobian_fine; try eassumption.
  - unfold species_count. rewrite sp2a_length. exact Hs.
  - apply interp_below. exact Hs.
  - intros s e I. pose proof (interp_keys m s e I) as X. split; [|exact X]. destruct (nth_error m e) as [r|] eqn:En; [|apply nth_error_None in En; lia].
    apply (interp_two_body m e r En). rewrite Forall_forall in Hb. apply Hb. eapply nth_error_In, En.
Qed.

(* Everything together: up to 99999 reactions and species, at most six
   reactants in a reaction, coefficients of at most six characters. *)
Theorem C81_partial : forall m text num date, written m text -> one_line date -> first_seen (reading_order m) <> [] ->
  List.length m < 10 ^ 5 -> List.length (first_seen (reading_order m)) < 10 ^ 5 -> Forall (fun r => List.length (names (lhs r)) <= 6) m ->
  Forall unit_coefficients m -> Forall (fun r => NoDup (names (rhs r)) /\ ~ In (last_reactant r) (names (rhs r))) m ->
  Forall distinct_reactants m ->
  exists st, extract_mechanism text = Ok (Z.of_nat (List.length m), st) /\
  forall o1 o2, exists p1 t1,
    gen_reactants_fortran o1 (List.length m) (p_sp2a st) (p_reac st) (p_loss st) = Ok p1 /\
    write_reactants_fortran num date o1 (List.length m) (p_sp2a st) (p_reac st) (p_loss st) = Ok t1 /\
    let t2 := write_loss_gain_fortran num date o2 (List.length m) (species_count st) (p_sp2a st) (p_loss st) (p_gain st) in
    let p2 := gen_loss_gain_fortran o2 (p_sp2a st) (p_loss st) (p_gain st) in
    (prints num p1 -> prints num p2 -> printed_within num 6 p1 -> printed_within num 6 p2 ->
     exists s1 s2, read_fortran one_subscript t1 = Some s1 /\ read_fortran one_subscript t2 = Some s2 /\
     forall tr1 tr2, runs_as o1 (f_prog s1) tr1 -> runs_as o2 (f_prog s2) tr2 ->
     forall rnd m0 ks y, is_rounding rnd -> List.length ks = List.length m -> List.length y = species_count st -> nonneg y ->
      exists v, rhs_fortran rnd tr1 tr2 (List.length m) (species_count st) m0 ks y = Some v /\
        forall s i, dget s (p_sp2a st) = Some i ->
          nth_error v i = Some (if inb s bath then 0%R else kinetics m ks (conc_of (p_sp2a st) y) s)).
Proof.
  intros m text num date W Hd Hne Hm Hs Hk Hu Hp Hr.
  destruct (C80_fortran_partial m text num date W Hd Hne Hu Hp Hr) as (st & E & X). exists st. split; [exact E|]. intros o1 o2.
  destruct (X o1 o2) as (p1 & t1 & G & Wt & Y). exists p1, t1. split; [exact G|]. split; [exact Wt|]. cbv zeta. intros P1 P2 W1 W2. apply Y; [exact P1 | exact P2 | |].
  - eapply (C81_reactants_fits m text num date 5 6 6); try eassumption; lia.
  - eapply (C81_dydt_fits m text num date 5 6); try eassumption; lia.
Qed.

(* The hypotheses meet: a mechanism with fractional coefficients. *)
Definition repr (q : Q) : str := if isone q then s_ "1.0" else if Qeq_bool q 2 then s_ "2.0" else s_ "0.65".
Definition yield_text : str := s_ "{1.} CH3O2 + NO = CH3O + 0.65NO2 : 2.3D-12 ;
{2.} HCHO + hv = CO + 2HO2 : J(11) ;
{3.} CH3O2 = CH3O : 1.82 ;
".
Definition the_state (t : str) : pstate := match extract_mechanism t with Ok (_, st) => st | Err _ => pstate0 end.
Definition once_each : set_order := fun _ l => nodup (list_eq_dec ascii_dec) l.
Lemma once_each_ok : is_set_order once_each.
Proof. intros st l. split; [apply NoDup_nodup | intros x; apply nodup_In]. Qed.
Lemma repr_ok q : In q [1; 2; 65 # 100]%Q -> float_text (repr q) q.
Proof.
  intros [<- | [<- | [<- | []]]].
  - exists (s_ "1.0"), []. split; [reflexivity|]. split; [split; [discriminate | repeat (apply Forall_cons; [first [left; reflexivity | right; reflexivity]|]); constructor]|].
    split; [left; reflexivity|]. eexists. split; [vm_compute; reflexivity | reflexivity].
  - exists (s_ "2.0"), []. split; [reflexivity|]. split; [split; [discriminate | repeat (apply Forall_cons; [first [left; reflexivity | right; reflexivity]|]); constructor]|].
    split; [left; reflexivity|]. eexists. split; [vm_compute; reflexivity | reflexivity].
  - exists (s_ "0.65"), []. split; [reflexivity|]. split; [split; [discriminate | repeat (apply Forall_cons; [first [left; reflexivity | right; reflexivity]|]); constructor]|].
    split; [left; reflexivity|]. eexists. split; [vm_compute; reflexivity | reflexivity].
Qed.
Definition date0 : str := s_ "2026-11-16 12:00:00.000000".
Example C79_hypotheses : let st := the_state yield_text in one_line date0 /\ prints repr (snd (gen_loss_gain_numba (p_sp2a st) (p_loss st) (p_gain st))) /\
  exists s, read_python one_subscript (write_loss_gain_numba repr date0 (p_sp2a st) (p_loss st) (p_gain st)) = Some s /\
    src_name s = s_ "dydt" /\ nth_error (src_prog s) 3 = Some (Assign 3 [TPlus; TRef AR 0; TStar; TNum (13 # 20)]).
Proof.
  cbv zeta. split; [apply one_line_dec; reflexivity|]. split.
  - intros q I. apply repr_ok. vm_compute in I |- *. tauto.
  - eexists. split; [vm_compute; reflexivity|]. split; reflexivity.
Qed.

(* The general claim fails: a reaction of thirty reactants is written on one
   line, and four reactions of the same six reactants give a Jacobian entry
   whose first line is too long. *)
Definition long_words : list wrx :=
  [ (map (fun i => "A"%char :: dec i) (seq 1 30), [s_ "P"], s_ "KA") ].
Definition wide_words : list wrx :=
  map (fun i => (map s_ ["A"; "B"; "C"; "D"; "E"; "F"]%string, ["P"%char :: dec i], s_ "KA")) (seq 1 4).
Theorem C81_refuted :
  (exists m text st t, written m text /\ extract_mechanism text = Ok (Z.of_nat (List.length m), st) /\
     Forall unit_coefficients m /\ Forall distinct_reactants m /\
     write_reactants_fortran repr date0 None (List.length m) (p_sp2a st) (p_reac st) (p_loss st) = Ok t /\
     read_fortran one_subscript t = None) /\
  (exists m text st p t, written m text /\ extract_mechanism text = Ok (Z.of_nat (List.length m), st) /\
     Forall unit_coefficients m /\ Forall distinct_reactants m /\
     gen_jacobian_fortran once_each None (p_sp2a st) (p_reac st) (p_loss st) (p_gain st) = Ok p /\ prints repr p /\
     write_jacobian_fortran repr date0 once_each None (List.length m) (species_count st) (p_sp2a st) (p_reac st) (p_loss st) (p_gain st) = Ok t /\
     read_fortran two_subscripts t = None).
Proof.
  assert (ND : forall l : list str, (if list_eq_dec (list_eq_dec ascii_dec) (nodup (list_eq_dec ascii_dec) l) l then true else false) = true -> NoDup l).
  { intros l H. match type of H with (if ?b then _ else _) = _ => destruct b as [E|] end; [rewrite <- E; apply NoDup_nodup | discriminate]. }
  split.
  - exists (map bare long_words), (show long_words).
    assert (W : written (map bare long_words) (show long_words)) by (apply bare_written; [discriminate | reflexivity]).
    eexists _, _. split; [exact W|]. split; [exact (written_extract _ _ W)|].
    split; [apply Forall_cons; [|constructor]; vm_compute; repeat constructor|].
    split; [apply Forall_cons; [|constructor]; split; [vm_compute; discriminate | apply ND; vm_compute; reflexivity]|].
    split; [vm_compute; reflexivity | vm_compute; reflexivity].
  - exists (map bare wide_words), (show wide_words).
    assert (W : written (map bare wide_words) (show wide_words)) by (apply bare_written; [discriminate | reflexivity]).
    eexists _, _, _. split; [exact W|]. split; [exact (written_extract _ _ W)|].
    split; [repeat (apply Forall_cons; [vm_compute; repeat constructor|]); constructor|].
    split; [repeat (apply Forall_cons; [split; [vm_compute; discriminate | apply ND; vm_compute; reflexivity]|]); constructor|].
    split; [vm_compute; reflexivity|]. split.
    + intros q I. apply repr_ok. vm_compute in I. left. intuition congruence.
    + split; [vm_compute; reflexivity | vm_compute; reflexivity].
Qed.

Example C81_hypotheses : exists st p1 t1, extract_mechanism (ParseShow.show gas_words) = Ok (Z.of_nat (List.length gas_mech), st) /\
  List.length gas_mech < 10 ^ 5 /\ List.length (first_seen (reading_order gas_mech)) < 10 ^ 5 /\ Forall (fun r => List.length (names (lhs r)) <= 6) gas_mech /\
  Forall at_most_bimolecular gas_mech /\
  gen_reactants_fortran (Some [1]) (List.length gas_mech) (p_sp2a st) (p_reac st) (p_loss st) = Ok p1 /\
  write_reactants_fortran repr date0 (Some [1]) (List.length gas_mech) (p_sp2a st) (p_reac st) (p_loss st) = Ok t1 /\
  prints repr p1 /\ prints repr (gen_loss_gain_fortran (Some [2]) (p_sp2a st) (p_loss st) (p_gain st)) /\
  printed_within repr 6 p1 /\ printed_within repr 6 (gen_loss_gain_fortran (Some [2]) (p_sp2a st) (p_loss st) (p_gain st)).
Proof.
  destruct C59_hypotheses as (W & _). eexists _, _, _. split; [exact (written_extract _ _ W)|].
  assert (B : forall n, n <= 8 -> n < 10 ^ 5). { intros n H. apply Nat.le_lt_trans with (1 := H). change 8 with (Nat.pow 8 1). apply (Nat.lt_le_trans _ (10 ^ 1)); [vm_compute; lia | apply Nat.pow_le_mono_r; lia]. }
  split; [apply B; vm_compute; lia|]. split; [apply B; vm_compute; lia|].
  split; [repeat (apply Forall_cons; [vm_compute; lia|]); constructor|].
  split.
  { apply Forall_cons; [|apply Forall_cons; [|apply Forall_cons; [|constructor]]].
    - left. exists (s_ "CH3O2"), (s_ "NO"). split; [vm_compute; tauto|]. intros s I. vm_compute in I. destruct I as [<- | [<- | []]]; reflexivity.
    - right. exists (s_ "HCHO"). split; [vm_compute; tauto | left; reflexivity].
    - right. exists (s_ "CH3O2"). split; [vm_compute; tauto | left; reflexivity]. }
  split; [vm_compute; reflexivity|]. split; [vm_compute; reflexivity|].
  split; [intros q I; vm_compute in I; destruct I|]. split; [intros q I; apply repr_ok; vm_compute in I; left; intuition congruence|].
  split; [intros q I; vm_compute in I; destruct I|]. intros q I. vm_compute in I. assert (E : (1 = q)%Q) by (cbv in I |- *; intuition congruence). subst q. vm_compute. lia.
Qed.

Print Assumptions C81_dydt_fits.
Print Assumptions C81_reactants_fits.
Print Assumptions C81_jacobian_fits.
Print Assumptions C81_partial.
Print Assumptions C81_refuted.
