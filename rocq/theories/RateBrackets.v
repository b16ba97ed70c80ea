(* What the bracket loop of convert_rate_mcm_numba computes. *)
From Coq Require Import List Bool Arith Lia Ascii String ZArith Permutation.
From Verif Require Import Base PyStr PyDict ModelRate RateText.
Import ListNotations.
Import Coq.Lists.List.
Open Scope nat_scope.
Open Scope list_scope.

Lemma set_nth_length {A} i (a : A) l : List.length (set_nth i a l) = List.length l.
Proof. revert i; induction l as [|x l IH]; intros [|i]; cbn; auto. Qed.
Lemma set_nth_nth {A} i (a : A) l j :
  nth_error (set_nth i a l) j = if (i =? j) && (i <? List.length l) then Some a else nth_error l j.
Proof.
  revert i j; induction l as [|x l IH]; intros [|i] [|j]; cbn [set_nth nth_error List.length]; try reflexivity.
  - destruct ((S i =? S j) && (S i <? 0)) eqn:E; [|reflexivity]. apply andb_true_iff in E as [_ E]. apply Nat.ltb_lt in E. lia.
  - rewrite IH. reflexivity.
Qed.

Lemma skipn_hd {A} (l : list A) i a r : skipn i l = a :: r -> nth_error l i = Some a /\ i < List.length l.
Proof.
  revert l; induction i as [|i IH]; intros [|x l]; cbn; try discriminate.
  - intros H; injection H as -> _. split; [reflexivity | lia].
  - intros H. destruct (IH l H). split; [assumption | lia].
Qed.
Lemma skipn_nth {A} (l : list A) i a : nth_error l i = Some a -> skipn i l = a :: skipn (S i) l.
Proof.
  revert l; induction i as [|i IH]; intros [|x l]; cbn [nth_error]; try discriminate.
  - intros H; injection H as ->. reflexivity.
  - intros H. rewrite skipn_cons, (IH l H). reflexivity.
Qed.
Lemma skipn_at2 {A} (l : list A) i a b : (exists r, skipn i l = a :: b :: r) <->
  nth_error l i = Some a /\ nth_error l (S i) = Some b.
Proof.
  split.
  - intros (r & H). destruct (skipn_hd _ _ _ _ H) as [H1 _]. split; [exact H1|].
    rewrite (skipn_nth _ _ _ H1) in H. assert (H' : skipn (S i) l = b :: r) by congruence. apply (skipn_hd _ _ _ _ H').
  - intros [H1 H2]. rewrite (skipn_nth _ _ _ H1), (skipn_nth _ _ _ H2). eauto.
Qed.

Lemma skipn_skipn {A} x y (l : list A) : skipn x (skipn y l) = skipn (x + y) l.
Proof.
  rewrite Nat.add_comm. revert l; induction y as [|y IH]; intros [|a l]; cbn [skipn Nat.add]; auto using skipn_nil.
Qed.

Lemma find_sub_is p t i b : skipn i t = p ++ b -> i <= List.length t -> (forall j, j < i -> forall b', skipn j t <> p ++ b') ->
  find_sub p t = Some i.
Proof.
  intros H1 H2 H3. destruct (find_sub p t) as [k|] eqn:E.
  - apply find_sub_Some in E as ((b' & G1) & G2 & G3). f_equal. destruct (lt_eq_lt_dec k i) as [[H|H]|H]; [|exact H|].
    + exfalso. apply (H3 k H b' G1).
    + exfalso. apply (G3 i H b H1).
  - exfalso. apply find_sub_None in E. apply E. exists (firstn i t), b. rewrite <- H1. symmetry. apply firstn_skipn.
Qed.

Lemma find_from_Some p t k i : find_from p t k = Some i ->
  k <= i /\ (exists b, skipn i t = p ++ b) /\ (p <> [] -> i < List.length t) /\ forall j, k <= j < i -> forall b, skipn j t <> p ++ b.
Proof.
  unfold find_from. destruct (Nat.leb_spec k (List.length t)); [|discriminate].
  destruct (find_sub p (skipn k t)) as [n|] eqn:E; cbn [option_map]; [|discriminate]. intros H'; injection H' as <-.
  apply find_sub_Some in E as ((b & H1) & H2 & H3). split; [lia|]. rewrite skipn_skipn in H1.
  replace (n + k) with (k + n) in H1 by lia. split; [eauto|]. split.
  - intros Hp. destruct p as [|x p]; [congruence|]. apply skipn_hd in H1. apply H1.
  - intros j Hj b'. replace j with (j - k + k) by lia. rewrite <- skipn_skipn. apply H3. lia.
Qed.
Lemma find_from_None p t k : p <> [] -> find_from p t k = None -> forall j, k <= j -> forall b, skipn j t <> p ++ b.
Proof.
  intros Hp. unfold find_from. destruct (Nat.leb_spec k (List.length t)).
  - destruct (find_sub p (skipn k t)) as [n|] eqn:E; cbn [option_map]; [discriminate|]. intros _ j Hj b Hb.
    apply find_sub_None in E. apply E. exists (firstn (j - k) (skipn k t)), b.
    replace j with (j - k + k) in Hb by lia. rewrite <- skipn_skipn in Hb. rewrite <- Hb. symmetry. apply firstn_skipn.
  - intros _ j Hj b Hb. rewrite skipn_all2 in Hb by lia. destruct p; [congruence | discriminate].
Qed.

Section Br.
Variable t : str.
Definition at_J (i : nat) : Prop := nth_error t i = Some "J"%char /\ nth_error t (S i) = Some "("%char.
Lemma at_J_skipn i : at_J i <-> exists b, skipn i t = s_ "J(" ++ b.
Proof. unfold at_J. rewrite <- skipn_at2. reflexivity. Qed.
Lemma at_J_lt i : at_J i -> S i < List.length t.
Proof. intros [_ H]. apply nth_error_Some. rewrite H. discriminate. Qed.

Lemma find_all_spec f : forall k, List.length t < f + k ->
  forall i, In i (find_all f (s_ "J(") t k) <-> k <= i /\ at_J i.
Proof.
  induction f as [|f IH]; intros k Hf i; cbn [find_all].
  - split; [intros [] | intros (H1 & H2)]. apply at_J_lt in H2. lia.
  - destruct (find_from (s_ "J(") t k) as [n|] eqn:E.
    + apply find_from_Some in E as (H1 & H2 & H3 & H4). cbn [In]. rewrite IH by lia. split.
      * intros [<-|[G1 G2]]; [split; [exact H1 | apply at_J_skipn, H2] | split; [lia | exact G2]].
      * intros [G1 G2]. destruct (lt_eq_lt_dec n i) as [[H|H]|H]; [right; split; [lia | exact G2] | left; exact H |].
        exfalso. apply at_J_skipn in G2 as (b & Hb). apply (H4 i ltac:(lia) b Hb).
    + split; [intros []|]. intros [G1 G2]. apply at_J_skipn in G2 as (b & Hb).
      apply (find_from_None (s_ "J(") t k ltac:(discriminate) E i G1 b Hb).
Qed.
Lemma find_all_sorted f : forall k i l1 l2, find_all f (s_ "J(") t k = l1 ++ i :: l2 ->
  (forall j, In j l1 -> j < i) /\ (forall j, In j l2 -> i < j).
Proof.
  induction f as [|f IH]; intros k i l1 l2; cbn [find_all]; [destruct l1; discriminate|].
  assert (G : forall f k j, In j (find_all f (s_ "J(") t k) -> k <= j).
  { clear. induction f as [|f IH]; intros k j; cbn [find_all]; [intros []|].
    destruct (find_from (s_ "J(") t k) as [n|] eqn:E; [|intros []].
    apply find_from_Some in E as (H1 & _). intros [<-|H]; [exact H1 | apply IH in H; lia]. }
  destruct (find_from (s_ "J(") t k) as [n|] eqn:E; [|destruct l1; discriminate].
  destruct l1 as [|a l1]; cbn [app]; intros H; injection H as -> H.
  - split; [intros ? []|]. intros j Hj. rewrite <- H in Hj. apply G in Hj. lia.
  - destruct (IH _ _ _ _ H) as [G1 G2]. split; [|exact G2]. intros j [<-|Hj]; [|apply G1, Hj].
    assert (Hi : In i (find_all f (s_ "J(") t (S a))) by (match type of H with ?l = _ => change (In i l) end; rewrite H; apply in_app_iff; right; left; reflexivity).
    apply G in Hi. lia.
Qed.

Definition close_at (num : nat) : nat :=
  match find_from (s_ ")") t num with Some j => j | None => List.length t - 1 end.

Lemma find_open num : at_J num -> find_from (s_ "(") t num = Some (S num).
Proof.
  intros [H1 H2]. destruct (find_from (s_ "(") t num) as [j|] eqn:E.
  - apply find_from_Some in E as (G1 & (b & G2) & _ & G4). cbn [s_ list_ascii_of_string app] in G2.
    apply skipn_hd in G2 as [G2 _]. destruct (Nat.eq_dec j num) as [->|]; [rewrite H1 in G2; discriminate|].
    destruct (Nat.eq_dec j (S num)) as [->|]; [reflexivity|]. exfalso.
    apply (G4 (S num) ltac:(lia) (skipn (S (S num)) t)). apply skipn_nth, H2.
  - exfalso. apply (find_from_None (s_ "(") t num ltac:(discriminate) E (S num) ltac:(lia) (skipn (S (S num)) t)). apply skipn_nth, H2.
Qed.

Lemma bracket_step_length l num : List.length (bracket_step t l num) = List.length l.
Proof. unfold bracket_step, set_found. destruct (find_from (s_ ")") t num), (find_from (s_ "(") t num); rewrite !set_nth_length; reflexivity. Qed.

Lemma close_lt num : at_J num -> close_at num < List.length t.
Proof.
  intros H. apply at_J_lt in H. unfold close_at. destruct (find_from (s_ ")") t num) as [j|] eqn:E; [|lia].
  apply find_from_Some in E as (_ & _ & E & _). apply E. discriminate.
Qed.

Lemma bracket_step_nth l num i : at_J num -> List.length l = List.length t ->
  nth_error (bracket_step t l num) i =
  if i =? close_at num then Some "]"%char else if i =? S num then Some "["%char else nth_error l i.
Proof.
  intros HJ Hl. unfold bracket_step. rewrite (find_open num HJ).
  assert (G : forall l', List.length l' = List.length t ->
     nth_error (set_found (find_from (s_ ")") t num) "]" l') i = if i =? close_at num then Some "]"%char else nth_error l' i).
  { intros l' Hl'. assert (Hc := close_lt num HJ). unfold set_found, close_at in *.
    destruct (find_from (s_ ")") t num) as [j|]; rewrite set_nth_nth, Hl', (Nat.eqb_sym i).
    - destruct (Nat.ltb_spec j (List.length t)); [|lia]. rewrite andb_true_r. reflexivity.
    - destruct (Nat.ltb_spec (List.length t - 1) (List.length t)); [|lia]. rewrite andb_true_r. reflexivity. }
  rewrite G by (cbn [set_found]; rewrite set_nth_length; exact Hl).
  destruct (i =? close_at num); [reflexivity|]. cbn [set_found]. rewrite set_nth_nth, Hl, (Nat.eqb_sym i).
  apply at_J_lt in HJ. destruct (Nat.ltb_spec (S num) (List.length t)); [|lia]. rewrite andb_true_r. reflexivity.
Qed.

(* An earlier close that hits a later open is the last character, which the
   later pass closes again. *)
Lemma close_open_clash n1 n2 : at_J n1 -> at_J n2 -> n1 <= n2 -> close_at n1 = S n2 -> close_at n2 = S n2.
Proof.
  intros H1 H2 Hle H. unfold close_at in *. destruct (find_from (s_ ")") t n1) as [j|] eqn:E.
  - apply find_from_Some in E as (_ & (b & Hb) & _). subst j. apply skipn_hd in Hb as [Hb _].
    destruct H2 as [_ H2]. rewrite H2 in Hb. discriminate.
  - destruct (find_from (s_ ")") t n2) as [j|] eqn:E2; [|exact H].
    exfalso. apply find_from_Some in E2 as (G & (b & Hb) & _).
    apply (find_from_None (s_ ")") t n1 ltac:(discriminate) E j ltac:(lia) b Hb).
Qed.

Lemma brackets_nth L i : (forall n, In n L -> at_J n) ->
  (forall l1 n l2, L = l1 ++ n :: l2 -> forall j, In j l1 -> j < n) ->
  nth_error (fold_left (bracket_step t) L t) i =
  if existsb (fun n => i =? close_at n) L then Some "]"%char
  else if existsb (fun n => i =? S n) L then Some "["%char else nth_error t i.
Proof.
  induction L as [|n L IH] using rev_ind; intros HJ Hs; [reflexivity|].
  rewrite fold_left_app, !existsb_app. cbn [fold_left existsb]. rewrite !orb_false_r.
  assert (Hn : at_J n) by (apply HJ, in_app_iff; right; left; reflexivity).
  assert (Hlen : forall L', List.length (fold_left (bracket_step t) L' t) = List.length t).
  { induction L' as [|n' L' IH'] using rev_ind; [reflexivity|]. rewrite fold_left_app. cbn [fold_left].
    rewrite bracket_step_length. exact IH'. }
  rewrite bracket_step_nth by auto.
  destruct (Nat.eqb_spec i (close_at n)) as [Hc|Hc].
  { rewrite orb_true_r. reflexivity. }
  rewrite orb_false_r. rewrite IH.
  2:{ intros m Hm. apply HJ, in_app_iff; auto. }
  2:{ intros l1 m l2 -> j Hj. apply (Hs l1 m (l2 ++ [n])); [rewrite <- app_assoc; reflexivity | exact Hj]. }
  destruct (Nat.eqb_spec i (S n)) as [Ho|Ho].
  - destruct (existsb (fun n0 => i =? close_at n0) L) eqn:Ex; [|rewrite orb_true_r; reflexivity].
    exfalso. apply existsb_exists in Ex as (m & Hm & Em). apply Nat.eqb_eq in Em.
    apply Hc. rewrite Ho. symmetry. apply (close_open_clash m n); [apply HJ, in_app_iff; auto | exact Hn | | congruence].
    apply Nat.lt_le_incl, (Hs L n []); [reflexivity | exact Hm].
  - rewrite orb_false_r. reflexivity.
Qed.

Lemma photolysis_nth i :
  nth_error (photolysis_brackets t) i =
  if existsb (fun n => i =? close_at n) (find_all (S (List.length t)) (s_ "J(") t 0) then Some "]"%char
  else if existsb (fun n => i =? S n) (find_all (S (List.length t)) (s_ "J(") t 0) then Some "["%char else nth_error t i.
Proof.
  apply brackets_nth.
  - intros n Hn. apply find_all_spec in Hn; [apply Hn | lia].
  - intros l1 n l2 H. apply (find_all_sorted _ _ _ _ _ H).
Qed.
Lemma photolysis_length : List.length (photolysis_brackets t) = List.length t.
Proof.
  unfold photolysis_brackets. generalize (find_all (S (List.length t)) (s_ "J(") t 0) as L.
  induction L as [|n L IH] using rev_ind; [reflexivity|]. rewrite fold_left_app. cbn [fold_left].
  rewrite bracket_step_length. exact IH.
Qed.
End Br.

(* ------------------------------------------------------------------ *)
(* The same in one pass.  w: a bracket opened by J( is still to be closed. *)
Fixpoint jpass (w : bool) (prevJ : bool) (t : str) : str :=
  match t with
  | [] => []
  | c :: t' =>
      if prevJ && Ascii.eqb c "(" then "["%char :: jpass true false t'
      else if w && Ascii.eqb c ")" then "]"%char :: jpass false false t'
      else c :: jpass w (Ascii.eqb c "J") t'
  end.
(* Is a bracket left open at the end? *)
Fixpoint jopen (w : bool) (prevJ : bool) (t : str) : bool :=
  match t with
  | [] => w
  | c :: t' =>
      if prevJ && Ascii.eqb c "(" then jopen true false t'
      else if w && Ascii.eqb c ")" then jopen false false t'
      else jopen w (Ascii.eqb c "J") t'
  end.
Definition jbrackets (t : str) : str :=
  if jopen false false t then set_nth (List.length t - 1) "]"%char (jpass false false t) else jpass false false t.

(* open_before t k: some J( starts before k - 1 and no ) follows before k. *)
Definition open_before (t : str) (k : nat) : Prop :=
  exists n, at_J t n /\ S n < k /\ forall j, n <= j < k -> nth_error t j <> Some ")"%char.

Lemma jpass_length w p t : List.length (jpass w p t) = List.length t.
Proof.
  revert w p; induction t as [|c t IH]; intros w p; cbn [jpass List.length]; [reflexivity|].
  destruct (p && Ascii.eqb c "("); [cbn; f_equal; apply IH|].
  destruct (w && Ascii.eqb c ")"); cbn; f_equal; apply IH.
Qed.

Lemma at_J_prev t k : at_J t k <-> nth_error t k = Some "J"%char /\ nth_error t (S k) = Some "("%char.
Proof. reflexivity. Qed.

Lemma open_before_0 t : ~ open_before t 0.
Proof. intros (n & _ & H & _). lia. Qed.
Lemma open_before_S t k c : nth_error t k = Some c ->
  open_before t (S k) <-> c <> ")"%char /\ (open_before t k \/ (0 < k /\ at_J t (k - 1))).
Proof.
  intros Hc. split.
  - intros (n & H1 & H2 & H3). split.
    + intros ->. apply (H3 k ltac:(lia) Hc).
    + destruct (Nat.eq_dec (S n) k) as [E|E].
      * right. split; [lia|]. replace (k - 1) with n by lia. exact H1.
      * left. exists n. split; [exact H1|]. split; [lia|]. intros j Hj; apply H3; lia.
  - intros (H0 & [(n & H1 & H2 & H3)|(H1 & H2)]).
    + exists n. split; [exact H1|]. split; [lia|]. intros j Hj. destruct (Nat.eq_dec j k) as [->|]; [congruence | apply H3; lia].
    + exists (k - 1). split; [exact H2|]. split; [lia|]. intros j Hj. assert (E : j = k - 1 \/ j = k) by lia.
      destruct E as [->| ->]; [destruct H2 as [H2 _]; congruence | congruence].
Qed.

Section Pass.
Variable t : str.
Definition prevJ (k : nat) : bool :=
  match k with 0 => false | S k' => match nth_error t k' with Some c => Ascii.eqb c "J" | None => false end end.
Lemma prevJ_at k : nth_error t k = Some "("%char -> prevJ k = true <-> 0 < k /\ at_J t (k - 1).
Proof.
  intros Hk. destruct k as [|k]; cbn [prevJ]; [split; [discriminate | intros [H _]; lia]|].
  replace (S k - 1) with k by lia. unfold at_J. destruct (nth_error t k) as [c|].
  - destruct (Ascii.eqb_spec c "J") as [->|Hn].
    + split; [intros _; split; [lia | auto] | reflexivity].
    + split; [discriminate | intros (_ & H & _); congruence].
  - split; [discriminate | intros (_ & H & _); discriminate].
Qed.

(* The character at position i of the result, when no bracket is left open. *)
Definition jchar (i : nat) (c' : ascii) : Prop := exists c, nth_error t i = Some c /\
  ((c = ")"%char /\ open_before t i /\ c' = "]"%char) \/
   (c = "("%char /\ prevJ i = true /\ c' = "["%char) \/
   (~ (c = ")"%char /\ open_before t i) /\ ~ (c = "("%char /\ prevJ i = true) /\ c' = c)).

Lemma jchar_fun i a b : jchar i a -> jchar i b -> a = b.
Proof.
  intros (c & Hc & Ha) (c' & Hc' & Hb). rewrite Hc in Hc'. injection Hc' as <-.
  destruct Ha as [(H1 & H2 & ->)|[(H1 & H2 & ->)|(H1 & H2 & ->)]], Hb as [(G1 & G2 & ->)|[(G1 & G2 & ->)|(G1 & G2 & ->)]];
    try reflexivity; try congruence; exfalso; tauto.
Qed.

Lemma next_open k w c : nth_error t k = Some c -> (w = true <-> open_before t k) ->
  (prevJ k && Ascii.eqb c "(" = true -> open_before t (S k)) /\
  (prevJ k && Ascii.eqb c "(" = false -> w && Ascii.eqb c ")" = true -> ~ open_before t (S k)) /\
  (prevJ k && Ascii.eqb c "(" = false -> w && Ascii.eqb c ")" = false -> (w = true <-> open_before t (S k))).
Proof.
  intros Hc Hw. rewrite (open_before_S t k c Hc). split; [|split].
  - intros H. apply andb_true_iff in H as [H1 H2]. apply Ascii.eqb_eq in H2; subst c.
    apply prevJ_at in H1; [|exact Hc]. split; [discriminate | right; exact H1].
  - intros _ H. apply andb_true_iff in H as [_ H2]. apply Ascii.eqb_eq in H2. tauto.
  - intros H1 H2.
    assert (Hn : ~ (0 < k /\ at_J t (k - 1))).
    { intros [G1 G2]. assert (Hc' : nth_error t k = Some "("%char) by (destruct G2 as [_ G2]; replace (S (k - 1)) with k in G2 by lia; exact G2).
      rewrite Hc in Hc'. injection Hc' as ->. rewrite (proj2 (prevJ_at k Hc) (conj G1 G2)) in H1. discriminate. }
    split.
    + intros Hwt. rewrite Hwt in H2. cbn in H2. apply Ascii.eqb_neq in H2. split; [exact H2 | left; apply Hw, Hwt].
    + intros [_ [H|H]]; [apply Hw, H | contradiction].
Qed.

Lemma prevJ_S k c : nth_error t k = Some c -> prevJ (S k) = Ascii.eqb c "J".
Proof. intros H. cbn [prevJ]. rewrite H. reflexivity. Qed.

Lemma jpass_nth : forall n k w, List.length t - k = n -> (w = true <-> open_before t k) ->
  (forall i c, nth_error (jpass w (prevJ k) (skipn k t)) i = Some c -> jchar (k + i) c) /\
  (jopen w (prevJ k) (skipn k t) = true <-> open_before t (Nat.max k (List.length t))).
Proof.
  induction n as [|n IH]; intros k w Hn Hw.
  - rewrite skipn_all2 by lia. cbn [jpass jopen]. split; [intros [|i] c; discriminate|].
    rewrite Nat.max_l by lia. exact Hw.
  - destruct (nth_error t k) as [c|] eqn:Hc; [|apply nth_error_None in Hc; lia].
    rewrite (skipn_nth _ _ _ Hc). cbn [jpass jopen].
    destruct (next_open k w c Hc Hw) as (N1 & N2 & N3).
    replace (Nat.max k (List.length t)) with (Nat.max (S k) (List.length t)) by lia.
    destruct (prevJ k && Ascii.eqb c "(") eqn:E1.
    + assert (Ec := E1). apply andb_true_iff in Ec as [Ec1 Ec2]. apply Ascii.eqb_eq in Ec2. subst c.
      replace (jpass true false) with (jpass true (prevJ (S k))) by (rewrite (prevJ_S k _ Hc); reflexivity).
      replace (jopen true false) with (jopen true (prevJ (S k))) by (rewrite (prevJ_S k _ Hc); reflexivity).
      destruct (IH (S k) true ltac:(lia)) as [G1 G2]; [split; [intros _; apply N1; reflexivity | reflexivity]|].
      split; [|exact G2]. intros [|i] c'; cbn [nth_error].
      * intros H; injection H as <-. rewrite Nat.add_0_r. exists "("%char. split; [exact Hc|]. right; left. auto.
      * intros H. apply G1 in H. replace (k + S i) with (S k + i) by lia. exact H.
    + destruct (w && Ascii.eqb c ")") eqn:E2.
      * assert (Ec := E2). apply andb_true_iff in Ec as [Ec1 Ec2]. apply Ascii.eqb_eq in Ec2. subst c.
        replace (jpass false false) with (jpass false (prevJ (S k))) by (rewrite (prevJ_S k _ Hc); reflexivity).
        replace (jopen false false) with (jopen false (prevJ (S k))) by (rewrite (prevJ_S k _ Hc); reflexivity).
        destruct (IH (S k) false ltac:(lia)) as [G1 G2]; [split; [discriminate | intros H; exfalso; apply (N2 eq_refl eq_refl H)]|].
        split; [|exact G2]. intros [|i] c'; cbn [nth_error].
        -- intros H; injection H as <-. rewrite Nat.add_0_r. exists ")"%char. split; [exact Hc|]. left.
           split; [reflexivity|]. split; [apply Hw, Ec1 | reflexivity].
        -- intros H. apply G1 in H. replace (k + S i) with (S k + i) by lia. exact H.
      * rewrite <- (prevJ_S k c Hc).
        destruct (IH (S k) w ltac:(lia)) as [G1 G2]; [apply N3; reflexivity|].
        split; [|exact G2]. intros [|i] c'; cbn [nth_error].
        -- intros H; injection H as <-. rewrite Nat.add_0_r. exists c. split; [exact Hc|]. right; right.
           split; [|split; [|reflexivity]].
           ++ intros [-> Ho]. apply Hw in Ho. rewrite Ho in E2. discriminate.
           ++ intros [-> Hp]. rewrite Hp in E1. discriminate.
        -- intros H. apply G1 in H. replace (k + S i) with (S k + i) by lia. exact H.
Qed.

(* Where a J( is closed. *)
Lemma close_at_spec n : at_J t n ->
  (nth_error t (close_at t n) = Some ")"%char /\ n + 1 < close_at t n /\ forall j, n <= j < close_at t n -> nth_error t j <> Some ")"%char) \/
  (close_at t n = List.length t - 1 /\ forall j, n <= j -> nth_error t j <> Some ")"%char).
Proof.
  intros HJ. unfold close_at. destruct (find_from (s_ ")") t n) as [j|] eqn:E.
  - left. apply find_from_Some in E as (H1 & (b & H2) & _ & H4). apply skipn_hd in H2 as [H2 _].
    split; [exact H2|]. split.
    + destruct HJ as [J1 J2]. destruct (Nat.eq_dec j n) as [->|]; [congruence|]. destruct (Nat.eq_dec j (S n)) as [->|]; [congruence|]. lia.
    + intros k Hk Hn. apply (H4 k Hk (skipn (S k) t)). apply skipn_nth, Hn.
  - right. split; [reflexivity|]. intros k Hk Hn.
    apply (find_from_None (s_ ")") t n ltac:(discriminate) E k Hk (skipn (S k) t)). apply skipn_nth, Hn.
Qed.

Lemma is_close i : (exists n, at_J t n /\ i = close_at t n) <->
  (nth_error t i = Some ")"%char /\ open_before t i) \/ (i = List.length t - 1 /\ open_before t (List.length t)).
Proof.
  split.
  - intros (n & HJ & ->). destruct (close_at_spec n HJ) as [(H1 & H2 & H3)|(H1 & H2)].
    + left. split; [exact H1|]. exists n. split; [exact HJ|]. split; [lia | exact H3].
    + right. split; [exact H1|]. exists n. split; [exact HJ|]. split; [apply at_J_lt, HJ|]. intros j Hj; apply H2; lia.
  - intros [(H1 & n & HJ & H2 & H3)|(-> & n & HJ & H2 & H3)]; exists n; (split; [exact HJ|]);
      destruct (close_at_spec n HJ) as [(G1 & G2 & G3)|(G1 & G2)].
    + destruct (lt_eq_lt_dec i (close_at t n)) as [[H|H]|H]; [|exact H|].
      * exfalso. apply (G3 i ltac:(lia) H1).
      * exfalso. apply (H3 (close_at t n) ltac:(lia) G1).
    + exfalso. apply (G2 i ltac:(lia) H1).
    + exfalso. apply (H3 (close_at t n)); [|exact G1]. split; [lia|]. apply nth_error_Some. rewrite G1. discriminate.
    + symmetry. exact G1.
Qed.

Lemma in_find_all n : In n (find_all (S (List.length t)) (s_ "J(") t 0) <-> at_J t n.
Proof. rewrite find_all_spec by lia. split; [intros [_ H]; exact H | intros H; split; [lia | exact H]]. Qed.

Lemma photolysis_jchar i c : ~ open_before t (List.length t) \/ i <> List.length t - 1 ->
  nth_error (photolysis_brackets t) i = Some c -> jchar i c.
Proof.
  intros Hno. rewrite photolysis_nth. intros H.
  destruct (existsb (fun n => i =? close_at t n) _) eqn:E1.
  - injection H as <-. apply existsb_exists in E1 as (n & Hn & E). apply in_find_all in Hn. apply Nat.eqb_eq in E.
    destruct (proj1 (is_close i) (ex_intro _ n (conj Hn E))) as [[H1 H2]|[H1 H2]]; [|exfalso; destruct Hno; auto].
    exists ")"%char. split; [exact H1|]. left. auto.
  - assert (Hc : ~ (nth_error t i = Some ")"%char /\ open_before t i)).
    { intros G. destruct (proj2 (is_close i) (or_introl G)) as (n & Hn & ->).
      assert (X : existsb (fun n0 => close_at t n =? close_at t n0) (find_all (S (List.length t)) (s_ "J(") t 0) = true).
      { apply existsb_exists. exists n. split; [apply in_find_all, Hn | apply Nat.eqb_refl]. }
      congruence. }
    destruct (existsb (fun n => i =? S n) _) eqn:E2.
    + injection H as <-. apply existsb_exists in E2 as (n & Hn & E). apply in_find_all in Hn. apply Nat.eqb_eq in E. subst i.
      exists "("%char. split; [apply Hn|]. right; left. split; [reflexivity|]. split; [|reflexivity].
      apply prevJ_at; [apply Hn|]. split; [lia|]. replace (S n - 1) with n by lia. exact Hn.
    + exists c. split; [exact H|]. right; right. split; [|split; [|reflexivity]].
      * intros [Hcc Ho]. apply Hc. rewrite <- Hcc. split; assumption.
      * intros [-> Hp]. apply prevJ_at in Hp as [Hp1 Hp2]; [|exact H].
        assert (X : existsb (fun n => i =? S n) (find_all (S (List.length t)) (s_ "J(") t 0) = true).
        { apply existsb_exists. exists (i - 1). split; [apply in_find_all, Hp2 | apply Nat.eqb_eq; lia]. }
        congruence.
Qed.
Lemma photolysis_last : open_before t (List.length t) ->
  nth_error (photolysis_brackets t) (List.length t - 1) = Some "]"%char.
Proof.
  intros Ho. rewrite photolysis_nth.
  destruct (proj2 (is_close (List.length t - 1)) (or_intror (conj eq_refl Ho))) as (n & Hn & E).
  assert (X : existsb (fun n0 => List.length t - 1 =? close_at t n0) (find_all (S (List.length t)) (s_ "J(") t 0) = true).
  { apply existsb_exists. exists n. split; [apply in_find_all, Hn | apply Nat.eqb_eq, E]. }
  rewrite X. reflexivity.
Qed.
End Pass.

Lemma nth_error_ext {A} (a b : list A) : List.length a = List.length b ->
  (forall i x y, nth_error a i = Some x -> nth_error b i = Some y -> x = y) -> a = b.
Proof.
  revert b; induction a as [|x a IH]; intros [|y b] Hl H; try discriminate; [reflexivity|].
  f_equal; [apply (H 0); reflexivity | apply IH; [cbn in Hl; lia | intros i; apply (H (S i))]].
Qed.

Theorem photolysis_is_jbrackets t : photolysis_brackets t = jbrackets t.
Proof.
  destruct (jpass_nth t _ 0 false eq_refl) as [H1 H2].
  { split; [discriminate | intros H; destruct (open_before_0 t H)]. }
  cbn [prevJ skipn Nat.max] in H1, H2. unfold jbrackets.
  destruct (jopen false false t) eqn:E.
  - assert (Ho := proj1 H2 eq_refl). apply nth_error_ext.
    { rewrite photolysis_length, set_nth_length, jpass_length. reflexivity. }
    intros i x y Hx Hy. rewrite set_nth_nth, jpass_length in Hy.
    destruct (Nat.eqb_spec (List.length t - 1) i) as [<-|Hi].
    + rewrite (photolysis_last t Ho) in Hx. injection Hx as <-.
      destruct (Nat.ltb_spec (List.length t - 1) (List.length t)); cbn [andb] in Hy; [congruence|].
      exfalso. assert (Hl : List.length t = 0) by lia. rewrite Hl in Ho. destruct (open_before_0 t Ho).
    + cbn [andb] in Hy. apply (jchar_fun t i); [apply (photolysis_jchar t i x); auto | apply (H1 i), Hy].
  - assert (Hno : ~ open_before t (List.length t)) by (intros Ho; apply H2 in Ho; discriminate).
    apply nth_error_ext; [rewrite photolysis_length, jpass_length; reflexivity|].
    intros i x y Hx Hy. apply (jchar_fun t i); [apply (photolysis_jchar t i x); auto | apply (H1 i), Hy].
Qed.
