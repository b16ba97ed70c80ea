(* Splitting a coefficient off a word: what split_coef returns. *)
From Coq Require Import List Bool Arith Lia Ascii String ZArith QArith.
From Verif Require Import Base PyStr PyRe PyDict ModelParse SpecMech ParseText.
Import ListNotations.
Open Scope nat_scope.
Open Scope list_scope.

Definition all_digits (s : str) : Prop := Forall (fun c => is_digit c = true) s.
Definition no_digits (s : str) : Prop := Forall (fun c => is_digit c = false) s.

Lemma flat_map_nil {A B} (f : A -> list B) l : (forall a, In a l -> f a = []) -> flat_map f l = [].
Proof.
  induction l as [|a l IH]; intros H; [reflexivity|]. cbn [flat_map].
  rewrite H by (left; reflexivity). apply IH; intros; apply H; right; assumption.
Qed.

Lemma star_greedy_In p s n : In n (star_greedy p s) ->
  n <= List.length s /\ Forall (fun c => p c = true) (firstn n s).
Proof.
  revert n; induction s as [|c s IH]; intros n H; cbn [star_greedy] in H.
  - destruct H as [<-|[]]. split; [lia | constructor].
  - destruct (p c) eqn:E.
    + apply in_app_or in H as [H|[<-|[]]].
      * apply in_map_iff in H as (k & <- & Hk). apply IH in Hk as [H1 H2].
        split; [cbn; lia | cbn [firstn]; constructor; assumption].
      * split; [cbn; lia | constructor].
    + destruct H as [<-|[]]. split; [cbn; lia | constructor].
Qed.

Lemma star_greedy_hd p a s :
  Forall (fun c => p c = true) a -> match s with c :: _ => p c = false | [] => True end ->
  exists l, star_greedy p (a ++ s) = List.length a :: l.
Proof.
  intros Ha Hs. induction Ha as [|c a Hc Ha IH]; cbn [app star_greedy].
  - destruct s as [|d s]; cbn [star_greedy]; [exists []; reflexivity|].
    rewrite Hs. exists []; reflexivity.
  - rewrite Hc. destruct IH as (l & ->). cbn [map app]. eexists; reflexivity.
Qed.

Lemma is_digit_not c d : is_digit c = true -> is_digit d = false -> c <> d.
Proof. intros H1 H2 ->; congruence. Qed.

Definition re_frac : re := RSeq (lit "."%char) (RPlus is_digit).
Definition re_dec : re := RSeq (RStar is_digit) re_frac.

Lemma rmatch_frac c s : rmatch re_frac (c :: s) =
  if Ascii.eqb "."%char c then map S (rmatch (RPlus is_digit) s) else [].
Proof.
  unfold re_frac. 
  change (rmatch (RSeq (lit "."%char) (RPlus is_digit)) (c :: s)) with
    (flat_map (fun n => map (Nat.add n) (rmatch (RPlus is_digit) (skipn n (c :: s))))
       (if Ascii.eqb "."%char c then [1] else [])).
  destruct (Ascii.eqb "."%char c); [|reflexivity].
  cbn [flat_map skipn]. rewrite app_nil_r. apply map_ext. reflexivity.
Qed.

Lemma rmatch_dec s : rmatch re_dec s =
  flat_map (fun n => map (Nat.add n) (rmatch re_frac (skipn n s))) (star_greedy is_digit s).
Proof. reflexivity. Qed.

Lemma rmatch_number s : rmatch re_number s =
  flat_map (fun n => map (Nat.add n) (rmatch re_dec (skipn n s)))
    (match s with c :: _ => if is_sign c then [1; 0] else [0] | [] => [0] end)
  ++ rmatch (RPlus is_digit) s ++ rmatch (RPlus is_digit) s.
Proof. reflexivity. Qed.

Lemma map_add0 l : map (Nat.add 0) l = l.
Proof. rewrite <- (map_id l) at 2. apply map_ext; reflexivity. Qed.

Lemma rmatch_number_nosign c s : is_sign c = false ->
  rmatch re_number (c :: s) =
  rmatch re_dec (c :: s) ++ rmatch (RPlus is_digit) (c :: s) ++ rmatch (RPlus is_digit) (c :: s).
Proof.
  intros H. rewrite rmatch_number, H. cbn [flat_map skipn].
  rewrite app_nil_r, map_add0. reflexivity.
Qed.

(* A digit run without a following ".digit". *)
Lemma rmatch_dec_nodot a s :
  all_digits a -> match s with c :: _ => is_digit c = false /\ c <> "."%char | [] => True end ->
  rmatch re_dec (a ++ s) = [].
Proof.
  intros Ha Hs. rewrite rmatch_dec. apply flat_map_nil. intros n Hn.
  assert (Hf : rmatch re_frac (skipn n (a ++ s)) = []); [|rewrite Hf; reflexivity].
  apply star_greedy_In in Hn as [Hl Hf].
  destruct (skipn n (a ++ s)) as [|c t] eqn:E; [reflexivity|].
  rewrite rmatch_frac.
  destruct (Ascii.eqb "."%char c) eqn:Ec; [|reflexivity]. exfalso.
  apply Ascii.eqb_eq in Ec; subst c.
  assert (Hnl : n <= List.length a).
  { destruct (le_lt_dec n (List.length a)) as [|Hlt]; [assumption|]. exfalso.
    rewrite firstn_app in Hf. apply Forall_app in Hf as [_ Hf].
    destruct s as [|d s]; [rewrite app_nil_r in Hl; lia|].
    destruct (n - List.length a) eqn:En; [lia|]. cbn [firstn] in Hf.
    inversion Hf; subst. destruct Hs; congruence. }
  assert (Hin : nth_error (a ++ s) n = Some "."%char).
  { assert (Hs2 := firstn_skipn n (a ++ s)). rewrite E in Hs2. rewrite <- Hs2.
    rewrite nth_error_app2; rewrite firstn_length_le by lia; [|lia].
    rewrite Nat.sub_diag. reflexivity. }
  destruct (le_lt_dec (List.length a) n) as [Hge|Hlt].
  - rewrite nth_error_app2 in Hin by exact Hge.
    replace (n - List.length a) with 0 in Hin by lia.
    destruct s as [|d s]; [discriminate|]. injection Hin as ->. destruct Hs; congruence.
  - rewrite nth_error_app1 in Hin by exact Hlt.
    apply nth_error_In in Hin. apply (proj1 (Forall_forall _ a) Ha) in Hin. discriminate Hin.
Qed.

Lemma rmatch_plus_hd a s :
  all_digits a -> a <> [] -> match s with c :: _ => is_digit c = false | [] => True end ->
  exists l, rmatch (RPlus is_digit) (a ++ s) = List.length a :: l.
Proof.
  intros Ha Hne Hs. destruct a as [|c a]; [congruence|]. inversion Ha; subst.
  cbn [app rmatch]. rewrite H1.
  destruct (star_greedy_hd is_digit a s H2 Hs) as (l & ->). cbn [map]. eexists; reflexivity.
Qed.

Lemma rmatch_dec_hd a b s :
  all_digits a -> all_digits b -> b <> [] ->
  match s with c :: _ => is_digit c = false | [] => True end ->
  exists l, rmatch re_dec (a ++ "."%char :: b ++ s) = List.length (a ++ "."%char :: b) :: l.
Proof.
  intros Ha Hb Hne Hs. rewrite rmatch_dec.
  destruct (star_greedy_hd is_digit a ("."%char :: b ++ s) Ha) as (l & ->); [reflexivity|].
  cbn [flat_map]. rewrite skipn_app, skipn_all, Nat.sub_diag. cbn [app skipn].
  rewrite rmatch_frac, Ascii.eqb_refl.
  destruct (rmatch_plus_hd b s Hb Hne Hs) as (l2 & ->).
  cbn [map app]. eexists. f_equal. rewrite app_length. cbn [List.length]. lia.
Qed.

(* Numerals. *)
Lemma digits_all s v : digits s v -> all_digits s /\ s <> [].
Proof.
  induction 1 as [c H | s v c H [IH1 IH2] Hc].
  - split; [constructor; [exact H | constructor] | discriminate].
  - split; [|destruct s; discriminate]. apply Forall_app; split; [exact IH1|].
    constructor; [exact Hc | constructor].
Qed.

Lemma dec_digits_app acc s1 s2 :
  dec_digits acc (s1 ++ s2) = match dec_digits acc s1 with Some z => dec_digits z s2 | None => None end.
Proof.
  revert acc; induction s1 as [|c s1 IH]; intros acc; [reflexivity|].
  cbn [app dec_digits]. destruct (is_digit c); [apply IH | reflexivity].
Qed.

Lemma digits_dec s v : digits s v -> dec_digits 0 s = Some v.
Proof.
  induction 1 as [c H | s v c H IH Hc].
  - cbn [dec_digits]. rewrite H. reflexivity.
  - rewrite dec_digits_app, IH. cbn [dec_digits]. rewrite Hc. reflexivity.
Qed.

Lemma ten_to_pow n : n <> 0 -> pow10 n = ten_to n.
Proof.
  intros Hn. unfold pow10. destruct n as [|n]; [congruence|]. clear Hn.
  induction n as [|n IH]; [reflexivity|].
  change (ten_to (S (S n))) with (10 * ten_to (S n))%positive. rewrite <- IH.
  change (Pos.of_nat (S (S n))) with (Pos.succ (Pos.of_nat (S n))).
  rewrite Pos.pow_succ_r. reflexivity.
Qed.

Lemma all_digits_notin s c : all_digits s -> is_digit c = false -> ~ In c s.
Proof.
  intros H Hc Hi. apply (proj1 (Forall_forall _ s) H) in Hi. congruence.
Qed.

Lemma numeral_head num c : numeral num c ->
  exists d s, num = d :: s /\ is_sign d = false /\ (is_digit d = true \/ d = "."%char).
Proof.
  intros H. assert (Hd : forall d, is_digit d = true -> is_sign d = false).
  { intros d Hd. unfold is_sign. apply orb_false_iff; split; apply Ascii.eqb_neq;
      intros ->; discriminate Hd. }
  destruct H as [s v H | a b v H Hb].
  - apply digits_all in H as [H1 H2]. destruct s as [|d s]; [congruence|].
    inversion H1; subst. exists d, s. auto.
  - apply digits_all in H as [H1 H2]. destruct a as [|d a].
    + exists "."%char, b. auto.
    + inversion H1; subst. exists d, (a ++ "."%char :: b). auto.
Qed.

Lemma dec_unsigned_numeral num c : numeral num c -> dec_unsigned num = Some c.
Proof.
  intros [s v Hv | a b v Hv Hb].
  - destruct (digits_all _ _ Hv) as [Ha Hn].
    unfold dec_unsigned. rewrite split1_none by (apply all_digits_notin; [exact Ha | reflexivity]).
    rewrite (digits_dec _ _ Hv). destruct s; [congruence | reflexivity].
  - destruct (digits_all _ _ Hv) as [Ha Hn].
    apply Forall_app in Ha as [Ha1 Ha2].
    unfold dec_unsigned. rewrite split1_some by (apply all_digits_notin; [exact Ha1 | reflexivity]).
    apply digits_dec in Hv. destruct (a ++ b) as [|x y]; [congruence|].
    rewrite Hv. cbn [option_map].
    destruct (List.length b) eqn:El; [destruct b; [congruence | discriminate]|].
    rewrite ten_to_pow by discriminate. reflexivity.
Qed.

Lemma py_float_numeral num c : numeral num c -> py_float num = Ok c.
Proof.
  intros H. assert (G := dec_unsigned_numeral num c H).
  destruct (numeral_head num c H) as (d & s & -> & Hd & _).
  unfold py_float. unfold is_sign in Hd. apply orb_false_iff in Hd as [-> ->].
  rewrite G; reflexivity.
Qed.

Definition not_numstart (s : str) : Prop :=
  match s with c :: _ => is_digit c = false /\ c <> "."%char | [] => True end.

Lemma rmatch_numeral num c s : numeral num c -> not_numstart s ->
  exists l, rmatch re_number (num ++ s) = List.length num :: l.
Proof.
  intros H Hs. destruct (numeral_head num c H) as (d & t & E & Hd & _).
  assert (Hs' : match s with c :: _ => is_digit c = false | [] => True end)
    by (destruct s; [exact I | apply Hs]).
  assert (Hrw : rmatch re_number (num ++ s) =
    rmatch re_dec (num ++ s) ++ rmatch (RPlus is_digit) (num ++ s) ++ rmatch (RPlus is_digit) (num ++ s)).
  { rewrite E. apply rmatch_number_nosign, Hd. }
  rewrite Hrw. clear Hrw. destruct H as [s' v Hv | a b v Hv Hb].
  - destruct (digits_all _ _ Hv) as [Ha Hn].
    rewrite rmatch_dec_nodot by assumption. cbn [app].
    destruct (rmatch_plus_hd s' s Ha Hn Hs') as (l & ->). cbn [app]. eexists; reflexivity.
  - destruct (digits_all _ _ Hv) as [Ha _]. apply Forall_app in Ha as [Ha1 Ha2].
    rewrite <- app_assoc. cbn [app].
    destruct (rmatch_dec_hd a b s Ha1 Ha2 Hb Hs') as (l & ->). cbn [app]. eexists; reflexivity.
Qed.

Lemma findall_numbers_numeral num c s : numeral num c -> not_numstart s ->
  findall_numbers (num ++ s) = num :: findall_numbers s.
Proof.
  intros H Hs. destruct (rmatch_numeral num c s H Hs) as (l & Hm).
  destruct (numeral_head num c H) as (d & t & -> & _).
  unfold findall_numbers, findall. cbn [app] in *. cbn [findall_aux]. rewrite Hm.
  f_equal.
  - unfold whole. change (d :: t ++ s) with ((d :: t) ++ s).
    rewrite firstn_app, firstn_all, Nat.sub_diag. cbn [firstn]. apply app_nil_r.
  - cbn [List.length]. replace (S (List.length t) - 1) with (List.length t) by lia.
    rewrite findall_skip by (rewrite app_length; lia).
    rewrite skipn_app, skipn_all, Nat.sub_diag. reflexivity.
Qed.

(* A text without digits has no number in it; a text with a digit has one. *)
Lemma Forall_skipn {A} (P : A -> Prop) n l : Forall P l -> Forall P (skipn n l).
Proof.
  revert l; induction n as [|n IH]; intros l H; [exact H|].
  destruct l; [constructor|]. inversion H; subst; apply IH; assumption.
Qed.

Lemma rmatch_number_nodigit s : no_digits s -> rmatch re_number s = [].
Proof.
  intros H. assert (Hp : forall t, no_digits t -> rmatch (RPlus is_digit) t = []).
  { intros [|c t] Ht; [reflexivity|]. inversion Ht; subst. cbn [rmatch]. rewrite H2. reflexivity. }
  rewrite rmatch_number, (Hp s H). cbn [app]. rewrite app_nil_r.
  apply flat_map_nil. intros n _. rewrite rmatch_dec.
  rewrite flat_map_nil; [reflexivity|]. intros k _.
  assert (Hk : no_digits (skipn k (skipn n s))) by (apply Forall_skipn, Forall_skipn, H).
  destruct (skipn k (skipn n s)) as [|c t]; [reflexivity|].
  rewrite rmatch_frac. destruct (Ascii.eqb "."%char c); [|reflexivity].
  inversion Hk; subst. rewrite Hp by assumption. reflexivity.
Qed.

Lemma findall_numbers_nodigit s : no_digits s -> findall_numbers s = [].
Proof.
  unfold findall_numbers, findall. induction s as [|c s IH]; intros H; [reflexivity|].
  cbn [findall_aux]. rewrite rmatch_number_nodigit by exact H.
  apply IH. inversion H; assumption.
Qed.

(* Every reported number is non-empty and starts with a digit, '.', '-' or '+'. *)
Definition numstart (n : str) : Prop :=
  match n with c :: _ => is_digit c = true \/ c = "."%char \/ is_sign c = true | [] => False end.

Lemma rmatch_number_first n l s : rmatch re_number s = n :: l ->
  exists c t, s = c :: t /\ 1 <= n <= List.length s /\
    (is_digit c = true \/ c = "."%char \/ is_sign c = true).
Proof.
  intros H. assert (Hin : In n (rmatch re_number s)) by (rewrite H; left; reflexivity). clear H.
  assert (Hplus : forall t k, In k (rmatch (RPlus is_digit) t) ->
            exists c t', t = c :: t' /\ is_digit c = true /\ 1 <= k <= List.length t).
  { intros [|c t] k Hk; cbn [rmatch] in Hk; [contradiction|].
    destruct (is_digit c) eqn:E; [|contradiction].
    apply in_map_iff in Hk as (j & <- & Hj). apply star_greedy_In in Hj as [Hj _].
    exists c, t. cbn [List.length]. repeat split; try assumption; lia. }
  assert (Hfrac : forall t k, In k (rmatch re_frac t) ->
            exists t', t = "."%char :: t' /\ 1 <= k <= List.length t).
  { intros [|c t] k Hk; [contradiction|]. rewrite rmatch_frac in Hk.
    destruct (Ascii.eqb "."%char c) eqn:E; [|contradiction].
    apply Ascii.eqb_eq in E; subst c. apply in_map_iff in Hk as (j & <- & Hj).
    apply Hplus in Hj as (c & t' & -> & _ & Hj). exists (c :: t'). cbn [List.length] in *.
    split; [reflexivity | lia]. }
  assert (Hdec : forall t k, In k (rmatch re_dec t) ->
            exists c t', t = c :: t' /\ (is_digit c = true \/ c = "."%char) /\ 1 <= k <= List.length t).
  { intros t k Hk. rewrite rmatch_dec in Hk. apply in_flat_map in Hk as (j & Hj & Hk).
    apply in_map_iff in Hk as (i & <- & Hi). apply Hfrac in Hi as (t' & Et & Hi).
    apply star_greedy_In in Hj as [Hl Hf].
    destruct t as [|c t]; [destruct j; discriminate|].
    exists c, t. split; [reflexivity|]. split.
    - destruct j as [|j]; [injection Et as -> _; right; reflexivity|].
      cbn [firstn] in Hf. inversion Hf; subst. left; assumption.
    - rewrite skipn_length in Hi. lia. }
  rewrite rmatch_number in Hin. apply in_app_or in Hin as [Hin|Hin].
  - apply in_flat_map in Hin as (j & Hj & Hin). apply in_map_iff in Hin as (i & <- & Hi).
    destruct s as [|c s]; [destruct Hj as [<-|[]]; apply Hdec in Hi as (c & t' & E & _); discriminate|].
    exists c, s. split; [reflexivity|].
    destruct (is_sign c) eqn:E.
    + split; [|right; right; reflexivity].
      destruct Hj as [<-|[<-|[]]]; apply Hdec in Hi as (d & t' & Et & _ & Hi);
        cbn [skipn List.length] in *; lia.
    + destruct Hj as [<-|[]]. apply Hdec in Hi as (d & t' & Et & Hd & Hi).
      cbn [skipn] in Et. injection Et as -> ->. split; [cbn [skipn List.length] in *; lia|].
      destruct Hd as [Hd|Hd]; auto.
  - assert (H2 : In n (rmatch (RPlus is_digit) s)) by (apply in_app_or in Hin as []; assumption).
    apply Hplus in H2 as (c & t & -> & Hc & Hn). exists c, t. auto.
Qed.

Lemma findall_numbers_numstart s : Forall numstart (findall_numbers s).
Proof.
  unfold findall_numbers, findall.
  assert (H : forall k, Forall numstart (findall_aux re_number whole k s)); [|apply H].
  induction s as [|c s IH]; intros k; [destruct k; constructor|].
  cbn [findall_aux]. destruct k; [|apply IH].
  destruct (rmatch re_number (c :: s)) as [|n l] eqn:E; [apply IH|].
  constructor; [|apply IH]. apply rmatch_number_first in E as (d & t & E & Hn & Hd).
  injection E as -> ->. unfold whole. destruct n; [lia|]. cbn [firstn numstart]. exact Hd.
Qed.

Lemma findall_numbers_digit s :
  (exists c, In c s /\ is_digit c = true) -> findall_numbers s <> [].
Proof.
  unfold findall_numbers, findall.
  intros (c & Hin & Hc). induction s as [|d s IH]; [contradiction|].
  cbn [findall_aux]. destruct (rmatch re_number (d :: s)) as [|n l] eqn:E; [|discriminate].
  destruct Hin as [->|Hin]; [|auto].
  exfalso. rewrite rmatch_number in E. apply app_eq_nil in E as [_ E].
  apply app_eq_nil in E as [E _]. cbn [rmatch] in E. rewrite Hc in E.
  apply map_eq_nil in E. destruct s as [|d s]; cbn [star_greedy] in E; [discriminate|].
  destruct (is_digit d); [|discriminate]. apply app_eq_nil in E as [_ E]; discriminate.
Qed.

(* ------------------------------------------------------------------ *)
(* split_coef on the written forms. *)

Lemma prefix_rest_app p s : prefix_rest p (p ++ s) = Some s.
Proof.
  induction p as [|c p IH]; [reflexivity|]. cbn [app prefix_rest].
  rewrite Ascii.eqb_refl. exact IH.
Qed.

Lemma find_sub_app p s : find_sub p (p ++ s) = Some 0.
Proof. destruct (p ++ s) eqn:E; cbn [find_sub]; rewrite <- E, prefix_rest_app; reflexivity. Qed.

Lemma split1_str_app p s : split1_str p (p ++ s) = [[]; s].
Proof. destruct (p ++ s) eqn:E; cbn [split1_str]; rewrite <- E, prefix_rest_app; reflexivity. Qed.

Lemma split_coef_bare w : starts_name w -> split_coef w = (1%Q, w).
Proof.
  intros Hw. unfold split_coef.
  destruct (findall_numbers w) as [|n more] eqn:E; [reflexivity|].
  assert (Hn : numstart n).
  { assert (F := findall_numbers_numstart w). rewrite E in F. inversion F; assumption. }
  destruct w as [|c w]; [contradiction|]. destruct n as [|d n]; [contradiction|].
  destruct Hw as (H1 & H2 & H3 & H4). cbn [numstart] in Hn.
  assert (Hne : d <> c).
  { intros ->. destruct Hn as [Hn|[Hn|Hn]]; try congruence.
    unfold is_sign in Hn. apply orb_true_iff in Hn as [Hn|Hn]; apply Ascii.eqb_eq in Hn; congruence. }
  apply Ascii.eqb_neq in Hne. cbn [find_sub prefix_rest]. rewrite Hne.
  destruct (find_sub (d :: n) w); reflexivity.
Qed.

Lemma starts_not_numstart w : starts_name w -> not_numstart w.
Proof. destruct w; [intros []|]. intros (H1 & H2 & _). split; assumption. Qed.

Lemma split_coef_num num c nm :
  numeral num c -> starts_name nm ->
  split_coef (num ++ nm) =
  (c, match findall_numbers nm with [] => nm | n2 :: _ => nm ++ n2 end).
Proof.
  intros Hn Hs. unfold split_coef.
  rewrite (findall_numbers_numeral num c nm Hn (starts_not_numstart nm Hs)).
  rewrite find_sub_app, split1_str_app, (py_float_numeral _ _ Hn). reflexivity.
Qed.

Lemma split_coef_digitfree num c nm :
  numeral num c -> starts_name nm -> no_digits nm -> split_coef (num ++ nm) = (c, nm).
Proof.
  intros Hn Hs Hd. rewrite (split_coef_num num c nm Hn Hs), findall_numbers_nodigit by exact Hd.
  reflexivity.
Qed.

Lemma split_coef_digit_wrong num c nm :
  numeral num c -> starts_name nm -> (exists d, In d nm /\ is_digit d = true) ->
  exists nm', split_coef (num ++ nm) = (c, nm') /\ nm' <> nm /\
    exists extra, extra <> [] /\ nm' = nm ++ extra.
Proof.
  intros Hn Hs Hd. rewrite (split_coef_num num c nm Hn Hs).
  apply findall_numbers_digit in Hd.
  assert (F := findall_numbers_numstart nm).
  destruct (findall_numbers nm) as [|n2 l]; [congruence|].
  inversion F; subst. assert (Hn2 : n2 <> []) by (intros ->; contradiction).
  eexists. split; [reflexivity|]. split; [|exists n2; auto].
  intros E. rewrite <- (app_nil_r nm) in E at 2. apply app_inv_head in E. contradiction.
Qed.

(* A numeral that stands alone (as in "2 A") reads as the empty name. *)
Lemma split_coef_alone num c : numeral num c -> split_coef num = (c, []).
Proof.
  intros Hn. unfold split_coef.
  assert (H := findall_numbers_numeral num c [] Hn I). rewrite app_nil_r in H. rewrite H.
  cbn [findall_numbers findall findall_aux].
  assert (H1 := find_sub_app num []). rewrite app_nil_r in H1. rewrite H1.
  assert (H2 := split1_str_app num []). rewrite app_nil_r in H2. rewrite H2.
  rewrite (py_float_numeral _ _ Hn). reflexivity.
Qed.

Lemma term_word_split t w : term_word t w -> split_coef w = t.
Proof.
  intros [w' Hw Hs | num c nm Hn Hw Hs Hd].
  - apply split_coef_bare; exact Hs.
  - apply split_coef_digitfree; assumption.
Qed.
