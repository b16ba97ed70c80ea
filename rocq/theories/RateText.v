(* Facts about replace, find and the conversion passes. *)
From Coq Require Import List Bool Arith Lia Ascii String ZArith Permutation.
From Verif Require Import Base PyStr PyDict ModelRate.
Import ListNotations.
Import Coq.Lists.List.
Open Scope nat_scope.
Open Scope list_scope.

(* ------------------------------------------------------------------ *)
(* prefix_rest and replace *)
Lemma prefix_rest_Some p s r : prefix_rest p s = Some r <-> s = p ++ r.
Proof.
  revert s; induction p as [|x p IH]; intros s; cbn [prefix_rest app].
  - split; [intros H; injection H; auto | intros ->; reflexivity].
  - destruct s as [|y s]; [split; discriminate|]. destruct (Ascii.eqb_spec x y) as [->|Hn].
    + rewrite IH. split; [intros ->; reflexivity | intros H; injection H; auto].
    + split; [discriminate | intros H; injection H as H1 _; congruence].
Qed.
Lemma prefix_rest_None p s : prefix_rest p s = None <-> forall r, s <> p ++ r.
Proof.
  destruct (prefix_rest p s) as [r|] eqn:E.
  - apply (proj1 (prefix_rest_Some _ _ _)) in E. split; [discriminate | intros H; destruct (H r E)].
  - split; [|reflexivity]. intros _ r Hr. apply prefix_rest_Some in Hr. congruence.
Qed.

Lemma replace_aux_skip old new k s : replace_aux old new k s = replace_aux old new 0 (skipn k s).
Proof.
  revert k; induction s as [|x s IH]; intros k.
  - rewrite skipn_nil. destruct k; reflexivity.
  - destruct k; [reflexivity|]. cbn [skipn]. rewrite <- IH. reflexivity.
Qed.
Lemma replace_nil old new : replace old new [] = [].
Proof. reflexivity. Qed.
Lemma replace_hit old new r : old <> [] -> replace old new (old ++ r) = new ++ replace old new r.
Proof.
  intros Ho. unfold replace. destruct old as [|x old]; [congruence|].
  assert (E : prefix_rest (x :: old) ((x :: old) ++ r) = Some r) by (apply prefix_rest_Some; reflexivity).
  cbn [app] in *. cbn [replace_aux]. rewrite E. f_equal. rewrite replace_aux_skip. f_equal.
  cbn [List.length]. rewrite Nat.sub_succ, Nat.sub_0_r, skipn_app, Nat.sub_diag, skipn_all. reflexivity.
Qed.
Lemma replace_miss old new x s : (forall r, x :: s <> old ++ r) -> replace old new (x :: s) = x :: replace old new s.
Proof. intros H. unfold replace. cbn [replace_aux]. apply (proj2 (prefix_rest_None _ _)) in H. rewrite H. reflexivity. Qed.

(* ------------------------------------------------------------------ *)
(* Exponent letters *)

(* One pass over the text: a D in front of a character of cs becomes E; ins c
   is inserted after the E. *)
Section Pass.
Variable cs : list ascii.
Variable ins : ascii -> str.
Fixpoint pass (t : str) : str :=
  match t with
  | [] => []
  | x :: t' =>
      (if Ascii.eqb x "D" then
         match t' with
         | c :: _ => if inb c cs then "E"%char :: ins c else [x]
         | [] => [x]
         end
       else [x]) ++ pass t'
  end.
End Pass.

Lemma pass_empty ins t : pass [] ins t = t.
Proof.
  induction t as [|x t IH]; cbn [pass]; [reflexivity|]. rewrite IH.
  destruct (Ascii.eqb x "D"), t; reflexivity.
Qed.

(* The first character of the result is that of the text, or E for a D. *)
Lemma pass_head cs ins x t : exists y r, pass cs ins (x :: t) = y :: r /\ (y = x \/ x = "D"%char /\ y = "E"%char).
Proof.
  cbn [pass]. destruct (Ascii.eqb_spec x "D") as [->|]; cbn [app]; [|eexists _, _; split; [reflexivity|auto]].
  destruct t as [|c t]; cbn [app]; [eexists _, _; split; [reflexivity|auto]|].
  destruct (inb c cs); cbn [app]; eexists _, _; (split; [reflexivity|auto]).
Qed.

Lemma replace_none old new a s : (forall x, In x a -> hd_error old <> Some x) -> old <> [] ->
  replace old new (a ++ s) = a ++ replace old new s.
Proof.
  intros H Ho. induction a as [|x a IH]; cbn [app]; [reflexivity|].
  rewrite replace_miss.
  - f_equal. apply IH. intros y Hy; apply H; right; exact Hy.
  - intros r Hr. destruct old as [|o old]; [congruence|]. cbn [app] in Hr. injection Hr as -> _.
    apply (H o); [left; reflexivity | reflexivity].
Qed.

Lemma pass_replace cs ins c t : c <> "D"%char -> c <> "E"%char -> ~ In c cs ->
  (forall a, In a cs -> ~ In "D"%char (ins a)) ->
  replace ["D"%char; c] ("E"%char :: ins c ++ [c]) (pass cs ins t) = pass (c :: cs) ins t.
Proof.
  intros HcD HcE Hc Hins. induction t as [|x t IH]; cbn [pass]; [reflexivity|].
  destruct (Ascii.eqb_spec x "D") as [->|Hx].
  - destruct t as [|d t]; [cbn [pass app]; reflexivity|].
    assert (Hind : inb d (c :: cs) = (eqb d c || inb d cs)%bool) by reflexivity.
    destruct (inb d cs) eqn:Ed.
    + (* already converted *)
      rewrite Hind, orb_true_r. rewrite replace_none.
      * rewrite IH. reflexivity.
      * intros y Hy. cbn. intros H; injection H as <-. destruct Hy as [Hy|Hy]; [discriminate|].
        apply inb_In in Ed. apply (Hins d Ed Hy).
      * discriminate.
    + rewrite Hind, orb_false_r. cbn [app].
      destruct (eqb_dec d c) as [->|Hdc].
      * rewrite eqb_refl. clear Hind.
        assert (E : forall u, pass u ins (c :: t) = c :: pass u ins t).
        { intros u. cbn [pass]. destruct (Ascii.eqb_spec c "D"); [congruence | reflexivity]. }
        rewrite E. change ("D"%char :: c :: pass cs ins t) with (["D"%char; c] ++ pass cs ins t).
        rewrite replace_hit by discriminate.
        rewrite E in IH. rewrite E in IH. rewrite replace_miss in IH.
        2:{ intros r Hr. cbn [app] in Hr. injection Hr as H1 _. congruence. }
        injection IH as IH. rewrite IH, E. cbn [app]. rewrite <- app_assoc. reflexivity.
      * assert (E : eqb d c = false) by (apply eqb_neq, Hdc). rewrite E.
        destruct (pass_head cs ins d t) as (y & r & Hp & Hy). rewrite replace_miss; [rewrite IH; reflexivity|].
        intros r' Hr'. rewrite Hp in Hr'. cbn [app] in Hr'. injection Hr' as H1 _.
        destruct Hy as [->|[_ ->]]; congruence.
  - rewrite replace_none; [rewrite IH; reflexivity | | discriminate].
    intros y [<-|[]]. cbn. congruence.
Qed.

(* What stands between the E and the character. *)
Definition plus_of (c : ascii) : str := if is_digit c then ["+"%char] else [].
Definition exponent_chars : list ascii := ["-"; "+"; "1"; "2"; "3"; "4"; "5"; "6"; "7"; "8"; "9"]%char.
(* Every D directly followed by a sign or a digit 1-9 becomes E or E+. *)
Definition exponents (t : str) : str := pass exponent_chars plus_of t.

Lemma pass_ext cs cs' ins t : (forall c, inb c cs = inb c cs') -> pass cs ins t = pass cs' ins t.
Proof.
  intros H. induction t as [|x t IH]; cbn [pass]; [reflexivity|]. rewrite IH.
  destruct (Ascii.eqb x "D"); [|reflexivity]. destruct t as [|c t]; [reflexivity|]. rewrite H. reflexivity.
Qed.

Lemma exponent_plus a : In a exponent_chars -> ~ In "D"%char (plus_of a).
Proof.
  intros Ha. repeat (destruct Ha as [<-|Ha]; [cbn; intros H; repeat (destruct H as [H|H]; [discriminate|]); exact H|]).
  destruct Ha.
Qed.

Definition add_pass (t : str) (c : ascii) : str := replace ["D"%char; c] ("E"%char :: plus_of c ++ [c]) t.
Lemma add_passes l cs t : NoDup (l ++ cs) -> (forall c, In c (l ++ cs) -> In c exponent_chars) ->
  fold_left add_pass l (pass cs plus_of t) = pass (rev l ++ cs) plus_of t.
Proof.
  revert cs; induction l as [|c l IH]; intros cs Hnd Hin; cbn [fold_left rev app]; [reflexivity|].
  cbn [app] in *. inversion Hnd as [|? ? Hc Hnd']; subst.
  assert (Hcin : In c exponent_chars) by (apply Hin; left; reflexivity).
  unfold add_pass at 2. rewrite pass_replace.
  - rewrite IH.
    + rewrite <- app_assoc. reflexivity.
    + apply (Permutation_NoDup (Permutation_middle l cs c)). constructor; assumption.
    + intros d Hd. apply Hin. apply in_app_iff in Hd as [Hd|[<-|Hd]]; [right; apply in_app_iff; auto | left; reflexivity | right; apply in_app_iff; auto].
  - intros ->. repeat (destruct Hcin as [Hcin|Hcin]; [discriminate|]). destruct Hcin.
  - intros ->. repeat (destruct Hcin as [Hcin|Hcin]; [discriminate|]). destruct Hcin.
  - intros H. apply Hc, in_app_iff. auto.
  - intros a Ha. apply exponent_plus, Hin. right. apply in_app_iff; auto.
Qed.

Lemma conv_map_full t : conv_map map_full t = exponents t.
Proof.
  assert (E : conv_map map_full t = fold_left add_pass exponent_chars t) by reflexivity.
  rewrite E. rewrite <- (pass_empty plus_of t) at 1. rewrite add_passes.
  - apply pass_ext. intros c. rewrite app_nil_r. destruct (inb c exponent_chars) eqn:H.
    + apply inb_In. rewrite <- in_rev. apply inb_In, H.
    + apply inb_nIn. rewrite <- in_rev. apply inb_nIn, H.
  - rewrite app_nil_r. unfold exponent_chars. repeat constructor; cbn; intros H;
      repeat (destruct H as [H|H]; [discriminate|]); exact H.
  - rewrite app_nil_r. auto.
Qed.

(* convert_rate_mcm only knows signed exponents. *)
Definition exponents_signed (t : str) : str := pass ["-"; "+"]%char plus_of t.
Lemma conv_map_plain t : conv_map map_plain t = exponents_signed t.
Proof.
  assert (E : conv_map map_plain t = fold_left add_pass ["-"; "+"]%char t) by reflexivity.
  rewrite E. rewrite <- (pass_empty plus_of t) at 1. rewrite add_passes.
  - apply pass_ext. intros c. cbn [rev app]. unfold inb. cbn [existsb].
    destruct (eqb c "+"%char), (eqb c "-"%char); reflexivity.
  - repeat constructor; cbn; intros H; repeat (destruct H as [H|H]; [discriminate|]); exact H.
  - intros c Hc. cbn in Hc. unfold exponent_chars. cbn. intuition.
Qed.

(* ------------------------------------------------------------------ *)
(* Occurrences of a word *)
Definition occurs (w t : str) : Prop := exists a b, t = a ++ w ++ b.

Lemma occurs_cons w x t : occurs w (x :: t) <-> (exists b, x :: t = w ++ b) \/ occurs w t.
Proof.
  split.
  - intros (a & b & E). destruct a as [|y a]; [left; exists b; exact E|]. cbn [app] in E. injection E as _ E.
    right. exists a, b. exact E.
  - intros [(b & E)|(a & b & E)]; [exists [], b; exact E | exists (x :: a), b; cbn; rewrite E; reflexivity].
Qed.

Lemma find_sub_None p t : find_sub p t = None <-> ~ occurs p t.
Proof.
  induction t as [|x t IH]; cbn [find_sub].
  - destruct (prefix_rest p []) eqn:E.
    + apply (proj1 (prefix_rest_Some _ _ _)) in E. split; [discriminate|]. intros H; exfalso; apply H. exists [], s. exact E.
    + rewrite prefix_rest_None in E. split; [|reflexivity]. intros _ (a & b & H).
      destruct a; [apply (E b H) | discriminate].
  - destruct (prefix_rest p (x :: t)) as [r|] eqn:E.
    + apply (proj1 (prefix_rest_Some _ _ _)) in E. split; [discriminate|]. intros H; exfalso; apply H. exists [], r. exact E.
    + rewrite prefix_rest_None in E. rewrite occurs_cons.
      destruct (find_sub p t); cbn [option_map].
      * split; [discriminate|]. intros H. exfalso. assert (G : ~ occurs p t) by tauto. apply IH in G. discriminate.
      * split; [|reflexivity]. intros _ [(b & H)|H]; [apply (E b H) | apply (proj1 IH eq_refl H)].
Qed.

Lemma find_sub_Some p t i : find_sub p t = Some i ->
  (exists b, skipn i t = p ++ b) /\ i <= List.length t /\ forall j, j < i -> forall b, skipn j t <> p ++ b.
Proof.
  revert i; induction t as [|x t IH]; intros i; cbn [find_sub].
  - destruct (prefix_rest p []) eqn:E; [|discriminate]. apply (proj1 (prefix_rest_Some _ _ _)) in E. intros H; injection H as <-.
    split; [exists s; exact E|]. split; [cbn; lia | intros; lia].
  - destruct (prefix_rest p (x :: t)) as [r|] eqn:E.
    + apply (proj1 (prefix_rest_Some _ _ _)) in E. intros H; injection H as <-. split; [exists r; exact E|]. split; [lia | intros; lia].
    + rewrite prefix_rest_None in E. destruct (find_sub p t) as [k|]; cbn [option_map]; [|discriminate].
      intros H; injection H as <-. destruct (IH k eq_refl) as (H1 & H2 & H3). cbn [skipn List.length].
      split; [exact H1|]. split; [lia|]. intros [|j] Hj b; [cbn [skipn]; apply E | cbn [skipn]; apply H3; lia].
Qed.

Lemma replace_absent old new t : old <> [] -> ~ occurs old t -> replace old new t = t.
Proof.
  intros Ho. induction t as [|x t IH]; intros H; [reflexivity|]. rewrite replace_miss.
  - f_equal. apply IH. intros G. apply H, occurs_cons. auto.
  - intros r Hr. apply H, occurs_cons. left. exists r. exact Hr.
Qed.
