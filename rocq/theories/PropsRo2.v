(* C33: the RO2 index file and the total peroxy radical concentration. *)
From Coq Require Import List Bool Arith Lia ZArith String Permutation Reals Lra.
From Verif Require Import Base PyStr PyDict ModelParse SpecMech ParseStruct ParseTables ParseWritten ParseShow PropsParse
  ModelLang SpecKin LangFacts GenReact GenParsed GenJacParsed ModelRhs ModelRo2 SpecRo2.
Import ListNotations.
Import Coq.Lists.List.
Open Scope nat_scope.
Open Scope list_scope.

(* The two radicals whose names run together, and what they run into. *)
Definition lost : list str := [s_ "IBUTALBO2"; s_ "IBUTALCO2"].
Definition joined : str := s_ "IBUTALBO2,IBUTALCO2".

Fixpoint nodupb (l : list str) : bool :=
  match l with [] => true | x :: l' => negb (inb x l') && nodupb l' end.
Lemma nodupb_ok l : nodupb l = true -> NoDup l.
Proof.
  induction l as [|x l IH]; cbn [nodupb]; [constructor|]. intros H. apply andb_true_iff in H as [H1 H2].
  constructor; [|apply IH, H2]. apply inb_nIn. destruct (inb x l); [discriminate | reflexivity].
Qed.

Lemma RO2_nodup : NoDup (map s_ RO2_names).
Proof. apply nodupb_ok. vm_compute. reflexivity. Qed.

Definition all_in (a b : list str) : bool := forallb (fun x => inb x b) a.
Lemma all_in_ok a b : all_in a b = true -> forall x, In x a -> In x b.
Proof. unfold all_in. rewrite forallb_forall. intros H x Hx. apply inb_In, H, Hx. Qed.

Lemma same_but (R P L : list str) j :
  all_in R (j :: filter (fun s => negb (inb s L)) P) = true ->
  all_in (j :: filter (fun s => negb (inb s L)) P) R = true ->
  forall s, In s R <-> (inb s P = true /\ ~ In s L) \/ s = j.
Proof.
  intros A B s. assert (A' := all_in_ok _ _ A s). assert (B' := all_in_ok _ _ B s).
  rewrite inb_In. split.
  - intros H. destruct (A' H) as [<-|H']; [right; reflexivity|left]. apply filter_In in H' as [H1 H2].
    split; [exact H1|]. apply negb_true_iff in H2. apply inb_nIn, H2.
  - intros [[H1 H2]| ->]; apply B'; [right | left; reflexivity]. apply filter_In. split; [exact H1|].
    apply negb_true_iff, inb_nIn, H2.
Qed.
Lemma names_forth : all_in (map s_ RO2_names) (joined :: filter (fun s => negb (inb s lost)) (map s_ peroxy_radicals)) = true.
Proof. vm_compute. reflexivity. Qed.
Lemma names_back : all_in (joined :: filter (fun s => negb (inb s lost)) (map s_ peroxy_radicals)) (map s_ RO2_names) = true.
Proof. vm_compute. reflexivity. Qed.
Lemma RO2_names_in s : In s (map s_ RO2_names) <-> (is_peroxy s = true /\ ~ In s lost) \/ s = joined.
Proof. exact (same_but _ _ lost joined names_forth names_back s). Qed.

Lemma flat_map_dget sp2a (l : list string) :
  flat_map (fun name => match dget (s_ name) sp2a with Some i => [i] | None => [] end) l =
  map (fun s => dget_or 0 s sp2a) (filter (fun s => dmem s sp2a) (map s_ l)).
Proof.
  induction l as [|a l IH]; [reflexivity|]. cbn [flat_map map filter]. rewrite IH.
  unfold dmem at 2. destruct (dget (s_ a) sp2a) as [i|] eqn:E; [|reflexivity].
  cbn [map]. unfold dget_or at 2. rewrite E. reflexivity.
Qed.

Lemma dmem_interp m s : dmem s (p_sp2a (interp m)) = true <-> In s (species m).
Proof.
  unfold dmem. destruct (dget s (p_sp2a (interp m))) as [i|] eqn:E.
  - apply interp_sp2a in E. split; [intros _; exact (nth_error_In _ _ E) | reflexivity].
  - split; [discriminate|]. intros H. apply In_nth_error in H as [i Hi]. apply interp_sp2a in Hi. congruence.
Qed.

Lemma map_inj_NoDup {A B} (f : A -> B) l : NoDup l -> (forall x y, In x l -> In y l -> f x = f y -> x = y) -> NoDup (map f l).
Proof.
  induction 1 as [|x l Hx Hnd IH]; intros H; cbn [map]; [constructor|]. constructor.
  - intros Hi. apply in_map_iff in Hi as (y & Hy & Hyl). apply Hx.
    rewrite <- (H y x); [exact Hyl | right; exact Hyl | left; reflexivity | exact Hy].
  - apply IH. intros a b Ha Hb. apply H; right; assumption.
Qed.

(* The index file, for every accepted mechanism text: each index once, and an
   index is present exactly when its species is one of the listed radicals
   other than IBUTALBO2 and IBUTALCO2 (or is called "IBUTALBO2,IBUTALCO2"). *)
Theorem C33_indices : forall text n st, extract_mechanism text = Ok (n, st) ->
  NoDup (write_RO2_indices (p_sp2a st)) /\
  forall i, In i (write_RO2_indices (p_sp2a st)) <->
    exists s, dget s (p_sp2a st) = Some i /\
      ((is_peroxy s = true /\ s <> s_ "IBUTALBO2" /\ s <> s_ "IBUTALCO2") \/ s = s_ "IBUTALBO2,IBUTALCO2").
Proof.
  intros text n st H. apply extract_Ok in H as (_ & m & _ & _ & _ & _ & ->).
  unfold write_RO2_indices. rewrite flat_map_dget.
  assert (D : forall s, In s (filter (fun s => dmem s (p_sp2a (interp m))) (map s_ RO2_names)) ->
    dget s (p_sp2a (interp m)) = Some (dget_or 0 s (p_sp2a (interp m)))).
  { intros s Hs. apply filter_In in Hs as [_ Hs]. unfold dmem in Hs. unfold dget_or.
    destruct (dget s (p_sp2a (interp m))); [reflexivity | discriminate]. }
  split.
  - apply map_inj_NoDup; [apply NoDup_filter, RO2_nodup|]. intros x y Hx Hy E.
    apply D in Hx. apply D in Hy. rewrite E in Hx. apply interp_sp2a in Hx. apply interp_sp2a in Hy. congruence.
  - intros i. rewrite in_map_iff. split.
    + intros (s & <- & Hs). exists s. split; [apply D, Hs|]. apply filter_In in Hs as [Hs _].
      apply RO2_names_in in Hs as [[H1 H2]| ->]; [left | right; reflexivity]. split; [exact H1|].
      split; intros ->; apply H2; cbn; tauto.
    + intros (s & Hi & Hs). exists s. unfold dget_or at 1. rewrite Hi. split; [reflexivity|]. apply filter_In. split.
      * apply RO2_names_in. destruct Hs as [(H1 & H2 & H3)| ->]; [left | right; reflexivity].
        split; [exact H1|]. intros [E|[E|[]]]; congruence.
      * unfold dmem. rewrite Hi. reflexivity.
Qed.

Lemma mapM_nth (y : list R) l : (forall i, In i l -> i < List.length y) ->
  mapM (py_nth y) l = Ok (map (fun i => nth i y 0%R) l).
Proof.
  induction l as [|i l IH]; intros H; [reflexivity|]. cbn [mapM]. unfold py_nth at 1.
  rewrite (nth_error_nth' y 0%R) by (apply H; left; reflexivity). cbn [bind].
  rewrite IH by (intros j Hj; apply H; right; exact Hj). reflexivity.
Qed.

Lemma fold_right_rsum l : fold_right Rplus 0%R l = rsum l.
Proof. induction l as [|x l IH]; [reflexivity|]. cbn. rewrite IH. reflexivity. Qed.

Definition counted (s : str) : bool := inb s (map s_ RO2_names).

(* The sum as a sum over the species of the mechanism. *)
Lemma RO2_value m y : List.length y = List.length (species m) -> (exists s, In s (species m) /\ counted s = true) ->
  RO2_sum (write_RO2_indices (p_sp2a (interp m))) y =
  Ok (rsum (map (fun s => if counted s then conc_of (p_sp2a (interp m)) y s else 0%R) (species m))).
Proof.
  intros Hy (s0 & Hs0 & Hc0). unfold write_RO2_indices. rewrite flat_map_dget.
  set (l := filter (fun s => dmem s (p_sp2a (interp m))) (map s_ RO2_names)).
  assert (P : Permutation l (filter counted (species m))).
  { apply NoDup_Permutation.
    - apply NoDup_filter, RO2_nodup.
    - apply NoDup_filter, first_seen_NoDup.
    - intros x. unfold l, counted. rewrite !filter_In, dmem_interp, inb_In. tauto. }
  assert (E : RO2_sum (map (fun s => dget_or 0 s (p_sp2a (interp m))) l) y =
    do vs <- mapM (py_nth y) (map (fun s => dget_or 0 s (p_sp2a (interp m))) l); Ok (fold_right Rplus 0%R vs)).
  { destruct l as [|a l'] eqn:El; [|reflexivity]. exfalso.
    apply Permutation_nil in P. assert (In s0 []) by (rewrite <- P; apply filter_In; split; assumption). contradiction. }
  rewrite E, mapM_nth.
  - cbn [bind]. rewrite fold_right_rsum. f_equal. rewrite <- rsum_filter. rewrite map_map.
    rewrite <- (rsum_perm _ _ (Permutation_map (conc_of (p_sp2a (interp m)) y) P)).
    apply rsum_ext. intros s Hs. rewrite conc_of_dget. unfold l in Hs. apply filter_In in Hs as [_ Hs].
    unfold dmem in Hs. unfold dget_or. destruct (dget s (p_sp2a (interp m))); [reflexivity | discriminate].
  - intros i Hi. apply in_map_iff in Hi as (s & <- & Hs). unfold l in Hs. apply filter_In in Hs as [_ Hs].
    unfold dmem in Hs. unfold dget_or. destruct (dget s (p_sp2a (interp m))) as [i|] eqn:Ei; [|discriminate].
    apply interp_sp2a in Ei. rewrite Hy. apply nth_error_Some. congruence.
Qed.

Lemma no_RO2 m : (forall s, In s (species m) -> counted s = false) -> write_RO2_indices (p_sp2a (interp m)) = [].
Proof.
  intros H. unfold write_RO2_indices. rewrite flat_map_dget.
  assert (E : filter (fun s => dmem s (p_sp2a (interp m))) (map s_ RO2_names) = []).
  { destruct (filter _ _) as [|s l] eqn:E; [reflexivity|]. exfalso.
    assert (Hs : In s (s :: l)) by (left; reflexivity). rewrite <- E in Hs. apply filter_In in Hs as [H1 H2].
    apply dmem_interp, H in H2. apply inb_In in H1. unfold counted in H2. congruence. }
  rewrite E. reflexivity.
Qed.

Lemma counted_spec s : counted s = true <-> (is_peroxy s = true /\ ~ In s lost) \/ s = joined.
Proof. unfold counted. rewrite inb_In. apply RO2_names_in. Qed.

Lemma counted_peroxy s : ~ In s (joined :: lost) -> counted s = is_peroxy s.
Proof.
  intros H. destruct (is_peroxy s) eqn:E.
  - apply counted_spec. left. split; [exact E|]. intros Hl. apply H. right; exact Hl.
  - destruct (counted s) eqn:C; [|reflexivity]. apply counted_spec in C as [[C _]| ->]; [congruence|].
    exfalso. apply H. left; reflexivity.
Qed.

(* For every accepted mechanism: the sum is the total peroxy radical
   concentration for all states exactly when the mechanism has a peroxy radical
   and neither of the two radicals that the list runs together. *)
Theorem C33_exactly_when : forall text n st, extract_mechanism text = Ok (n, st) ->
  let sp := dkeys (p_sp2a st) in
  ((forall y, List.length y = List.length sp ->
      RO2_sum (write_RO2_indices (p_sp2a st)) y = Ok (peroxy_total sp (conc_of (p_sp2a st) y)))
   <-> (exists s, In s sp /\ is_peroxy s = true) /\
       ~ In (s_ "IBUTALBO2") sp /\ ~ In (s_ "IBUTALCO2") sp /\ ~ In (s_ "IBUTALBO2,IBUTALCO2") sp).
Proof.
  intros text n st H. apply extract_Ok in H as (_ & m & _ & _ & _ & _ & ->).
  assert (Hsp : dkeys (p_sp2a (interp m)) = species m).
  { destruct (interp_species m) as (_ & -> & _ & _). unfold dkeys. apply map_fst_combine. rewrite seq_length; reflexivity. }
  cbv zeta. rewrite Hsp. unfold peroxy_total. split.
  - intros Hy.
    assert (C : exists s, In s (species m) /\ counted s = true).
    { destruct (existsb counted (species m)) eqn:E; [apply existsb_exists in E; exact E|]. exfalso.
      specialize (Hy (repeat 0%R (List.length (species m))) (repeat_length _ _)).
      rewrite no_RO2 in Hy; [discriminate|]. intros s Hs. destruct (counted s) eqn:Ec; [|reflexivity].
      exfalso. assert (existsb counted (species m) = true) by (apply existsb_exists; eauto). congruence. }
    assert (K : forall s, In s (species m) -> counted s = is_peroxy s).
    { intros s Hs. apply In_nth_error in Hs as [i Hi]. assert (Hil : i < List.length (species m)) by (apply nth_error_Some; congruence).
      set (y := map (fun j => if j =? i then 1%R else 0%R) (seq 0 (List.length (species m)))).
      assert (Ly : List.length y = List.length (species m)) by (unfold y; rewrite map_length, seq_length; reflexivity).
      assert (Yn : forall j, nth j y 0%R = if (j =? i) then 1%R else 0%R).
      { intros j. unfold y. destruct (Nat.lt_ge_cases j (List.length (species m))) as [L|L].
        - assert (G := map_nth (fun j => if j =? i then 1%R else 0%R) (seq 0 (List.length (species m))) 0 j).
          cbv beta in G. rewrite seq_nth in G by exact L. cbn [Nat.add] in G. rewrite <- G.
          apply nth_indep. rewrite map_length, seq_length; exact L.
        - rewrite nth_overflow by (rewrite map_length, seq_length; exact L).
          destruct (Nat.eqb_spec j i); [lia | reflexivity]. }
      specialize (Hy y Ly). rewrite (RO2_value m y Ly C) in Hy. injection Hy as Hy.
      assert (P : forall f : str -> bool, rsum (map (fun x => if f x then conc_of (p_sp2a (interp m)) y x else 0%R) (species m)) =
        if f s then 1%R else 0%R).
      { intros f.
        assert (G : forall l a, (forall k x, nth_error l k = Some x -> nth_error (species m) (a + k) = Some x) ->
          rsum (map (fun x => if f x then conc_of (p_sp2a (interp m)) y x else 0%R) l) =
          if (a <=? i) && (i <? a + List.length l) then (if f s then 1%R else 0%R) else 0%R).
        { induction l as [|x l IH]; intros a Ha; cbn [map rsum List.length].
          - destruct (Nat.leb_spec a i); cbn [andb]; [|reflexivity].
            destruct (Nat.ltb_spec i (a + 0)); [lia | reflexivity].
          - rewrite (IH (S a)) by (intros k z Hk; rewrite Nat.add_succ_l, <- Nat.add_succ_r; apply Ha; exact Hk).
            assert (Hx := Ha 0 x eq_refl). rewrite Nat.add_0_r in Hx.
            rewrite conc_of_dget, (proj2 (interp_sp2a m x a) Hx), Yn.
            destruct (Nat.eqb_spec a i) as [->|Ne].
            + rewrite Hi in Hx. injection Hx as ->.
              assert (E1 : (i <=? i) = true) by (apply Nat.leb_le; lia).
              assert (E2 : (i <? i + S (List.length l)) = true) by (apply Nat.ltb_lt; lia).
              assert (E3 : (S i <=? i) = false) by (apply Nat.leb_gt; lia).
              rewrite E1, E2, E3. cbn [andb]. destruct (f x); lra.
            + replace (S a <=? i) with (a <=? i).
              2:{ destruct (Nat.leb_spec a i), (Nat.leb_spec (S a) i); try reflexivity; lia. }
              replace (S a + List.length l) with (a + S (List.length l)) by lia.
              destruct ((a <=? i) && (i <? a + S (List.length l))), (f x); lra. }
        rewrite (G (species m) 0) by (intros k x Hk; exact Hk). cbn [Nat.add].
        assert (E1 : (i <? List.length (species m)) = true) by (apply Nat.ltb_lt; exact Hil). rewrite E1. reflexivity. }
      rewrite !P in Hy. destruct (counted s), (is_peroxy s); try reflexivity; exfalso; lra. }
    assert (Q1 : counted (s_ "IBUTALBO2") = false) by (vm_compute; reflexivity).
    assert (Q2 : counted (s_ "IBUTALCO2") = false) by (vm_compute; reflexivity).
    assert (Q3 : counted joined = true) by (vm_compute; reflexivity).
    assert (R1 : is_peroxy (s_ "IBUTALBO2") = true) by (vm_compute; reflexivity).
    assert (R2 : is_peroxy (s_ "IBUTALCO2") = true) by (vm_compute; reflexivity).
    assert (R3 : is_peroxy joined = false) by (vm_compute; reflexivity).
    split; [|split; [|split]].
    + destruct C as (s & Hs & Hc). exists s. split; [exact Hs|]. rewrite <- K; assumption.
    + intros Hs. specialize (K _ Hs). congruence.
    + intros Hs. specialize (K _ Hs). congruence.
    + intros Hs. change (In joined (species m)) in Hs. specialize (K _ Hs). congruence.
  - intros ((s & Hs & Hp) & H1 & H2 & H3) y Hy.
    assert (K : forall s, In s (species m) -> counted s = is_peroxy s).
    { intros x Hx. apply counted_peroxy. intros [<-|[<-|[<-|[]]]]; [apply H3, Hx | apply H1, Hx | apply H2, Hx]. }
    rewrite (RO2_value m y Hy); [|exists s; split; [exact Hs | rewrite K; assumption]].
    f_equal. apply rsum_ext. intros x Hx. rewrite (K x Hx). reflexivity.
Qed.

Theorem C33_partial : forall m text st, written m text ->
  extract_mechanism text = Ok (Z.of_nat (List.length m), st) ->
  let sp := first_seen (reading_order m) in
  (exists s, In s sp /\ is_peroxy s = true) ->
  ~ In (s_ "IBUTALBO2") sp -> ~ In (s_ "IBUTALCO2") sp -> ~ In (s_ "IBUTALBO2,IBUTALCO2") sp ->
  forall y, List.length y = List.length sp ->
    RO2_sum (write_RO2_indices (p_sp2a st)) y = Ok (peroxy_total sp (conc_of (p_sp2a st) y)).
Proof.
  intros m text st W H sp Hs H1 H2 H3 y Hy. rewrite (written_extract m text W) in H. injection H as <-.
  assert (Hsp : dkeys (p_sp2a (interp m)) = sp).
  { destruct (interp_species m) as (_ & -> & _ & _). unfold dkeys. apply map_fst_combine. rewrite seq_length; reflexivity. }
  rewrite <- Hsp in *. apply (proj2 (C33_exactly_when _ _ _ (written_extract m text W))); auto.
Qed.

(* A mechanism with IBUTALBO2 and another radical: the sum misses IBUTALBO2.
   A mechanism without a radical: the sum raises IndexError. *)
Definition ro2_words : list wrx :=
  [ ([s_ "IBUTALBO2"; s_ "NO"], [s_ "CH3O2"; s_ "NO2"], s_ "KRO2NO")
  ; ([s_ "CH3O2"; s_ "HO2"], [s_ "CH3OOH"], s_ "3.8D-13*EXP(780/TEMP)") ].
Definition none_words : list wrx := [ ([s_ "NO"; s_ "O3"], [s_ "NO2"], s_ "1.4D-12*EXP(-1310/TEMP)") ].

Theorem C33_refuted :
  (exists m text st y, written m text /\ extract_mechanism text = Ok (Z.of_nat (List.length m), st) /\
     List.length y = List.length (first_seen (reading_order m)) /\
     exists total, RO2_sum (write_RO2_indices (p_sp2a st)) y = Ok total /\
       (total < peroxy_total (first_seen (reading_order m)) (conc_of (p_sp2a st) y))%R) /\
  (exists m text st, written m text /\ extract_mechanism text = Ok (Z.of_nat (List.length m), st) /\
     forall y, RO2_sum (write_RO2_indices (p_sp2a st)) y = Err IndexError).
Proof.
  split.
  - exists (map bare ro2_words), (show ro2_words).
    assert (W : written (map bare ro2_words) (show ro2_words)) by (apply bare_written; [discriminate | reflexivity]).
    exists (interp (map bare ro2_words)), [1;0;0;0;0;0]%R.
    split; [exact W|]. split; [apply written_extract, W|]. split; [vm_compute; reflexivity|].
    exists 0%R. split.
    + assert (E : write_RO2_indices (p_sp2a (interp (map bare ro2_words))) = [2]) by (vm_compute; reflexivity).
      rewrite E. cbn. f_equal. lra.
    + assert (E : first_seen (reading_order (map bare ro2_words)) =
        [s_ "IBUTALBO2"; s_ "NO"; s_ "CH3O2"; s_ "NO2"; s_ "HO2"; s_ "CH3OOH"]) by (vm_compute; reflexivity).
      rewrite E. unfold peroxy_total. cbn [map rsum].
      replace (is_peroxy (s_ "IBUTALBO2")) with true by (vm_compute; reflexivity).
      replace (is_peroxy (s_ "NO")) with false by (vm_compute; reflexivity).
      replace (is_peroxy (s_ "CH3O2")) with true by (vm_compute; reflexivity).
      replace (is_peroxy (s_ "NO2")) with false by (vm_compute; reflexivity).
      replace (is_peroxy (s_ "HO2")) with false by (vm_compute; reflexivity).
      replace (is_peroxy (s_ "CH3OOH")) with false by (vm_compute; reflexivity).
      replace (conc_of (p_sp2a (interp (map bare ro2_words))) [1;0;0;0;0;0]%R (s_ "IBUTALBO2")) with 1%R by (vm_compute; reflexivity).
      replace (conc_of (p_sp2a (interp (map bare ro2_words))) [1;0;0;0;0;0]%R (s_ "CH3O2")) with 0%R by (vm_compute; reflexivity).
      lra.
  - exists (map bare none_words), (show none_words).
    assert (W : written (map bare none_words) (show none_words)) by (apply bare_written; [discriminate | reflexivity]).
    exists (interp (map bare none_words)). split; [exact W|]. split; [apply written_extract, W|].
    intros y. assert (E : write_RO2_indices (p_sp2a (interp (map bare none_words))) = []) by (vm_compute; reflexivity).
    rewrite E. reflexivity.
Qed.

(* The guard of C33_partial is met by a mechanism with two radicals. *)
Definition ro2_ok_words : list wrx :=
  [ ([s_ "CH3O2"; s_ "NO"], [s_ "CH3O"; s_ "NO2"], s_ "2.3D-12")
  ; ([s_ "CH3CO3"; s_ "HO2"], [s_ "CH3O2"; s_ "OH"], s_ "KAPHO2") ].
Example C33_hypotheses : exists st, written (map bare ro2_ok_words) (show ro2_ok_words) /\
  extract_mechanism (show ro2_ok_words) = Ok (2%Z, st) /\ write_RO2_indices (p_sp2a st) = [4; 0] /\
  RO2_sum (write_RO2_indices (p_sp2a st)) [1;2;3;4;5;6;7]%R = Ok (5 + (1 + 0))%R.
Proof.
  exists (interp (map bare ro2_ok_words)).
  assert (W : written (map bare ro2_ok_words) (show ro2_ok_words)) by (apply bare_written; [discriminate | reflexivity]).
  split; [exact W|]. split; [apply (written_extract _ _ W)|].
  assert (E : write_RO2_indices (p_sp2a (interp (map bare ro2_ok_words))) = [4; 0]) by (vm_compute; reflexivity).
  split; [exact E|]. rewrite E. reflexivity.
Qed.

Print Assumptions C33_indices.
Print Assumptions C33_exactly_when.
Print Assumptions C33_partial.
Print Assumptions C33_refuted.
