(* C51: the chart of the condensed mass. *)
From Coq Require Import List Bool Arith Lia Reals Lra.
From Verif Require Import Base SpecKin LangFacts ModelExpr ModelPart SpecPart PartFacts PartValue ModelPlot SpecPlot.
Import ListNotations.
Open Scope nat_scope.
Open Scope list_scope.

Lemma nth_firstn_lt {A} (l : list A) n i d : i < n -> nth i (firstn n l) d = nth i l d.
Proof.
  revert n i. induction l as [|x l IH]; intros [|n] [|i] H; cbn; try reflexivity; try lia. apply IH. lia.
Qed.
Lemma nth_skipn_add {A} (l : list A) a i d : nth i (skipn a l) d = nth (a + i) l d.
Proof. revert a. induction l as [|x l IH]; intros [|a]; cbn; try reflexivity; [destruct i; reflexivity | apply IH]. Qed.
Lemma map_seq_nth {A} (l : list A) d n : List.length l = n -> l = map (fun i => nth i l d) (seq 0 n).
Proof.
  intros <-. induction l as [|x l IH]; [reflexivity|]. cbn [List.length seq map nth]. f_equal. rewrite <- seq_shift, map_map. exact IH.
Qed.

Section Chart.
Context (ns nb : nat) (y molw : list R) (NA : R).
Context (Hns : 1 <= ns) (Ly : List.length y = ns + ns * nb) (Lm : List.length molw = ns).

Lemma column b : b < nb -> abs_column ns y molw NA b = Ok (map (shown_mass ns ns y molw NA b) (seq 0 (ns - 1))).
Proof.
  intros Hb. unfold abs_column, y_mass_array.
  set (part := firstn ns (skipn (ns + b * ns) y)).
  assert (Lp : List.length part = ns) by (unfold part; rewrite firstn_length, skipn_length; nia).
  rewrite Lp, Lm, Nat.eqb_refl. cbn [bind].
  set (f := fun p : R * R => let m := (fst p / NA * snd p * 1000000000000)%R in if Rlt_dec m 0 then 0%R else m).
  assert (E : map f (combine part molw) = map (shown_mass ns ns y molw NA b) (seq 0 ns)).
  { rewrite (map_seq_nth (combine part molw) (0, 0)%R ns) by (rewrite combine_length; lia). rewrite map_map. apply map_ext_in. intros j Hj. apply in_seq in Hj.
    rewrite combine_nth by lia. unfold f. cbn [fst snd]. unfold part. rewrite nth_firstn_lt, nth_skipn_add by lia. unfold shown_mass, slot.
    replace 1e12%R with 1000000000000%R by lra. set (m := (_ * 1000000000000)%R). unfold Rmax. destruct (Rlt_dec m 0), (Rle_dec 0 m); lra. }
  rewrite E. assert (F : firstn (ns - 1) (map (shown_mass ns ns y molw NA b) (seq 0 ns)) = map (shown_mass ns ns y molw NA b) (seq 0 (ns - 1))).
  { replace ns with (ns - 1 + 1) at 4 by lia. rewrite seq_app, map_app, firstn_app, map_length, seq_length, Nat.sub_diag. cbn [firstn]. rewrite app_nil_r.
    apply firstn_all2. rewrite map_length, seq_length. lia. }
  rewrite F, map_length, seq_length, Nat.eqb_refl. reflexivity.
Qed.

Lemma columns : mapM (abs_column ns y molw NA) (seq 0 nb) = Ok (map (fun b => map (shown_mass ns ns y molw NA b) (seq 0 (ns - 1))) (seq 0 nb)).
Proof.
  assert (G : forall l, (forall b, In b l -> b < nb) -> mapM (abs_column ns y molw NA) l = Ok (map (fun b => map (shown_mass ns ns y molw NA b) (seq 0 (ns - 1))) l)).
  { induction l as [|b l IH]; intros H; [reflexivity|]. cbn [mapM map]. rewrite column by (apply H; left; reflexivity). cbn [bind].
    rewrite IH by (intros b' Hb'; apply H; right; exact Hb'). reflexivity. }
  apply G. intros b Hb. apply in_seq in Hb. lia.
Qed.

Let norms := map norm_column (map (fun b => map (shown_mass ns ns y molw NA b) (seq 0 (ns - 1))) (seq 0 nb)).
(* None where the bin has no mass. *)
Let cell (b j : nat) : option R := rdiv (shown_mass ns ns y molw NA b j) (bin_mass ns ns y molw NA b).
Lemma norms_row org : org < ns - 1 -> row norms org = map (fun b => cell b org) (seq 0 nb).
Proof.
  intros Ho. unfold row, norms. rewrite !map_map. apply map_ext. intros b. unfold norm_column. rewrite map_map.
  rewrite (nth_indep _ None (cell b 0)) by (rewrite map_length, seq_length; exact Ho). rewrite (map_nth (cell b)). rewrite seq_nth by exact Ho. reflexivity.
Qed.
Fixpoint under (b org : nat) : option R := match org with 0 => Some 0%R | S o => oadd (under b o) (cell b o) end.
Lemma combine_map {A B C} (f : A -> B) (g : A -> C) l : combine (map f l) (map g l) = map (fun x => (f x, g x)) l.
Proof. induction l as [|x l IH]; [reflexivity|]. cbn. f_equal. exact IH. Qed.
Lemma drawn : forall todo org, org + todo = ns - 1 ->
  draw norms (map (fun b => under b (org - 1)) (seq 0 nb)) org todo = map (fun o => map (fun b => (cell b o, under b o)) (seq 0 nb)) (seq org todo).
Proof.
  induction todo as [|todo IH]; intros org H; [reflexivity|]. cbn [draw seq map].
  assert (C : (if org =? 0 then map (fun b => under b (org - 1)) (seq 0 nb)
               else map (fun p => oadd (fst p) (snd p)) (combine (map (fun b => under b (org - 1)) (seq 0 nb)) (row norms (org - 1)))) = map (fun b => under b org) (seq 0 nb)).
  { destruct org as [|org]; [reflexivity|]. cbn [Nat.eqb]. rewrite norms_row by lia. rewrite combine_map, map_map. apply map_ext. intros b.
    replace (S org - 1) with org by lia. reflexivity. }
  rewrite C, norms_row by lia. rewrite combine_map. f_equal. specialize (IH (S org) ltac:(lia)). replace (S org - 1) with org in IH by lia. exact IH.
Qed.
Lemma chart : bars_at ns nb y molw NA =
  Ok (map (fun o => map (fun b => (cell b o, under b o)) (seq 0 nb)) (seq 0 (ns - 1)), rsum (map (bin_mass ns ns y molw NA) (seq 0 nb))).
Proof.
  unfold bars_at. rewrite columns. cbn [bind]. f_equal. f_equal.
  - replace (repeat (Some 0%R) nb) with (map (fun b => under b (0 - 1)) (seq 0 nb)); [apply drawn; lia|]. cbn [under Nat.sub]. clear. generalize 0 at 1 as s. induction nb as [|n IH]; intros s; [reflexivity|]. cbn. f_equal. apply IH.
  - rewrite map_map. reflexivity.
Qed.

Lemma shown_nonneg b j : (0 <= shown_mass ns ns y molw NA b j)%R.
Proof. apply Rmax_l. Qed.
Lemma under_share b org : bin_mass ns ns y molw NA b <> 0%R -> under b org = Some (rsum (map (share ns ns y molw NA b) (seq 0 org))).
Proof.
  intros Hn. induction org as [|o IH]; [reflexivity|]. cbn [under]. rewrite IH. unfold cell. rewrite rdiv_Some by exact Hn. cbn [oadd obind].
  rewrite seq_S, map_app, rsum_app. cbn. f_equal. unfold share. ring.
Qed.
Lemma shares_sum b : bin_mass ns ns y molw NA b <> 0%R -> rsum (map (share ns ns y molw NA b) (seq 0 (ns - 1))) = 1%R.
Proof.
  intros Hn. unfold share. assert (E : forall l, rsum (map (fun j => shown_mass ns ns y molw NA b j / bin_mass ns ns y molw NA b)%R l) = (rsum (map (shown_mass ns ns y molw NA b) l) / bin_mass ns ns y molw NA b)%R).
  { induction l as [|j l IH]; [cbn; unfold Rdiv; ring|]. cbn [map]. unfold rsum in *. cbn [fold_right]. rewrite IH. unfold Rdiv. ring. }
  rewrite E. fold (bin_mass ns ns y molw NA b). field. exact Hn.
Qed.
End Chart.

(* Every time step is drawn from its own row.  In each bin the bar of component
   j has the share of its mass in the bin, read from slot j of that bin, and
   stands on the bars before it; the shares are not negative and add up to 1
   exactly when the bin holds some mass besides water, and otherwise there is
   no bar (nan).  The title is the mass of all bins. *)
Theorem C51_partial T (time : list T) y_matrix ns nb molw NA : 1 <= ns -> List.length molw = ns ->
  List.length y_matrix = List.length time -> Forall (fun y => List.length y = ns + ns * nb) y_matrix ->
  exists charts, stacked_bar time y_matrix ns nb molw NA = Ok charts /\ List.length charts = List.length time /\
    forall k y bars title, nth_error y_matrix k = Some y -> nth_error charts k = Some (bars, title) ->
      let m := shown_mass ns ns y molw NA in
      title = rsum (map (bin_mass ns ns y molw NA) (seq 0 nb)) /\ List.length bars = ns - 1 /\
      (forall j b, j < ns - 1 -> b < nb -> exists height bottom, List.length (nth j bars []) = nb /\
         nth b (nth j bars []) (None, None) = (height, bottom) /\
         ((exists i, i < ns - 1 /\ (0 < m b i)%R) -> height = Some (share ns ns y molw NA b j) /\ bottom = Some (rsum (map (share ns ns y molw NA b) (seq 0 j)))) /\
         ((forall i, i < ns - 1 -> m b i = 0%R) -> height = None)) /\
      (forall b, b < nb -> (exists i, i < ns - 1 /\ (0 < m b i)%R) ->
         rsum (map (share ns ns y molw NA b) (seq 0 (ns - 1))) = 1%R /\ forall j, j < ns - 1 -> (0 <= share ns ns y molw NA b j <= 1)%R).
Proof.
  intros Hns Lm Lt Hy.
  set (good y c := c = (map (fun o => map (fun b => (rdiv (shown_mass ns ns y molw NA b o) (bin_mass ns ns y molw NA b), under ns y molw NA b o)) (seq 0 nb)) (seq 0 (ns - 1)), rsum (map (bin_mass ns ns y molw NA) (seq 0 nb)))).
  assert (G : exists charts, stacked_bar time y_matrix ns nb molw NA = Ok charts /\ Forall2 good y_matrix charts).
  { unfold stacked_bar. rewrite <- Lt.
    assert (A : forall pre post, Forall (fun y => List.length y = ns + ns * nb) post -> exists charts,
       mapM (fun k => do y <- py_nth (pre ++ post) k; bars_at ns nb y molw NA) (seq (List.length pre) (List.length post)) = Ok charts /\ Forall2 good post charts).
    { intros pre post. revert pre. induction post as [|y post IH]; intros pre F; [exists []; split; [reflexivity | constructor]|]. inversion F as [|? ? Fy F']; subst.
      cbn [List.length seq mapM]. unfold py_nth at 1. rewrite nth_error_app2, Nat.sub_diag by lia. cbn [nth_error bind]. rewrite (chart (List.length molw) nb y molw NA Hns Fy eq_refl). cbn [bind].
      destruct (IH (pre ++ [y]) F') as (cs & Hc & HF). rewrite <- app_assoc in Hc. cbn [app] in Hc. rewrite app_length in Hc. cbn [List.length] in Hc. rewrite Nat.add_1_r in Hc. rewrite Hc. cbn [bind].
      eexists. split; [reflexivity|]. constructor; [reflexivity | exact HF]. }
    exact (A [] y_matrix Hy). }
  destruct G as (charts & Hc & HF). exists charts. split; [exact Hc|]. split.
  { rewrite <- Lt. clear - HF. induction HF; [reflexivity | cbn; f_equal; assumption]. }
  intros k y bars title Hk Hb m.
  assert (E : good y (bars, title)).
  { clear - HF Hk Hb. revert k Hk Hb. induction HF as [|a c l l' H F IH]; intros [|k] Hk Hb; try discriminate; cbn [nth_error] in Hk, Hb; [injection Hk as <-; injection Hb as ->; exact H | exact (IH k Hk Hb)]. }
  unfold good in E. assert (Eb := f_equal fst E). assert (Et := f_equal snd E). cbn [fst snd] in Eb, Et. clear E.
  assert (Bz : forall b, (exists i, i < ns - 1 /\ (0 < m b i)%R) -> (0 < bin_mass ns ns y molw NA b)%R).
  { intros b (i & Hi & Hp). unfold bin_mass. fold m. replace (ns - 1) with (i + (1 + (ns - 1 - i - 1))) by lia. rewrite seq_app, map_app, rsum_app, Nat.add_0_l. rewrite seq_app, map_app, rsum_app. cbn [seq map].
    assert (P : forall l, (0 <= rsum (map (m b) l))%R) by (intros l; apply rsum_nonneg; intros x Hx; apply in_map_iff in Hx as (j & <- & _); apply Rmax_l).
    assert (P1 := P (seq 0 i)). assert (P2 := P (seq (i + 1) (ns - 1 - i - 1))). change (rsum [m b i]) with (m b i + 0)%R. lra. }
  split; [exact Et|]. split; [rewrite Eb, map_length, seq_length; reflexivity|]. split.
  - intros j b Hj Hbn.
    assert (Ej : nth_error bars j = Some (map (fun b => (rdiv (shown_mass ns ns y molw NA b j) (bin_mass ns ns y molw NA b), under ns y molw NA b j)) (seq 0 nb))).
    { rewrite Eb, nth_error_map. rewrite (nth_error_nth' _ 0) by (rewrite seq_length; exact Hj). rewrite seq_nth by exact Hj. reflexivity. }
    exists (rdiv (shown_mass ns ns y molw NA b j) (bin_mass ns ns y molw NA b)), (under ns y molw NA b j).
    rewrite (nth_error_nth _ _ [] Ej). split.
    { rewrite map_length. apply seq_length. }
    split.
    { rewrite (nth_indep _ _ ((fun b => (rdiv (shown_mass ns ns y molw NA b j) (bin_mass ns ns y molw NA b), under ns y molw NA b j)) 0)) by (rewrite map_length, seq_length; exact Hbn).
      rewrite (map_nth (fun b => (rdiv (shown_mass ns ns y molw NA b j) (bin_mass ns ns y molw NA b), under ns y molw NA b j))). rewrite seq_nth by exact Hbn. reflexivity. }
    split.
    + intros Hp. apply Bz in Hp. split; [rewrite rdiv_Some by lra; reflexivity | apply under_share; lra].
    + intros Hz. unfold rdiv. unfold bin_mass. fold m. rewrite (rsum_zero (m b)) by (intros i Hi; apply in_seq in Hi; apply Hz; lia). destruct (Req_EM_T 0 0); [reflexivity | lra].
  - intros b Hbn Hp. apply Bz in Hp. split; [apply shares_sum; lra|]. intros j Hj. unfold share. fold m.
    assert (L : (m b j <= bin_mass ns ns y molw NA b)%R).
    { unfold bin_mass. fold m. replace (ns - 1) with (j + (1 + (ns - 1 - j - 1))) by lia. rewrite seq_app, map_app, rsum_app, Nat.add_0_l. rewrite seq_app, map_app, rsum_app. cbn [seq map].
      assert (P : forall l, (0 <= rsum (map (m b) l))%R) by (intros l; apply rsum_nonneg; intros x Hx; apply in_map_iff in Hx as (i & <- & _); apply Rmax_l).
      assert (P1 := P (seq 0 j)). assert (P2 := P (seq (j + 1) (ns - 1 - j - 1))). change (rsum [m b j]) with (m b j + 0)%R. lra. }
    assert (M0 : (0 <= m b j)%R) by apply Rmax_l. split; [apply Rmult_le_pos; [exact M0 | left; apply Rinv_0_lt_compat, Hp]|].
    apply (Rmult_le_reg_r (bin_mass ns ns y molw NA b)); [exact Hp|]. unfold Rdiv. rewrite Rmult_assoc, Rinv_l by lra. lra.
Qed.

(* For amounts that are not negative the title is the mass the model reports. *)
Theorem C51_title ns nb (inp : inputs) bars title : 1 <= ns -> List.length (i_y inp) = ns + ns * nb -> List.length (i_mw inp) = ns ->
  (0 < i_NA inp)%R -> Forall (Rle 0) (i_y inp) -> Forall (Rle 0) (i_mw inp) ->
  bars_at ns nb (i_y inp) (i_mw inp) (i_NA inp) = Ok (bars, title) -> title = organic_mass ns ns nb inp.
Proof.
  intros Hns Ly Lm HN Fy Fm H. rewrite (chart ns nb (i_y inp) (i_mw inp) (i_NA inp) Hns Ly Lm) in H. injection H as _ <-.
  assert (NN : forall l i, Forall (Rle 0) l -> (0 <= nth i l 0)%R).
  { intros l i F. destruct (Nat.lt_ge_cases i (List.length l)) as [Hi|Hi]; [exact (proj1 (Forall_forall _ _) F _ (nth_In l 0%R Hi)) | rewrite nth_overflow by exact Hi; lra]. }
  assert (E : forall b j, shown_mass ns ns (i_y inp) (i_mw inp) (i_NA inp) b j = (mass_of ns ns inp b j * 1e12)%R).
  { intros b j. unfold shown_mass, mass_of, amount. apply Rmax_right. assert (A := NN (i_y inp) (slot ns ns b j) Fy). assert (B := NN (i_mw inp) j Fm).
    assert (0 < / i_NA inp)%R by (apply Rinv_0_lt_compat, HN). apply Rmult_le_pos; [|lra]. apply Rmult_le_pos; [|exact B]. apply Rmult_le_pos; lra. }
  assert (Sc : forall (f : nat -> R) c l, rsum (map (fun j => f j * c)%R l) = (rsum (map f l) * c)%R).
  { intros f c l. induction l as [|j l IH]; [cbn; ring|]. unfold rsum in *. cbn [map fold_right]. rewrite IH. ring. }
  unfold organic_mass. rewrite <- Sc. apply rsum_ext. intros b _. unfold bin_mass. rewrite <- Sc. apply rsum_ext. intros j _. apply E.
Qed.

(* With fewer condensed components than gas species (as in the aerosol driver)
   the function reads the wrong slots: nothing has condensed here, yet the chart
   shows mass.  Its only caller, the fixed yield driver, has as many condensed
   components as gas species. *)
Theorem C51_refuted : exists ns nc nb y molw NA bars title, List.length y = ns + nc * nb /\ List.length molw = nc /\
  (forall b j, nth (slot ns nc b j) y 0%R = 0%R) /\ stacked_bar [tt] [y] nc nb molw NA = Ok [(bars, title)] /\ (0 < title)%R.
Proof.
  exists 3, 2, 1, [0; 0; 5; 0; 0]%R, [100; 18]%R, 1%R. eexists. eexists. split; [reflexivity|]. split; [reflexivity|]. split.
  - intros b j. unfold slot. destruct b as [|b]; [|apply nth_overflow; cbn; lia]. destruct j as [|[|j]]; [reflexivity | reflexivity | apply nth_overflow; cbn; lia].
  - split; [reflexivity|]. cbn. destruct (Rlt_dec _ 0); lra.
Qed.

(* The hypotheses of C51_partial and C51_title meet: two components and water
   in two bins, the second of them dry. *)
Example C51_hypotheses : let y := [7; 8; 9; 1; 2; 3; 0; 0; 5]%R in
  1 <= 3 /\ List.length y = 3 + 3 * 2 /\ Forall (Rle 0) y /\ (0 < shown_mass 3 3 y [100; 200; 18]%R 1 0 0)%R /\ forall i, i < 2 -> shown_mass 3 3 y [100; 200; 18]%R 1 1 i = 0%R.
Proof.
  cbv zeta. split; [lia|]. split; [reflexivity|]. split; [repeat constructor; lra|]. split.
  - unfold shown_mass. cbn [nth slot Nat.add Nat.mul]. apply Rlt_le_trans with (2 := Rmax_r _ _). lra.
  - intros [|[|i]] Hi; [| | lia]; unfold shown_mass; cbn [nth slot Nat.add Nat.mul]; apply Rmax_left; lra.
Qed.

Print Assumptions C51_partial.
Print Assumptions C51_title.
Print Assumptions C51_refuted.
