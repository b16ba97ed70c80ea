(* C88: the saved file of names; C89: what happens to saved results. *)
From Coq Require Import List Bool Arith Lia Ascii String ZArith QArith Permutation.
From Verif Require Import Base PyStr PyDict ModelParse SpecRate SpecMech ParseStruct ParseTables PropsParse ParseShow ModelRo2 ModelFiles SpecFiles PropsFiles SpecCsv ModelCsv.
Import ListNotations.
Import Coq.Lists.List.
Open Scope nat_scope.
Open Scope list_scope.

Lemma special_not c : csv_special c = false ->
  Ascii.eqb c comma = false /\ Ascii.eqb c quote = false /\ Ascii.eqb c cr = false /\ Ascii.eqb c lf = false.
Proof. unfold csv_special. intros H. repeat (apply orb_false_iff in H as [H ?]). auto. Qed.

Lemma plain_run s : forall f fs r, existsb csv_special s = false -> csv_go SPlain f fs (s ++ r) = csv_go SPlain (f ++ s) fs r.
Proof.
  induction s as [|c s IH]; intros f fs r H; [rewrite app_nil_r; reflexivity|].
  cbn [existsb] in H. apply orb_false_iff in H as [C H]. destruct (special_not c C) as (A & _ & B & D).
  cbn [app csv_go]. rewrite A, B, D. cbn [orb]. rewrite IH by exact H. rewrite <- app_assoc. reflexivity.
Qed.
Lemma quoted_run s : forall f fs r, csv_go SQuoted f fs (flat_map (fun c => if Ascii.eqb c quote then [quote; quote] else [c]) s ++ r) = csv_go SQuoted (f ++ s) fs r.
Proof.
  induction s as [|c s IH]; intros f fs r; [rewrite app_nil_r; reflexivity|]. cbn [flat_map].
  destruct (Ascii.eqb_spec c quote) as [->|N].
  - cbn [app csv_go]. rewrite Ascii.eqb_refl. rewrite IH, <- app_assoc. reflexivity.
  - cbn [app csv_go]. apply Ascii.eqb_neq in N. rewrite N. rewrite IH, <- app_assoc. reflexivity.
Qed.

(* After a written field comes a comma or the end of the record. *)
Lemma field_comma s fs r : csv_go SField [] fs (csv_field s ++ comma :: r) = csv_go SField [] (fs ++ [s]) r.
Proof.
  unfold csv_field. destruct (existsb csv_special s) eqn:E.
  - unfold csv_quoted. cbn [app csv_go]. change (Ascii.eqb quote lf || Ascii.eqb quote cr) with false. change (Ascii.eqb quote comma) with false.
    rewrite Ascii.eqb_refl. cbv iota. rewrite <- app_assoc, quoted_run. reflexivity.
  - destruct s as [|c s]; [reflexivity|]. cbn [existsb] in E. apply orb_false_iff in E as [C E]. destruct (special_not c C) as (A & Q & B & D).
    cbn [app csv_go]. rewrite A, Q, B, D. cbn [orb]. rewrite plain_run by exact E. reflexivity.
Qed.
Lemma field_end s fs r : csv_go SField [] fs (csv_field s ++ [cr; lf] ++ r) = (fs ++ [s]) :: csv_go SRec [] [] r.
Proof.
  unfold csv_field. destruct (existsb csv_special s) eqn:E.
  - unfold csv_quoted. cbn [app csv_go]. change (Ascii.eqb quote lf || Ascii.eqb quote cr) with false. change (Ascii.eqb quote comma) with false.
    rewrite Ascii.eqb_refl. cbv iota. rewrite <- app_assoc, quoted_run. reflexivity.
  - destruct s as [|c s]; [reflexivity|]. cbn [existsb] in E. apply orb_false_iff in E as [C E]. destruct (special_not c C) as (A & Q & B & D).
    cbn [app csv_go]. rewrite A, Q, B, D. cbn [orb]. rewrite plain_run by exact E. reflexivity.
Qed.
Lemma join_run gs : forall f fs r, csv_go SField [] fs (csv_join (f :: gs) ++ [cr; lf] ++ r) = (fs ++ f :: gs) :: csv_go SRec [] [] r.
Proof.
  induction gs as [|g gs IH]; intros f fs r; [apply field_end|].
  change (csv_join (f :: g :: gs)) with (csv_field f ++ comma :: csv_join (g :: gs)). rewrite <- app_assoc. cbn [app].
  rewrite field_comma. refine (eq_trans (IH g (fs ++ [f]) r) _). rewrite <- app_assoc. reflexivity.
Qed.
(* At the start of a record the reader does what it does at the start of a
   field, unless the line is empty. *)
Lemma rec_field c t : Ascii.eqb c lf = false -> Ascii.eqb c cr = false -> csv_go SRec [] [] (c :: t) = csv_go SField [] [] (c :: t).
Proof. intros A B. cbn [csv_go]. rewrite A, B. reflexivity. Qed.
Lemma field_head f c t : csv_field f = c :: t -> Ascii.eqb c lf = false /\ Ascii.eqb c cr = false.
Proof.
  unfold csv_field. destruct (existsb csv_special f) eqn:E; [unfold csv_quoted; intros H; injection H as <- _; split; reflexivity|].
  intros ->. cbn [existsb] in E. apply orb_false_iff in E as [C _]. destruct (special_not c C) as (_ & _ & B & D). auto.
Qed.
Lemma row_run fs r : csv_go SRec [] [] (csv_row fs ++ r) = fs :: csv_go SRec [] [] r.
Proof.
  destruct fs as [|f gs]; [reflexivity|].
  assert (H : (f = [] /\ gs = []) \/ exists c t, csv_join (f :: gs) = c :: t /\ Ascii.eqb c lf = false /\ Ascii.eqb c cr = false).
  { destruct (csv_field f) as [|c t] eqn:E.
    - assert (f = []). { unfold csv_field in E. destruct (existsb _ f); [discriminate | exact E]. } subst f.
      destruct gs as [|g gs]; [left; auto|]. right. eexists _, _. split; [reflexivity|]. split; reflexivity.
    - right. destruct (field_head f c t E) as [A B]. destruct gs as [|g gs].
      + exists c, t. cbn [csv_join]. rewrite E. auto.
      + exists c, (t ++ comma :: csv_join (g :: gs)). cbn [csv_join]. rewrite E. auto. }
  destruct H as [[-> ->]|(c & t & E & A & B)]; [reflexivity|].
  assert (G : csv_row (f :: gs) = csv_join (f :: gs) ++ [cr; lf]).
  { unfold csv_row. destruct f as [|x f]; [|reflexivity]. destruct gs; [discriminate|reflexivity]. }
  rewrite G, <- app_assoc, E. cbn [app]. rewrite rec_field by assumption.
  pose proof (join_run gs f [] r) as J. rewrite E in J. exact J.
Qed.

(* Whatever is written row by row is read back, with any characters. *)
Theorem C88_round_trip : forall rows, csv_read (flat_map csv_row rows) = rows.
Proof.
  unfold csv_read. induction rows as [|fs rows IH]; [reflexivity|]. cbn [flat_map]. rewrite row_run, IH. reflexivity.
Qed.

(* The names saved with the results of a mechanism: line k names the species of
   column k of the matrix, and says k; there is one line for each species. *)
Theorem C88_names : forall text n st, extract_mechanism text = Ok (n, st) ->
  exists L, NoDup L /\ (forall k s, dget s (p_sp2a st) = Some k <-> nth_error L k = Some s) /\
    List.length (csv_read (names_csv (p_sp2a st))) = List.length L /\
    forall k s, nth_error L k = Some s <->
      exists number, nth_error (csv_read (names_csv (p_sp2a st))) k = Some [s; number] /\ digits number (Z.of_nat k).
Proof.
  intros text n st H. apply extract_Ok in H as (_ & m & _ & _ & _ & _ & ->).
  exists (species m). destruct (interp_species m) as (_ & H2 & _ & Hnd). split; [exact Hnd|]. split; [intros k s; apply interp_sp2a|].
  assert (E : csv_read (names_csv (p_sp2a (interp m))) = map (fun p => [fst p; dec (snd p)]) (combine (species m) (seq 0 (List.length (species m))))).
  { unfold names_csv. rewrite H2. rewrite <- (C88_round_trip (map _ (combine _ _))). f_equal. rewrite flat_map_concat_map, flat_map_concat_map, map_map. reflexivity. }
  rewrite E. split; [rewrite map_length, combine_length, seq_length; lia|].
  assert (N : forall (l : list str) a k, nth_error (map (fun p : str * nat => [fst p; dec (snd p)]) (combine l (seq a (List.length l)))) k =
     option_map (fun s => [s; dec (a + k)]) (nth_error l k)).
  { induction l as [|x l IH]; intros a k; [destruct k; reflexivity|]. destruct k as [|k]; cbn [List.length seq combine map nth_error option_map fst snd].
    - rewrite Nat.add_0_r. reflexivity.
    - rewrite IH, Nat.add_succ_r. reflexivity. }
  intros k s. rewrite N. cbn [Nat.add]. split.
  - intros ->. exists (dec k). split; [reflexivity|]. apply dec_digits_ok.
  - intros (x & X & _). destruct (nth_error (species m) k); [|discriminate]. cbn [option_map] in X. congruence.
Qed.

(* A species name with a comma, a quote or a line end is not lost. *)
Example C88_example : csv_read (names_csv [(s_ "O3", 0); (s_ "1,3-""BD""", 1)]) = [[s_ "O3"; s_ "0"]; [s_ "1,3-""BD"""; s_ "1"]].
Proof. reflexivity. Qed.

(* ------------------------------------------------------------------ *)
(* C89: saved results. *)

(* What happens after results were saved under the name fn: parse runs of any
   mechanism, and saving under other names, each killed after any number of
   steps; acts says what a parse run does. *)
Inductive later_runs (compiles : content -> bool) (acts : str -> str -> dir -> list act) (fn : str) (d : dir) : dir -> Prop :=
| lr_start : later_runs compiles acts fn d d
| lr_parse d' fn' text k : later_runs compiles acts fn d d' ->
    later_runs compiles acts fn d (fst (exec compiles (firstn k (acts fn' text d')) d'))
| lr_save d' fn' npy csv names k : fn' <> fn -> later_runs compiles acts fn d d' ->
    later_runs compiles acts fn d (fst (exec compiles (firstn k (save_acts fn' npy csv names)) d')).

Lemma removes_stale names pats a : In a (clean_pass names pats) -> stale pats (touches a).
Proof.
  intros H. apply in_flat_map in H as (n & _ & H). apply in_map_iff in H as (p & <- & H). apply filter_In in H as [I P].
  exists p. split; [exact I|]. apply has_spec, P.
Qed.

Lemma prefix_split (w : str) : forall a c t y, ~ In c w -> a ++ c :: t = w ++ y -> exists b, a = w ++ b.
Proof.
  induction w as [|x w IH]; intros a c t y N E; [exists a; reflexivity|]. destruct a as [|z a]; cbn [app] in E.
  - injection E as -> _. exfalso. apply N. left. reflexivity.
  - injection E as -> E. destruct (IH a c t y ltac:(intros X; apply N; right; exact X) E) as (b & ->). exists b. reflexivity.
Qed.
(* What is found around a character it does not contain is found on one side. *)
Lemma contains_split (w a : str) c t : w <> [] -> ~ In c w -> contains w (a ++ c :: t) -> contains w a \/ contains w t.
Proof.
  intros W N (x & y & E). revert a E. induction x as [|z x IH]; intros a E.
  - destruct (prefix_split w a c t y N E) as (b & ->). left. exists [], b. reflexivity.
  - destruct a as [|d a]; cbn [app] in E; injection E as -> E.
    + right. exists x, y. exact E.
    + destruct (IH a E) as [(u & v & ->)|H]; [left; exists (z :: u), v; reflexivity | right; exact H].
Qed.
Lemma output_stale fn t : ~ stale gas_stale fn -> In t [s_ "_output_matrix.csv"; s_ "_output_names.csv"] -> ~ stale gas_stale (fn ++ t).
Proof.
  intros NS Ht (p & Hp & C). apply NS. exists p. split; [exact Hp|].
  assert (T : exists t', t = "_"%char :: t' /\ forall q, In q gas_stale -> ~ contains q t').
  { destruct Ht as [<-|[<-|[]]]; (eexists; split; [reflexivity|]); intros q Hq X; apply has_spec in X; cbn [gas_stale In] in Hq;
      repeat (destruct Hq as [<-|Hq]; [vm_compute in X; discriminate|]); destruct Hq. }
  destruct T as (t' & -> & NT). destruct (contains_split p fn "_"%char t') as [H|H]; [| |exact C|exact H|].
  - cbn [gas_stale In] in Hp. repeat (destruct Hp as [<-|Hp]; [discriminate|]). destruct Hp.
  - cbn [gas_stale In] in Hp. repeat (destruct Hp as [<-|Hp]; [intros X; cbn in X; repeat (destruct X as [X|X]; [discriminate X|]); exact X|]). destruct Hp.
  - exfalso. exact (NT p Hp H).
Qed.

Section Saved.
Variable ls : dir -> list str.
Hypothesis ls_ok : lists_names ls.
Variable compiles : content -> bool.

Lemma saved fn npy csv names d d1 : exec compiles (save_acts fn npy csv names) d = (d1, None) ->
  dget (fn ++ s_ "_output.npy") d1 = Some (File npy) /\ dget (fn ++ s_ "_output_matrix.csv") d1 = Some (File csv) /\
  dget (fn ++ s_ "_output_names.csv") d1 = Some (File (Bytes names)).
Proof.
  intros H. apply exec_put_all in H. subst d1. cbn [put_all].
  repeat split; repeat (first [rewrite dget_dset_same | rewrite dget_dset_other by distinct]); reflexivity.
Qed.
Lemma later_keep acts fn x d d' : (forall fn' text d a, In a (acts fn' text d) -> x <> touches a) ->
  (exists t, In t [s_ "_output.npy"; s_ "_output_matrix.csv"; s_ "_output_names.csv"] /\ x = fn ++ t) ->
  later_runs compiles acts fn d d' -> dget x d' = dget x d.
Proof.
  intros HA (t & Ht & ->) H. induction H as [|d' fn' text k H IH|d' fn' npy csv names k N H IH]; [reflexivity| |].
  - rewrite exec_other; [exact IH|]. intros a Ha. apply firstn_In' in Ha. exact (HA _ _ _ _ Ha).
  - rewrite exec_other; [exact IH|]. intros a Ha. apply firstn_In', save_touches in Ha as (s & Hs & ->). cbn [In] in Hs, Ht.
    destruct Hs as [<-|[<-|[<-|[]]]]; destruct Ht as [<-|[<-|[<-|[]]]];
      try (intros E; apply app_tail_inj in E; congruence); distinct.
Qed.

(* Gas-phase driver: the two CSV files stay as they are, whatever is run later
   and wherever it is killed. *)
Theorem C89_gas_partial : forall fn npy csv names d d1 d', ~ stale gas_stale fn ->
  exec compiles (save_acts fn npy csv names) d = (d1, None) -> later_runs compiles (gas_acts ls) fn d1 d' ->
  dget (fn ++ s_ "_output_matrix.csv") d' = Some (File csv) /\ dget (fn ++ s_ "_output_names.csv") d' = Some (File (Bytes names)).
Proof.
  intros fn npy csv names d d1 d' NS H Hl. destruct (saved _ _ _ _ _ _ H) as (_ & B & C).
  assert (K : forall t, In t [s_ "_output_matrix.csv"; s_ "_output_names.csv"] -> dget (fn ++ t) d' = dget (fn ++ t) d1).
  { intros t Ht. apply (later_keep (gas_acts ls) fn); [|exists t; split; [right; exact Ht | reflexivity]|exact Hl].
    intros fn' text e a Ha. unfold gas_acts in Ha. apply in_app_or in Ha as [Ha|Ha].
    - apply removes_stale in Ha. intros E. rewrite <- E in Ha. exact (output_stale fn t NS Ht Ha).
    - apply in_app_or in Ha as [Ha|Ha].
      + cbn [write_file fst snd In] in Ha. destruct Ht as [<-|[<-|[]]]; destruct Ha as [<-|[<-|[]]]; cbn [touches]; distinct.
      + destruct (extract_mechanism text) as [[n st]|]; [|destruct Ha]. apply in_writes in Ha as (c & Ha). unfold gas_files in Ha. cbn [In] in Ha.
        destruct Ht as [<-|[<-|[]]]; repeat (destruct Ha as [Ha|Ha]; [apply (f_equal fst) in Ha; cbn [fst] in Ha; rewrite <- Ha; distinct|]); exact (False_ind _ Ha). }
  rewrite !K by (cbn; auto). auto.
Qed.

(* ... but the .npy file is gone after the next parse run, of whatever
   mechanism. *)
Theorem C89_gas_refuted : forall fn npy csv names d d1 fn' text d' i, NoDup (dkeys d) ->
  exec compiles (save_acts fn npy csv names) d = (d1, None) -> gas_run ls compiles fn' text d1 = Ok (d', i) ->
  dget (fn ++ s_ "_output.npy") d1 = Some (File npy) /\ dget (fn ++ s_ "_output.npy") d' = None.
Proof.
  intros fn npy csv names d d1 fn' text d' i Nd H R. split; [exact (proj1 (saved _ _ _ _ _ _ H))|].
  assert (Nd1 : NoDup (dkeys d1)) by (pose proof (exec_keys compiles (save_acts fn npy csv names) d Nd) as X; rewrite H in X; exact X).
  destruct (C48_gas_partial ls ls_ok compiles fn' text d1 d' i Nd1 R) as [A _]. apply A.
  - exists (s_ ".npy"). split; [left; reflexivity|]. exists (fn ++ s_ "_output"), []. rewrite app_nil_r, <- app_assoc. reflexivity.
  - unfold gas_fresh. cbn [In]. intros X. repeat (destruct X as [X|X]; [symmetry in X; revert X; distinct|]). exact X.
Qed.

(* f2py driver: all three files stay, as only .f90 and .eqn.txt are removed. *)
Theorem C89_f2py : forall fn npy csv names d d1 d', ~ contains (s_ ".f90") fn -> ~ contains (s_ ".eqn.txt") fn ->
  exec compiles (save_acts fn npy csv names) d = (d1, None) -> later_runs compiles (f2py_acts ls) fn d1 d' ->
  dget (fn ++ s_ "_output.npy") d' = Some (File npy) /\ dget (fn ++ s_ "_output_matrix.csv") d' = Some (File csv) /\
  dget (fn ++ s_ "_output_names.csv") d' = Some (File (Bytes names)).
Proof.
  intros fn npy csv names d d1 d' N1 N2 H Hl. destruct (saved _ _ _ _ _ _ H) as (A & B & C).
  assert (K : forall t, In t [s_ "_output.npy"; s_ "_output_matrix.csv"; s_ "_output_names.csv"] -> dget (fn ++ t) d' = dget (fn ++ t) d1).
  { intros t Ht. apply (later_keep (f2py_acts ls) fn); [|exists t; split; [exact Ht | reflexivity]|exact Hl].
    intros fn' text e a Ha. unfold f2py_acts in Ha. apply in_app_or in Ha as [Ha|Ha].
    - apply removes_stale in Ha. intros E. rewrite <- E in Ha. destruct Ha as (p & Hp & Cp).
      assert (T : exists t', t = "_"%char :: t' /\ forall q, In q f2py_patterns -> ~ contains q t').
      { destruct Ht as [<-|[<-|[<-|[]]]]; (eexists; split; [reflexivity|]); intros q Hq X; apply has_spec in X; cbn [f2py_patterns In] in Hq;
          repeat (destruct Hq as [<-|Hq]; [vm_compute in X; discriminate|]); destruct Hq. }
      destruct T as (t' & -> & NT). destruct (contains_split p fn "_"%char t') as [X|X]; [| |exact Cp| |exact (NT p Hp X)].
      + cbn [f2py_patterns In] in Hp. repeat (destruct Hp as [<-|Hp]; [discriminate|]). destruct Hp.
      + cbn [f2py_patterns In] in Hp. repeat (destruct Hp as [<-|Hp]; [intros Y; cbn in Y; repeat (destruct Y as [Y|Y]; [discriminate Y|]); exact Y|]). destruct Hp.
      + destruct Hp as [<-|[<-|[]]]; contradiction.
    - apply in_app_or in Ha as [Ha|Ha].
      + cbn [write_file fst snd In] in Ha. destruct Ht as [<-|[<-|[<-|[]]]]; destruct Ha as [<-|[<-|[]]]; cbn [touches]; distinct.
      + destruct (extract_mechanism text) as [[n st]|]; [|destruct Ha].
        assert (T : In (touches a) [sp2a_name fn'; sp_name fn'; eqs_name fn'; f2py_source Rates; f2py_module Rates; fn' ++ s_ "_reactant_indices.npy";
                    fn' ++ s_ "_reactants_stoich_indices.npy"; f2py_source Reactants; f2py_module Reactants; f2py_source LossGain; f2py_module LossGain;
                    ro2_name fn'; f2py_source Jacobian; f2py_module Jacobian]).
        { unfold f2py_writes, f2py_build, write_file in Ha. cbn [flat_map app fst snd In] in Ha.
          repeat (destruct Ha as [<-|Ha]; [cbn [touches In]; tauto|]). destruct Ha. }
        cbn [In] in T. destruct Ht as [<-|[<-|[<-|[]]]]; repeat (destruct T as [T|T]; [rewrite <- T; distinct|]); exact (False_ind _ T). }
  rewrite !K by (cbn; auto). auto.
Qed.

(* What the aerosol drivers leave, name by name. *)
Definition pickles (fn : str) (c : outputs) : list (str * content) :=
  [(fn ++ s_ "_y_output.pickle", o_y c); (fn ++ s_ "_t_output.pickle", o_t c); (fn ++ s_ "_SOA_output.pickle", o_SOA c);
   (fn ++ s_ "_size_output.pickle", o_size c); (fn ++ s_ "include_index.pickle", o_include c)].
Definition csvs (fn : str) (c : outputs) : list (str * content) :=
  [(fn ++ s_ "_y_output.csv", o_y c); (fn ++ s_ "_t_output.csv", o_t c); (fn ++ s_ "_SOA_output.csv", o_SOA c); (fn ++ s_ "_size_output.csv", o_size c)].

(* Aerosol driver, which saves its results by default: nothing is left of them
   after the parse stage of the next run. *)
Lemma put_saved fn c csv d x v : In (x, v) (pickles fn c ++ csvs fn csv) -> dget x (put_all (pickles fn c ++ csvs fn csv) d) = Some (File v).
Proof.
  intros H. unfold pickles, csvs in *. cbn [app put_all In] in *.
  repeat (destruct H as [H|H]; [pose proof (f_equal snd H) as Hv; apply (f_equal fst) in H; cbn [fst snd] in H, Hv; rewrite <- H, <- Hv;
    repeat (first [rewrite dget_dset_same | rewrite dget_dset_other by distinct]); reflexivity|]). destruct H.
Qed.
Lemma put_saved' fn c d x v : In (x, v) (pickles fn c) -> dget x (put_all (pickles fn c) d) = Some (File v).
Proof.
  intros H. unfold pickles in *. cbn [app put_all In] in *.
  repeat (destruct H as [H|H]; [pose proof (f_equal snd H) as Hv; apply (f_equal fst) in H; cbn [fst snd] in H, Hv; rewrite <- H, <- Hv;
    repeat (first [rewrite dget_dset_same | rewrite dget_dset_other by distinct]); reflexivity|]). destruct H.
Qed.
Lemma pickle_names fn c x v : In (x, v) (pickles fn c) -> contains (s_ ".pickle") x /\
  In x [fn ++ s_ "_y_output.pickle"; fn ++ s_ "_t_output.pickle"; fn ++ s_ "_SOA_output.pickle"; fn ++ s_ "_size_output.pickle"; fn ++ s_ "include_index.pickle"].
Proof.
  unfold pickles. cbn [In]. intros H.
  repeat (destruct H as [H|H]; [apply (f_equal fst) in H; cbn [fst] in H; rewrite <- H; split; [|auto 6];
    match goal with |- contains _ (fn ++ s_ ?t) => eexists (fn ++ s_ (String.substring 0 (String.length t - 7) t)), [] end;
      rewrite app_nil_r, <- app_assoc; reflexivity|]). destruct H.
Qed.
Theorem C89_aerosol_refuted : forall fn c d d1 fn' text d', NoDup (dkeys d) ->
  exec compiles (aerosol_save_acts fn c) d = (d1, None) -> aerosol_parse ls compiles fn' text d1 = (d', None) ->
  forall x v, In (x, v) (pickles fn c) -> dget x d1 = Some (File v) /\ dget x d' = None.
Proof.
  intros fn c d d1 fn' text d' Nd H R x v Hx.
  assert (Nd1 : NoDup (dkeys d1)) by (pose proof (exec_keys compiles (aerosol_save_acts fn c) d Nd) as X; rewrite H in X; exact X).
  apply exec_put_all in H. split; [rewrite H; apply (put_saved' fn c), Hx|].
  destruct (C48_aerosol_partial ls ls_ok compiles fn' text d1 d' Nd1 R) as [A _].
  destruct (pickle_names _ _ _ _ Hx) as (C & Ht). apply A.
  - exists (s_ ".pickle"). split; [cbn; auto 6 | exact C].
  - unfold aerosol_fresh. cbn [In] in Ht |- *. intros X. clear Hx C.
    repeat (destruct Ht as [<-|Ht]; [repeat (destruct X as [X|X]; [symmetry in X; revert X; distinct|]); exact X|]). exact Ht.
Qed.
(* Fixed-yield driver: only the CSV copies are left. *)
Theorem C89_yield : forall fn c csv d d1 fn' sp2a sp d', NoDup (dkeys d) -> ~ stale yield_stale fn ->
  exec compiles (yield_save_acts fn c csv) d = (d1, None) -> yield_parse ls compiles fn' sp2a sp d1 = (d', None) ->
  (forall x v, In (x, v) (pickles fn c) -> dget x d1 = Some (File v) /\ dget x d' = None) /\
  (forall x v, In (x, v) (csvs fn csv) -> dget x d1 = Some (File v) /\ dget x d' = Some (File v)).
Proof.
  intros fn c csv d d1 fn' sp2a sp d' Nd NS H R.
  assert (Nd1 : NoDup (dkeys d1)) by (pose proof (exec_keys compiles (yield_save_acts fn c csv) d Nd) as X; rewrite H in X; exact X).
  unfold yield_save_acts, aerosol_save_acts in H. rewrite <- flat_map_app in H. apply exec_put_all in H.
  assert (S : forall x v, In (x, v) (pickles fn c ++ csvs fn csv) -> dget x d1 = Some (File v)) by (intros x v Hx; rewrite H; apply (put_saved fn c csv), Hx).
  destruct (C48_yield_partial ls ls_ok compiles fn' sp2a sp d1 d' Nd1 R) as [A B]. split; intros x v Hx; (split; [apply S, in_or_app; auto|]).
  - destruct (pickle_names _ _ _ _ Hx) as (C & Ht). apply A.
    + exists (s_ ".pickle"). split; [cbn; auto 6 | exact C].
    + unfold yield_fresh. cbn [In] in Ht |- *. intros X. clear Hx C.
      repeat (destruct Ht as [<-|Ht]; [repeat (destruct X as [X|X]; [symmetry in X; revert X; distinct|]); exact X|]). exact Ht.
  - rewrite <- (S x v) by (apply in_or_app; auto). apply B. intros (p & Hp & Cp). apply NS. exists p. split; [exact Hp|].
    assert (T : exists t', x = fn ++ "_"%char :: t' /\ forall q, In q yield_stale -> ~ contains q t').
    { unfold csvs in Hx. cbn [In] in Hx.
      repeat (destruct Hx as [Hx|Hx]; [apply (f_equal fst) in Hx; cbn [fst] in Hx; rewrite <- Hx; eexists; split; [reflexivity|]; intros q Hq X; apply has_spec in X; cbn [yield_stale In] in Hq;
          repeat (destruct Hq as [<-|Hq]; [vm_compute in X; discriminate|]); exact Hq|]). destruct Hx. }
    destruct T as (t' & -> & NT). destruct (contains_split p fn "_"%char t') as [X|X]; [| |exact Cp|exact X|exfalso; exact (NT p Hp X)].
    + cbn [yield_stale In] in Hp. repeat (destruct Hp as [<-|Hp]; [discriminate|]). destruct Hp.
    + cbn [yield_stale In] in Hp. repeat (destruct Hp as [<-|Hp]; [intros Y; cbn in Y; repeat (destruct Y as [Y|Y]; [discriminate Y|]); exact Y|]). destruct Hp.
Qed.
End Saved.

(* The hypotheses are met: results saved in an empty directory, then a parse
   run of any other mechanism that parses completes. *)
Example C89_hypotheses : forall (ls : dir -> list str), lists_names ls -> forall compiles npy csv text n st, extract_mechanism text = Ok (n, st) ->
  let d1 := fst (exec compiles (save_acts (s_ "MCM_APINENE") npy csv (names_csv [(s_ "O3", 0)])) []) in
  exec compiles (save_acts (s_ "MCM_APINENE") npy csv (names_csv [(s_ "O3", 0)])) [] = (d1, None) /\ ~ stale gas_stale (s_ "MCM_APINENE") /\
  exists d' i, gas_run ls compiles (s_ "MCM_BCARY") text d1 = Ok (d', i).
Proof.
  intros ls Hls compiles npy csv text n st Ht d1.
  assert (E : exec compiles (save_acts (s_ "MCM_APINENE") npy csv (names_csv [(s_ "O3", 0)])) [] = (d1, None)) by reflexivity.
  assert (K : dkeys d1 = [s_ "MCM_APINENE_output.npy"; s_ "MCM_APINENE_output_matrix.csv"; s_ "MCM_APINENE_output_names.csv"]) by reflexivity.
  assert (D : forall x e, dget x d1 = Some e -> In x (dkeys d1) /\ exists c, e = File c).
  { intros x e H. split; [apply dget_Some_In in H; apply in_map_iff; eexists; split; [|exact H]; reflexivity|].
    apply dget_Some_In in H. unfold d1 in H. cbn -[names_csv] in H.
    repeat (destruct H as [H|H]; [injection H as _ <-; eexists; reflexivity|]). destruct H. }
  split; [exact E|]. split.
  - intros (p & Hp & C). apply has_spec in C. cbn [gas_stale In] in Hp. repeat (destruct Hp as [<-|Hp]; [vm_compute in C; discriminate|]). exact Hp.
  - destruct (C49_gas_completes ls Hls compiles (s_ "MCM_BCARY") text d1 n st) as [d' R].
    + rewrite K. repeat constructor; cbn [In]; intros X; repeat (destruct X as [X|X]; [discriminate X|]); exact X.
    + intros name e p H Hp C. destruct (D _ _ H) as [I F]. split; [exact F|]. intros q Hq Cq. apply has_spec in C. apply has_spec in Cq. rewrite K in I.
      cbn [In gas_stale] in I, Hp, Hq.
      repeat (destruct I as [<-|I]; [repeat (destruct Hp as [<-|Hp]; [first [vm_compute in C; discriminate | repeat (destruct Hq as [<-|Hq]; [first [reflexivity | vm_compute in Cq; discriminate]|]); destruct Hq]|]); destruct Hp|]). destruct I.
    + intros x H. destruct (D _ _ H) as [_ [c X]]. discriminate.
    + exact Ht.
    + eexists _, _. exact R.
Qed.

Print Assumptions C88_round_trip.
Print Assumptions C88_names.
Print Assumptions C89_gas_partial.
Print Assumptions C89_gas_refuted.
Print Assumptions C89_f2py.
Print Assumptions C89_aerosol_refuted.
Print Assumptions C89_yield.
