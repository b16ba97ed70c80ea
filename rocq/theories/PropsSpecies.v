(* C46, C47: the yield file and the SMILES file. *)
From Coq Require Import String List Bool Arith Lia Ascii ZArith.
From Verif Require Import Base PyStr PyDict ModelParse SpecMech ParseText ParseItem ParseStruct ParseTables ModelSpecies SpecSpecies RateExpr.
Import ListNotations.
Import Coq.Lists.List.
Open Scope nat_scope.
Open Scope list_scope.
Local Arguments eqb : simpl never.

(* ------------------------------------------------------------------ *)
(* Lines of the file. *)
Lemma universal_plain l rest : ~ In CR l -> universal (l ++ rest) = l ++ universal rest.
Proof.
  induction l as [|c l IH]; intros H; [reflexivity|]. cbn [app universal].
  destruct (Ascii.eqb c CR) eqn:E; [apply Ascii.eqb_eq in E; subst; exfalso; apply H; left; reflexivity|].
  rewrite IH by (intros X; apply H; right; exact X). reflexivity.
Qed.

Lemma universal_end e rest : line_end e -> (match rest with c :: _ => c <> NL | [] => True end) ->
  universal (e ++ rest) = NL :: universal rest.
Proof.
  intros [->|[->| ->]] H; cbn [app universal]; change (Ascii.eqb NL CR) with false; change (Ascii.eqb CR CR) with true; cbv iota.
  - reflexivity.
  - change (Ascii.eqb NL NL) with true. reflexivity.
  - destruct rest as [|c rest]; [reflexivity|]. destruct (Ascii.eqb c NL) eqn:E; [apply Ascii.eqb_eq in E; contradiction|]. reflexivity.
Qed.

Lemma word_no c w : is_space c = true -> word w -> ~ In c w.
Proof. intros Hc [_ H] Hin. rewrite Forall_forall in H. specialize (H c Hin). congruence. Qed.

Lemma row_line_plain r l : row_line r l -> ~ In NL l /\ ~ In CR l /\ match l with c :: _ => c <> NL | [] => True end /\ l <> [].
Proof.
  intros (b1 & b2 & t & -> & B1 & B2 & _ & W1 & W2 & _ & T1 & T2).
  assert (N : forall c, is_space c = true -> (forall b, Forall line_blank b -> ~ In c b) -> ~ In c t ->
     ~ In c (b1 ++ fst r ++ b2 ++ snd r ++ t)).
  { intros c Hc Hb Ht. rewrite !in_app_iff. intros [H|[H|[H|[H|H]]]].
    - exact (Hb _ B1 H).
    - exact (word_no c _ Hc W1 H).
    - exact (Hb _ B2 H).
    - exact (word_no c _ Hc W2 H).
    - exact (Ht H). }
  assert (A : ~ In NL (b1 ++ fst r ++ b2 ++ snd r ++ t)).
  { apply N; [reflexivity | | exact T1]. intros b Hb Hin. rewrite Forall_forall in Hb. destruct (Hb _ Hin) as (_ & ? & _). congruence. }
  assert (B : ~ In CR (b1 ++ fst r ++ b2 ++ snd r ++ t)).
  { apply N; [reflexivity | | exact T2]. intros b Hb Hin. rewrite Forall_forall in Hb. destruct (Hb _ Hin) as (_ & _ & ?). congruence. }
  split; [exact A|]. split; [exact B|]. split.
  - destruct (b1 ++ fst r ++ b2 ++ snd r ++ t) as [|c x]; [exact I|]. intros ->. apply A. left. reflexivity.
  - destruct W1 as [W1 _]. destruct b1; [|discriminate]. destruct (fst r); [congruence | discriminate].
Qed.

Lemma yield_file_lines rows text : yield_file rows text ->
  Forall2 row_line rows (file_lines text) /\ match text with c :: _ => c <> NL | [] => True end.
Proof.
  unfold file_lines. induction 1 as [|r l Hl|r l e rs rest Hl He H [IH IH']].
  - split; [constructor | exact I].
  - destruct (row_line_plain _ _ Hl) as (A & B & C & D). split; [|exact C].
    rewrite <- (app_nil_r l), universal_plain by exact B. cbn [universal]. rewrite app_nil_r, split_char_none by exact A.
    destruct l; [congruence|]. repeat constructor. exact Hl.
  - destruct (row_line_plain _ _ Hl) as (A & B & C & D). split; [|destruct l; [congruence | exact C]].
    rewrite universal_plain by exact B. rewrite universal_end by assumption. rewrite split_char_some by exact A.
    destruct l as [|c l]; [congruence|]. cbn [drop_last_empty].
    destruct (split_char NL (universal rest)) eqn:E; [destruct (universal rest) as [|x u]; [discriminate|]; cbn [split_char] in E;
      destruct (Ascii.eqb x NL); [discriminate|]; destruct (split_char NL u); discriminate|].
    constructor; [exact Hl | exact IH].
Qed.

Lemma row_line_words r l : row_line r l -> exists ws, split_ws l = fst r :: snd r :: ws.
Proof.
  intros (b1 & b2 & t & -> & B1 & B2 & B3 & (N1 & W1) & (N2 & W2) & T & _).
  assert (BB : forall b, Forall line_blank b -> blank b) by (intros b; apply Forall_impl; intros c [H _]; exact H).
  rewrite split_ws_blank by (apply BB, B1). unfold split_ws. rewrite split_ws_aux_word by exact W1. rewrite app_nil_r.
  assert (R1 : rev (fst r) <> []) by (intros E; apply N1; rewrite <- (rev_involutive (fst r)), E; reflexivity).
  destruct b2 as [|c b2]; [congruence|]. inversion B2 as [|? ? [Hc _] B2']; subst. cbn [app split_ws_aux]. rewrite Hc.
  destruct (rev (fst r)) as [|x xs] eqn:E; [congruence|]. rewrite <- E, rev_involutive.
  fold (split_ws (b2 ++ snd r ++ t)). rewrite split_ws_blank by (apply BB, B2'). unfold split_ws. rewrite split_ws_aux_word by exact W2. rewrite app_nil_r.
  assert (R2 : rev (snd r) <> []) by (intros E2; apply N2; rewrite <- (rev_involutive (snd r)), E2; reflexivity).
  destruct T as [->|(d & t' & -> & Hd)]; cbn [split_ws_aux]; [|rewrite Hd];
    (destruct (rev (snd r)) as [|y ys] eqn:E2; [congruence|]); rewrite <- E2, rev_involutive; eexists; reflexivity.
Qed.

(* ------------------------------------------------------------------ *)
(* C46 *)
Section Yield.
Context {O F : Type}.
Variable readstring : str -> res O.
Variable to_float : str -> res F.

(* The tables for the SMILES l, in this order, with concentrations and
   molecules. *)
Definition tables (l : list (str * F * O)) : yields O F :=
  let sp := map (fun x => fst (fst x)) l in let n := List.length l in
  Yields (combine (seq 0 n) sp) (combine sp (seq 0 n)) (combine sp (map (fun p => Obj (fst p) (snd p)) (combine (seq 0 n) (map snd l))))
    sp (combine sp sp) (map (fun x => snd (fst x)) l) n (combine (seq 0 n) (map (fun x => snd (fst x)) l)).

Lemma combine_app {A B} (a1 a2 : list A) (b1 b2 : list B) : List.length a1 = List.length b1 ->
  combine (a1 ++ a2) (b1 ++ b2) = combine a1 b1 ++ combine a2 b2.
Proof. revert b1; induction a1 as [|a a1 IH]; intros [|b b1] H; try discriminate; cbn; [reflexivity|]. rewrite IH; auto. Qed.

Lemma vals_combine {A B} (a : list A) (b : list B) : List.length a = List.length b -> dvals (combine a b) = b.
Proof. intros H. unfold dvals. apply map_snd_combine. exact H. Qed.
Lemma keys_combine {A B} (a : list A) (b : list B) : List.length a = List.length b -> dkeys (combine a b) = a.
Proof. intros H. unfold dkeys. apply map_fst_combine. exact H. Qed.

Lemma dset_new {K V} `{EqB K} (a : list K) (b : list V) k v : List.length a = List.length b -> ~ In k a ->
  dset k v (combine a b) = combine (a ++ [k]) (b ++ [v]).
Proof.
  intros L H0. rewrite dset_fresh; [rewrite combine_app by exact L; reflexivity|].
  destruct (dmem k (combine a b)) eqn:E; [|reflexivity]. apply dmem_In in E. rewrite keys_combine in E by exact L. contradiction.
Qed.

Lemma tables_step l line s w ws c o : NoDup (map (fun x => fst (fst x)) l) ->
  split_ws line = s :: w :: ws -> ~ In s (map (fun x => fst (fst x)) l) -> to_float w = Ok c -> readstring s = Ok o ->
  yield_line readstring to_float (tables l) line = Ok (tables (l ++ [(s, c, o)])).
Proof.
  intros Hnd Hw Hs Hc Ho. unfold yield_line, tables. cbn [y_species y_sp2a y_objects y_smiles_array y_smiles y_conc_array y_number y_conc].
  rewrite Hw. cbn [py_nth nth_error bind]. set (sp := map _ l) in *.
  assert (L : List.length sp = List.length l) by apply map_length.
  rewrite vals_combine by (rewrite seq_length; congruence).
  apply inb_nIn in Hs as Hs'. rewrite Hs', Hc, Ho. cbn [bind]. f_equal. rewrite !map_app, app_length. cbn [List.length map fst snd].
  rewrite seq_app. cbn [seq Nat.add].
  assert (N : ~ In (List.length l) (seq 0 (List.length l))) by (rewrite in_seq; lia).
  fold sp. f_equal.
  - apply dset_new; [rewrite seq_length; congruence | exact N].
  - apply dset_new; [rewrite seq_length; exact L | exact Hs].
  - rewrite combine_app, map_app by (rewrite seq_length, map_length; reflexivity). cbn [combine map fst snd].
    apply dset_new; [rewrite map_length, combine_length, seq_length, map_length; lia | exact Hs].
  - apply dset_new; [reflexivity | exact Hs].
  - apply dset_new; [rewrite seq_length, map_length; reflexivity | exact N].
Qed.

Lemma yield_skip st line s ws : split_ws line = s :: ws -> In s (dvals (y_species st)) ->
  yield_line readstring to_float st line = Ok st.
Proof. intros Hw Hs. unfold yield_line. rewrite Hw. cbn [py_nth nth_error bind]. apply inb_In in Hs. rewrite Hs. reflexivity. Qed.

Lemma tables_names l : dvals (y_species (tables l)) = map (fun x => fst (fst x)) l.
Proof. unfold tables. cbn [y_species]. apply vals_combine. rewrite seq_length, map_length. reflexivity. Qed.

Lemma rows_fold rows lines cv ov : Forall2 (fun r l => exists ws, split_ws l = fst r :: snd r :: ws) rows lines ->
  forall l seen, NoDup (map (fun x => fst (fst x)) l) -> (forall s, In s seen <-> In s (map (fun x => fst (fst x)) l)) ->
  (forall s n, ~ In s seen -> first_number rows s = Some n -> to_float n = Ok (cv s) /\ readstring s = Ok (ov s)) ->
  foldM (yield_line readstring to_float) lines (tables l) =
  Ok (tables (l ++ map (fun s => (s, cv s, ov s)) (first_seen_from seen (map fst rows)))).
Proof.
  induction 1 as [|[s n] line rows lines [ws Hw] H IH]; intros l seen Hnd Hseen Hv.
  - cbn [foldM map first_seen_from]. rewrite app_nil_r. reflexivity.
  - cbn [foldM map first_seen_from fst snd] in *. destruct (inb s seen) eqn:E.
    + apply inb_In in E as Hs. rewrite (yield_skip _ line s (n :: ws)); [|exact Hw | rewrite tables_names; apply Hseen, Hs].
      cbn [bind]. apply IH; [exact Hnd | exact Hseen|]. intros s' n' Hs' Hn'. apply Hv; [exact Hs'|].
      unfold first_number in *. cbn [find fst]. destruct (str_eqb s s') eqn:E'; [|exact Hn']. apply str_eqb_eq in E'. subst. contradiction.
    + apply inb_nIn in E as Hs. destruct (Hv s n Hs) as [Hc Ho].
      { unfold first_number. cbn [find fst]. rewrite str_eqb_refl. reflexivity. }
      assert (Hns : ~ In s (map (fun x => fst (fst x)) l)) by (intros X; apply Hs, Hseen, X).
      rewrite (tables_step l line s n ws (cv s) (ov s) Hnd Hw Hns Hc Ho).
      cbn [bind]. rewrite (IH _ (s :: seen)).
      * rewrite <- app_assoc. reflexivity.
      * rewrite map_app. cbn [map fst]. apply NoDup_snoc; assumption.
      * intros x. rewrite map_app, in_app_iff. cbn [map fst In]. rewrite Hseen. tauto.
      * intros s' n' Hs' Hn'. apply Hv; [intros X; apply Hs'; right; exact X|].
        unfold first_number in *. cbn [find fst]. destruct (str_eqb s s') eqn:E'; [|exact Hn']. apply str_eqb_eq in E'. subst. exfalso. apply Hs'. left. reflexivity.
Qed.
End Yield.

Lemma nth_error_combine_pair {A B} (l : list A) : forall (r : list B) i a b,
  nth_error l i = Some a -> nth_error r i = Some b -> nth_error (combine l r) i = Some (a, b).
Proof.
  induction l as [|x l IH]; intros [|y r] [|i] a b; cbn [nth_error combine]; try discriminate.
  - intros H1 H2; injection H1 as ->; injection H2 as ->. reflexivity.
  - apply IH.
Qed.

Lemma dget_combine_seq {B} (L : list B) : forall k s x,
  dget k (combine (seq s (List.length L)) L) = Some x <-> s <= k /\ nth_error L (k - s) = Some x.
Proof.
  induction L as [|y L IH]; intros k s x; cbn [List.length seq combine dget].
  - split; [discriminate|]. intros [_ H]. destruct (k - s); discriminate.
  - change (eqb k s) with (k =? s)%nat. destruct (k =? s) eqn:E.
    + apply Nat.eqb_eq in E; subst. rewrite Nat.sub_diag. cbn.
      split; [intros H; injection H as ->; auto | intros [_ H]; congruence].
    + apply Nat.eqb_neq in E. rewrite IH. split; intros [Hle H].
      * split; [lia|]. replace (k - s) with (S (k - S s)) by lia. exact H.
      * destruct (k - s) as [|j] eqn:Ej; [lia|].
        split; [lia|]. replace (k - S s) with j by lia. exact H.
Qed.

Lemma extract_tables O F (rd : str -> res O) (fl : str -> res F) rows text cv ov : yield_file rows text ->
  (forall s n, first_number rows s = Some n -> fl n = Ok (cv s) /\ rd s = Ok (ov s)) ->
  extract_species rd fl text = Ok (tables (map (fun s => (s, cv s, ov s)) (first_seen (map fst rows)))).
Proof.
  intros Hf Hv. destruct (yield_file_lines _ _ Hf) as [HL _]. unfold extract_species. change (@yields0 O F) with (@tables O F []).
  rewrite (rows_fold rd fl rows (file_lines text) cv ov) with (seen := []); [reflexivity | | constructor | reflexivity | intros s n _; apply Hv].
  clear -HL. induction HL as [|r x rows ls H _ IH]; constructor; [apply row_line_words, H | exact IH].
Qed.

(* Every SMILES of the file gets one number, in order of first appearance, and
   every table speaks of the same SMILES at that number: its name, its
   molecule, and the concentration of its first row. *)
Theorem C46_table : forall O F (readstring : str -> res O) (to_float : str -> res F) rows text cv ov,
  yield_file rows text ->
  (forall s n, first_number rows s = Some n -> to_float n = Ok (cv s) /\ readstring s = Ok (ov s)) ->
  let sp := first_seen (map fst rows) in
  exists y, extract_species readstring to_float text = Ok y /\
    y_number y = List.length sp /\ y_smiles_array y = sp /\ y_conc_array y = map cv sp /\
    (forall i, dget i (y_species y) = nth_error sp i) /\
    (forall i s, nth_error sp i = Some s <-> dget s (y_sp2a y) = Some i) /\
    (forall s, In s sp <-> dget s (y_smiles y) = Some s) /\ (forall s, dget s (y_smiles y) = Some s \/ dget s (y_smiles y) = None) /\
    (forall s, In s sp -> exists o, dget s (y_objects y) = Some o /\ o_mol o = ov s /\ dget (o_id o) (y_conc y) = Some (cv s)) /\
    dkeys (y_objects y) = sp /\ List.length (y_conc y) = List.length sp.
Proof.
  intros O F rd fl rows text cv ov Hf Hv sp.
  set (l := map (fun s => (s, cv s, ov s)) sp).
  assert (Hsp : map (fun x => fst (fst x)) l = sp) by (unfold l; rewrite map_map; cbn [fst]; apply map_id).
  assert (Hll : List.length l = List.length sp) by apply map_length.
  assert (Nd : NoDup sp) by apply first_seen_NoDup.
  exists (tables l). split; [apply extract_tables; assumption|].
  unfold tables. cbn [y_species y_sp2a y_objects y_smiles_array y_smiles y_conc_array y_number y_conc]. rewrite Hsp, Hll.
  split; [reflexivity|]. split; [reflexivity|]. split; [unfold l; rewrite map_map; reflexivity|].
  split. { intros i. destruct (nth_error sp i) as [s|] eqn:E.
    - apply dget_combine_r. rewrite Nat.sub_0_r. auto with arith.
    - apply dget_None. rewrite keys_combine by apply seq_length. rewrite in_seq. apply nth_error_None in E. lia. }
  split. { intros i s. rewrite dget_combine_l by exact Nd. rewrite Nat.sub_0_r. intuition lia. }
  assert (Sm : forall s, In s sp <-> dget s (combine sp sp) = Some s).
  { intros s. split; intros H.
    - apply dget_In; [rewrite keys_combine by reflexivity; exact Nd|]. clear -H. induction sp as [|x sp IH]; [contradiction|]. destruct H as [->|H]; [left; reflexivity | right; apply IH, H].
    - apply dget_Some_In, in_combine_l in H. exact H. }
  split; [exact Sm|]. split.
  { intros s. destruct (dget s (combine sp sp)) as [x|] eqn:E; [left | right; reflexivity].
    assert (X : In s sp) by (apply dget_Some_In, in_combine_l in E; exact E). apply Sm in X. congruence. }
  split.
  { intros s Hs. apply In_nth_error in Hs as [i Hi]. assert (Hlt : i < List.length sp) by (apply nth_error_Some; congruence).
    exists (Obj i (ov s)). cbn [o_mol o_id]. split; [|split; [reflexivity|]].
    - apply dget_In; [rewrite keys_combine; [exact Nd | rewrite map_length, combine_length, seq_length, map_length; lia]|].
      apply (nth_error_In _ i). rewrite nth_error_combine_pair with (a := s) (b := Obj i (ov s)); [reflexivity | exact Hi |].
      rewrite nth_error_map. rewrite nth_error_combine_pair with (a := i) (b := ov s); [reflexivity | |].
      + rewrite (nth_error_nth' _ 0) by (rewrite seq_length; exact Hlt). rewrite seq_nth by exact Hlt. reflexivity.
      + unfold l. rewrite map_map, nth_error_map, Hi. reflexivity.
    - rewrite <- Hll, <- (map_length (fun x => snd (fst x)) l). apply dget_combine_seq. rewrite Nat.sub_0_r. split; [lia|]. unfold l. rewrite map_map, nth_error_map, Hi. reflexivity. }
  split; [apply keys_combine; rewrite map_length, combine_length, seq_length, map_length; lia|].
  rewrite combine_length, seq_length, map_length. lia.
Qed.

(* The file is read exactly when no line is blank and the first line of every
   SMILES has a number and names a molecule. *)
Definition good_lines {O F} (readstring : str -> res O) (to_float : str -> res F) (lines : list str) : Prop :=
  forall before line after, lines = before ++ line :: after ->
    exists s ws, split_ws line = s :: ws /\
      ((exists l ws', In l before /\ split_ws l = s :: ws') \/
       (exists w ws' c o, ws = w :: ws' /\ to_float w = Ok c /\ readstring s = Ok o)).

Lemma yield_line_keeps O F (rd : str -> res O) (fl : str -> res F) st line st' :
  yield_line rd fl st line = Ok st' -> forall s, NoDup (dkeys (y_species st)) -> (forall k, In k (dkeys (y_species st)) -> k < y_number st) ->
  NoDup (dkeys (y_species st')) /\ (forall k, In k (dkeys (y_species st')) -> k < y_number st') /\
  (In s (dvals (y_species st')) <-> In s (dvals (y_species st)) \/ exists ws, split_ws line = s :: ws).
Proof.
  intros H s Nd B. unfold yield_line in H. destruct (split_ws line) as [|s0 ws0] eqn:E; [discriminate|].
  cbn [py_nth nth_error bind] in H. destruct (inb s0 (dvals (y_species st))) eqn:E0.
  - injection H as <-. split; [exact Nd|]. split; [exact B|]. apply inb_In in E0. split; [auto|]. intros [X|[ws X]]; [exact X|]. congruence.
  - apply inb_nIn in E0. destruct ws0 as [|w ws0]; [discriminate|]. cbn [nth_error bind] in H.
    cbn [py_nth nth_error bind] in H.     destruct (fl w) as [c|] eqn:Ec; cbn [bind] in H; [|discriminate H]. destruct (rd s0) as [o|] eqn:Eo; cbn [bind] in H; [|discriminate H].
    injection H as <-. cbn [y_species y_number].
    assert (F0 : dmem (y_number st) (y_species st) = false).
    { destruct (dmem (y_number st) (y_species st)) eqn:E1; [|reflexivity]. apply dmem_In in E1. apply B in E1. lia. }
    rewrite dset_fresh by exact F0. unfold dkeys, dvals. rewrite !map_app. cbn [map fst snd].
    split; [|split].
    + apply NoDup_snoc; [exact Nd|]. intros X. apply B in X. lia.
    + intros k X. apply in_app_or in X as [X|[<-|[]]]; [apply B in X; lia | lia].
    + rewrite in_app_iff. cbn [In]. split.
      * intros [X|[<-|[]]]; [auto|]. right. eexists; reflexivity.
      * intros [X|[ws X]]; [auto|]. injection X as -> _. auto.
Qed.

Theorem C46_exactly_when : forall O F (readstring : str -> res O) (to_float : str -> res F) text,
  (exists y, extract_species readstring to_float text = Ok y) <-> good_lines readstring to_float (file_lines text).
Proof.
  intros O F rd fl text. unfold extract_species, good_lines.
  assert (G : forall lines seen (st : yields O F),
    NoDup (dkeys (y_species st)) -> (forall k, In k (dkeys (y_species st)) -> k < y_number st) ->
    (forall s, In s (dvals (y_species st)) <-> exists l ws, In l seen /\ split_ws l = s :: ws) ->
    ((exists y, foldM (yield_line rd fl) lines st = Ok y) <->
     (forall before line after, lines = before ++ line :: after ->
        exists s ws, split_ws line = s :: ws /\
          ((exists l ws', In l (seen ++ before) /\ split_ws l = s :: ws') \/
           (exists w ws' c o, ws = w :: ws' /\ fl w = Ok c /\ rd s = Ok o))))).
  { induction lines as [|line lines IH]; intros seen st Nd B Hs.
    - split; [intros _ [|? ?] ? ? X; discriminate | intros _; exists st; reflexivity].
    - cbn [foldM].
      assert (Step : (exists st', yield_line rd fl st line = Ok st') <->
         exists s ws, split_ws line = s :: ws /\
          ((exists l ws', In l seen /\ split_ws l = s :: ws') \/
           (exists w ws' c o, ws = w :: ws' /\ fl w = Ok c /\ rd s = Ok o))).
      { unfold yield_line. destruct (split_ws line) as [|s ws] eqn:E.
        - split; [intros [? X]; discriminate | intros (? & ? & X & _); discriminate].
        - cbn [py_nth nth_error bind]. destruct (inb s (dvals (y_species st))) eqn:E0.
          + apply inb_In, Hs in E0. split; [|eauto]. intros _. exists s, ws. split; [reflexivity|]. left. destruct E0 as (l & w & X); exists l, w; exact X.
          + apply inb_nIn in E0. split.
            * intros [st' X]. exists s, ws. split; [reflexivity|]. right. destruct ws as [|w ws]; [discriminate X|]. cbn [py_nth nth_error bind] in X.
              destruct (fl w) as [c|] eqn:E1; [|discriminate]. cbn [bind] in X. destruct (rd s) as [o|] eqn:E2; [|discriminate].
              exists w, ws, c, o. auto.
            * intros (s' & ws' & X & Y). injection X as <- <-. destruct Y as [Y|(w & ws' & c & o & -> & Y1 & Y2)]; [apply Hs in Y; contradiction|].
              cbn [py_nth nth_error bind]. rewrite Y1. cbn [bind]. rewrite Y2. cbn [bind]. eauto. }
      destruct (yield_line rd fl st line) as [st'|e] eqn:E; cbn [bind].
      + destruct (proj1 Step (ex_intro _ _ eq_refl)) as (s0 & ws0 & E0 & Z0).
        destruct (yield_line_keeps O F rd fl st line st' E s0 Nd B) as (Nd' & B' & _).
        rewrite (IH (seen ++ [line]) st' Nd' B').
        2:{ intros s. destruct (yield_line_keeps O F rd fl st line st' E s Nd B) as (_ & _ & ->). rewrite Hs. split.
            - intros [(l & ws & X & Y)|[ws X]]; [exists l, ws; split; [apply in_or_app; auto | exact Y] | exists line, ws; split; [apply in_or_app; right; left; reflexivity | exact X]].
            - intros (l & ws & X & Y). apply in_app_or in X as [X|[<-|[]]]; [left; exists l, ws; auto | right; exists ws; exact Y]. }
        split; intros H before l after X.
        * destruct before as [|b before]; cbn [app] in X; injection X as <- X.
          -- exists s0, ws0. split; [exact E0|]. rewrite app_nil_r. exact Z0.
          -- destruct (H before l after X) as (s & ws & Y). exists s, ws. rewrite <- app_assoc in Y. exact Y.
        * destruct (H (line :: before) l after) as (s & ws & Y); [subst; reflexivity|]. exists s, ws. rewrite <- app_assoc. exact Y.
      + split; [intros [? X]; discriminate|]. intros H. destruct (H [] line lines eq_refl) as (s & ws & Y). rewrite app_nil_r in Y.
        destruct (proj2 Step) as [? X]; [exists s, ws; exact Y | discriminate]. }
  apply (G (file_lines text) [] yields0).
  - constructor.
  - intros k [].
  - intros s. split; [intros [] | intros (? & ? & [] & _)].
Qed.

(* Two SMILES, one of them twice, mixed line ends. *)
Definition c46_text : str := s_ "CCO 0.5" ++ [NL] ++ s_ " O=C=O  0.25 x" ++ [CR; NL] ++ s_ "CCO 7" ++ [CR] ++ s_ "C 1".
Definition c46_rows : list (str * str) := [(s_ "CCO", s_ "0.5"); (s_ "O=C=O", s_ "0.25"); (s_ "CCO", s_ "7"); (s_ "C", s_ "1")].
Ltac blanks := repeat (constructor; [split; [reflexivity | split; discriminate]|]); constructor.
Ltac a_word := split; [discriminate | repeat (constructor; [reflexivity|]); constructor].
Ltac no_in := cbn; let H := fresh in intros H; repeat (destruct H as [H|H]; [discriminate H|]); exact H.
Example C46_hypotheses : yield_file c46_rows c46_text /\
  first_seen (map fst c46_rows) = [s_ "CCO"; s_ "O=C=O"; s_ "C"] /\
  first_number c46_rows (s_ "CCO") = Some (s_ "0.5").
Proof.
  split; [|split; reflexivity]. unfold c46_text, c46_rows.
  apply (yf_row _ (s_ "CCO 0.5") [NL]).
  { exists [], [" "%char], []. split; [reflexivity|]; split; [blanks|]; split; [blanks|]; split; [discriminate|]; split; [a_word|]; split; [a_word|]; split; [|split; no_in]. left; reflexivity. }
  { left; reflexivity. }
  apply (yf_row _ (s_ " O=C=O  0.25 x") [CR; NL]).
  { exists [" "%char], [" "%char; " "%char], (s_ " x"). split; [reflexivity|]; split; [blanks|]; split; [blanks|]; split; [discriminate|]; split; [a_word|]; split; [a_word|]; split; [|split; no_in].
    right. exists " "%char, (s_ "x"). split; reflexivity. }
  { right; left; reflexivity. }
  apply (yf_row _ (s_ "CCO 7") [CR]).
  { exists [], [" "%char], []. split; [reflexivity|]; split; [blanks|]; split; [blanks|]; split; [discriminate|]; split; [a_word|]; split; [a_word|]; split; [|split; no_in]. left; reflexivity. }
  { right; right; reflexivity. }
  apply yf_last. exists [], [" "%char], []. split; [reflexivity|]; split; [blanks|]; split; [blanks|]; split; [discriminate|]; split; [a_word|]; split; [a_word|]; split; [|split; no_in]. left; reflexivity.
Qed.

(* A blank line is an IndexError. *)
Example C46_blank_line : extract_species (fun s => Ok s) (fun s => Ok s) (s_ "CCO 0.5" ++ [NL; NL] ++ s_ "C 1") = Err IndexError.
Proof. reflexivity. Qed.

(* ------------------------------------------------------------------ *)
(* C47 *)
Lemma plain_no c t : plain_smiles t -> In c [ "&"%char; "<"%char; ">"%char; "034"%char; NL] -> ~ In c t.
Proof.
  intros [_ H] Hc Hin. rewrite Forall_forall in H. specialize (H c Hin). cbn [In] in Hc.
  destruct H as (? & ? & ? & ? & ?). destruct Hc as [<-|[<-|[<-|[<-|[<-|[]]]]]]; congruence.
Qed.

Lemma escape_plain t : plain_smiles t -> escape t = t.
Proof.
  intros H. unfold escape.
  rewrite (replace_lacks (s_ "&") (s_ "&amp;") t "&"%char); [|left; reflexivity | apply (plain_no _ _ H); cbn; auto].
  rewrite (replace_lacks (s_ "<") (s_ "&lt;") t "<"%char); [|left; reflexivity | apply (plain_no _ _ H); cbn; auto].
  rewrite (replace_lacks ["034"%char] (s_ "&quot;") t "034"%char); [|left; reflexivity | apply (plain_no _ _ H); cbn; auto 6].
  rewrite (replace_lacks (s_ ">") (s_ "&gt;") t ">"%char); [|left; reflexivity | apply (plain_no _ _ H); cbn; auto 6].
  reflexivity.
Qed.

Lemma lazy_until_plain t r : ~ In NL t -> ~ In "<"%char t -> lazy_until (s_ "</smiles>") (t ++ s_ "</smiles>" ++ r) = Some t.
Proof.
  induction t as [|c t IH]; intros H1 H2; [reflexivity|].
  change ((c :: t) ++ s_ "</smiles>" ++ r) with (c :: (t ++ s_ "</smiles>" ++ r)). cbn [lazy_until].
  assert (E : prefix_rest (s_ "</smiles>") (c :: (t ++ s_ "</smiles>" ++ r)) = None).
  { change (s_ "</smiles>") with ("<"%char :: s_ "/smiles>"). cbn [prefix_rest].
    destruct (Ascii.eqb "<"%char c) eqn:E; [|reflexivity]. apply Ascii.eqb_eq in E. subst. exfalso. apply H2. left; reflexivity. }
  rewrite E. destruct (Ascii.eqb c NL) eqn:E1; [apply Ascii.eqb_eq in E1; subst; exfalso; apply H1; left; reflexivity|].
  rewrite IH; [reflexivity | intros X; apply H1; right; exact X | intros X; apply H2; right; exact X].
Qed.

Lemma search_plain t : plain_smiles t -> search_smiles (smiles_xml t) = Some t.
Proof.
  intros H. unfold smiles_xml. destruct t as [|c t]; [destruct H; congruence|]. rewrite escape_plain by exact H.
  assert (E : prefix_rest (s_ "<smiles>") (s_ "<smiles>" ++ (c :: t) ++ s_ "</smiles>") = Some ((c :: t) ++ s_ "</smiles>")) by reflexivity.
  destruct (s_ "<smiles>" ++ (c :: t) ++ s_ "</smiles>") as [|x l] eqn:El; [discriminate|].
  cbn [search_smiles]. rewrite E.
  pose proof (lazy_until_plain (c :: t) []) as L. rewrite app_nil_r in L. rewrite L; [reflexivity | |]; apply (plain_no _ _ H); cbn; auto 6.
Qed.

Definition node_of (r : str * option str) : xnode := Node (Some (fst r)) (option_map smiles_xml (snd r)).
Definition lookedb (species : list str) (s : str) : bool := inb s species && negb (inb s no_smiles).
Lemma lookedb_spec species s : lookedb species s = true <-> looked_at species s.
Proof.
  unfold lookedb, looked_at. rewrite andb_true_iff, negb_true_iff, inb_In. fold no_smiles. rewrite inb_nIn. reflexivity.
Qed.

(* The SMILES each record really contributes. *)
Fixpoint carried (last : option str) (l : list (str * option str)) : list (str * option str) :=
  match l with
  | [] => []
  | (s, x) :: l' => let c := match x with Some t => Some t | None => last end in (s, c) :: carried c l'
  end.

Lemma last_record_cons r l s : last_record (r :: l) s =
  match last_record l s with Some x => Some x | None => if str_eqb (fst r) s then Some (snd r) else None end.
Proof.
  unfold last_record. cbn [rev]. induction (rev l) as [|x k IH]; cbn [app find].
  - destruct (str_eqb (fst r) s); reflexivity.
  - destruct (str_eqb (fst x) s); [reflexivity | exact IH].
Qed.

Lemma last_record_filter (p : str -> bool) l s : last_record (filter (fun r => p (fst r)) l) s = if p s then last_record l s else None.
Proof.
  induction l as [|r l IH]; [unfold last_record; cbn; destruct (p s); reflexivity|].
  rewrite (last_record_cons r). cbn [filter]. destruct (p (fst r)) eqn:E; [rewrite last_record_cons|]; rewrite IH; destruct (p s) eqn:E1.
  - reflexivity.
  - destruct (str_eqb (fst r) s) eqn:E2; [apply str_eqb_eq in E2; congruence | reflexivity].
  - destruct (str_eqb (fst r) s) eqn:E2; [apply str_eqb_eq in E2; congruence|]. destruct (last_record l s); reflexivity.
  - reflexivity.
Qed.

Lemma carried_own l : forall last s t, last_record l s = Some (Some t) -> last_record (carried last l) s = Some (Some t).
Proof.
  induction l as [|[s0 x] l IH]; intros last s t; [discriminate|]. cbn [carried]. rewrite !last_record_cons. cbn [fst snd].
  intros H. destruct (last_record l s) as [y|] eqn:E.
  - injection H as ->. rewrite (IH _ s t E). reflexivity.
  - destruct (str_eqb s0 s) eqn:E1; [|discriminate]. injection H as ->.
    replace (last_record (carried (Some t) l) s) with (@None (option str)); [reflexivity|]. symmetry.
    clear -E. revert E. generalize (Some t). induction l as [|[s1 y] l IH]; intros last; [reflexivity|].
    cbn [carried]. rewrite !last_record_cons. cbn [fst snd]. destruct (last_record l s); [discriminate|]. intros E. rewrite IH by reflexivity.
    destruct (str_eqb s1 s); [discriminate | reflexivity].
Qed.

Lemma carried_none l : forall last s, last_record l s = None <-> last_record (carried last l) s = None.
Proof.
  induction l as [|[s0 x] l IH]; intros last s; [reflexivity|]. cbn [carried]. rewrite !last_record_cons. cbn [fst snd].
  specialize (IH (match x with Some t => Some t | None => last end) s).
  destruct (last_record l s), (last_record (carried _ l) s); try (destruct IH; intuition discriminate).
  destruct (str_eqb s0 s); split; intros; discriminate || reflexivity.
Qed.

Section SmilesMap.
Context {O : Type}.
Variable readstring : str -> res O.
Variable ov : str -> O.

Lemma unlooked_fold species recs : forall st,
  foldM (node_step readstring species) (map node_of recs) st =
  foldM (node_step readstring species) (map node_of (filter (fun r => lookedb species (fst r)) recs)) st.
Proof.
  induction recs as [|r recs IH]; intros st; [reflexivity|]. cbn [map filter]. destruct (lookedb species (fst r)) eqn:E; cbn [map foldM].
  - destruct (node_step readstring species st (node_of r)); cbn [bind]; [apply IH | reflexivity].
  - assert (X : node_step readstring species st (node_of r) = Ok st).
    { unfold node_step, node_of. cbn [x_name]. unfold lookedb in E. apply andb_false_iff in E.
      destruct (inb (fst r) no_smiles); [reflexivity|]. destruct E as [->|E]; [reflexivity | discriminate]. }
    rewrite X. cbn [bind]. apply IH.
Qed.

Definition good (recs : list (str * option str)) : Prop :=
  forall s t, In (s, Some t) recs -> plain_smiles t /\ readstring t = Ok (ov t).

Lemma step_looked species st s x : lookedb species s = true -> (forall t, x = Some t -> plain_smiles t) ->
  node_step readstring species st (node_of (s, x)) =
  match (match x with Some t => Some t | None => m_last st end) with
  | None => Err UnboundLocalError
  | Some sm => do o <- readstring sm; Ok (Smap (dset s sm (m_smiles st)) (dset sm o (m_objects st)) (Some sm))
  end.
Proof.
  intros H Hp. unfold lookedb in H. apply andb_true_iff in H as [H1 H2]. apply negb_true_iff in H2.
  unfold node_step, node_of. cbn [x_name x_xml fst snd]. rewrite H1, H2.
  destruct x as [t|]; cbn [option_map].
  - rewrite search_plain by (apply Hp; reflexivity). reflexivity.
  - destruct (m_last st); reflexivity.
Qed.

Lemma carried_fold species recs : (forall r, In r recs -> lookedb species (fst r) = true) -> good recs -> forall st,
  (forall t, m_last st = Some t -> readstring t = Ok (ov t)) ->
  match recs with (_, None) :: _ => m_last st <> None | _ => True end ->
  (forall s t, dget s (m_smiles st) = Some t -> dget t (m_objects st) = Some (ov t)) ->
  exists m, foldM (node_step readstring species) (map node_of recs) st = Ok m /\
    (forall s, dget s (m_smiles m) = match last_record (carried (m_last st) recs) s with Some x => x | None => dget s (m_smiles st) end) /\
    (forall s, last_record recs s <> None -> dget s (m_smiles m) <> None) /\
    (forall s, last_record recs s = None -> dget s (m_smiles m) = dget s (m_smiles st)) /\
    (forall s t, dget s (m_smiles m) = Some t -> dget t (m_objects m) = Some (ov t)).
Proof.
  induction recs as [|[s0 x] recs IH]; intros Hl Hg st Hlast H1 Ho.
  - exists st. cbn [map foldM]. split; [reflexivity|]. split; [reflexivity|]. split; [intros s H; exfalso; apply H; reflexivity|]. split; [reflexivity | exact Ho].
  - cbn [map foldM]. rewrite step_looked; [|apply (Hl (s0, x)); left; reflexivity | intros t ->; apply (Hg s0 t); left; reflexivity].
    set (c := match x with Some t => Some t | None => m_last st end).
    assert (Hc : exists sm, c = Some sm /\ readstring sm = Ok (ov sm)).
    { unfold c. destruct x as [t|]; [exists t; split; [reflexivity | apply (Hg s0 t); left; reflexivity]|].
      destruct (m_last st) as [t|]; [exists t; split; [reflexivity | apply Hlast; reflexivity] | congruence]. }
    destruct Hc as (sm & Ec & Er). rewrite Ec, Er. cbn [bind].
    set (st' := Smap (dset s0 sm (m_smiles st)) (dset sm (ov sm) (m_objects st)) (Some sm)).
    destruct (IH (fun r H => Hl r (or_intror H)) (fun s t H => Hg s t (or_intror H)) st') as (m & E & A & B & B' & C).
    + cbn [m_last st']. intros t X. injection X as <-. exact Er.
    + destruct recs as [|[s1 [y|]] recs]; [exact I | exact I | discriminate].
    + cbn [m_smiles m_objects st']. intros s t H. destruct (eqb sm t) eqn:E1.
      * apply eqb_eq in E1. subst t. apply dget_dset_same.
      * apply eqb_neq in E1. rewrite dget_dset_other by congruence. destruct (eqb s0 s) eqn:E2.
        -- apply eqb_eq in E2. subst. rewrite dget_dset_same in H. congruence.
        -- apply eqb_neq in E2. rewrite dget_dset_other in H by congruence. apply (Ho s), H.
    + exists m. split; [exact E|].
      assert (Eq : forall s, dget s (m_smiles m) = match last_record (carried (m_last st) ((s0, x) :: recs)) s with Some x => x | None => dget s (m_smiles st) end).
      { intros s. rewrite A. cbn [carried]. fold c. rewrite Ec. rewrite last_record_cons. cbn [fst snd st' m_last m_smiles].
        destruct (last_record (carried (Some sm) recs) s); [reflexivity|]. destruct (str_eqb s0 s) eqn:E2.
        - apply str_eqb_eq in E2. subst. apply dget_dset_same.
        - apply dget_dset_other. intros ->. rewrite str_eqb_refl in E2. discriminate. }
      split; [exact Eq|]. split; [|split; [|exact C]].
      * intros s H. rewrite last_record_cons in H. cbn [fst snd] in H. destruct (last_record recs s) eqn:E3; [apply B; congruence|].
        destruct (str_eqb s0 s) eqn:E2; [|congruence]. apply str_eqb_eq in E2. subst. rewrite B' by exact E3. cbn [st' m_smiles].
        rewrite dget_dset_same. discriminate.
      * intros s H. rewrite Eq. rewrite (proj1 (carried_none ((s0, x) :: recs) (m_last st) s) H). reflexivity.
Qed.
End SmilesMap.

Section C47.
Context {O : Type}.
Variable readstring : str -> res O.

(* Each record of a species of the mechanism with its SMILES: the map has, for
   exactly those species, the SMILES of their last record, and its molecule. *)
Theorem C47_partial : forall species recs ov,
  (forall s x, In (s, x) recs -> looked_at species s -> exists t, x = Some t /\ plain_smiles t /\ readstring t = Ok (ov t)) ->
  exists m, extract_smiles readstring species (map node_of recs) = Ok m /\
    (forall s, looked_at species s -> dget s (m_smiles m) = own_smiles recs s) /\
    (forall s, ~ looked_at species s -> dget s (m_smiles m) = None) /\
    (forall s t, dget s (m_smiles m) = Some t -> dget t (m_objects m) = Some (ov t)).
Proof.
  intros species recs ov H. unfold extract_smiles. rewrite unlooked_fold.
  set (l := filter _ recs).
  assert (Hl : forall r, In r l -> In r recs /\ lookedb species (fst r) = true) by (intros r X; apply filter_In in X; exact X).
  assert (Hs : forall s x, In (s, x) l -> exists t, x = Some t /\ plain_smiles t /\ readstring t = Ok (ov t)).
  { intros s x X. destruct (Hl _ X) as [X1 X2]. apply lookedb_spec in X2. exact (H s x X1 X2). }
  destruct (carried_fold readstring ov species l (fun r X => proj2 (Hl r X))) with (st := @Smap O [] [] None) as (m & E & A & _ & _ & C).
  - intros s t X. destruct (Hs s (Some t) X) as (t' & X1 & X2). injection X1 as ->. exact X2.
  - discriminate.
  - destruct l as [|[s x] l']; [exact I|]. destruct x; [exact I|]. destruct (Hs s None) as (t & X & _); [left; reflexivity | discriminate].
  - discriminate.
  - exists m. split; [exact E|]. cbn [m_last m_smiles dget] in A.
    assert (K : forall s, dget s (m_smiles m) = if lookedb species s then own_smiles recs s else None).
    { intros s. rewrite A. pose proof (last_record_filter (lookedb species) recs s) as F. fold l in F. unfold own_smiles.
      destruct (lookedb species s).
      - rewrite <- F. destruct (last_record l s) as [[t|]|] eqn:E1.
        + rewrite (carried_own l None s t E1). reflexivity.
        + exfalso. unfold last_record in E1. destruct (find _ (rev l)) as [r|] eqn:E2; [|discriminate]. apply find_some in E2 as [E2 _].
          apply in_rev in E2. destruct r as [s1 x]. injection E1 as ->. destruct (Hs _ _ E2) as (t & X & _). discriminate.
        + rewrite (proj1 (carried_none l None s) E1). reflexivity.
      - rewrite (proj1 (carried_none l None s) F). reflexivity. }
    split; [|split; [|exact C]].
    + intros s X. apply lookedb_spec in X. rewrite K, X. reflexivity.
    + intros s X. rewrite K. destruct (lookedb species s) eqn:E1; [|reflexivity]. apply lookedb_spec in E1. contradiction.
Qed.

(* The exact condition: no species gets another record's SMILES exactly when
   the first record looked at and the last record of every species have one. *)
Theorem C47_exactly_when : forall species recs ov,
  (forall s t, In (s, Some t) recs -> looked_at species s -> plain_smiles t /\ readstring t = Ok (ov t)) ->
  ((exists m, extract_smiles readstring species (map node_of recs) = Ok m /\
      forall s, looked_at species s -> dget s (m_smiles m) = own_smiles recs s) <->
   (forall s, looked_at species s -> last_record recs s <> Some None) /\
   (forall before s after, recs = before ++ (s, None) :: after -> looked_at species s ->
      exists s' x, In (s', x) before /\ looked_at species s')).
Proof.
  intros species recs ov H. unfold extract_smiles. rewrite unlooked_fold.
  pose proof (last_record_filter (lookedb species) recs) as F.
  set (l := filter (fun r => lookedb species (fst r)) recs) in *.
  assert (Hl : forall r, In r l -> In r recs /\ lookedb species (fst r) = true) by (intros r X; apply filter_In in X; exact X).
  assert (Hg : good readstring ov l).
  { intros s t X. destruct (Hl _ X) as [X1 X2]. apply lookedb_spec in X2. exact (H s t X1 X2). }
  assert (First : (match l with (_, None) :: _ => False | _ => True end) <->
     (forall before s after, recs = before ++ (s, None) :: after -> looked_at species s -> exists s' x, In (s', x) before /\ looked_at species s')).
  { subst l. clear. split.
    - intros G before s after -> Hs. rewrite filter_app in G. destruct (filter _ before) as [|[s' x] k] eqn:E.
      + cbn [app filter fst] in G. apply lookedb_spec in Hs. rewrite Hs in G. contradiction.
      + assert (X : In (s', x) (filter (fun r => lookedb species (fst r)) before)) by (rewrite E; left; reflexivity).
        apply filter_In in X as [X1 X2]. exists s', x. split; [exact X1|]. apply lookedb_spec, X2.
    - induction recs as [|[s x] recs IH]; intros G; [exact I|]. cbn [filter fst]. destruct (lookedb species s) eqn:E.
      + destruct x; [exact I|]. destruct (G [] s recs eq_refl) as (? & ? & [] & _). apply lookedb_spec, E.
      + apply IH. intros before s1 after X Hs. destruct (G ((s, x) :: before) s1 after) as (s' & y & [Y|Y] & Z); [rewrite X; reflexivity | exact Hs | |].
        * injection Y as -> ->. apply lookedb_spec in Z. congruence.
        * eauto. }
  rewrite <- First. clear First. split.
  - intros (m & E & A). split.
    + intros s Hs X. assert (E0 : match l with (_, None) :: _ => False | _ => True end).
      { destruct l as [|[s1 [t|]] l']; [exact I | exact I|]. exfalso. cbn [map foldM] in E. rewrite step_looked in E; [discriminate | |discriminate].
        apply (proj2 (Hl (s1, None) (or_introl eq_refl))). }
      destruct (carried_fold readstring ov species l (fun r X => proj2 (Hl r X)) Hg (@Smap O [] [] None)) as (m' & E' & A' & B' & _).
      * discriminate.
      * destruct l as [|[s1 [t|]] l']; [exact I | exact I | contradiction].
      * discriminate.
      * rewrite E in E'. injection E' as <-. apply (B' s).
        -- rewrite F. apply lookedb_spec in Hs. rewrite Hs, X. discriminate.
        -- rewrite (A s Hs). unfold own_smiles. rewrite X. reflexivity.
    + destruct l as [|[s1 [t|]] l']; [exact I | exact I|]. exfalso. cbn [map foldM] in E. rewrite step_looked in E; [discriminate | |discriminate].
      apply (proj2 (Hl (s1, None) (or_introl eq_refl))).
  - intros [G1 G2].
    destruct (carried_fold readstring ov species l (fun r X => proj2 (Hl r X)) Hg (@Smap O [] [] None)) as (m & E & A & _).
    + discriminate.
    + destruct l as [|[s1 [t|]] l']; [exact I | exact I | contradiction].
    + discriminate.
    + exists m. split; [exact E|]. intros s Hs. rewrite A. cbn [m_last m_smiles dget]. apply lookedb_spec in Hs as Hs'.
      specialize (F s). rewrite Hs' in F. unfold own_smiles. rewrite <- F. destruct (last_record l s) as [[t|]|] eqn:E1.
      * rewrite (carried_own l None s t E1). reflexivity.
      * exfalso. apply (G1 s Hs). congruence.
      * rewrite (proj1 (carried_none l None s) E1). reflexivity.
Qed.

(* A species whose record has no SMILES is given that of the record before it;
   with no such record the reading stops. *)
Theorem C47_refuted : forall species a b t o,
  looked_at species a -> looked_at species b -> a <> b -> plain_smiles t -> readstring t = Ok o ->
  (exists m, extract_smiles readstring species (map node_of [(a, Some t); (b, None)]) = Ok m /\
     dget b (m_smiles m) = Some t /\ own_smiles [(a, Some t); (b, None)] b = None) /\
  extract_smiles readstring species (map node_of [(b, None); (a, Some t)]) = Err UnboundLocalError.
Proof.
  intros species a b t o Ha Hb Hab Ht Ho. apply lookedb_spec in Ha, Hb. split.
  - unfold extract_smiles. cbn [map foldM]. rewrite step_looked; [|exact Ha | intros ? X; injection X as <-; exact Ht]. rewrite Ho. cbn [bind].
    rewrite step_looked; [|exact Hb | discriminate]. cbn [m_last]. rewrite Ho. cbn [bind]. eexists. split; [reflexivity|]. cbn [m_smiles].
    split; [apply dget_dset_same|]. unfold own_smiles, last_record. cbn [rev app find fst snd]. rewrite str_eqb_refl. reflexivity.
  - unfold extract_smiles. cbn [map foldM]. rewrite step_looked; [reflexivity | exact Hb | discriminate].
Qed.
End C47.

Definition c47_species : list str := [s_ "APINENE"; s_ "OH"; s_ "C107O2"].
Definition c47_recs : list (str * option str) :=
  [(s_ "OH", None); (s_ "X", None); (s_ "C107O2", Some (s_ "C")); (s_ "APINENE", Some (s_ "CC1=CCC2CC1C2(C)C")); (s_ "C107O2", Some (s_ "CC(=O)C1CC(CC=O)C1(C)C"))].
Example C47_hypotheses :
  (forall s x, In (s, x) c47_recs -> looked_at c47_species s -> exists t, x = Some t /\ plain_smiles t /\ (fun s => Ok s) t = Ok t) /\
  own_smiles c47_recs (s_ "C107O2") = Some (s_ "CC(=O)C1CC(CC=O)C1(C)C") /\ own_smiles c47_recs (s_ "APINENE") = Some (s_ "CC1=CCC2CC1C2(C)C") /\
  looked_at c47_species (s_ "C107O2").
Proof.
  assert (P : forall t, t <> [] -> forallb (fun c => negb (existsb (Ascii.eqb c) ["&"%char; "<"%char; ">"%char; "034"%char; NL])) t = true -> plain_smiles t).
  { intros t Hn H. split; [exact Hn|]. apply Forall_forall. intros c Hc. rewrite forallb_forall in H. specialize (H c Hc). apply negb_true_iff in H.
    repeat split; intros ->; discriminate H. }
  split; [|split; [reflexivity | split; [reflexivity|]]].
  - intros s x H [Hs Hn]. cbn [c47_recs In] in H.
    destruct H as [H|[H|[H|[H|[H|[]]]]]]; injection H as <- <-; try (eexists; split; [reflexivity|]; split; [apply P; [discriminate | reflexivity] | reflexivity]).
    + exfalso. apply Hn. left. reflexivity.
    + exfalso. destruct Hs as [H|[H|[H|[]]]]; discriminate H.
  - split; [cbn; auto|]. no_in.
Qed.

Print Assumptions C46_table.
Print Assumptions C46_exactly_when.
Print Assumptions C47_partial.
Print Assumptions C47_exactly_when.
Print Assumptions C47_refuted.
