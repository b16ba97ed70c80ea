(* C01-C09: what parsing a mechanism file yields. *)
From Coq Require Import List Bool Arith Lia Ascii String ZArith QArith.
From Verif Require Import Base PyStr PyRe PyDict ModelParse SpecMech
  ParseText ParseItem ParseStruct ParseWritten ParseTables ParseShow.
Import ListNotations.
Open Scope nat_scope.
Open Scope list_scope.

(* ------------------------------------------------------------------ *)
(* Example mechanisms, in the style of the MCM files of the repository. *)

Definition ex_words : list wrx :=
  [ ([s_ "APINENE"; s_ "NO3"], [s_ "NAPINAO2"], s_ "1.2D-12*EXP(490/TEMP)*0.65");
    ([s_ "HCHO"; s_ "hv"], [s_ "CO"; s_ "HO2"], s_ "J(11)");
    ([s_ "NO"; s_ "NO"], [s_ "NO2"], s_ "3.3D-39*EXP(530/TEMP)*O2");
    ([s_ "OH"; s_ "O3"], [s_ "HO2"], s_ "1.70D-12*EXP(-940/TEMP)") ].
Definition ex_mech : mech := map bare ex_words.
Definition ex_text : str := show ex_words.

Example ex_written : written ex_mech ex_text.
Proof. apply bare_written; [discriminate | reflexivity]. Qed.

(* HCHO = CO + HO2 + HO2 : J(11), a reaction of the shipped MCM files. *)
Definition dup_words : list wrx :=
  [ ([s_ "HCHO"; s_ "hv"], [s_ "CO"; s_ "HO2"; s_ "HO2"], s_ "J(11)") ].
Definition dup_mech : mech := map bare dup_words.
Definition dup_text : str := show dup_words.

Example dup_written : written dup_mech dup_text.
Proof. apply bare_written; [discriminate | reflexivity]. Qed.

(* ACO3 + HO2 = HO2 + CO + HCHO + OH : KAPHO2*0.44, of MCM_mixed_test. *)
Definition drop_words : list wrx :=
  [ ([s_ "ACO3"; s_ "HO2"], [s_ "HO2"; s_ "CO"; s_ "HCHO"; s_ "OH"], s_ "KAPHO2*0.44") ].
Definition drop_mech : mech := map bare drop_words.
Definition drop_text : str := show drop_words.

Example drop_written : written drop_mech drop_text.
Proof. apply bare_written; [discriminate | reflexivity]. Qed.

(* A coefficient in front of a digit-free name. *)
Definition coef_mech : mech := [Rx [(2%Q, s_ "NO")] [(5 # 10, s_ "CO"); (1%Q, s_ "O3")]%Q (s_ "KA")].
Definition coef_text : str := show [([s_ "2NO"], [s_ "0.5CO"; s_ "O3"], s_ "KA")].

Example coef_written : written coef_mech coef_text.
Proof.
  apply show_written; [|discriminate]. constructor; [|constructor].
  cbn [words_for lhs rhs rtext].
  split; [discriminate|]. split; [|split; [|split; [reflexivity|split; [repeat constructor | repeat constructor]]]].
  - constructor; [|constructor]. apply (tw_coef (s_ "2") 2%Q (s_ "NO")).
    + apply (num_int (s_ "2") 2). apply (dig_one "2"%char). reflexivity.
    + split; [discriminate | repeat constructor].
    + repeat split; discriminate.
    + repeat constructor.
  - constructor; [|constructor; [|constructor]].
    + apply (tw_coef (s_ "0.5") (5 # 10)%Q (s_ "CO")).
      * apply (num_dec (s_ "0") (s_ "5") 5); [|discriminate].
        apply (dig_more (s_ "0") 0 "5"%char); [|reflexivity]. apply (dig_one "0"%char). reflexivity.
      * split; [discriminate | repeat constructor].
      * repeat split; discriminate.
      * repeat constructor.
    + apply bare_ok. reflexivity.
Qed.

(* ------------------------------------------------------------------ *)
(* C01 *)

(* Whatever text is accepted, the two species dictionaries enumerate one
   duplicate-free list in order. *)
Theorem C01_species_numbering : forall text n st, extract_mechanism text = Ok (n, st) ->
  exists L, NoDup L /\
    dkeys (p_sp st) = seq 0 (List.length L) /\ dkeys (p_sp2a st) = L /\
    (forall k s, dget k (p_sp st) = Some s <-> nth_error L k = Some s) /\
    (forall k s, dget s (p_sp2a st) = Some k <-> nth_error L k = Some s).
Proof.
  intros text n st H. apply extract_Ok in H as (_ & m & _ & _ & _ & _ & ->).
  exists (species m). destruct (interp_species m) as (H1 & H2 & _ & Hnd).
  split; [exact Hnd|]. split; [|split; [|split]].
  - rewrite H1. unfold dkeys. apply map_fst_combine. rewrite seq_length; reflexivity.
  - rewrite H2. unfold dkeys. apply map_fst_combine. rewrite seq_length; reflexivity.
  - intros k s. apply interp_sp.
  - intros k s. apply interp_sp2a.
Qed.

(* They are inverse to each other. *)
Theorem C01_inverse : forall text n st, extract_mechanism text = Ok (n, st) ->
  forall k s, dget k (p_sp st) = Some s <-> dget s (p_sp2a st) = Some k.
Proof.
  intros text n st H k s. destruct (C01_species_numbering _ _ _ H) as (L & _ & _ & _ & H1 & H2).
  rewrite H1, H2. reflexivity.
Qed.

(* The order is the order of first appearance. *)
Theorem C01_order : forall m text, written m text ->
  exists st, extract_mechanism text = Ok (Z.of_nat (List.length m), st) /\
    p_sp st = combine (seq 0 (List.length (first_seen (reading_order m)))) (first_seen (reading_order m)).
Proof.
  intros m text H. exists (interp m). split; [apply written_extract, H|].
  apply (interp_species m).
Qed.

(* first_seen means first appearance: a species with a smaller number occurs
   before any occurrence of a species with a larger one. *)
Theorem C01_first_appearance : forall l i j a b, i < j ->
  nth_error (first_seen l) i = Some a -> nth_error (first_seen l) j = Some b ->
  exists pre post, l = pre ++ a :: post /\ ~ In a pre /\ ~ In b pre.
Proof.
  unfold first_seen. intros l.
  assert (G : forall l seen i j a b, i < j ->
    nth_error (first_seen_from seen l) i = Some a -> nth_error (first_seen_from seen l) j = Some b ->
    exists pre post, l = pre ++ a :: post /\ ~ In a pre /\ ~ In b pre).
  { clear l. induction l as [|x l IH]; intros seen i j a b Hij Ha Hb; cbn [first_seen_from] in *.
    - destruct i; discriminate.
    - assert (Hout : forall l seen y, In y (first_seen_from seen l) -> ~ In y seen).
      { clear. induction l as [|z l IH]; intros seen y; cbn [first_seen_from]; [contradiction|].
        destruct (inb z seen) eqn:E; [apply IH|]. apply inb_nIn in E.
        intros [->|Hy]; [exact E|]. intros Hs. apply (IH _ _ Hy). right; exact Hs. }
      destruct (inb x seen) eqn:E.
      + destruct (IH _ _ _ _ _ Hij Ha Hb) as (pre & post & -> & H1 & H2).
        apply inb_In in E. exists (x :: pre), post. split; [reflexivity|].
        assert (Hax : ~ In a seen) by (eapply Hout, nth_error_In, Ha).
        assert (Hbx : ~ In b seen) by (eapply Hout, nth_error_In, Hb).
        split; intros [->|]; auto.
      + destruct i as [|i]; cbn [nth_error] in Ha.
        * injection Ha as ->. exists [], l. repeat split; intros [].
        * destruct j as [|j]; [lia|]. cbn [nth_error] in Hb.
          destruct (IH _ _ _ _ _ (proj2 (Nat.succ_lt_mono i j) Hij) Ha Hb) as (pre & post & -> & H1 & H2).
          exists (x :: pre), post. split; [reflexivity|].
          assert (Hax : ~ In a (x :: seen)) by (eapply Hout, nth_error_In, Ha).
          assert (Hbx : ~ In b (x :: seen)) by (eapply Hout, nth_error_In, Hb).
          split; intros [->|]; auto; [apply Hax | apply Hbx]; left; reflexivity. }
  intros. eapply G; eassumption.
Qed.

Example C01_example :
  exists st, extract_mechanism ex_text = Ok (4%Z, st) /\
    dvals (p_sp st) = map s_ ["APINENE"; "NO3"; "NAPINAO2"; "HCHO"; "CO"; "HO2"; "NO"; "NO2"; "OH"; "O3"]%string.
Proof. eexists. split; [vm_compute; reflexivity | vm_compute; reflexivity]. Qed.

(* ------------------------------------------------------------------ *)
(* C02 *)

Theorem C02_registered_iff_written : forall m text, written m text ->
  exists st, extract_mechanism text = Ok (Z.of_nat (List.length m), st) /\
    forall s, (exists i, dget s (p_sp2a st) = Some i) <->
              s <> light /\ exists r, In r m /\ In s (map snd (lhs r) ++ map snd (rhs r)).
Proof.
  intros m text H. exists (interp m). split; [apply written_extract, H|].
  intros s. rewrite <- species_In. split.
  - intros (i & Hi). apply interp_sp2a in Hi. exact (nth_error_In _ _ Hi).
  - intros Hs. apply In_nth_error in Hs as (i & Hi). exists i. apply interp_sp2a, Hi.
Qed.

(* For every accepted text light has no index, no loss entry, no gain entry
   and no reactant slot. *)
Theorem C02_light_excluded : forall text n st, extract_mechanism text = Ok (n, st) ->
  dget light (p_sp2a st) = None /\
  forall k, dget k (p_sp st) <> Some light /\
    dget2 light k (p_loss st) = None /\ dget2 light k (p_gain st) = None /\
    forall row, dget k (p_reac st) = Some row -> ~ In light (map snd row).
Proof.
  intros text n st H. apply extract_Ok in H as (_ & m & _ & _ & _ & _ & ->).
  assert (Hnl : ~ In light (species m)) by (rewrite species_In; tauto).
  split.
  - destruct (dget light (p_sp2a (interp m))) as [i|] eqn:E; [|reflexivity].
    apply interp_sp2a, nth_error_In in E. contradiction.
  - intros k. split; [|split; [|split]].
    + intros E. apply interp_sp, nth_error_In in E. contradiction.
    + assert (Hl := interp_loss m light k). destruct (nth_error m k) as [r|]; [|exact Hl].
      unfold entry_ok in Hl. destruct (dget2 light k (p_loss (interp m))); [|reflexivity].
      destruct Hl as [Hl _]. exfalso; exact (names_not_light _ Hl).
    + rewrite interp_gain. destruct (nth_error m k) as [r|]; [|reflexivity].
      destruct (code_gain (last_reactant r) (rhs r) light) as [q|] eqn:E; [|reflexivity]. exfalso.
      assert (Hc : forall ts g, g light = None -> fold_left (gstep (last_reactant r)) ts g light = None).
      { induction ts as [|[c nm] ts IH]; intros g Hg; [exact Hg|]. cbn [fold_left]. apply IH. cbn [gstep].
        destruct (str_eqb nm light) eqn:En; [exact Hg|].
        assert (E2 : str_eqb light nm = false) by (apply str_eqb_neq; apply str_eqb_neq in En; congruence).
        destruct (g (last_reactant r)); [destruct (g nm)|]; try rewrite E2; exact Hg. }
      unfold code_gain in E. rewrite Hc in E by reflexivity. discriminate.
    + intros row E. rewrite interp_reac in E. destruct (nth_error m k) as [r|]; [|discriminate].
      unfold slots_entry in E. destruct (reactant_slots r) as [|x l] eqn:Er; [discriminate|].
      injection E as <-. rewrite <- Er. change (reactant_slots r) with (slots_from 0 (lhs r)).
      rewrite map_snd_slots. apply names_not_light.
Qed.

Example C02_example : exists st, extract_mechanism ex_text = Ok (4%Z, st) /\
  dget (s_ "hv") (p_sp2a st) = None /\ dget (s_ "HCHO") (p_sp2a st) = Some 3.
Proof. eexists. split; [vm_compute; reflexivity | split; vm_compute; reflexivity]. Qed.

(* ------------------------------------------------------------------ *)
(* C03 *)

Theorem C03_accepts_iff : forall text,
  (exists out, extract_mechanism text = Ok out) <-> file_ok text.
Proof. exact accepts_iff. Qed.

Theorem C03_count : forall text n st, extract_mechanism text = Ok (n, st) -> announces text n.
Proof. intros text n st H. apply extract_Ok in H as (H & _). exact H. Qed.

(* Equation k of the file is key k of every output: keys are exactly
   0..n-1 in rate_dict and no other table has keys outside. *)
Theorem C03_keys : forall text n st, extract_mechanism text = Ok (n, st) ->
  dkeys (p_rate st) = seq 0 (Z.to_nat n) /\
  forall k, Z.to_nat n <= k ->
    dget k (p_reac st) = None /\ forall s, dget2 s k (p_loss st) = None /\ dget2 s k (p_gain st) = None.
Proof.
  intros text n st H. apply extract_Ok in H as (_ & m & _ & _ & Hl & _ & ->). split.
  - rewrite interp_rate, Hl. unfold dkeys. apply map_fst_combine. rewrite seq_length, map_length. auto.
  - intros k Hk. assert (Hn : nth_error m k = None) by (apply nth_error_None; lia).
    rewrite interp_reac, Hn. split; [reflexivity|]. intros s. rewrite interp_gain, Hn.
    assert (G := interp_loss m s k). rewrite Hn in G. auto.
Qed.

(* A label that is not a number, a missing '=' and a blank reactant are all
   rejected; a text with more labels than equations too. *)
Example C03_rejects :
  extract_mechanism (s_ "{x} A = B : K ;") = Err ValueError /\
  extract_mechanism (s_ "{1.} A B : K ;") = Err IndexError /\
  extract_mechanism (s_ "{1.} A + = B : K ;") = Err IndexError /\
  extract_mechanism (s_ "{2.} A = B : K ;") = Err IndexError /\
  extract_mechanism (s_ "") = Err IndexError.
Proof. repeat split; vm_compute; reflexivity. Qed.

Example C03_example : file_ok ex_text.
Proof. apply accepts_iff. eexists. vm_compute. reflexivity. Qed.

(* ------------------------------------------------------------------ *)
(* C04 *)

Theorem C04_rate_text : forall text n st, extract_mechanism text = Ok (n, st) ->
  forall bodies, sections "}" ";" (no_breaks text) bodies ->
  forall k, k < Z.to_nat n -> exists b L R K,
    nth_error bodies k = Some b /\ body_parts b L R K /\
    dget k (p_rate st) = Some (filter (fun c => negb (is_space c)) K).
Proof.
  intros text n st H bodies Hb k Hk. apply extract_Ok in H as (_ & m & bodies' & Hs & Hl & Hr & ->).
  assert (E := sections_det _ _ _ _ _ Hs Hb). subst bodies'.
  destruct (Hr k Hk) as (b & r & ls & rs & H1 & H2 & H3 & _).
  destruct H3 as (L & R & K & pl & pr & Hp & _ & _ & _ & _ & HK).
  exists b, L, R, K. split; [exact H1|]. split; [exact Hp|].
  rewrite interp_rate_get, H2. cbn [option_map]. rewrite HK. reflexivity.
Qed.

(* On a written file this is the rate text of reaction k. *)
Theorem C04_written : forall m text, written m text ->
  exists st, extract_mechanism text = Ok (Z.of_nat (List.length m), st) /\
    forall k, dget k (p_rate st) = option_map rtext (nth_error m k).
Proof.
  intros m text H. exists (interp m). split; [apply written_extract, H|]. intros k. apply interp_rate_get.
Qed.

Example C04_example : exists st,
  extract_mechanism (s_ "{1.} A = B : 1.2D-12 * EXP( 490/TEMP ) ;") = Ok (1%Z, st) /\
  dget 0 (p_rate st) = Some (s_ "1.2D-12*EXP(490/TEMP)").
Proof. eexists. split; vm_compute; reflexivity. Qed.

(* ------------------------------------------------------------------ *)
(* C05 *)

Theorem C05_reactant_coefficients : forall m text, written m text ->
  exists st, extract_mechanism text = Ok (Z.of_nat (List.length m), st) /\
    forall k r, nth_error m k = Some r -> forall s, entry_ok (lhs r) s (dget2 s k (p_loss st)).
Proof.
  intros m text H. exists (interp m). split; [apply written_extract, H|].
  intros k r Hr s. assert (G := interp_loss m s k). rewrite Hr in G. exact G.
Qed.

(* The same for every accepted text, the terms being the coefficient/name
   pairs the parser splits the written words into. *)
Theorem C05_every_text : forall text n st, extract_mechanism text = Ok (n, st) ->
  exists m bodies, sections "}" ";" (no_breaks text) bodies /\ List.length m = Z.to_nat n /\
    forall k r, nth_error m k = Some r ->
      (exists b ls rs, nth_error bodies k = Some b /\ body_reads b ls rs (rtext r) /\
         lhs r = map split_coef ls /\ rhs r = map split_coef rs) /\
      forall s, entry_ok (lhs r) s (dget2 s k (p_loss st)).
Proof.
  intros text n st H. apply extract_Ok in H as (_ & m & bodies & Hs & Hl & Hb & ->).
  exists m, bodies. split; [exact Hs|]. split; [exact Hl|]. intros k r Hr. split.
  - assert (Hk : k < Z.to_nat n) by (rewrite <- Hl; apply nth_error_Some; congruence).
    destruct (Hb k Hk) as (b & r' & ls & rs & H1 & H2 & H3 & H4 & H5).
    rewrite Hr in H2. injection H2 as <-. exists b, ls, rs. auto.
  - intros s. assert (G := interp_loss m s k). rewrite Hr in G. exact G.
Qed.

Example C05_example : exists st, extract_mechanism ex_text = Ok (4%Z, st) /\
  dget2 (s_ "NO") 2 (p_loss st) = Some 2%Q /\ dget2 (s_ "HCHO") 1 (p_loss st) = Some 1%Q /\
  dget2 (s_ "NO") 1 (p_loss st) = None.
Proof. eexists. split; [vm_compute; reflexivity | repeat split; vm_compute; reflexivity]. Qed.

(* ------------------------------------------------------------------ *)
(* C06: false as stated. The membership test at Parse_eqn_file.py:276-280
   looks at the last reactant instead of the product. *)

(* A repeated product counts once. *)
Theorem C06_refuted : exists m text st k r s,
  written m text /\ extract_mechanism text = Ok (Z.of_nat (List.length m), st) /\
  nth_error m k = Some r /\ ~ entry_ok (rhs r) s (dget2 s k (p_gain st)).
Proof.
  exists dup_mech, dup_text, (interp dup_mech), 0, (bare (hd ([], [], []) dup_words)), (s_ "HO2").
  split; [exact dup_written|]. split; [apply written_extract, dup_written|].
  split; [reflexivity|]. rewrite interp_gain. cbn. intros [_ H]. vm_compute in H. discriminate.
Qed.

(* A product that occurs once is lost when the last reactant is a product
   written before it. *)
Theorem C06_refuted_dropped : exists m text st k r s,
  written m text /\ extract_mechanism text = Ok (Z.of_nat (List.length m), st) /\
  nth_error m k = Some r /\ In s (names (rhs r)) /\ NoDup (names (rhs r)) /\
  dget2 s k (p_gain st) = None.
Proof.
  exists drop_mech, drop_text, (interp drop_mech), 0, (bare (hd ([], [], []) drop_words)), (s_ "HCHO").
  split; [exact drop_written|]. split; [apply written_extract, drop_written|].
  split; [reflexivity|]. split; [right; right; left; reflexivity|].
  split; [|vm_compute; reflexivity].
  vm_compute. repeat constructor; cbn; intuition discriminate.
Qed.

(* Exactly when the table of an equation is right. *)
Theorem C06_partial : forall m text, written m text ->
  exists st, extract_mechanism text = Ok (Z.of_nat (List.length m), st) /\
    forall k r, nth_error m k = Some r ->
      (products_safe r -> forall s, entry_ok (rhs r) s (dget2 s k (p_gain st))) /\
      (Forall (fun t => 0 < fst t)%Q (rhs r) ->
       (forall s, entry_ok (rhs r) s (dget2 s k (p_gain st))) -> products_safe r).
Proof.
  intros m text H. exists (interp m). split; [apply written_extract, H|].
  intros k r Hr. split.
  - intros Hs s. rewrite interp_gain, Hr. apply gain_safe_ok, Hs.
  - intros Hp G. apply gain_ok_safe; [exact Hp|]. intros s. specialize (G s).
    rewrite interp_gain, Hr in G. exact G.
Qed.

Example C06_example : Forall products_safe ex_mech.
Proof.
  repeat (apply Forall_cons; [left; split; [vm_compute; intuition discriminate |
    vm_compute; repeat constructor; cbn; intuition discriminate] |]). constructor.
Qed.

(* ------------------------------------------------------------------ *)
(* C07 *)

(* Bare names, for every name; coefficients only before names without digits. *)
Theorem C07_partial : forall t w, term_word t w ->
  split_coef w = t.
Proof. exact term_word_split. Qed.

(* A coefficient before any name that contains a digit changes the name. *)
Theorem C07_refuted : forall num c nm,
  numeral num c -> word nm -> starts_name nm -> (exists d, In d nm /\ is_digit d = true) ->
  split_coef (num ++ nm) <> (c, nm).
Proof.
  intros num c nm Hn Hw Hs Hd. destruct (split_coef_digit_wrong num c nm Hn Hs Hd) as (nm' & E & Hne & _).
  rewrite E. intros H. injection H as H. contradiction.
Qed.

(* The effect on a file: 2 O3 are consumed as two molecules of "O33". *)
Theorem C07_refuted_file : exists st,
  extract_mechanism (s_ "{1.} 2O3 = O2 : K ;") = Ok (1%Z, st) /\
  dget 0 (p_reac st) = Some [(0, s_ "O33")] /\ dget (s_ "O3") (p_sp2a st) = None.
Proof. eexists. split; [vm_compute; reflexivity | split; vm_compute; reflexivity]. Qed.

Example C07_example : exists st, extract_mechanism coef_text = Ok (1%Z, st) /\
  dget2 (s_ "NO") 0 (p_loss st) = Some 2%Q /\ dget2 (s_ "CO") 0 (p_gain st) = Some (5 # 10)%Q.
Proof. eexists. split; [vm_compute; reflexivity | split; vm_compute; reflexivity]. Qed.

(* ------------------------------------------------------------------ *)
(* C08 *)

(* Any two layouts of the same mechanism parse to the same tables. *)
Theorem C08_layout_partial : forall m text1 text2, written m text1 -> written m text2 ->
  extract_mechanism text1 = extract_mechanism text2.
Proof.
  intros m t1 t2 H1 H2. rewrite (written_extract _ _ H1), (written_extract _ _ H2). reflexivity.
Qed.

(* Line breaks can be inserted and deleted anywhere, even inside words. *)
Theorem C08_line_breaks : forall text1 text2, no_breaks text1 = no_breaks text2 ->
  extract_mechanism text1 = extract_mechanism text2.
Proof.
  intros t1 t2 H. rewrite !extract_struct, !read_data_spec, H. reflexivity.
Qed.

(* Comments in braces, which KPP allows, are not comments for PyBox: a comment
   after the last equation is taken for the equation number. *)
Theorem C08_refuted : exists m text comment,
  written m text /\ free_of ["{"; "}"; ";"]%char comment /\
  extract_mechanism (text ++ "{"%char :: comment ++ ["}"%char]) <> extract_mechanism text.
Proof.
  exists ex_mech, ex_text, (s_ " end of file "). split; [exact ex_written|].
  split; [repeat constructor|]. vm_compute. discriminate.
Qed.

Example C08_example :
  written ex_mech ex_text /\ exists text2, written ex_mech text2 /\ text2 <> ex_text.
Proof.
  split; [exact ex_written|]. exists (s_ "// comment " ++ ex_text). split; [|vm_compute; discriminate].
  destruct ex_written as (i & s & E & Hi & Hr). exists (s_ "// comment " ++ i), s.
  rewrite E, app_assoc. split; [reflexivity|]. split; [|exact Hr].
  apply Forall_app; split; [repeat constructor | exact Hi].
Qed.

(* ------------------------------------------------------------------ *)
(* C09 *)

(* Every well formed mechanism can be written ... *)
Theorem C09_writable : forall m, m <> [] ->
  (forall r, In r m -> lhs r <> [] /\
     (forall t, In t (lhs r ++ rhs r) -> exists w, term_word t w) /\
     Forall (fun c => is_space c = false) (rtext r) /\ free_of [";"; "{"; "}"]%char (rtext r)) ->
  exists text, written m text.
Proof.
  intros m Hne H.
  assert (E : exists ws, Forall2 words_for m ws).
  { clear Hne. induction m as [|r m IH]; [exists []; constructor|].
    destruct IH as (ws & IH); [intros r' Hr'; apply H; right; exact Hr'|].
    destruct (H r (or_introl eq_refl)) as (Hl & Ht & Hk & Hf).
    assert (W : forall ts, (forall t, In t ts -> exists w, term_word t w) -> exists l, Forall2 term_word ts l).
    { induction ts as [|t ts IHt]; intros Hts; [exists []; constructor|].
      destruct (Hts t (or_introl eq_refl)) as (w & Hw).
      destruct IHt as (l & Hl'); [intros t' Ht'; apply Hts; right; exact Ht'|].
      exists (w :: l). constructor; assumption. }
    destruct (W (lhs r)) as (ls & Hls); [intros t Hti; apply Ht, in_app_iff; auto|].
    destruct (W (rhs r)) as (rs & Hrs); [intros t Hti; apply Ht, in_app_iff; auto|].
    exists ((ls, rs, rtext r) :: ws). constructor; [|exact IH]. cbn [words_for]. auto 10. }
  destruct E as (ws & Hw). exists (show ws). apply show_written; assumption.
Qed.

(* ... and reading the file gives back its species, rate texts, reactants and
   coefficients. *)
Theorem C09_roundtrip : forall m text, written m text -> Forall products_safe m ->
  exists st, extract_mechanism text = Ok (Z.of_nat (List.length m), st) /\
    dvals (p_sp st) = first_seen (reading_order m) /\
    dvals (p_rate st) = map rtext m /\
    forall k r, nth_error m k = Some r ->
      map snd (dget_or ([] : dict nat str) k (p_reac st)) = names (lhs r) /\
      (forall j s, In (j, s) (dget_or ([] : dict nat str) k (p_reac st)) -> 
                   option_map snd (nth_error (lhs r) j) = Some s) /\
      forall s, entry_ok (lhs r) s (dget2 s k (p_loss st)) /\ entry_ok (rhs r) s (dget2 s k (p_gain st)).
Proof.
  intros m text H Hs. exists (interp m). split; [apply written_extract, H|].
  destruct (interp_species m) as (H1 & _). split; [|split].
  - rewrite H1. unfold dvals. apply map_snd_combine. rewrite seq_length; reflexivity.
  - rewrite interp_rate. unfold dvals. apply map_snd_combine. rewrite seq_length, map_length; reflexivity.
  - intros k r Hr.
    assert (Hrow : dget_or ([] : dict nat str) k (p_reac (interp m)) = slots_from 0 (lhs r)).
    { unfold dget_or. rewrite interp_reac, Hr. unfold slots_entry. change (reactant_slots r) with (slots_from 0 (lhs r)).
      destruct (slots_from 0 (lhs r)); reflexivity. }
    rewrite Hrow. split; [apply map_snd_slots|]. split.
    + intros j s Hin. unfold slots_from in Hin. apply filter_In in Hin as [Hin _].
      assert (G : forall (ts : list term) st, In (j, s) (combine (seq st (List.length ts)) (map snd ts)) ->
                  st <= j /\ option_map snd (nth_error ts (j - st)) = Some s).
      { clear. intros ts. induction ts as [|[c n] ts IH]; intros st; cbn [List.length seq map combine snd]; [contradiction|].
        intros [E|Hin].
        - injection E as -> ->. rewrite Nat.sub_diag. split; [lia | reflexivity].
        - apply IH in Hin as [Hle Hn]. split; [lia|]. replace (j - st) with (S (j - S st)) by lia. exact Hn. }
      apply G in Hin as [_ Hn]. rewrite Nat.sub_0_r in Hn. exact Hn.
    + intros s. split.
      * assert (G := interp_loss m s k). rewrite Hr in G. exact G.
      * rewrite interp_gain, Hr. apply gain_safe_ok. apply (proj1 (Forall_forall _ _) Hs).
        exact (nth_error_In _ _ Hr).
Qed.

Example C09_example : written ex_mech ex_text /\ Forall products_safe ex_mech.
Proof. split; [exact ex_written | exact C06_example]. Qed.

Print Assumptions C01_species_numbering.
Print Assumptions C01_inverse.
Print Assumptions C01_order.
Print Assumptions C01_first_appearance.
Print Assumptions C02_registered_iff_written.
Print Assumptions C02_light_excluded.
Print Assumptions C03_accepts_iff.
Print Assumptions C03_count.
Print Assumptions C03_keys.
Print Assumptions C04_rate_text.
Print Assumptions C04_written.
Print Assumptions C05_reactant_coefficients.
Print Assumptions C05_every_text.
Print Assumptions C06_refuted.
Print Assumptions C06_refuted_dropped.
Print Assumptions C06_partial.
Print Assumptions C07_partial.
Print Assumptions C07_refuted.
Print Assumptions C08_layout_partial.
Print Assumptions C08_line_breaks.
Print Assumptions C08_refuted.
Print Assumptions C09_writable.
Print Assumptions C09_roundtrip.
