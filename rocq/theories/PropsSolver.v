(* C34-C38: initial state, batches, clock. *)
From Coq Require Import String List Bool Arith Lia ZArith Reals Lra.
From Flocq Require Import Core BinarySingleNaN Relative.
From Verif Require Import Base PyStr PyDict ModelParse SpecMech ParseStruct ParseTables ParseWritten ParseShow PropsParse GenParsed
  SpecKin ModelSolver SpecSolver SolverFacts OdeFacts.
Import ListNotations.
Import Coq.Lists.List.
Open Scope nat_scope.
Open Scope list_scope.

(* ------------------------------------------------------------------ *)
(* C34 *)
Lemma set_nth_len {A} i (a : A) l : List.length (set_nth i a l) = List.length l.
Proof. revert i; induction l as [|x l IH]; intros [|i]; cbn; auto. Qed.
Lemma set_nth_same {A} i (a : A) l : i < List.length l -> nth_error (set_nth i a l) i = Some a.
Proof. revert i; induction l as [|x l IH]; intros [|i] H; cbn in *; try lia; [reflexivity | apply IH; lia]. Qed.
Lemma set_nth_other {A} i j (a : A) l : i <> j -> nth_error (set_nth i a l) j = nth_error l j.
Proof. revert i j; induction l as [|x l IH]; intros [|i] [|j] H; cbn; auto; lia. Qed.

Lemma initial_fold m conc y : NoDup (dkeys conc) -> List.length y = List.length (species m) ->
  (forall s, In s (dkeys conc) -> In s (species m)) ->
  exists y', foldM (set_initial (p_sp2a (interp m))) conc y = Ok y' /\ List.length y' = List.length (species m) /\
    forall s i, dget s (p_sp2a (interp m)) = Some i ->
      nth_error y' i = match dget s conc with Some c => Some (c * Cfactor)%R | None => nth_error y i end.
Proof.
  revert y; induction conc as [|[s c] conc IH]; intros y Hnd Hy Hin.
  - exists y. cbn. auto.
  - cbn [dkeys map fst] in Hnd. inversion Hnd as [|? ? Hs Hnd']; subst.
    assert (Hsp : In s (species m)) by (apply Hin; left; reflexivity).
    apply In_nth_error in Hsp as [i Hi]. assert (Hd := proj2 (interp_sp2a m s i) Hi).
    assert (Hil : i < List.length y) by (rewrite Hy; apply nth_error_Some; congruence).
    assert (E0 : set_initial (p_sp2a (interp m)) y (s, c) = Ok (set_nth i (c * Cfactor)%R y)).
    { unfold set_initial. cbn [fst snd]. rewrite Hd, (proj2 (Nat.ltb_lt _ _) Hil). reflexivity. }
    cbn [foldM]. rewrite E0. cbn [bind].
    destruct (IH (set_nth i (c * Cfactor)%R y)) as (y' & H1 & H2 & H3); [exact Hnd' | rewrite set_nth_len; exact Hy | |].
    { intros x Hx. apply Hin. right; exact Hx. }
    exists y'. split; [exact H1|]. split; [exact H2|]. intros x j Hj. rewrite (H3 x j Hj). cbn [dget].
    destruct (eqb x s) eqn:E.
    + apply eqb_eq in E; subst x. rewrite Hd in Hj. injection Hj as <-.
      destruct (dget s conc) as [c'|] eqn:Ec.
      * exfalso. apply Hs. clear - Ec. induction conc as [|[k v] conc IHc]; [discriminate|]. cbn [dget] in Ec. cbn.
        destruct (eqb s k) eqn:Ek; [left; apply eqb_eq in Ek; auto | right; auto].
      * apply set_nth_same, Hil.
    + destruct (dget x conc); [reflexivity|]. apply set_nth_other. intros <-.
      apply interp_sp2a in Hj. rewrite Hi in Hj. injection Hj as <-. rewrite eqb_refl in E. discriminate.
Qed.

Lemma initial_missing sp2a conc y s : (forall i x, dget x sp2a = Some i -> i < List.length y) ->
  In s (dkeys conc) -> dget s sp2a = None -> foldM (set_initial sp2a) conc y = Err KeyError.
Proof.
  revert y; induction conc as [|[x c] conc IH]; intros y Hy Hs Hd; [contradiction|].
  cbn [foldM]. destruct (dget x sp2a) as [i|] eqn:E.
  2:{ unfold set_initial at 1. cbn [fst snd]. rewrite E. reflexivity. }
  assert (E0 : set_initial sp2a y (x, c) = Ok (set_nth i (c * Cfactor)%R y)).
  { unfold set_initial. cbn [fst snd]. rewrite E, (proj2 (Nat.ltb_lt _ _) (Hy i x E)). reflexivity. }
  rewrite E0. cbn [bind]. apply IH.
  - intros j z Hz. rewrite set_nth_len. apply (Hy j z Hz).
  - destruct Hs as [Hs|Hs]; [cbn in Hs; congruence | exact Hs].
  - exact Hd.
Qed.

(* One entry per species: the given mixing ratio times 2.55e10, or 0; a name
   that is not a species of the mechanism raises KeyError. *)
Theorem C34_initial_state : forall text n st conc, extract_mechanism text = Ok (n, st) -> NoDup (dkeys conc) ->
  let N := List.length (p_sp st) in
  ((forall s, In s (dkeys conc) -> exists i, dget s (p_sp2a st) = Some i) ->
     exists y0, initial_state N (p_sp2a st) conc = Ok y0 /\ List.length y0 = N /\
       forall s i, dget s (p_sp2a st) = Some i ->
         nth_error y0 i = Some (match dget s conc with Some c => c * 25500000000 | None => 0 end)%R) /\
  (forall s, In s (dkeys conc) -> dget s (p_sp2a st) = None ->
     initial_state N (p_sp2a st) conc = Err KeyError).
Proof.
  intros text n st conc H Hnd. apply extract_Ok in H as (_ & m & _ & _ & _ & _ & ->).
  assert (LN : List.length (p_sp (interp m)) = List.length (species m)).
  { destruct (interp_species m) as (-> & _). rewrite combine_length, seq_length. lia. }
  cbv zeta. rewrite LN. unfold initial_state. split.
  - intros Hin. destruct (initial_fold m conc (repeat 0%R (List.length (species m))) Hnd (repeat_length _ _)) as (y0 & H1 & H2 & H3).
    { intros s Hs. destruct (Hin s Hs) as [i Hi]. apply interp_sp2a in Hi. exact (nth_error_In _ _ Hi). }
    exists y0. split; [exact H1|]. split; [exact H2|]. intros s i Hi. rewrite (H3 s i Hi).
    destruct (dget s conc); [reflexivity|]. apply interp_sp2a in Hi.
    assert (L : i < List.length (species m)) by (apply nth_error_Some; congruence).
    rewrite (nth_error_nth' _ 0%R) by (rewrite repeat_length; exact L). rewrite nth_repeat. reflexivity.
  - intros s Hs Hd. apply initial_missing with (s := s); auto. intros i x Hx. rewrite repeat_length.
    apply interp_sp2a in Hx. apply nth_error_Some. congruence.
Qed.

(* ... before the solver is called, whatever the solver. *)
Theorem C34_unknown_species : forall text n st conc s simulate rhs jac start sim b,
  extract_mechanism text = Ok (n, st) -> NoDup (dkeys conc) -> In s (dkeys conc) -> dget s (p_sp2a st) = None ->
  run_simulation simulate rhs jac start (p_sp st) (p_sp2a st) conc sim b = Err KeyError.
Proof.
  intros text n st conc s simulate rhs jac start sim b H Hnd Hs Hd. unfold run_simulation.
  rewrite (proj2 (C34_initial_state text n st conc H Hnd) s Hs Hd). reflexivity.
Qed.

Example C34_example : exists st y0, extract_mechanism ex_text = Ok (Z.of_nat (List.length ex_mech), st) /\
  initial_state (List.length (p_sp st)) (p_sp2a st) [(s_ "NO", 2%R)] = Ok y0 /\
  exists i, dget (s_ "NO") (p_sp2a st) = Some i /\ nth_error y0 i = Some (2 * 25500000000)%R.
Proof.
  exists (interp ex_mech). destruct (C34_initial_state ex_text (Z.of_nat (List.length ex_mech)) (interp ex_mech) [(s_ "NO", 2%R)]) as [A _].
  - apply written_extract, ex_written.
  - repeat constructor. intros [].
  - destruct A as (y0 & H1 & _ & H3).
    + intros s [<-|[]]. eexists. vm_compute. reflexivity.
    + exists y0. split; [apply written_extract, ex_written|]. split; [exact H1|].
      eexists. split; [vm_compute; reflexivity|]. rewrite (H3 (s_ "NO")); [reflexivity|]. vm_compute; reflexivity.
Qed.

(* ------------------------------------------------------------------ *)
(* C35 *)
Section Batches.
Context {S : Type} (simulate : solver S) (rhs_at : b64 -> S -> res S) (jac_at : b64 -> S -> res (nat * nat -> R)) (start : b64).

Lemma quotient_exact sim b z n e : is_num sim (Z.of_nat n * z) e -> is_num b z e -> (0 < z)%Z ->
  (Z.of_nat n * z < 2 ^ 53)%Z -> py_div sim b = Ok (fdiv sim b) /\ py_trunc (fdiv sim b) = Ok (Z.of_nat n).
Proof.
  intros [Fs Vs] [Fb Vb] Hz Hn. assert (P := bpow_gt_0 radix2 e).
  assert (Zb : B2R b <> 0%R).
  { rewrite Vb. intros E. apply Rmult_integral in E as [E|E]; [apply eq_IZR in E; lia | lra]. }
  split; [unfold py_div; rewrite (B2R_fzero_ne b Fb Zb); reflexivity|].
  assert (Q : (B2R sim / B2R b)%R = (IZR (Z.of_nat n) * bpow radix2 0)%R).
  { rewrite Vs, Vb, mult_IZR. cbn [bpow]. field. split; [lra|]. intros E. apply eq_IZR in E. lia. }
  assert (Rn : round radix2 (SpecFloat.fexp prec64 emax64) ZnearestE (B2R sim / B2R b) = IZR (Z.of_nat n)).
  { rewrite Q. rewrite round_generic; [cbn [bpow]; ring | auto with typeclass_instances|]. apply format_num; [|lia].
    rewrite Z.abs_eq by lia. nia. }
  destruct (div_finite sim b Fs Zb) as [D1 D2].
  { rewrite Rn. apply small_int_bound. rewrite Z.abs_eq by lia. nia. }
  apply trunc_value; [exact D1|]. rewrite D2, Rn. apply Ztrunc_IZR.
Qed.

(* simulation_time = n * batch_step with batch_step = z * 2^e: the run makes n
   solver calls, each from the end of the previous one; row k and time k belong
   to the end of call k+1; the k-th time is exactly (k+1) * batch_step. *)
Theorem C35_partial : forall sim b z e n zero_row y0,
  is_num sim (Z.of_nat n * z) e -> is_num b z e -> (0 < z)%Z -> (-1074 <= e)%Z -> (Z.of_nat n * z < 2 ^ 53)%Z ->
  exists ts,
    run_batches simulate rhs_at jac_at start sim b zero_row y0 =
      (do ys <- states (fun _ y => simulate (Problem (fun t => rhs_at (fadd start t)) (fun t => jac_at (fadd start t)) y fzero) b) 0 n y0;
       Ok (ts, ys)) /\
    List.length ts = n /\
    forall j t, nth_error ts j = Some t -> is_num t (Z.of_nat (j + 1) * z) e.
Proof.
  intros sim b z e n zr y0 Hs Hb Hz He Hn. destruct (quotient_exact sim b z n e Hs Hb Hz Hn) as [Q1 Q2].
  destruct (loop_exact simulate rhs_at jac_at start sim b z n e zr Hs Hb Hz He Hn n 0 fzero y0 None) as (ts & H1 & H2 & H3);
    [lia | apply fzero_num | lia|].
  exists ts. split; [|split; [exact H2|]].
  - unfold run_batches. rewrite Q1. cbn [bind]. rewrite Q2. cbn [bind].
    assert (N : (Z.of_nat n <? 0)%Z = false) by (apply Z.ltb_ge; lia). rewrite N, Nat2Z.id.
    rewrite (H1 n y0 (le_n n) (fun _ => eq_refl)). rewrite Nat.sub_diag. change (repeat zr 0) with (@nil S).
    change (fun _ : nat => batch simulate rhs_at jac_at start b) with
      (fun (_ : nat) y => simulate (Problem (fun t => rhs_at (fadd start t)) (fun t => jac_at (fadd start t)) y fzero) b).
    destruct (states _ 0 n y0) as [ys|]; cbn [bind]; [rewrite app_nil_r|]; reflexivity.
  - intros j t Hj. replace (j + 1) with (Datatypes.S (0 + j)) by lia. apply H3, Hj.
Qed.
End Batches.

Lemma states_length {S} (step : nat -> S -> res S) n : forall k y l, states step k n y = Ok l -> List.length l = n.
Proof.
  induction n as [|n IH]; intros k y l H; cbn [states] in H; [injection H as <-; reflexivity|].
  destruct (step k y) as [y1|]; [|discriminate]. cbn [bind] in H.
  destruct (states step (Datatypes.S k) n y1) as [l'|] eqn:E; [|discriminate]. injection H as <-. cbn. rewrite (IH _ _ _ E). reflexivity.
Qed.

(* Concrete floating point numbers m * 2^e. *)
Definition fl (m : positive) (e : Z) (H : SpecFloat.bounded prec64 emax64 m e = true) : b64 := B754_finite false m e H.

(* 7200.0 and 100.0, the values in Gas_simulation.py. *)
Definition f7200 : b64 := fl 7916483719987200 (-40) eq_refl.
Definition f100 : b64 := fl 7036874417766400 (-46) eq_refl.
(* 0.1, 0.8 and 1.0 *)
Definition f01 : b64 := fl 7205759403792794 (-56) eq_refl.
Definition f08 : b64 := fl 7205759403792794 (-53) eq_refl.
Definition f1 : b64 := fl 4503599627370496 (-52) eq_refl.

Lemma is_num_fl m e H z e' : (IZR (Zpos m) * bpow radix2 e)%R = (IZR z * bpow radix2 e')%R -> is_num (fl m e H) z e'.
Proof. intros E. split; [reflexivity|]. rewrite <- E. reflexivity. Qed.

Example C35_hypotheses : is_num f7200 (Z.of_nat 72 * 100) 0 /\ is_num f100 100 0.
Proof.
  split; apply is_num_fl; cbn [bpow]; rewrite Rmult_1_r.
  - change (bpow radix2 (-40)) with (/ IZR (2 ^ 40))%R. apply Rmult_eq_reg_r with (IZR (2 ^ 40)); [|apply not_0_IZR; discriminate].
    rewrite Rmult_assoc, Rinv_l by (apply not_0_IZR; discriminate). rewrite Rmult_1_r, <- mult_IZR. apply f_equal. vm_compute. reflexivity.
  - change (bpow radix2 (-46)) with (/ IZR (2 ^ 46))%R. apply Rmult_eq_reg_r with (IZR (2 ^ 46)); [|apply not_0_IZR; discriminate].
    rewrite Rmult_assoc, Rinv_l by (apply not_0_IZR; discriminate). rewrite Rmult_1_r, <- mult_IZR. apply f_equal. vm_compute. reflexivity.
Qed.

(* Without the bound on n*z the sums are rounded: with batch_step = 0.1 and
   simulation_time = 0.8, which is exactly 8 times as much, the run makes nine
   calls and ends in IndexError, whatever the solver. *)
Theorem C35_refuted : B2R f08 = (8 * B2R f01)%R /\
  forall S (simulate : solver S) rhs_at jac_at start zero_row y0, never_fails simulate ->
    run_batches simulate rhs_at jac_at start f08 f01 zero_row y0 = Err IndexError.
Proof.
  split.
  - cbn [B2R f08 f01 fl cond_Zopp]. unfold F2R. cbn [Fnum Fexp].
    replace (bpow radix2 (-53)) with (8 * bpow radix2 (-56))%R; [ring|].
    change 8%R with (bpow radix2 3). rewrite <- bpow_plus. reflexivity.
  - intros S simulate rhs_at jac_at start zr y0 Hf. unfold run_batches.
    assert (Z1 : Beqb f01 fzero = false) by (vm_compute; reflexivity). unfold py_div. rewrite Z1. cbn [bind].
    replace (py_trunc (fdiv f08 f01)) with (Ok 8%Z : res Z) by (vm_compute; reflexivity). cbn [bind Z.ltb Z.compare Z.to_nat].
    change fzero with (accumulated f01 0).
    destruct (loop_general simulate rhs_at jac_at start f08 f01 zr Hf (Pos.to_nat 8) 0 y0 None (or_introl eq_refl)) as (H1 & _ & H3).
    destruct (loop simulate rhs_at jac_at start f08 f01 zr (Pos.to_nat 8) (accumulated f01 0) y0 None) as [r|ex] eqn:E.
    + exfalso. destruct (proj2 H1 (ex_intro _ r eq_refl)) as (j & Hj & _ & Hl).
      assert (A : forall j, j <= 8 -> Bltb (accumulated f01 (0 + j)) f08 = true).
      { clear. intros j Hj. do 9 (destruct j as [|j]; [vm_compute; reflexivity|]). lia. }
      rewrite A in Hl by (change (Pos.to_nat 8) with 8 in Hj; exact Hj). discriminate.
    + f_equal. apply H3. reflexivity.
Qed.

(* ------------------------------------------------------------------ *)
(* C36 *)
(* For a solver that never gives up and every pair of numbers: the run ends
   normally exactly when simulation_time/batch_step makes sense and the sum of
   that many batch steps, added one by one, reaches simulation_time; otherwise
   it raises, and in the loop it can only raise IndexError. *)
Theorem C36_exactly_when : forall S (simulate : solver S) rhs_at jac_at start sim b zero_row y0, never_fails simulate ->
  ((exists r, run_batches simulate rhs_at jac_at start sim b zero_row y0 = Ok r) <->
   Beqb b fzero = false /\ exists n, py_trunc (fdiv sim b) = Ok n /\ (0 <= n)%Z /\
     exists j, j <= Z.to_nat n /\ (forall i, i < j -> Bltb (accumulated b i) sim = true) /\ Bltb (accumulated b j) sim = false) /\
  (forall r, run_batches simulate rhs_at jac_at start sim b zero_row y0 = Ok r ->
     fst r = map (fun j => accumulated b (j + 1)) (seq 0 (List.length (fst r))) /\
     Bltb (accumulated b (List.length (fst r))) sim = false) /\
  (forall n, Beqb b fzero = false -> py_trunc (fdiv sim b) = Ok n -> (0 <= n)%Z ->
     forall e, run_batches simulate rhs_at jac_at start sim b zero_row y0 = Err e -> e = IndexError).
Proof.
  intros S simulate rhs_at jac_at start sim b zr y0 Hf. unfold run_batches, py_div.
  destruct (Beqb b fzero) eqn:Eb; cbn [bind].
  { split; [|split]; [split; [intros [r Hr]; discriminate | intros [H _]; discriminate] | discriminate | discriminate]. }
  destruct (py_trunc (fdiv sim b)) as [n|e] eqn:Et; cbn [bind].
  2:{ split; [|split]; [split; [intros [r Hr]; discriminate | intros (_ & n & H & _); discriminate] | discriminate | discriminate]. }
  destruct (Z.ltb_spec n 0) as [Hn|Hn].
  { split; [|split]; [split; [intros [r Hr]; discriminate | intros (_ & n' & H & H0 & _); injection H as <-; lia] | discriminate |].
    intros n' _ H H0. injection H as <-. lia. }
  change fzero with (accumulated b 0).
  destruct (loop_general simulate rhs_at jac_at start sim b zr Hf (Z.to_nat n) 0 y0 None (or_introl eq_refl)) as (H1 & H2 & H3).
  split; [|split].
  - split.
    + intros H. destruct (proj2 H1 H) as (j & Hj & Hi & Hl). split; [reflexivity|]. exists n. split; [reflexivity|]. split; [exact Hn|]. exists j. auto.
    + intros (_ & n' & H & _ & j & Hj & Hi & Hl). injection H as <-. apply (proj1 H1). exists j. auto.
  - intros r Hr. destruct (H2 r Hr) as (G1 & _ & G3). split; [|exact G3]. rewrite G1 at 1. apply map_ext. intros j.
    replace (j + 1) with (Datatypes.S (0 + j)) by lia. reflexivity.
  - intros n' _ _ _ e He. apply H3, He.
Qed.

Lemma accumulated_num b z k : is_num b z 0 -> (0 < z)%Z -> (Z.of_nat k * z < 2 ^ 53)%Z ->
  is_num (accumulated b k) (Z.of_nat k * z) 0.
Proof.
  intros Hb Hz. induction k as [|k IH]; intros Hk; [apply fzero_num|]. cbn [accumulated].
  replace (Z.of_nat (S k) * z)%Z with (Z.of_nat k * z + z)%Z by lia. apply fadd_exact; [apply IH; lia | exact Hb | | lia|].
  - rewrite Z.abs_eq; lia.
  - cbn [bpow]. rewrite Rmult_1_r. apply small_int_bound. rewrite Z.abs_eq; lia.
Qed.

(* The rounded quotient of integers is truncated to the integer quotient. *)
Lemma quotient_integers sim b s z : is_num sim s 0 -> is_num b z 0 -> (0 < z < 2 ^ 52)%Z -> (0 < s < 2 ^ 52)%Z ->
  py_trunc (fdiv sim b) = Ok (s / z)%Z.
Proof.
  intros [Fs Vs] [Fb Vb] Hz Hs. cbn [bpow] in Vs, Vb. rewrite Rmult_1_r in Vs, Vb.
  assert (Zb : B2R b <> 0%R) by (rewrite Vb; apply not_0_IZR; lia).
  assert (Pz : (0 < IZR z)%R) by (apply IZR_lt; lia). assert (Ps : (0 < IZR s)%R) by (apply IZR_lt; lia).
  set (q := (s / z)%Z). assert (Hq : (z * q <= s < z * q + z)%Z).
  { unfold q. assert (D := Z.div_mod s z). assert (M := Z.mod_pos_bound s z). lia. }
  assert (Hq0 : (0 <= q < 2 ^ 52)%Z) by nia.
  set (x := (B2R sim / B2R b)%R). assert (Hx : (IZR q <= x < IZR (q + 1))%R).
  { unfold x. rewrite Vs, Vb. split.
    - apply Rmult_le_reg_r with (IZR z); [exact Pz|]. unfold Rdiv. rewrite Rmult_assoc, Rinv_l, Rmult_1_r by lra.
      rewrite <- mult_IZR. apply IZR_le. lia.
    - apply Rmult_lt_reg_r with (IZR z); [exact Pz|]. unfold Rdiv. rewrite Rmult_assoc, Rinv_l, Rmult_1_r by lra.
      rewrite <- mult_IZR. apply IZR_lt. lia. }
  assert (FM : forall k, (0 <= k < 2 ^ 53)%Z -> generic_format radix2 (SpecFloat.fexp prec64 emax64) (IZR k)).
  { intros k Hk. replace (IZR k) with (IZR k * bpow radix2 0)%R by (cbn [bpow]; ring). apply format_num; [|lia]. rewrite Z.abs_eq; lia. }
  set (r := round radix2 (SpecFloat.fexp prec64 emax64) ZnearestE x).
  assert (VF : Valid_exp (SpecFloat.fexp prec64 emax64)) by (change (Valid_exp (FLT_exp (-1074) 53)); auto with typeclass_instances).
  assert (R1 : (IZR q <= r)%R) by (apply round_ge_generic; auto with typeclass_instances; [apply FM; lia | lra]).
  assert (R2 : (r <= IZR (q + 1))%R) by (apply round_le_generic; auto with typeclass_instances; [apply FM; lia | lra]).
  assert (R3 : r <> IZR (q + 1)).
  { intros E.
    assert (X0 : (bpow radix2 (-52) <= x)%R).
    { unfold x. rewrite Vs, Vb. apply Rmult_le_reg_r with (IZR z); [exact Pz|]. unfold Rdiv. rewrite Rmult_assoc, Rinv_l, Rmult_1_r by lra.
      apply Rle_trans with 1%R; [|apply IZR_le; lia].
      change (bpow radix2 (-52)) with (/ IZR (2 ^ 52))%R.
      apply Rmult_le_reg_l with (IZR (2 ^ 52)); [apply IZR_lt; lia|].
      rewrite <- Rmult_assoc, Rinv_r, Rmult_1_l, Rmult_1_r by (apply not_0_IZR; discriminate). apply IZR_le. lia. }
    assert (Err := relative_error_N_FLT radix2 (-1074) 53 eq_refl (fun x => negb (Z.even x)) x).
    assert (X1 : (0 < bpow radix2 (-52))%R) by apply bpow_gt_0.
    rewrite Rabs_pos_eq in Err at 1 by lra.
    assert (Err' : (Rabs (r - x) <= / 2 * bpow radix2 (-53 + 1) * x)%R).
    { rewrite <- (Rabs_pos_eq x) at 2 by lra. apply Err. apply Rle_trans with (2 := X0). apply bpow_le. lia. }
    clear Err. rewrite E, Rabs_pos_eq in Err' by lra.
    assert (G : (1 <= IZR s * / 2 * bpow radix2 (-53 + 1))%R).
    { apply Rle_trans with ((IZR (q + 1) - x) * IZR z)%R.
      - unfold x. rewrite Vs, Vb. unfold Rdiv. rewrite Rmult_minus_distr_r, Rmult_assoc, Rinv_l, Rmult_1_r by lra.
        rewrite <- mult_IZR, <- minus_IZR. apply IZR_le. lia.
      - apply Rle_trans with ((/ 2 * bpow radix2 (-53 + 1) * x) * IZR z)%R; [apply Rmult_le_compat_r; lra|].
        apply Req_le. unfold x. rewrite Vs, Vb. field. lra. }
    change (bpow radix2 (-53 + 1)) with (/ IZR (2 ^ 52))%R in G.
    assert (G2 : (IZR s < IZR (2 ^ 52))%R) by (apply IZR_lt; lia).
    assert (P52 : (0 < IZR (2 ^ 52))%R) by (apply IZR_lt; lia).
    assert (G3 : (IZR s * / IZR (2 ^ 52) < 1)%R).
    { apply Rmult_lt_reg_r with (IZR (2 ^ 52)); [exact P52|]. rewrite Rmult_assoc, Rinv_l, Rmult_1_r, Rmult_1_l by lra. exact G2. }
    lra. }
  assert (R4 : (IZR q <= r < IZR q + 1)%R).
  { split; [exact R1|]. rewrite <- plus_IZR. lra. }
  destruct (div_finite sim b Fs Zb) as [D1 D2].
  { fold x r. rewrite Rabs_pos_eq; [|apply Rle_trans with (2 := R1); apply IZR_le; lia].
    apply Rle_lt_trans with (1 := R2). rewrite <- (Rabs_pos_eq (IZR (q + 1))) by (apply IZR_le; lia). apply small_int_bound.
    rewrite Z.abs_eq; lia. }
  apply trunc_value; [exact D1|]. rewrite D2. fold x r. rewrite Ztrunc_floor by (apply Rle_trans with (2 := R1); apply IZR_le; lia).
  apply Zfloor_imp. rewrite plus_IZR. exact R4.
Qed.

(* Whole numbers of seconds: the run ends normally exactly when batch_step
   divides simulation_time. *)
Theorem C36_partial : forall S (simulate : solver S) rhs_at jac_at start sim b s z zero_row y0, never_fails simulate ->
  is_num sim s 0 -> is_num b z 0 -> (0 < s < 2 ^ 52)%Z -> (0 < z < 2 ^ 52)%Z ->
  ((exists r, run_batches simulate rhs_at jac_at start sim b zero_row y0 = Ok r) <-> (z | s)%Z) /\
  (~ (z | s)%Z -> run_batches simulate rhs_at jac_at start sim b zero_row y0 = Err IndexError).
Proof.
  intros S simulate rhs_at jac_at start sim b s z zr y0 Hf Ns Nb Hs Hz.
  destruct (C36_exactly_when S simulate rhs_at jac_at start sim b zr y0 Hf) as (H1 & _ & H3).
  assert (Q := quotient_integers sim b s z Ns Nb Hz Hs).
  assert (B0 : Beqb b fzero = false) by (rewrite (beqb_num _ _ _ Nb); apply Z.eqb_neq; lia).
  assert (DM := Z.div_mod s z). assert (MB := Z.mod_pos_bound s z).
  assert (P0 : (0 <= s / z)%Z) by (apply Z.div_pos; lia).
  assert (A : forall j, j <= Z.to_nat (s / z) -> Bltb (accumulated b j) sim = (Z.of_nat j * z <? s)%Z).
  { intros j Hj. apply bltb_num with (e := 0%Z); [|exact Ns]. apply accumulated_num; [exact Nb | lia|].
    assert (Z.of_nat j <= s / z)%Z by lia. nia. }
  assert (E : (exists r, run_batches simulate rhs_at jac_at start sim b zr y0 = Ok r) <-> (z | s)%Z).
  { rewrite H1. split.
    - intros (_ & n & Hn & _ & j & Hj & _ & Hl). rewrite Q in Hn. injection Hn as <-.
      rewrite (A j Hj) in Hl. apply Z.ltb_ge in Hl. exists (s / z)%Z. assert (Z.of_nat j <= s / z)%Z by lia. nia.
    - intros [k Hk]. split; [exact B0|]. exists (s / z)%Z. split; [exact Q|]. split; [exact P0|].
      exists (Z.to_nat (s / z)). split; [lia|].
      assert (Ek : (s / z = k)%Z) by (rewrite Hk; apply Z.div_mul; lia). split.
      + intros i Hi. rewrite A by lia. apply Z.ltb_lt. nia.
      + rewrite A by lia. apply Z.ltb_ge. rewrite Z2Nat.id by lia. nia. }
  split; [exact E|]. intros Hnd.
  destruct (run_batches simulate rhs_at jac_at start sim b zr y0) as [r|e] eqn:Er.
  - exfalso. apply Hnd, E. eauto.
  - f_equal. apply (H3 (s / z)%Z B0 Q P0). reflexivity.
Qed.

(* 1.0 s in batches of 0.1 s, and 1000 s in batches of 300 s, raise IndexError. *)
Definition f1000 : b64 := fl 8796093022208000 (-43) eq_refl.
Definition f300 : b64 := fl 5277655813324800 (-44) eq_refl.
Theorem C36_refuted : forall S (simulate : solver S) rhs_at jac_at start zero_row y0, never_fails simulate ->
  run_batches simulate rhs_at jac_at start f1 f01 zero_row y0 = Err IndexError /\
  run_batches simulate rhs_at jac_at start f1000 f300 zero_row y0 = Err IndexError.
Proof.
  intros S simulate rhs_at jac_at start zr y0 Hf. split.
  - destruct (C36_exactly_when S simulate rhs_at jac_at start f1 f01 zr y0 Hf) as (H1 & _ & H3).
    assert (B0 : Beqb f01 fzero = false) by (vm_compute; reflexivity).
    assert (Q : py_trunc (fdiv f1 f01) = Ok 10%Z) by (vm_compute; reflexivity).
    destruct (run_batches simulate rhs_at jac_at start f1 f01 zr y0) as [r|e] eqn:Er.
    + exfalso. destruct (proj1 H1 (ex_intro _ r eq_refl)) as (_ & n & Hn & _ & j & Hj & _ & Hl). rewrite Q in Hn. injection Hn as <-.
      assert (A : forall j, j <= 10 -> Bltb (accumulated f01 j) f1 = true).
      { clear. intros j Hj. do 11 (destruct j as [|j]; [vm_compute; reflexivity|]). lia. }
      rewrite A in Hl by exact Hj. discriminate.
    + f_equal. apply (H3 10%Z B0 Q); [lia | reflexivity].
  - destruct (C36_exactly_when S simulate rhs_at jac_at start f1000 f300 zr y0 Hf) as (H1 & _ & H3).
    assert (B0 : Beqb f300 fzero = false) by (vm_compute; reflexivity).
    assert (Q : py_trunc (fdiv f1000 f300) = Ok 3%Z) by (vm_compute; reflexivity).
    destruct (run_batches simulate rhs_at jac_at start f1000 f300 zr y0) as [r|e] eqn:Er.
    + exfalso. destruct (proj1 H1 (ex_intro _ r eq_refl)) as (_ & n & Hn & _ & j & Hj & _ & Hl). rewrite Q in Hn. injection Hn as <-.
      assert (A : forall j, j <= 3 -> Bltb (accumulated f300 j) f1000 = true).
      { clear. intros j Hj. do 4 (destruct j as [|j]; [vm_compute; reflexivity|]). lia. }
      rewrite A in Hl by exact Hj. discriminate.
    + f_equal. apply (H3 3%Z B0 Q); [lia | reflexivity].
Qed.

(* ------------------------------------------------------------------ *)
(* C35: the times are strictly increasing and end at simulation_time. *)
Theorem C35_times_partial : forall S (simulate : solver S) rhs_at jac_at start sim b z e n zero_row y0 ts ys,
  is_num sim (Z.of_nat n * z) e -> is_num b z e -> (0 < z)%Z -> (-1074 <= e)%Z -> (Z.of_nat n * z < 2 ^ 53)%Z ->
  run_batches simulate rhs_at jac_at start sim b zero_row y0 = Ok (ts, ys) ->
  List.length ts = n /\ List.length ys = n /\
  (forall i j ti tj, i < j -> nth_error ts i = Some ti -> nth_error ts j = Some tj -> Bltb ti tj = true) /\
  (forall t, nth_error ts (n - 1) = Some t -> B2R t = B2R sim).
Proof.
  intros S simulate rhs_at jac_at start sim b z e n zr y0 ts ys Hs Hb Hz He Hn Hr.
  destruct (C35_partial simulate rhs_at jac_at start sim b z e n zr y0 Hs Hb Hz He Hn) as (ts' & H1 & H2 & H3).
  rewrite Hr in H1. destruct (states _ 0 n y0) as [l|] eqn:E; [|discriminate]. cbn [bind] in H1. injection H1 as -> ->.
  split; [exact H2|]. split; [apply (states_length _ _ _ _ _ E)|]. split.
  - intros i j ti tj Hij Hi Hj. rewrite (bltb_num _ _ _ _ _ (H3 i ti Hi) (H3 j tj Hj)). apply Z.ltb_lt. nia.
  - intros t Ht. assert (L : n - 1 < List.length ts') by (apply nth_error_Some; congruence).
    destruct (H3 _ _ Ht) as [_ ->]. destruct Hs as [_ ->]. rewrite H2 in L. replace (n - 1 + 1) with n by lia. reflexivity.
Qed.

(* The whole run: the first batch starts from the given concentrations times
   2.55e10 and zero elsewhere, every later one from the row stored before it. *)
Theorem C34_run_partial : forall text n0 st conc simulate rhs_at jac_at start sim b z e n,
  extract_mechanism text = Ok (n0, st) -> NoDup (dkeys conc) ->
  (forall s, In s (dkeys conc) -> exists i, dget s (p_sp2a st) = Some i) ->
  is_num sim (Z.of_nat n * z) e -> is_num b z e -> (0 < z)%Z -> (-1074 <= e)%Z -> (Z.of_nat n * z < 2 ^ 53)%Z ->
  exists y0 ts, List.length y0 = List.length (p_sp st) /\
    (forall s i, dget s (p_sp2a st) = Some i ->
       nth_error y0 i = Some (match dget s conc with Some c => c * 25500000000 | None => 0 end)%R) /\
    run_simulation simulate rhs_at jac_at start (p_sp st) (p_sp2a st) conc sim b =
      (do ys <- states (fun _ y => simulate (Problem (fun t => rhs_at (fadd start t)) (fun t => jac_at (fadd start t)) y fzero) b) 0 n y0;
       Ok (ts, ys)).
Proof.
  intros text n0 st conc simulate rhs_at jac_at start sim b z e n H Hnd Hin Hs Hb Hz He Hn.
  destruct (proj1 (C34_initial_state text n0 st conc H Hnd) Hin) as (y0 & H1 & H2 & H3).
  destruct (C35_partial simulate rhs_at jac_at start sim b z e n (repeat 0%R (List.length y0)) y0 Hs Hb Hz He Hn) as (ts & H4 & _).
  exists y0, ts. split; [exact H2|]. split; [exact H3|]. unfold run_simulation. rewrite H1. cbn [bind]. exact H4.
Qed.

(* ------------------------------------------------------------------ *)
(* C37 *)
(* The right-hand side and the Jacobian at clock time start + elapsed + t. *)
Definition clocked {S} (rhs_at : b64 -> S -> res S) (jac_at : b64 -> S -> res (nat * nat -> R)) (start b : b64) (k : nat) (y : S)
  : problem S :=
  Problem (fun t => rhs_at (fadd (fadd start (accumulated b k)) t)) (fun t => jac_at (fadd (fadd start (accumulated b k)) t)) y fzero.

Lemma fadd_zero x : x <> B754_zero true -> fadd x fzero = x.
Proof. intros H. destruct x as [[|]|[|]| |s m e B]; try reflexivity. contradiction. Qed.

Lemma states_ext {S} (f g : nat -> S -> res S) n : forall k y, (forall j x, k <= j < k + n -> f j x = g j x) -> states f k n y = states g k n y.
Proof.
  induction n as [|n IH]; intros k y H; [reflexivity|]. cbn [states]. rewrite (H k y) by lia.
  destruct (g k y); [|reflexivity]. cbn [bind]. rewrite (IH (Datatypes.S k)); [reflexivity|]. intros j x Hj. apply H. lia.
Qed.

Lemma states_total {S} (f : nat -> S -> res S) n : (forall j x, exists y, f j x = Ok y) -> forall k y, exists l, states f k n y = Ok l.
Proof.
  intros H. induction n as [|n IH]; intros k y; [eexists; reflexivity|]. cbn [states]. destruct (H k y) as [y1 ->]. cbn [bind].
  destruct (IH (Datatypes.S k) y1) as [l ->]. eexists; reflexivity.
Qed.

(* Batch k is integrated with the clock at start_time + k batch steps, for
   every solver and every right-hand side, exactly when there is at most one
   batch. *)
Theorem C37_exactly_when : forall sim b z e n start s zero_row y0,
  is_num sim (Z.of_nat n * z) e -> is_num b z e -> (0 < z)%Z -> (-1074 <= e)%Z ->
  is_num start s e -> start <> B754_zero true -> (0 <= s)%Z -> (s + Z.of_nat n * z < 2 ^ 53)%Z ->
  (IZR (s + Z.of_nat n * z) * bpow radix2 e < bpow radix2 1024)%R ->
  ((forall simulate rhs_at jac_at,
      exists ts, run_batches simulate rhs_at jac_at start sim b zero_row y0 =
        (do ys <- states (fun k (y : list R) => simulate (clocked rhs_at jac_at start b k y) b) 0 n y0; Ok (ts, ys)))
   <-> n <= 1).
Proof.
  intros sim b z e n start s zr y0 Hs Hb Hz He Hst Hs0 Ps Hn Ho. split.
  - intros H. destruct n as [|[|n]]; [lia | lia | exfalso].
    set (simulate := (fun pb _ => pb_rhs pb fzero (pb_y0 pb)) : solver (list R)).
    destruct (H simulate (fun c _ => Ok [B2R c]) (fun _ _ => Err ValueError)) as (ts & H1).
    destruct (C35_partial simulate (fun c _ => Ok [B2R c]) (fun _ _ => Err ValueError) start sim b z e (Datatypes.S (Datatypes.S n)) zr y0 Hs Hb Hz He ltac:(lia))
      as (ts' & H2 & _). rewrite H2 in H1. clear H2 H. unfold simulate in H1. cbn [states pb_rhs pb_y0 clocked bind] in H1.
    match type of H1 with (do ys <- (do l <- (do m <- ?a; _); _); _) = _ => destruct (states_total _ n (fun _ _ => ex_intro _ _ eq_refl) 2 _ : exists l1, a = Ok l1) as [l1 E1] end.
    rewrite E1 in H1. cbn [bind] in H1.
    destruct (states _ 2 n _) as [l2|] eqn:E2 in H1; [|discriminate]. cbn [bind] in H1. apply (f_equal (fun r : res (list b64 * list (list R)) => match r with Ok (_, _ :: x :: _) => nth 0 x 0%R | _ => 0%R end)) in H1. cbn [nth] in H1.
    destruct Hst as [Fst Vst]. rewrite (fadd_zero start Hs0) in H1.
    assert (P := bpow_gt_0 radix2 e).
    assert (A1 : is_num (accumulated b 1) z e).
    { cbn [accumulated]. replace z with (0 + z)%Z by lia. apply fadd_exact; [apply fzero_num | exact Hb | rewrite Z.abs_eq; lia | lia|].
      destruct Hb as [Fb Vb]. rewrite Z.add_0_l, <- Vb. apply abs_B2R_lt_emax. }
    assert (A2 : is_num (fadd start (accumulated b 1)) (s + z) e).
    { apply fadd_exact; [split; assumption | exact A1 | rewrite Z.abs_eq; lia | lia|].
      rewrite Rabs_pos_eq by (apply Rmult_le_pos; [apply IZR_le; lia | lra]). apply Rle_lt_trans with (2 := Ho).
      apply Rmult_le_compat_r; [lra|]. apply IZR_le. nia. }
    destruct A2 as [F2 V2]. rewrite (fadd_zero (fadd start (accumulated b 1))) in H1.
    2:{ intros E. rewrite E in V2. cbn in V2. symmetry in V2. apply Rmult_integral in V2 as [V2|V2]; [apply eq_IZR in V2; lia | lra]. }
    rewrite V2, Vst in H1. apply Rmult_eq_reg_r in H1; [apply eq_IZR in H1; lia | lra].
  - intros Hle simulate rhs_at jac_at.
    destruct (C35_partial simulate rhs_at jac_at start sim b z e n zr y0 Hs Hb Hz He ltac:(lia)) as (ts & H1 & _).
    exists ts. rewrite H1.
    rewrite (states_ext _ (fun k y => simulate (clocked rhs_at jac_at start b k y) b)); [reflexivity|].
    intros j x Hj. assert (j = 0) by lia. subst j. unfold clocked. cbn [accumulated]. rewrite (fadd_zero start Hs0). reflexivity.
Qed.

(* noon, 7200 s in batches of 100 s *)
Definition f43200 : b64 := fl 5937362789990400 (-37) eq_refl.
Definition one_evaluation : solver (list R) := fun pb _ => pb_rhs pb fzero (pb_y0 pb).
Definition clock_rate : b64 -> list R -> res (list R) := fun c _ => Ok [B2R c].
Definition no_jac : b64 -> list R -> res (nat * nat -> R) := fun _ _ => Err ValueError.
Theorem C37_refuted : exists simulate rhs_at jac_at, forall zero_row y0 ts,
  run_batches simulate rhs_at jac_at f43200 f7200 f100 zero_row y0 <>
  (do ys <- states (fun k (y : list R) => simulate (clocked rhs_at jac_at f43200 f100 k y) f100) 0 72 y0; Ok (ts, ys)).
Proof.
  exists one_evaluation, clock_rate, no_jac.
  intros zr y0 ts H1. destruct C35_hypotheses as [Hs Hb].
  destruct (C35_partial one_evaluation clock_rate no_jac f43200 f7200 f100 100 0 72 zr y0 Hs Hb ltac:(lia) ltac:(lia) ltac:(lia))
      as (ts' & H2 & _). rewrite H2 in H1. clear H2. unfold one_evaluation, clock_rate in H1.
  remember 70 as q eqn:Eq. cbn [states pb_rhs pb_y0 clocked bind] in H1.
  match type of H1 with (do ys <- (do l <- (do m <- ?a; _); _); _) = _ => destruct (states_total _ q (fun _ _ => ex_intro _ _ eq_refl) 2 _ : exists l1, a = Ok l1) as [l1 E1] end.
  rewrite E1 in H1. cbn [bind] in H1.
  destruct (states _ 2 q _) as [l2|] eqn:E2 in H1; [|discriminate]. cbn [bind] in H1. apply (f_equal (fun r : res (list b64 * list (list R)) => match r with Ok (_, _ :: x :: _) => nth 0 x 0%R | _ => 0%R end)) in H1. cbn [nth] in H1.
  rewrite fadd_zero in H1 by discriminate.
  assert (B : Bltb f43200 (fadd (fadd f43200 (accumulated f100 1)) fzero) = true) by (vm_compute; reflexivity).
  assert (F : is_finite (fadd (fadd f43200 (accumulated f100 1)) fzero) = true) by (vm_compute; reflexivity).
  assert (C := Bltb_correct prec64 emax64 f43200 _ eq_refl F). rewrite <- H1, B in C.
  rewrite Rlt_bool_false in C by apply Rle_refl. discriminate.
Qed.

(* ------------------------------------------------------------------ *)
(* C38 *)
Lemma states_trajectory f simulate rhs_at jac_at start b : (0 <= B2R b)%R -> exact_for f simulate ->
  (forall c y, rhs_at c y = Ok (f y)) -> forall n k y ys,
  states (fun _ y => simulate (Problem (fun t => rhs_at (fadd start t)) (fun t => jac_at (fadd start t)) y fzero) b) k n y = Ok ys ->
  forall j yj, nth_error ys j = Some yj -> trajectory f y (INR (j + 1) * B2R b) yj.
Proof.
  intros Pb He Hr. induction n as [|n IH]; intros k y ys H j yj Hj; cbn [states] in H.
  - injection H as <-. destruct j; discriminate.
  - destruct (simulate _ b) as [y1|] eqn:E; [|discriminate]. cbn [bind] in H.
    destruct (states _ (Datatypes.S k) n y1) as [l|] eqn:El; [|discriminate]. cbn [bind] in H. injection H as <-.
    assert (T1 : trajectory f y (B2R b) y1).
    { apply (He _ b y1) in E; [exact E | intros t x; cbn [pb_rhs]; apply Hr | reflexivity]. }
    destruct j as [|j].
    + injection Hj as <-. cbn [Nat.add INR]. rewrite Rmult_1_l. exact T1.
    + cbn in Hj. assert (EI : (INR (Datatypes.S j + 1) * B2R b = B2R b + INR (j + 1) * B2R b)%R).
      { change (Datatypes.S j + 1) with (Datatypes.S (j + 1)). rewrite S_INR. ring. }
      rewrite EI.
      apply trajectory_glue with y1; [exact Pb | apply Rmult_le_pos; [apply pos_INR | exact Pb] | exact T1 | apply (IH _ _ _ El _ _ Hj)].
Qed.

(* Row k of the result is the state at time (k+1) * batch_step of a solution of
   the differential equations, for a solver without error. *)
Theorem C38_rows_partial : forall f simulate rhs_at jac_at start sim b z e n zero_row y0 ts ys,
  exact_for f simulate -> (forall c y, rhs_at c y = Ok (f y)) ->
  is_num sim (Z.of_nat n * z) e -> is_num b z e -> (0 < z)%Z -> (-1074 <= e)%Z -> (Z.of_nat n * z < 2 ^ 53)%Z ->
  run_batches simulate rhs_at jac_at start sim b zero_row y0 = Ok (ts, ys) ->
  forall k yk, nth_error ys k = Some yk -> trajectory f y0 (INR (k + 1) * B2R b) yk.
Proof.
  intros f simulate rhs_at jac_at start sim b z e n zr y0 ts ys Hx Hr Hs Hb Hz He Hn Hrun k yk Hk.
  destruct (C35_partial simulate rhs_at jac_at start sim b z e n zr y0 Hs Hb Hz He Hn) as (ts' & H1 & _).
  rewrite Hrun in H1. destruct (states _ 0 n y0) as [l|] eqn:E; [|discriminate]. cbn [bind] in H1. injection H1 as _ ->.
  apply (states_trajectory f simulate rhs_at jac_at start b) with (2 := Hx) (3 := Hr) (4 := E); [|exact Hk].
  destruct Hb as [_ ->]. apply Rmult_le_pos; [apply IZR_le; lia | apply bpow_ge_0].
Qed.

(* Two runs of the same length with different batch steps end in the same
   state; in particular one run in n batches and one run in a single batch. *)
Theorem C38_partial : forall f simulate rhs_at jac_at start zero_row y0 sim b b' z z' e n n' ts ys ts' ys',
  exact_for f simulate -> (forall c y, rhs_at c y = Ok (f y)) ->
  (forall i, i < List.length y0 -> locally_lipschitz (List.length y0) (fun y => nth i (f y) 0%R)) ->
  is_num sim (Z.of_nat n * z) e -> is_num b z e -> (0 < z)%Z ->
  (Z.of_nat n * z = Z.of_nat n' * z')%Z -> is_num b' z' e -> (0 < z')%Z ->
  (-1074 <= e)%Z -> (Z.of_nat n * z < 2 ^ 53)%Z ->
  run_batches simulate rhs_at jac_at start sim b zero_row y0 = Ok (ts, ys) ->
  run_batches simulate rhs_at jac_at start sim b' zero_row y0 = Ok (ts', ys') ->
  forall yn yn', nth_error ys (n - 1) = Some yn -> nth_error ys' (n' - 1) = Some yn' ->
  trajectory f y0 (B2R sim) yn /\ yn = yn'.
Proof.
  intros f simulate rhs_at jac_at start zr y0 sim b b' z z' e n n' ts ys ts' ys' Hx Hr Hl Hs Hb Hz Eq Hb' Hz' He Hn R1 R2 yn yn' Y1 Y2.
  assert (Hs' : is_num sim (Z.of_nat n' * z') e) by (rewrite <- Eq; exact Hs).
  assert (Nz : forall n b z ts ys yn, is_num sim (Z.of_nat n * z) e -> is_num b z e -> (0 < z)%Z -> (Z.of_nat n * z < 2 ^ 53)%Z ->
     run_batches simulate rhs_at jac_at start sim b zr y0 = Ok (ts, ys) -> nth_error ys (n - 1) = Some yn -> trajectory f y0 (B2R sim) yn).
  { clear - Hx Hr He. intros n b z ts ys yn Hs Hb Hz Hn R1 Y1.
    assert (T1 := C38_rows_partial f simulate rhs_at jac_at start sim b z e n zr y0 ts ys Hx Hr Hs Hb Hz He Hn R1 _ _ Y1).
    destruct (C35_times_partial _ simulate rhs_at jac_at start sim b z e n zr y0 ts ys Hs Hb Hz He Hn R1) as (_ & L & _).
    assert (Ln : n - 1 < List.length ys) by (apply nth_error_Some; congruence).
    replace (n - 1 + 1) with n in T1 by lia.
    replace (B2R sim) with (INR n * B2R b)%R; [exact T1|]. destruct Hs as [_ ->]. destruct Hb as [_ ->].
    rewrite mult_IZR, <- INR_IZR_INZ. ring. }
  assert (T1 := Nz n b z ts ys yn Hs Hb Hz Hn R1 Y1).
  assert (T2 := Nz n' b' z' ts' ys' yn' Hs' Hb' Hz' ltac:(lia) R2 Y2).
  split; [exact T1|]. apply (trajectory_unique f (List.length y0) y0 (B2R sim) yn yn'); auto.
  destruct Hs as [_ ->]. apply Rmult_le_pos; [apply IZR_le; lia | apply bpow_ge_0].
Qed.

(* Mass-action kinetics with whole-number reactant coefficients satisfies the
   condition; the rate coefficients may depend on the concentrations (RO2). *)
Definition whole_reactants (m : mech) : Prop := forall r s, In r m -> exists k, as_nat (total s (lhs r)) = Some k.

Definition kinetics_vector (m : mech) (ks : list (list R -> R)) (st : pstate) (y : list R) : list R :=
  map (fun s => if inb s bath then 0%R else kinetics m (map (fun k => k y) ks) (conc_of (p_sp2a st) y) s) (dvals (p_sp st)).

Lemma kinetics_lipschitz m ks st N : whole_reactants m -> (forall k, In k ks -> locally_lipschitz N k) ->
  (forall s i, dget s (p_sp2a st) = Some i -> i < N) ->
  forall i, locally_lipschitz N (fun y => nth i (kinetics_vector m ks st y) 0%R).
Proof.
  intros Hw Hk Hi i. unfold kinetics_vector.
  destruct (nth_error (dvals (p_sp st)) i) as [s|] eqn:E.
  2:{ apply (lipschitz_ext N (fun _ => 0%R)); [|apply lipschitz_const]. intros y. symmetry. apply nth_overflow. rewrite map_length. apply nth_error_None, E. }
  apply (lipschitz_ext N (fun y => if inb s bath then 0%R else kinetics m (map (fun k => k y) ks) (conc_of (p_sp2a st) y) s)).
  { intros y. symmetry. apply nth_error_nth. rewrite nth_error_map, E. reflexivity. }
  destruct (inb s bath); [apply lipschitz_const|]. unfold kinetics.
  apply (lipschitz_ext N (fun y => rsum (map (fun rk => net s (fst rk) * (mass_action (conc_of (p_sp2a st) y) (lhs (fst rk)) * snd rk y))%R (combine m ks)))).
  { intros y. f_equal. clear. revert ks. induction m as [|r m IH]; intros [|k ks]; cbn; auto. rewrite IH. reflexivity. }
  apply (lipschitz_rsum N (fun rk y => net s (fst rk) * (mass_action (conc_of (p_sp2a st) y) (lhs (fst rk)) * snd rk y))%R).
  intros [r k] Hin. cbn [fst snd]. apply lipschitz_mult; [apply lipschitz_const|].
  assert (Hr := in_combine_l _ _ _ _ Hin). apply in_combine_r in Hin. apply lipschitz_mult; [|apply Hk, Hin].
  unfold mass_action. apply (lipschitz_rprod N (fun x y => rpow (conc_of (p_sp2a st) y x) (total x (lhs r)))).
  intros x _. unfold rpow. destruct (Hw r x Hr) as [n ->]. apply lipschitz_pow.
  apply (lipschitz_ext N (fun y => match dget x (p_sp2a st) with Some i => nth i y 0%R | None => 0%R end)).
  { intros y. symmetry. apply conc_of_dget. }
  destruct (dget x (p_sp2a st)) as [j|] eqn:Ej; [|apply lipschitz_const]. apply lipschitz_nth, (Hi x), Ej.
Qed.

Theorem C38_mass_action_partial : forall m text ks, written m text -> whole_reactants m ->
  (forall k, In k ks -> locally_lipschitz (List.length (species m)) k) ->
  exists st, extract_mechanism text = Ok (Z.of_nat (List.length m), st) /\
  forall simulate rhs_at jac_at start zero_row y0 sim b b' z z' e n n' ts ys ts' ys',
  exact_for (kinetics_vector m ks st) simulate -> (forall c y, rhs_at c y = Ok (kinetics_vector m ks st y)) ->
  List.length y0 = List.length (p_sp st) ->
  is_num sim (Z.of_nat n * z) e -> is_num b z e -> (0 < z)%Z ->
  (Z.of_nat n * z = Z.of_nat n' * z')%Z -> is_num b' z' e -> (0 < z')%Z ->
  (-1074 <= e)%Z -> (Z.of_nat n * z < 2 ^ 53)%Z ->
  run_batches simulate rhs_at jac_at start sim b zero_row y0 = Ok (ts, ys) ->
  run_batches simulate rhs_at jac_at start sim b' zero_row y0 = Ok (ts', ys') ->
  forall yn yn', nth_error ys (n - 1) = Some yn -> nth_error ys' (n' - 1) = Some yn' -> yn = yn'.
Proof.
  intros m text ks Wr Hw Hk. exists (interp m). split; [apply written_extract, Wr|].
  intros simulate rhs_at jac_at start zr y0 sim b b' z z' e n n' ts ys ts' ys' Hx Hr Hl Hs Hb Hz Eq Hb' Hz' He Hn R1 R2 yn yn' Y1 Y2.
  assert (LN : List.length (p_sp (interp m)) = List.length (species m)).
  { destruct (interp_species m) as (-> & _). rewrite combine_length, seq_length. lia. }
  rewrite LN in Hl.
  refine (proj2 (C38_partial (kinetics_vector m ks (interp m)) simulate rhs_at jac_at start zr y0 sim b b' z z' e n n' ts ys ts' ys' Hx Hr _ Hs Hb Hz Eq Hb' Hz' He Hn R1 R2 yn yn' Y1 Y2)).
  rewrite Hl. intros i _. apply kinetics_lipschitz; [exact Hw | exact Hk|].
  intros s j Hj. apply interp_sp2a in Hj. apply nth_error_Some. congruence.
Qed.

(* A solver without error exists: exponential decay. *)
Definition decay (y : list R) : list R := map (fun x => - x)%R y.
Definition decay_solver : solver (list R) := fun pb tf => Ok (map (fun x => x * exp (- B2R tf))%R (pb_y0 pb)).
Example C38_hypotheses : exact_for decay decay_solver /\
  (forall n i, i < n -> locally_lipschitz n (fun y => nth i (decay y) 0%R)) /\
  (forall start y0, exists ts ys, run_batches decay_solver (fun _ y => Ok (decay y)) (fun _ _ => Err ValueError) start f7200 f100 [] y0 = Ok (ts, ys)).
Proof.
  split; [|split].
  - intros pb tf y1 _ _ H. injection H as <-. exists (fun t => map (fun x => x * exp (- t))%R (pb_y0 pb)).
    split; [rewrite Ropp_0, exp_0; rewrite <- (map_id (pb_y0 pb)) at 2; apply map_ext; intros x; ring|]. split; [reflexivity|].
    intros t Ht. split; [apply map_length|]. intros i Hi eps He.
    assert (Nt : forall s, nth i (map (fun x => x * exp (- s))%R (pb_y0 pb)) 0%R = (nth i (pb_y0 pb) 0 * exp (- s))%R).
    { intros s. assert (M := map_nth (fun x => x * exp (- s))%R (pb_y0 pb) 0%R i). cbv beta in M. rewrite Rmult_0_l in M. exact M. }
    assert (Dt : nth i (decay (map (fun x => x * exp (- t))%R (pb_y0 pb))) 0%R = (- (nth i (pb_y0 pb) 0 * exp (- t)))%R).
    { unfold decay. assert (M := map_nth (fun x => - x)%R (map (fun x => x * exp (- t))%R (pb_y0 pb)) 0%R i). cbv beta in M. rewrite Ropp_0 in M. rewrite M, Nt. reflexivity. }
    set (c := nth i (pb_y0 pb) 0%R) in *.
    assert (D : derivable_pt_lim (fun s => c * exp (- s))%R t (c * (exp (- t) * - (1)))%R).
    { apply (derivable_pt_lim_scal (fun s => exp (- s)%R)). apply (derivable_pt_lim_comp Ropp exp); [|apply derivable_pt_lim_exp].
      apply (derivable_pt_lim_opp id). apply derivable_pt_lim_id. }
    destruct (D eps He) as [d Hd]. exists d. split; [apply cond_pos|]. intros s Hs Hsd. rewrite Dt, !Nt.
    destruct (Req_dec (s - t) 0) as [E0|E0].
    + replace s with t by lra. replace (c * exp (- t) - c * exp (- t) - - (c * exp (- t)) * (t - t))%R with 0%R by ring.
      replace (t - t)%R with 0%R by ring. rewrite Rabs_R0. lra.
    + specialize (Hd (s - t)%R E0 Hsd). replace (t + (s - t))%R with s in Hd by ring.
      assert (P : (0 < Rabs (s - t))%R) by (apply Rabs_pos_lt; exact E0).
      replace (c * exp (- s) - c * exp (- t) - - (c * exp (- t)) * (s - t))%R with
        (((c * exp (- s) - c * exp (- t)) / (s - t) - c * (exp (- t) * - (1))) * (s - t))%R by (field; exact E0).
      rewrite Rabs_mult. apply Rmult_le_compat_r; lra.
  - intros n i Hi. unfold decay. apply (lipschitz_ext n (fun y => -1 * nth i y 0)%R).
    + intros y. assert (M := map_nth (fun x => - x)%R y 0%R i). cbv beta in M. rewrite Ropp_0 in M. rewrite M. ring.
    + apply lipschitz_mult; [apply lipschitz_const | apply lipschitz_nth, Hi].
  - intros start y0. destruct C35_hypotheses as [Hs Hb].
    destruct (C35_partial decay_solver (fun _ y => Ok (decay y)) (fun _ _ => Err ValueError) start f7200 f100 100 0 72 [] y0 Hs Hb ltac:(lia) ltac:(lia) ltac:(lia)) as (ts & H1 & _).
    destruct (states_total (fun _ y => decay_solver (Problem (fun t => (fun _ y => Ok (decay y)) (fadd start t)) (fun t => (fun _ _ => Err ValueError) (fadd start t)) y fzero) f100) 72
      (fun _ _ => ex_intro _ _ eq_refl) 0 y0) as [l Hl]. rewrite Hl in H1. cbn [bind] in H1. eauto.
Qed.

Print Assumptions C34_run_partial.
Print Assumptions C34_initial_state. Print Assumptions C34_unknown_species.
Print Assumptions C35_partial. Print Assumptions C35_times_partial. Print Assumptions C35_refuted.
Print Assumptions C36_exactly_when. Print Assumptions C36_partial. Print Assumptions C36_refuted.
Print Assumptions C37_exactly_when. Print Assumptions C37_refuted.
Print Assumptions C38_rows_partial. Print Assumptions C38_partial. Print Assumptions C38_mass_action_partial.
