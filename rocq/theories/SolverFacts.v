(* Exact floating point sums, and the batch loop in closed form. *)
From Coq Require Import List Bool Arith Lia ZArith Reals Lra.
From Flocq Require Import Core BinarySingleNaN.
From Verif Require Import Base PyStr PyDict ModelSolver SpecSolver.
Import ListNotations.
Open Scope nat_scope.
Open Scope list_scope.

Lemma format_num z e : (Z.abs z < 2 ^ 53)%Z -> (-1074 <= e)%Z ->
  generic_format radix2 (SpecFloat.fexp prec64 emax64) (IZR z * bpow radix2 e).
Proof.
  intros Hz He. change (SpecFloat.fexp prec64 emax64) with (FLT_exp (-1074) 53).
  apply generic_format_FLT. exists (Float radix2 z e); [reflexivity | exact Hz | exact He].
Qed.

Lemma fadd_exact x y a b e : is_num x a e -> is_num y b e -> (Z.abs (a + b) < 2 ^ 53)%Z -> (-1074 <= e)%Z ->
  (Rabs (IZR (a + b) * bpow radix2 e) < bpow radix2 1024)%R -> is_num (fadd x y) (a + b) e.
Proof.
  intros [Fx Vx] [Fy Vy] Hz He Ho. assert (C := Bplus_correct prec64 emax64 _ _ mode_NE x y Fx Fy).
  assert (E : (B2R x + B2R y)%R = (IZR (a + b) * bpow radix2 e)%R) by (rewrite Vx, Vy, plus_IZR; ring).
  rewrite E in C. rewrite round_generic in C by (auto with typeclass_instances; apply format_num; assumption).
  rewrite Rlt_bool_true in C by exact Ho. destruct C as (C1 & C2 & _). split; assumption.
Qed.

Lemma fzero_num e : is_num fzero 0 e.
Proof. split; [reflexivity|]. cbn. ring. Qed.

Lemma bltb_num x y a b e : is_num x a e -> is_num y b e -> Bltb x y = (a <? b)%Z.
Proof.
  intros [Fx Vx] [Fy Vy]. rewrite (Bltb_correct _ _ _ _ Fx Fy), Vx, Vy.
  assert (P := bpow_gt_0 radix2 e). destruct (Z.ltb_spec a b) as [H|H].
  - apply Rlt_bool_true. apply Rmult_lt_compat_r; [exact P | apply IZR_lt, H].
  - apply Rlt_bool_false. apply Rmult_le_compat_r; [lra | apply IZR_le, H].
Qed.

Lemma beqb_num x a e : is_num x a e -> Beqb x fzero = (a =? 0)%Z.
Proof.
  intros [Fx Vx]. rewrite (Beqb_correct _ _ x fzero Fx eq_refl), Vx. cbn [B2R fzero].
  assert (P := bpow_gt_0 radix2 e). destruct (Z.eqb_spec a 0) as [->|H].
  - apply Req_bool_true. ring.
  - apply Req_bool_false. intros E. apply Rmult_integral in E as [E|E]; [apply eq_IZR in E; contradiction | lra].
Qed.

Lemma B2R_fzero_ne (x : b64) : is_finite x = true -> B2R x <> 0%R -> Beqb x fzero = false.
Proof. intros F H. rewrite (Beqb_correct _ _ x fzero F eq_refl). apply Req_bool_false. exact H. Qed.

(* The quotient of exact multiples. *)
Lemma trunc_value (q : b64) z : is_finite q = true -> Ztrunc (B2R q) = z -> py_trunc q = Ok z.
Proof.
  intros F V. assert (T : Btrunc q = z).
  { apply eq_IZR. rewrite Btrunc_correct by exact eq_refl. unfold round, scaled_mantissa, F2R, cexp, FIX_exp. cbn [Fnum Fexp].
    cbn [bpow Z.opp]. rewrite !Rmult_1_r, V. reflexivity. }
  destruct q; cbn in F; try discriminate; unfold py_trunc; rewrite T; reflexivity.
Qed.

Lemma div_finite (x y : b64) : is_finite x = true -> B2R y <> 0%R ->
  (Rabs (round radix2 (SpecFloat.fexp prec64 emax64) ZnearestE (B2R x / B2R y)) < bpow radix2 1024)%R ->
  is_finite (fdiv x y) = true /\
  B2R (fdiv x y) = round radix2 (SpecFloat.fexp prec64 emax64) ZnearestE (B2R x / B2R y).
Proof.
  intros F Hy Ho. assert (C := Bdiv_correct prec64 emax64 _ _ mode_NE x y Hy).
  cbn [round_mode] in C. rewrite Rlt_bool_true in C by exact Ho. destruct C as (C1 & C2 & _).
  split; [unfold fdiv; rewrite C2; exact F | exact C1].
Qed.

Lemma small_int_bound z : (Z.abs z < 2 ^ 53)%Z -> (Rabs (IZR z) < bpow radix2 1024)%R.
Proof.
  intros H. rewrite <- abs_IZR. apply Rlt_trans with (bpow radix2 53); [|apply bpow_lt; lia].
  rewrite <- (IZR_Zpower radix2 53) by lia. apply IZR_lt. exact H.
Qed.

Section Loop.
Context {S : Type} (simulate : solver S) (rhs_at : b64 -> S -> res S) (jac_at : b64 -> S -> res (nat * nat -> R)) (start : b64).

(* One batch. *)
Definition batch (b : b64) (y : S) : res S :=
  simulate (Problem (dydt_func rhs_at start) (jac jac_at start) y fzero) b.

Notation lp := (loop simulate rhs_at jac_at start).

(* The loop with the remaining number of batches known. *)
Lemma loop_exact sim b z n e zr : is_num sim (Z.of_nat n * z) e -> is_num b z e -> (0 < z)%Z -> (-1074 <= e)%Z ->
  (Z.of_nat n * z < 2 ^ 53)%Z ->
  forall m k total y out, k + m = n -> is_num total (Z.of_nat k * z) e ->
    (0 < k -> out = Some y) ->
    exists ts, (forall rows y', m <= rows -> (k = 0 -> y' = y) ->
      lp sim b zr rows total y' out =
        do ys <- states (fun _ => batch b) k m y; Ok (ts, ys ++ repeat zr (rows - m))) /\
      List.length ts = m /\
      (forall j t, nth_error ts j = Some t -> is_num t (Z.of_nat (Datatypes.S (k + j)) * z) e).
Proof.
  intros Hs Hb Hz He Hn. induction m as [|m IH]; intros k total y out Hk Ht Ho.
  - exists []. split; [|split; [reflexivity | intros [|j] t; discriminate]]. intros rows y' _ _.
    destruct rows as [|rows]; cbn [loop states bind]; rewrite (bltb_num _ _ _ _ _ Ht Hs);
      replace k with n by lia; rewrite Z.ltb_irrefl; cbn [app]; try rewrite Nat.sub_0_r; reflexivity.
  - assert (Ht' : is_num (fadd total b) (Z.of_nat (Datatypes.S k) * z) e).
    { replace (Z.of_nat (Datatypes.S k) * z)%Z with (Z.of_nat k * z + z)%Z by lia. apply fadd_exact; auto.
      - rewrite Z.abs_eq by nia. nia.
      - destruct Hs as [Fs Vs]. apply Rle_lt_trans with (Rabs (B2R sim)); [|apply abs_B2R_lt_emax].
        rewrite Vs, !Rabs_mult. apply Rmult_le_compat_r; [apply Rabs_pos|]. rewrite <- !abs_IZR. apply IZR_le.
        rewrite !Z.abs_eq by nia. nia. }
    destruct (batch b y) as [y1|ex] eqn:E.
    + destruct (IH (Datatypes.S k) (fadd total b) y1 (Some y1)) as (ts & H1 & H2 & H3); [lia | exact Ht' | reflexivity|].
      exists (fadd total b :: ts). split; [|split].
      * intros rows y' Hr Hy'. destruct rows as [|rows]; [lia|]. cbn [loop].
        rewrite (bltb_num _ _ _ _ _ Ht Hs). assert (L : (Z.of_nat k * z <? Z.of_nat n * z)%Z = true) by (apply Z.ltb_lt; nia).
        rewrite L, (beqb_num _ _ _ Ht).
        assert (Y : (if (Z.of_nat k * z =? 0)%Z then Ok y' else match out with Some o => Ok o | None => Err UnboundLocalError end) = Ok y).
        { destruct (Z.eqb_spec (Z.of_nat k * z) 0) as [E0|E0].
          - f_equal. apply Hy'. nia.
          - rewrite Ho by nia. reflexivity. }
        rewrite Y. cbn [bind]. unfold batch in E. rewrite E. cbn [bind].
        rewrite (H1 rows y) by lia. cbn [states]. unfold batch at 2. rewrite E. cbn [bind].
        destruct (states (fun _ => batch b) (Datatypes.S k) m y1) as [l|]; [|reflexivity].
        cbn [bind fst snd app Nat.sub]. reflexivity.
      * cbn. rewrite H2. reflexivity.
      * intros [|j] t Hj.
        -- cbn in Hj. injection Hj as <-. rewrite Nat.add_0_r. exact Ht'.
        -- cbn in Hj. specialize (H3 j t Hj). replace (k + Datatypes.S j) with (Datatypes.S k + j) by lia. exact H3.
    + destruct (IH (Datatypes.S k) (fadd total b) y (Some y)) as (ts & _ & H2 & H3); [lia | exact Ht' | reflexivity|].
      exists (fadd total b :: ts). split; [|split].
      * intros rows y' Hr Hy'. destruct rows as [|rows]; [lia|]. cbn [loop].
        rewrite (bltb_num _ _ _ _ _ Ht Hs). assert (L : (Z.of_nat k * z <? Z.of_nat n * z)%Z = true) by (apply Z.ltb_lt; nia).
        rewrite L, (beqb_num _ _ _ Ht).
        assert (Y : (if (Z.of_nat k * z =? 0)%Z then Ok y' else match out with Some o => Ok o | None => Err UnboundLocalError end) = Ok y).
        { destruct (Z.eqb_spec (Z.of_nat k * z) 0) as [E0|E0].
          - f_equal. apply Hy'. nia.
          - rewrite Ho by nia. reflexivity. }
        rewrite Y. cbn [bind]. unfold batch in E. rewrite E. cbn [bind]. cbn [states]. unfold batch at 1. rewrite E. reflexivity.
      * cbn. rewrite H2. reflexivity.
      * intros [|j] t Hj.
        -- cbn in Hj. injection Hj as <-. rewrite Nat.add_0_r. exact Ht'.
        -- cbn in Hj. specialize (H3 j t Hj). replace (k + Datatypes.S j) with (Datatypes.S k + j) by lia. exact H3.
Qed.

(* The general shape: the loop writes one row per batch until the accumulated
   time reaches the end or the rows run out. *)
Lemma loop_general sim b zr : never_fails simulate ->
  forall rows k y out, (k = 0 \/ (Beqb (accumulated b k) fzero = true -> exists o, out = Some o) /\ (exists o, out = Some o)) ->
    ((exists j, j <= rows /\ (forall i, i < j -> Bltb (accumulated b (k + i)) sim = true) /\
        Bltb (accumulated b (k + j)) sim = false) <->
     exists r, lp sim b zr rows (accumulated b k) y out = Ok r) /\
    (forall r, lp sim b zr rows (accumulated b k) y out = Ok r ->
       fst r = map (fun j => accumulated b (Datatypes.S (k + j))) (seq 0 (List.length (fst r))) /\
       List.length (snd r) = rows /\ Bltb (accumulated b (k + List.length (fst r))) sim = false) /\
    (forall e, lp sim b zr rows (accumulated b k) y out = Err e -> e = IndexError).
Proof.
  intros Hf. induction rows as [|rows IH]; intros k y out Ho; cbn [loop].
  - destruct (Bltb (accumulated b k) sim) eqn:B.
    + assert (Y : exists y0, (if Beqb (accumulated b k) fzero then Ok y else match out with Some o => Ok o | None => Err UnboundLocalError end) = Ok y0).
      { destruct (Beqb (accumulated b k) fzero) eqn:Bz; [eauto|]. destruct Ho as [->|[_ [o ->]]]; [|eauto]. exfalso. cbn [accumulated] in Bz. discriminate. }
      destruct Y as [y0 ->]. cbn [bind]. destruct (Hf (Problem (dydt_func rhs_at start) (jac jac_at start) y0 fzero) b) as [y1 ->]. cbn [bind].
      split; [|split].
      * split; [|intros [r Hr]; discriminate]. intros (j & Hj & _ & H). assert (j = 0) by lia. subst j. rewrite Nat.add_0_r in H. congruence.
      * discriminate.
      * congruence.
    + split; [|split].
      * split; [eauto|]. intros _. exists 0. split; [lia|]. split; [intros; lia | rewrite Nat.add_0_r; exact B].
      * intros r Hr. injection Hr as <-. cbn. rewrite Nat.add_0_r. auto.
      * discriminate.
  - destruct (Bltb (accumulated b k) sim) eqn:B.
    + assert (Y : exists y0, (if Beqb (accumulated b k) fzero then Ok y else match out with Some o => Ok o | None => Err UnboundLocalError end) = Ok y0).
      { destruct (Beqb (accumulated b k) fzero) eqn:Bz; [eauto|]. destruct Ho as [->|[_ [o ->]]]; [|eauto]. exfalso. cbn [accumulated] in Bz. discriminate. }
      destruct Y as [y0 ->]. cbn [bind]. destruct (Hf (Problem (dydt_func rhs_at start) (jac jac_at start) y0 fzero) b) as [y1 ->]. cbn [bind].
      change (fadd (accumulated b k) b) with (accumulated b (Datatypes.S k)).
      destruct (IH (Datatypes.S k) y0 (Some y1)) as (H1 & H2 & H3); [right; eauto|].
      split; [|split].
      * transitivity (exists j, j <= rows /\ (forall i, i < j -> Bltb (accumulated b (Datatypes.S k + i)) sim = true) /\
          Bltb (accumulated b (Datatypes.S k + j)) sim = false).
        -- split.
           ++ intros ([|j] & Hj & Hi & Hl); [rewrite Nat.add_0_r in Hl; congruence|]. exists j. split; [lia|]. split.
              ** intros i Hi'. replace (Datatypes.S k + i) with (k + Datatypes.S i) by lia. apply Hi. lia.
              ** replace (Datatypes.S k + j) with (k + Datatypes.S j) by lia. exact Hl.
           ++ intros (j & Hj & Hi & Hl). exists (Datatypes.S j). split; [lia|]. split.
              ** intros [|i] Hi'; [rewrite Nat.add_0_r; exact B|]. replace (k + Datatypes.S i) with (Datatypes.S k + i) by lia. apply Hi. lia.
              ** replace (k + Datatypes.S j) with (Datatypes.S k + j) by lia. exact Hl.
        -- rewrite H1. split.
           ++ intros [r ->]. cbn [bind]. eauto.
           ++ intros [r Hr]. destruct (lp sim b zr rows (accumulated b (Datatypes.S k)) y0 (Some y1)); [eauto | discriminate].
      * intros r Hr. destruct (lp sim b zr rows (accumulated b (Datatypes.S k)) y0 (Some y1)) as [r'|]; [|discriminate].
        cbn [bind] in Hr. injection Hr as <-. destruct (H2 r' eq_refl) as (G1 & G2 & G3). cbn [fst snd List.length]. split; [|split].
        -- cbn [seq map]. rewrite Nat.add_0_r. f_equal. rewrite G1 at 1. rewrite <- seq_shift, map_map. apply map_ext. intros j.
           replace (k + Datatypes.S j) with (Datatypes.S k + j) by lia. reflexivity.
        -- congruence.
        -- replace (k + Datatypes.S (List.length (fst r'))) with (Datatypes.S k + List.length (fst r')) by lia. exact G3.
      * intros e He. destruct (lp sim b zr rows (accumulated b (Datatypes.S k)) y0 (Some y1)) as [r'|e']; [discriminate|].
        cbn [bind] in He. injection He as <-. apply H3. reflexivity.
    + split; [|split].
      * split; [eauto|]. intros _. exists 0. split; [lia|]. split; [intros; lia | rewrite Nat.add_0_r; exact B].
      * intros r Hr. injection Hr as <-. cbn [fst snd List.length seq map]. rewrite repeat_length, Nat.add_0_r. auto.
      * discriminate.
Qed.
End Loop.
