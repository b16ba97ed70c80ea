(* C50: operator splitting. *)
From Coq Require Import List Bool Arith Lia ZArith Reals Lra.
From Flocq Require Import Core BinarySingleNaN.
From Verif Require Import Base ModelSolver SpecSolver SolverFacts PropsSolver ModelSplit SpecSplit.
Import ListNotations.
Open Scope nat_scope.
Open Scope list_scope.

Section Split.
Context {S : Type} (simulate : solver S) (gas_only aerosol_only : b64 -> S -> res S) (jac : b64 -> S -> res (nat * nat -> R)).
Context (sim b gt pt : b64) (zr : S).
Let el := elapsed b gt pt.
Let ph := phase simulate gas_only aerosol_only jac b gt pt.

(* The loop at the start of phase k. *)
Definition at_phase (k rows : nat) (y o : S) : res (list b64 * list S) :=
  split_loop simulate gas_only aerosol_only jac sim gt pt zr rows (el k) (match k with 0 => b | Datatypes.S k' => duration b gt pt k' end)
    (match k with 0 => false | Datatypes.S k' => Nat.even k' end) y (match k with 0 => None | Datatypes.S _ => Some o end).

Lemma at_phase_step k rows y o : (Bltb (el k) sim = true -> k = 0 \/ Beqb (el k) fzero = false) ->
  at_phase k rows y o =
  if Bltb (el k) sim then
    do y1 <- ph k (match k with 0 => y | Datatypes.S _ => o end);
    match rows with
    | 0 => Err IndexError
    | Datatypes.S rows' => do r <- at_phase (Datatypes.S k) rows' (match k with 0 => y | Datatypes.S _ => o end) y1; Ok (el (Datatypes.S k) :: fst r, y1 :: snd r)
    end
  else Ok ([], repeat zr rows).
Proof.
  intros Hk. unfold at_phase at 1. destruct rows as [|rows]; cbn [split_loop]; destruct (Bltb (el k) sim); try reflexivity; specialize (Hk eq_refl).
  - destruct k as [|k].
    + change (Beqb (el 0) fzero) with true. cbn [bind]. unfold ph, phase. cbn [Nat.even duration Nat.eqb]. reflexivity.
    + destruct Hk as [Hk|Hk]; [discriminate|]. rewrite Hk. unfold ph, phase, duration. cbn [Nat.eqb]. rewrite Nat.even_succ, <- Nat.negb_even.
      destruct (Nat.even k); reflexivity.
  - destruct k as [|k].
    + change (Beqb (el 0) fzero) with true. cbn [bind]. unfold ph, phase. cbn [Nat.even duration Nat.eqb]. reflexivity.
    + destruct Hk as [Hk|Hk]; [discriminate|]. rewrite Hk. unfold ph, phase, at_phase, el. cbn [elapsed]. unfold duration at 1 2 3. cbn [Nat.eqb].
      rewrite Nat.even_succ, <- Nat.negb_even. unfold duration. cbn [Nat.eqb]. rewrite Nat.even_succ, <- (Nat.negb_even k).
      destruct (Nat.even k); cbn [negb bind]; reflexivity.
Qed.

Lemma phases_run : forall j k rows y o, j <= rows -> (forall i, 0 < i < k + j -> Beqb (el i) fzero = false) ->
  (forall i, i < j -> Bltb (el (k + i)) sim = true) -> Bltb (el (k + j)) sim = false ->
  at_phase k rows y o = do ys <- states ph k j (match k with 0 => y | Datatypes.S _ => o end); Ok (map (fun i => el (k + i + 1)) (seq 0 j), ys ++ repeat zr (rows - j)).
Proof.
  intros j. induction j as [|j IH]; intros k rows y o Hj Ha Hi Hl.
  - rewrite Nat.add_0_r in Hl. rewrite at_phase_step by congruence. rewrite Hl. cbn [states bind seq map app]. rewrite Nat.sub_0_r. reflexivity.
  - rewrite at_phase_step by (destruct k; [left; reflexivity | right; apply Ha; lia]).
    assert (H0 := Hi 0 ltac:(lia)). rewrite Nat.add_0_r in H0. rewrite H0. cbn [states].
    destruct (ph k _) as [y1|e]; cbn [bind]; [|reflexivity]. destruct rows as [|rows]; [lia|].
    rewrite (IH (Datatypes.S k) rows _ y1); [|lia | intros i Hij; apply Ha; lia | intros i Hij; replace (Datatypes.S k + i) with (k + Datatypes.S i) by lia; apply Hi; lia | replace (Datatypes.S k + j) with (k + Datatypes.S j) by lia; exact Hl].
    destruct (states ph (Datatypes.S k) j y1) as [ys|e]; cbn [bind fst snd]; [|reflexivity]. f_equal. f_equal.
    cbn [seq map]. replace (k + 0 + 1) with (Datatypes.S k) by lia. f_equal. rewrite <- seq_shift, map_map. apply map_ext. intros i. f_equal. lia.
Qed.

Lemma phases_fail : never_fails simulate -> forall rows k y o, (forall i, 0 < i <= k + rows -> Beqb (el i) fzero = false) ->
  (forall i, i <= rows -> Bltb (el (k + i)) sim = true) -> at_phase k rows y o = Err IndexError.
Proof.
  intros Hf rows. induction rows as [|rows IH]; intros k y o Ha Hi; rewrite at_phase_step by (destruct k; [left; reflexivity | right; apply Ha; lia]);
    assert (H0 := Hi 0 ltac:(lia)); rewrite Nat.add_0_r in H0; rewrite H0; unfold ph, phase.
  - destruct (Hf (Problem (if Nat.even k then gas_only else aerosol_only) jac (match k with 0 => y | Datatypes.S _ => o end) fzero) (duration b gt pt k)) as [y1 ->]. reflexivity.
  - destruct (Hf (Problem (if Nat.even k then gas_only else aerosol_only) jac (match k with 0 => y | Datatypes.S _ => o end) fzero) (duration b gt pt k)) as [y1 ->]. cbn [bind].
    rewrite IH; [reflexivity | intros i Hl; apply Ha; lia |]. intros i Hl. replace (Datatypes.S k + i) with (k + Datatypes.S i) by lia. apply Hi. lia.
Qed.
End Split.

(* Gas phase and partitioning alternate, starting with the gas phase, each from
   the state the other left; there is one row and one time per phase, until the
   first time that is not below simulation_time.  This needs a row for every
   phase: at most n = int(simulation_time/batch_step). *)
Theorem C50_partial : forall S (simulate : solver S) gas_only aerosol_only jac sim b gt pt zero_row y0 n j,
  Beqb b fzero = false -> py_trunc (fdiv sim b) = Ok n -> (0 <= n)%Z ->
  (forall i, 0 < i < j -> Beqb (elapsed b gt pt i) fzero = false) ->
  j <= Z.to_nat n -> (forall i, i < j -> Bltb (elapsed b gt pt i) sim = true) -> Bltb (elapsed b gt pt j) sim = false ->
  run_split simulate gas_only aerosol_only jac sim b gt pt zero_row y0 =
  do ys <- states (phase simulate gas_only aerosol_only jac b gt pt) 0 j y0;
  Ok (map (fun i => elapsed b gt pt (i + 1)) (seq 0 j), ys ++ repeat zero_row (Z.to_nat n - j)).
Proof.
  intros S simulate g a jac sim b gt pt zr y0 n j Hb Hn H0 Ha Hj Hi Hl. unfold run_split, py_div. rewrite Hb. cbn [bind]. rewrite Hn. cbn [bind].
  destruct (Z.ltb_spec n 0) as [?|_]; [lia|].
  exact (phases_run simulate g a jac sim b gt pt zr j 0 (Z.to_nat n) y0 y0 Hj Ha Hi Hl).
Qed.

Lemma states_total {S} (simulate : solver S) g a jac b gt pt : never_fails simulate ->
  forall m k y, exists ys, states (phase simulate g a jac b gt pt) k m y = Ok ys.
Proof.
  intros Hf. induction m as [|m IH]; intros k y; [exists []; reflexivity|]. cbn [states]. unfold phase at 1.
  destruct (Hf (Problem (if Nat.even k then g else a) jac y fzero) (duration b gt pt k)) as [y1 ->]. cbn [bind]. destruct (IH (Datatypes.S k) y1) as [ys ->]. cbn [bind]. eauto.
Qed.

Lemma first_end (f : nat -> bool) n : (exists j, j <= n /\ (forall i, i < j -> f i = true) /\ f j = false) \/ (forall j, j <= n -> f j = true).
Proof.
  induction n as [|n [(j & Hj & E)|IH]].
  - destruct (f 0) eqn:E; [right | left; exists 0; split; [lia|]; split; [lia | exact E]]. intros j Hj. replace j with 0 by lia. exact E.
  - left. exists j. split; [lia | exact E].
  - destruct (f (S n)) eqn:E; [right | left; exists (S n); split; [lia|]; split; [intros i Hi; apply IH; lia | exact E]].
    intros j Hj. destruct (Nat.eq_dec j (S n)) as [->|]; [exact E | apply IH; lia].
Qed.

(* With a solver that never gives up, the run ends normally exactly when some
   number of phases not above the number of rows reaches simulation_time;
   otherwise it raises IndexError. *)
Theorem C50_exactly_when : forall S (simulate : solver S) gas_only aerosol_only jac sim b gt pt zero_row y0 n, never_fails simulate ->
  Beqb b fzero = false -> py_trunc (fdiv sim b) = Ok n -> (0 <= n)%Z ->
  (forall i, 0 < i <= Z.to_nat n -> (forall k, k <= i -> Bltb (elapsed b gt pt k) sim = true) -> Beqb (elapsed b gt pt i) fzero = false) ->
  ((exists r, run_split simulate gas_only aerosol_only jac sim b gt pt zero_row y0 = Ok r) <->
   exists j, j <= Z.to_nat n /\ Bltb (elapsed b gt pt j) sim = false) /\
  ((forall j, j <= Z.to_nat n -> Bltb (elapsed b gt pt j) sim = true) ->
   run_split simulate gas_only aerosol_only jac sim b gt pt zero_row y0 = Err IndexError).
Proof.
  intros S simulate g a jac sim b gt pt zr y0 n Hf Hb Hn H0 Ha.
  assert (F : (forall j, j <= Z.to_nat n -> Bltb (elapsed b gt pt j) sim = true) -> run_split simulate g a jac sim b gt pt zr y0 = Err IndexError).
  { intros H. unfold run_split, py_div. rewrite Hb. cbn [bind]. rewrite Hn. cbn [bind]. destruct (Z.ltb_spec n 0) as [?|_]; [lia|].
    apply (phases_fail simulate g a jac sim b gt pt zr Hf (Z.to_nat n) 0 y0 y0); [|exact H]. intros i Hi. apply Ha; [exact Hi|]. intros k Hk. apply H. lia. }
  split; [|exact F]. split.
  - intros [r Hr]. destruct (first_end (fun j => Bltb (elapsed b gt pt j) sim) (Z.to_nat n)) as [(j & Hj & _ & E)|D]; [eauto|]. rewrite (F D) in Hr. discriminate.
  - intros (j & Hj & E). destruct (first_end (fun j => Bltb (elapsed b gt pt j) sim) (Z.to_nat n)) as [(j0 & Hj0 & Hi & Hl)|D]; [|rewrite (D j Hj) in E; discriminate].
    assert (A0 : forall i, 0 < i < j0 -> Beqb (elapsed b gt pt i) fzero = false) by (intros i Hij; apply Ha; [lia|]; intros k Hk; apply Hi; lia).
    rewrite (C50_partial S simulate g a jac sim b gt pt zr y0 n j0 Hb Hn H0 A0 Hj0 Hi Hl).
    destruct (states_total simulate g a jac b gt pt Hf j0 0 y0) as [ys ->]. cbn [bind]. eauto.
Qed.

(* Whole numbers of seconds, all positive: the run ends normally exactly when
   the time of as many phases as there are rows reaches simulation_time. *)
Lemma half_even m k : k = 2 * m -> k / 2 = m.
Proof. intros ->. rewrite Nat.mul_comm. apply Nat.div_mul. lia. Qed.
Lemma half_odd m k : k = 2 * m + 1 -> k / 2 = m.
Proof. intros ->. rewrite Nat.add_comm, Nat.mul_comm, Nat.div_add by lia. reflexivity. Qed.
Lemma seconds_S z g p k : seconds z g p (S k) = (seconds z g p k + if Nat.eqb k 0 then z else if Nat.even k then g else p)%Z.
Proof.
  destruct k as [|k]; [unfold seconds; cbn [Nat.eqb]; change (1 / 2) with 0; change (0 / 2) with 0; lia|]. unfold seconds. cbn [Nat.eqb]. destruct (Nat.even (S k)) eqn:E.
  - apply Nat.even_spec in E as [m E]. rewrite (half_odd m (S (S k))), (half_even m (S k)), (half_odd (m - 1) k) by lia.
    replace (Z.of_nat (m - 1)) with (Z.of_nat m - 1)%Z by lia. ring.
  - assert (O : Nat.odd (S k) = true) by (rewrite <- Nat.negb_even, E; reflexivity). apply Nat.odd_spec in O as [m O].
    rewrite (half_even (m + 1) (S (S k))), (half_odd m (S k)), (half_even m k) by lia. rewrite Nat2Z.inj_add. change (Z.of_nat 1) with 1%Z. ring.
Qed.
Lemma seconds_mono z g p k : (0 < z)%Z -> (0 < g)%Z -> (0 < p)%Z -> (seconds z g p k < seconds z g p (S k))%Z.
Proof. intros. rewrite seconds_S. destruct (k =? 0); [lia|]. destruct (Nat.even k); lia. Qed.
Lemma seconds_le z g p i j : (0 < z)%Z -> (0 < g)%Z -> (0 < p)%Z -> i <= j -> (seconds z g p i <= seconds z g p j)%Z.
Proof. intros Hz Hg Hp H. induction H as [|j H IH]; [lia|]. assert (Q := seconds_mono z g p j Hz Hg Hp). lia. Qed.

Lemma elapsed_num b gt pt z g p k : is_num b z 0 -> is_num gt g 0 -> is_num pt p 0 -> (0 < z)%Z -> (0 < g)%Z -> (0 < p)%Z ->
  (seconds z g p k < 2 ^ 53)%Z -> is_num (elapsed b gt pt k) (seconds z g p k) 0.
Proof.
  intros Nb Ng Np Hz Hg Hp. induction k as [|k IH]; intros Hk; [apply fzero_num|]. cbn [elapsed]. assert (M := seconds_mono z g p k Hz Hg Hp).
  assert (P0 : (0 <= seconds z g p k)%Z) by (change 0%Z with (seconds z g p 0) at 1; apply seconds_le; auto; lia).
  rewrite seconds_S. apply fadd_exact; [apply IH; lia | | | lia|].
  - unfold duration. destruct (k =? 0); [exact Nb|]. destruct (Nat.even k); assumption.
  - rewrite <- seconds_S. rewrite Z.abs_eq; lia.
  - rewrite <- seconds_S. cbn [bpow]. rewrite Rmult_1_r. apply small_int_bound. rewrite Z.abs_eq; lia.
Qed.

Theorem C50_seconds : forall S (simulate : solver S) gas_only aerosol_only jac sim b gt pt s z g p zero_row y0, never_fails simulate ->
  is_num sim s 0 -> is_num b z 0 -> is_num gt g 0 -> is_num pt p 0 ->
  (0 < s < 2 ^ 52)%Z -> (0 < z < 2 ^ 52)%Z -> (0 < g < 2 ^ 52)%Z -> (0 < p < 2 ^ 52)%Z ->
  let n := Z.to_nat (s / z) in
  ((exists r, run_split simulate gas_only aerosol_only jac sim b gt pt zero_row y0 = Ok r) <-> (s <= seconds z g p n)%Z) /\
  ((seconds z g p n < s)%Z -> run_split simulate gas_only aerosol_only jac sim b gt pt zero_row y0 = Err IndexError).
Proof.
  intros S simulate ga ae jac sim b gt pt s z g p zr y0 Hf Ns Nb Ng Np Hs Hz Hg Hp n.
  assert (Q := quotient_integers sim b s z Ns Nb Hz Hs).
  assert (B0 : Beqb b fzero = false) by (rewrite (beqb_num _ _ _ Nb); apply Z.eqb_neq; lia).
  assert (P0 : (0 <= s / z)%Z) by (apply Z.div_pos; lia).
  assert (NN : forall k, (0 <= seconds z g p k)%Z) by (intros k; change 0%Z with (seconds z g p 0) at 1; apply seconds_le; lia).
  assert (LT : forall k, (seconds z g p k < 2 ^ 53)%Z -> Bltb (elapsed b gt pt k) sim = (seconds z g p k <? s)%Z).
  { intros k Hk. apply bltb_num with (e := 0%Z); [|exact Ns]. apply elapsed_num; auto; lia. }
  assert (ST : forall k, (seconds z g p (Datatypes.S k) <= seconds z g p k + 2 ^ 52)%Z).
  { intros k. rewrite seconds_S. destruct (k =? 0); [lia|]. destruct (Nat.even k); lia. }
  assert (BD : forall i, (forall k, k < i -> Bltb (elapsed b gt pt k) sim = true) -> (seconds z g p i < 2 ^ 53)%Z).
  { induction i as [|i IH]; intros H; [cbn; lia|]. assert (B := IH ltac:(intros k Hk; apply H; lia)). assert (L := H i ltac:(lia)). rewrite (LT i B) in L. apply Z.ltb_lt in L.
    specialize (ST i). lia. }
  destruct (C50_exactly_when S simulate ga ae jac sim b gt pt zr y0 (s / z)%Z Hf B0 Q P0) as [E1 E2].
  { intros i Hi Hk. assert (B : (seconds z g p i < 2 ^ 53)%Z) by (apply BD; intros k Hk'; apply Hk; lia).
    rewrite (beqb_num _ _ _ (elapsed_num b gt pt z g p i Nb Ng Np ltac:(lia) ltac:(lia) ltac:(lia) B)). apply Z.eqb_neq.
    destruct i as [|i]; [lia|]. assert (M := seconds_mono z g p i ltac:(lia) ltac:(lia) ltac:(lia)). specialize (NN i). lia. }
  fold n in E1, E2. split.
  - rewrite E1. split.
    + intros (j & Hj & E). destruct (first_end (fun j => Bltb (elapsed b gt pt j) sim) n) as [(j0 & Hj0 & Hi & Hl)|D]; [|rewrite (D j Hj) in E; discriminate].
      rewrite (LT j0 (BD j0 Hi)) in Hl. apply Z.ltb_ge in Hl. assert (M := seconds_le z g p j0 n ltac:(lia) ltac:(lia) ltac:(lia) Hj0). lia.
    + intros H. destruct (first_end (fun j => Bltb (elapsed b gt pt j) sim) n) as [(j0 & Hj0 & _ & Hl)|D]; [eauto|]. exfalso.
      assert (L := D n (le_n _)). rewrite LT in L by (apply BD; intros k Hk; apply D; lia). apply Z.ltb_lt in L. lia.
  - intros H. apply E2. intros j Hj. assert (M := seconds_le z g p j n ltac:(lia) ltac:(lia) ltac:(lia) Hj). rewrite LT by lia. apply Z.ltb_lt. lia.
Qed.

(* With the times in the code (3600 s, first phase 100 s, then 20 s and 10 s in
   turn) there are 36 rows and the 36 phases end after 630 s: every run ends in
   IndexError. *)
Definition f3600 : b64 := fl 7916483719987200 (-41) eq_refl.
Definition f10 : b64 := fl 5629499534213120 (-49) eq_refl.
Definition f20 : b64 := fl 5629499534213120 (-48) eq_refl.
Lemma f3600_num : is_num f3600 3600 0.
Proof.
  apply is_num_fl. cbn [bpow]. rewrite Rmult_1_r. change (bpow radix2 (-41)) with (/ IZR (2 ^ 41))%R.
  apply Rmult_eq_reg_r with (IZR (2 ^ 41)); [|apply not_0_IZR; discriminate]. rewrite Rmult_assoc, Rinv_l by (apply not_0_IZR; discriminate).
  rewrite Rmult_1_r, <- mult_IZR. apply f_equal. vm_compute. reflexivity.
Qed.
Lemma f10_num : is_num f10 10 0.
Proof.
  apply is_num_fl. cbn [bpow]. rewrite Rmult_1_r. change (bpow radix2 (-49)) with (/ IZR (2 ^ 49))%R.
  apply Rmult_eq_reg_r with (IZR (2 ^ 49)); [|apply not_0_IZR; discriminate]. rewrite Rmult_assoc, Rinv_l by (apply not_0_IZR; discriminate).
  rewrite Rmult_1_r, <- mult_IZR. apply f_equal. vm_compute. reflexivity.
Qed.
Lemma f20_num : is_num f20 20 0.
Proof.
  apply is_num_fl. cbn [bpow]. rewrite Rmult_1_r. change (bpow radix2 (-48)) with (/ IZR (2 ^ 48))%R.
  apply Rmult_eq_reg_r with (IZR (2 ^ 48)); [|apply not_0_IZR; discriminate]. rewrite Rmult_assoc, Rinv_l by (apply not_0_IZR; discriminate).
  rewrite Rmult_1_r, <- mult_IZR. apply f_equal. vm_compute. reflexivity.
Qed.

Theorem C50_refuted : forall S (simulate : solver S) gas_only aerosol_only jac zero_row y0, never_fails simulate ->
  run_split simulate gas_only aerosol_only jac f3600 f100 f10 f20 zero_row y0 = Err IndexError.
Proof.
  intros S simulate g a jac zr y0 Hf. destruct C35_hypotheses as [_ Hb].
  destruct (C50_seconds S simulate g a jac f3600 f100 f10 f20 3600 100 10 20 zr y0 Hf f3600_num Hb f10_num f20_num) as [_ H]; try lia.
  apply H. vm_compute. reflexivity.
Qed.

(* Times with enough rows: 300 s, first phase 30 s, then 200 s and 100 s in
   turn: ten rows, three phases. *)
Example C50_hypotheses : (300 <= seconds 30 100 200 (Z.to_nat (300 / 30)))%Z /\ (300 <= seconds 30 100 200 3)%Z /\ (seconds 30 100 200 2 < 300)%Z.
Proof. vm_compute. repeat split; discriminate. Qed.
(* A solver that never gives up: one that returns the state it started from. *)
Example C50_solver : never_fails (fun (pb : problem (list R)) (_ : b64) => Ok (pb_y0 pb)).
Proof. intros pb tf. eauto. Qed.

Print Assumptions C50_partial.
Print Assumptions C50_exactly_when.
Print Assumptions C50_seconds.
Print Assumptions C50_refuted.
