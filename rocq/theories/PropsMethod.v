(* C68: linear conserved quantities along a batched run. *)
From Coq Require Import String List Bool Arith Lia ZArith QArith Reals Lra.
From Flocq Require Import Core BinarySingleNaN.
From Verif Require Import Base PyStr PyDict ModelParse SpecMech ParseStruct ParseTables ParseWritten ParseShow PropsParse ModelLang ModelGen GenParsed ModelRhs
  SpecKin LangFacts PropsKin PropsRhs ModelExpr ModelRate ModelRateFile ModelRateBody ModelRateRun RateSym ModelRo2 SpecRo2 PropsRo2 ModelGas SpecGas PropsGas SolverFacts ModelSplit PropsSplit
  ModelSolver SpecSolver PropsSolver SpecMethod.
Import ListNotations.
Import Coq.Lists.List.
Open Scope nat_scope.
Open Scope list_scope.

Lemma amount_lin (q : quantity) n (past slopes : list (R * list R)) y : Forall (fun a => snd a < n) q ->
  (forall i, i < n -> nth i y 0%R = (combination past i + combination slopes i)%R) ->
  amount_of q y = (rsum (map (fun p => fst p * amount_of q (snd p)) past) + rsum (map (fun p => fst p * amount_of q (snd p)) slopes))%R.
Proof.
  intros F E. unfold amount_of. induction q as [|[c i] q IH].
  - cbn. rewrite !rsum_zero by (intros p _; cbn; ring). ring.
  - inversion F as [|? ? Hi F']; subst. cbn [fst snd] in Hi. cbn [map rsum fst snd]. rewrite (IH F'), (E i Hi). clear.
    assert (G : forall l : list (R * list R), rsum (map (fun p => fst p * (c * nth i (snd p) 0 + rsum (map (fun p0 => fst p0 * nth (snd p0) (snd p) 0) q)))%R l) =
       (c * combination l i + rsum (map (fun p => fst p * rsum (map (fun p0 => fst p0 * nth (snd p0) (snd p) 0) q))%R l))%R).
    { unfold combination. induction l as [|p l IHl]; [cbn; ring|]. cbn [map rsum]. rewrite IHl. ring. }
    rewrite !G. ring.
Qed.

(* A method of this kind keeps every linear quantity that f keeps. *)
Lemma computed_keeps f y0 (q : quantity) : Forall (fun a => snd a < List.length y0) q ->
  (forall t z d, List.length z = List.length y0 -> f t z = Ok d -> amount_of q d = 0%R) -> forall y, computed f y0 y -> amount_of q y = amount_of q y0.
Proof.
  intros F C y H. induction H as [|past slopes y Hp IH Hs Hd L E]; [reflexivity|].
  rewrite (amount_lin q (List.length y0) past slopes y F E).
  assert (A : rsum (map (fun p => fst p * amount_of q (snd p))%R past) = (rsum (map fst past) * amount_of q y0)%R).
  { clear - IH. induction past as [|p past IHp]; [cbn; ring|]. cbn [map rsum]. rewrite IHp by (intros p' Hp'; apply IH; right; exact Hp'). rewrite (IH p (or_introl eq_refl)). ring. }
  rewrite A, Hs. rewrite (rsum_zero _ slopes); [ring|]. intros p Hin. destruct (Hd p Hin) as (t & z & Lz & Hz). rewrite (C t z _ Lz Hz). ring.
Qed.
Lemma computed_length f y0 y : computed f y0 y -> List.length y = List.length y0.
Proof. destruct 1; [reflexivity | assumption]. Qed.

Section Run.
Context (simulate : solver (list R)) (rhs_at : b64 -> list R -> res (list R)) (jac_at : b64 -> list R -> res (nat * nat -> R)) (start_time sim b : b64) (zr : list R).
Context (M : linear_method simulate).

Lemma loop_keeps (q : quantity) (n : nat) (A : R) : Forall (fun a => snd a < n) q -> (forall t z d, List.length z = n -> rhs_at t z = Ok d -> amount_of q d = 0%R) ->
  forall rows total y out ts ys, List.length y = n -> amount_of q y = A -> (forall o, out = Some o -> List.length o = n /\ amount_of q o = A) ->
  loop simulate rhs_at jac_at start_time sim b zr rows total y out = Ok (ts, ys) ->
  forall k r, k < List.length ts -> nth_error ys k = Some r -> List.length r = n /\ amount_of q r = A.
Proof.
  intros F C. induction rows as [|rows IH]; intros total y out ts ys Ly Ay Ho H k r Hk Hr; cbn [loop] in H; destruct (Bltb total sim).
  - apply bind_Ok in H as (y0 & _ & H). apply bind_Ok in H as (y1 & _ & H). discriminate.
  - injection H as <- _. cbn in Hk. lia.
  - apply bind_Ok in H as (y0 & H0 & H). apply bind_Ok in H as (y1 & H1 & H). apply bind_Ok in H as (rr & H2 & H). injection H as <- <-.
    assert (S0 : List.length y0 = n /\ amount_of q y0 = A).
    { destruct (Beqb total fzero); [injection H0 as <-; auto|]. destruct out as [o|]; [|discriminate]. injection H0 as <-. apply Ho. reflexivity. }
    assert (S1 : List.length y1 = n /\ amount_of q y1 = A).
    { apply M in H1. cbn [pb_rhs pb_y0] in H1. split; [rewrite (computed_length _ _ _ H1); apply S0|].
      rewrite (computed_keeps _ y0 q) with (3 := H1); [apply S0 | rewrite (proj1 S0); exact F|]. intros t z d Lz. apply C. rewrite Lz. apply S0. }
    destruct k as [|k]; [injection Hr as <-; exact S1|]. cbn [List.length nth_error] in Hk, Hr. destruct rr as [ts' ys'].
    apply (IH (fadd total b) y0 (Some y1) ts' ys') with (k := k); [apply S0 | apply S0 | intros o E; injection E as <-; exact S1 | exact H2 | cbn in Hk; lia | exact Hr].
  - injection H as <- _. cbn in Hk. lia.
Qed.

(* Every row the run fills has the amount it started with. *)
Theorem C68_rows (q : quantity) y0 ts ys : Forall (fun a => snd a < List.length y0) q -> (forall t z d, List.length z = List.length y0 -> rhs_at t z = Ok d -> amount_of q d = 0%R) ->
  run_batches simulate rhs_at jac_at start_time sim b zr y0 = Ok (ts, ys) ->
  forall k r, k < List.length ts -> nth_error ys k = Some r -> amount_of q r = amount_of q y0.
Proof.
  intros F C H k r Hk Hr. unfold run_batches in H. apply bind_Ok in H as (x & _ & H). apply bind_Ok in H as (n & _ & H). destruct (n <? 0)%Z; [discriminate|].
  apply (loop_keeps q (List.length y0) (amount_of q y0) F C (Z.to_nat n) fzero y0 None ts ys eq_refl eq_refl ltac:(discriminate) H k r Hk Hr).
Qed.
End Run.

(* ODE_solver.py:70-108 at the clock time start_time+t. *)
Definition gas_rhs_at (st : pstate) (n : nat) (H2O temp : R) (clock : b64) (y : list R) : res (list R) :=
  match gas_dydt_numba st n (B2R clock) 0 H2O temp y with Some d => Ok d | None => Err ValueError end.

(* Atoms of one kind (or mass, or charge): [w s] of them in a molecule of s. *)
Definition atoms (w : str -> R) (sp2a : dict str nat) : quantity := map (fun p => (w (fst p), snd p)) sp2a.

(* C68, gas phase: if every reaction of the mechanism is balanced in w, then
   every row of the output has as many atoms as the initial state, whatever the
   rates and the times. *)
Theorem C68_gas_partial : forall m text st w simulate jac_at start_time H2O temp conc sim b ts ys, written m text ->
  extract_mechanism text = Ok (Z.of_nat (List.length m), st) -> Forall products_safe m ->
  Forall (fun r => weight w (lhs r) = weight w (rhs r)) m -> w light = 0%R -> (forall x, In x bath -> w x = 0%R) ->
  linear_method simulate ->
  run_simulation simulate (gas_rhs_at st (List.length m) H2O temp) jac_at start_time (p_sp st) (p_sp2a st) conc sim b = Ok (ts, ys) ->
  exists y0, initial_state (List.length (p_sp st)) (p_sp2a st) conc = Ok y0 /\
    forall k r, k < List.length ts -> nth_error ys k = Some r ->
      amount_of (atoms w (p_sp2a st)) r = amount_of (atoms w (p_sp2a st)) y0.
Proof.
  intros m text st w simulate jac_at t0 H2O temp conc sim b ts ys W Hst Hs Hw Hl Hb M H.
  unfold run_simulation in H. apply bind_Ok in H as (y0 & H0 & H). exists y0. split; [exact H0|].
  assert (Est : st = interp m) by (assert (X := written_extract _ _ W); congruence).
  assert (Lsp : List.length (p_sp st) = species_count st) by (subst st; unfold species_count; destruct (interp_species m) as (E1 & E2 & _); rewrite E1, E2, !combine_length, seq_length; lia).
  assert (L0 : List.length y0 = species_count st).
  { rewrite <- Lsp. unfold initial_state in H0. revert H0. assert (G : forall c y r, foldM (set_initial (p_sp2a st)) c y = Ok r -> List.length r = List.length y).
    { induction c as [|x c IH]; intros y r Hr; cbn [foldM] in Hr; [congruence|]. apply bind_Ok in Hr as (y1 & H1 & Hr). rewrite (IH _ _ Hr). unfold set_initial in H1.
      destruct (dget (fst x) (p_sp2a st)) as [i|]; [|discriminate]. destruct (i <? List.length y); [|discriminate]. injection H1 as <-. apply set_nth_len. }
    intros H0. rewrite (G _ _ _ H0). apply repeat_length. }
  intros k r Hk Hr. refine (C68_rows simulate (gas_rhs_at st (List.length m) H2O temp) jac_at t0 sim b _ M (atoms w (p_sp2a st)) y0 ts ys _ _ H k r Hk Hr).
  - unfold atoms. apply Forall_forall. intros a Ha. apply in_map_iff in Ha as ([s i] & <- & Hin). cbn [snd]. rewrite L0. subst st.
    unfold species_count. apply In_sp2a in Hin. assert (Y : nth_error (species m) i <> None) by (rewrite Hin; discriminate). apply nth_error_Some in Y. destruct (interp_species m) as (_ & E2 & _). rewrite E2, combine_length, seq_length. lia.
  - intros t z d Lz Hz. unfold gas_rhs_at in Hz. destruct (gas_dydt_numba st (List.length m) (B2R t) 0 H2O temp z) as [d'|] eqn:E; [|discriminate]. injection Hz as ->.
    unfold gas_dydt_numba in E. destruct (RO2_sum _ z) as [RO2|]; [|discriminate]. destruct (gen_reactants_numba _ _ _ _) as [p1|] eqn:G1; [|discriminate].
    destruct (numba_run _ RO2 H2O temp) as [en|]; [|discriminate]. cbn [obind] in E. destruct (returned _ _) as [rates|] eqn:Er in E; [|discriminate]. cbn [obind] in E.
    unfold rhs_numba in E. destruct (reactants_numba p1 _ z) as [c|] eqn:Ec; [|discriminate].
    assert (A := C17_partial m text st w W Hst Hs Hw Hl Hb (multiply c rates) d). unfold amount_of, atoms. rewrite map_map. apply A; [|rewrite <- L0, <- Lz; exact E].
    unfold multiply. rewrite map_length, combine_length. unfold reactants_numba, returned in Ec, Er.
    destruct (run _ _ p1 zeros); [|discriminate]. injection Ec as <-. destruct (run _ _ _ zeros) in Er; [|discriminate]. injection Er as <-. unfold array. rewrite !map_length, !seq_length. lia.
Qed.

(* One step of Euler's method is linear; and with it a run of the mechanism of
   C59_hypotheses, balanced in nitrogen and in carbon, comes to its end. *)
Definition explicit_euler : solver (list R) := fun pb tf =>
  do d <- pb_rhs pb (pb_t0 pb) (pb_y0 pb);
  Ok (map (fun i => nth i (pb_y0 pb) 0 + B2R tf * nth i d 0)%R (seq 0 (List.length (pb_y0 pb)))).
Lemma explicit_euler_linear : linear_method explicit_euler.
Proof.
  intros pb tf y1 H. unfold explicit_euler in H. apply bind_Ok in H as (dd & Hd & H).
  assert (E : y1 = map (fun i => nth i (pb_y0 pb) 0 + B2R tf * nth i dd 0)%R (seq 0 (List.length (pb_y0 pb)))) by congruence. clear H.
  apply (c_step _ _ [(1%R, pb_y0 pb)] [(B2R tf, dd)]).
  - intros p [<-|[]]. apply c_start.
  - cbn. ring.
  - intros p [<-|[]]. exists (pb_t0 pb), (pb_y0 pb). split; [reflexivity | exact Hd].
  - rewrite E, map_length, seq_length. reflexivity.
  - intros i Hi. rewrite E. unfold combination. cbn [map rsum fold_right fst snd]. rewrite Rmult_1_l, !Rplus_0_r. apply nth_error_nth.
    rewrite nth_error_map, (nth_error_nth' _ 0) by (rewrite seq_length; exact Hi). rewrite seq_nth by exact Hi. reflexivity.
Qed.

Definition carbons (s : str) : R := if inb s [s_ "CH3O2"; s_ "CH3O"; s_ "HCHO"; s_ "CO"] then 1%R else 0%R.
Example C68_hypotheses : written gas_mech (ParseShow.show gas_words) /\ Forall products_safe gas_mech /\
  Forall (fun r => weight carbons (lhs r) = weight carbons (rhs r)) gas_mech /\ carbons light = 0%R /\ (forall b, In b bath -> carbons b = 0%R) /\
  linear_method explicit_euler /\
  exists st, extract_mechanism (ParseShow.show gas_words) = Ok (3%Z, st) /\
    exists ts r, run_simulation explicit_euler (gas_rhs_at st 3 1e17 298) (fun _ _ => Err ValueError) f43200 (p_sp st) (p_sp2a st)
      [(s_ "CH3O2", 2%R); (s_ "HCHO", 3%R)] f3600 f3600 = Ok (ts, [r]) /\ List.length ts = 1.
Proof.
  destruct C59_hypotheses as (W & P & D & _ & _ & PC & Co). split; [exact W|]. split; [exact P|].
  split. { repeat (apply Forall_cons; [|]); [..|constructor]; unfold weight; cbn; unfold Q2R, carbons; cbn; field. }
  split; [reflexivity|]. split; [intros b [<-|[<-|[<-|[]]]]; reflexivity|]. split; [apply explicit_euler_linear|].
  destruct (C59_partial gas_mech _ gas_expr W P D PC) as (st & E & Run). exists st. split; [exact E|].
  assert (Est : st = interp gas_mech) by (assert (X := written_extract _ _ W); congruence).
  assert (Q : exists y0, initial_state (List.length (p_sp st)) (p_sp2a st) [(s_ "CH3O2", 2%R); (s_ "HCHO", 3%R)] = Ok y0 /\ List.length y0 = List.length (first_seen (reading_order gas_mech)) /\ nonneg y0).
  { rewrite Est. eexists. split; [vm_compute; reflexivity|]. split; [vm_compute; reflexivity|]. repeat constructor; lra. }
  destruct Q as (y0 & H0 & L0 & N0).
  unfold run_simulation. rewrite H0. cbn [bind].
  destruct (Co (B2R (fadd f43200 fzero) + 0)%R (peroxy_total (first_seen (reading_order gas_mech)) (conc_of (p_sp2a st) y0)) 1e17%R 298%R ltac:(lra)) as (v & Hv).
  destruct (Run (B2R (fadd f43200 fzero)) 0%R 1e17%R 298%R y0 v ltac:(lra) ltac:(lra) L0 N0 Hv) as (dy & Hdy & _).
  assert (B := f3600_num). destruct (quotient_exact f3600 f3600 3600 1 0 B B ltac:(lia) ltac:(lia)) as [E1 E2].
  unfold run_batches. rewrite E1. cbn [bind]. rewrite E2. cbn [bind]. change (Z.of_nat 1 <? 0)%Z with false. cbv iota. change (Z.to_nat (Z.of_nat 1)) with 1. cbn [loop].
  rewrite (bltb_num fzero f3600 0 3600 0 (fzero_num 0) B). change (0 <? 3600)%Z with true. cbv iota.
  rewrite (beqb_num fzero 0 0 (fzero_num 0)). change (0 =? 0)%Z with true. cbv iota. cbn [bind].
  unfold explicit_euler at 1. cbn [pb_rhs pb_y0 pb_t0].
  assert (G : gas_rhs_at st 3 1e17 298 (fadd f43200 fzero) y0 = Ok dy) by (unfold gas_rhs_at; change (gas_dydt_numba st 3) with (gas_dydt_numba st (List.length gas_mech)); rewrite Hdy; reflexivity).
  unfold dydt_func. rewrite G. cbn [bind].
  assert (FA := fadd_exact fzero f3600 0 3600 0 (fzero_num 0) B ltac:(cbn; lia) ltac:(lia) ltac:(cbn [bpow]; rewrite Rmult_1_r; apply small_int_bound; cbn; lia)).
  assert (E3 : Bltb (fadd fzero f3600) f3600 = false) by (rewrite (bltb_num _ _ _ _ _ FA B); reflexivity).
  rewrite E3. cbn [bind fst snd repeat]. eexists _, _. split; reflexivity.
Qed.
Print Assumptions C68_rows. Print Assumptions C68_gas_partial.
