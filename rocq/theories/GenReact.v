(* The generated reactant products. *)
From Coq Require Import List Bool Arith Lia ZArith QArith Reals Qreals Lra.
From Verif Require Import Base PyStr PyDict ModelParse ModelLang ModelGen ModelRhs SpecMech SpecKin
  ParseStruct ParseWritten ParseTables LangFacts.
Import ListNotations.
Open Scope nat_scope.
Open Scope list_scope.

Definition stq (loss : table) (eq : nat) (r : str) : Q := match dget2 r eq loss with Some q => q | None => 0%Q end.
Definition ix (sp2a : dict str nat) (r : str) : nat := dget_or 0 r sp2a.
Definition exp_of (q : Q) : option Q := if isone q then None else Some q.
Definition rfac off sp2a loss eq r : factor := (ARef AY (ix sp2a r + off), exp_of (stq loss eq r)).
Definition real_reactants (rt : rtable) (eq : nat) : list str :=
  filter (fun r => negb (eqb r hv)) (reactants_of rt eq).
(* the tables know the reactant *)
Definition known (sp2a : dict str nat) (loss : table) eq r : Prop :=
  (exists q, dget2 r eq loss = Some q) /\ (exists i, dget r sp2a = Some i).

Lemma pr_rfac off sp2a loss eq r : pr_fac (rfac off sp2a loss eq r) = power_toks off (ix sp2a r) (stq loss eq r).
Proof.
  unfold rfac, pr_fac, power_toks, exp_of; cbn [fst snd pr_atom].
  destruct (isone (stq loss eq r)); reflexivity.
Qed.

Definition line_of (fs : list factor) : list tok :=
  match fs with [] => [] | f :: fs' => pr_fac f ++ pr_facs fs' end.

Lemma line_snoc fs f : fs <> [] -> line_of (fs ++ [f]) = line_of fs ++ TStar :: pr_fac f.
Proof.
  destruct fs as [|g fs]; [congruence|]. intros _. cbn [app line_of].
  unfold pr_facs. rewrite flat_map_app. cbn [flat_map]. rewrite app_nil_r, app_assoc. reflexivity.
Qed.

Lemma line_nil fs : line_of fs = [] -> fs = [].
Proof. destruct fs as [|[a e] fs]; [reflexivity | discriminate]. Qed.

Lemma react_fold off sp2a loss eq row fs :
  (forall r, In r (map snd row) -> r <> hv -> known sp2a loss eq r) ->
  foldM (react_step off sp2a loss eq) row (line_of fs) =
  Ok (line_of (fs ++ map (rfac off sp2a loss eq) (filter (fun r => negb (eqb r hv)) (map snd row)))).
Proof.
  revert fs; induction row as [|[j r] row IH]; intros fs Hk; cbn [foldM map filter snd].
  - rewrite app_nil_r. reflexivity.
  - unfold react_step at 1; cbn [snd]. destruct (eqb r hv) eqn:E; cbn [negb bind].
    + apply IH. intros; apply Hk; [right|]; assumption.
    + apply eqb_neq in E. destruct (Hk r (or_introl eq_refl) E) as [(q & Hq) (i & Hi)].
      rewrite Hq, Hi. cbn [key bind].
      match goal with |- foldM _ _ ?X = _ => replace X with (line_of (fs ++ [rfac off sp2a loss eq r])) end.
      * rewrite IH by (intros; apply Hk; [right|]; assumption). cbn [map]. rewrite <- app_assoc. reflexivity.
      * assert (Hp : power_toks off i q = pr_fac (rfac off sp2a loss eq r)).
        { rewrite pr_rfac. unfold stq, ix, dget_or. rewrite Hq, Hi. reflexivity. }
        rewrite Hp. destruct fs as [|f fs].
        -- cbn [app line_of]. unfold pr_facs; cbn [flat_map]. apply app_nil_r.
        -- rewrite line_snoc by discriminate. destruct (line_of (f :: fs)) eqn:El; [apply line_nil in El; discriminate|].
           reflexivity.
Qed.

Definition react_facs off sp2a loss rt eq : list factor := map (rfac off sp2a loss eq) (real_reactants rt eq).

Lemma react_line_ok off sp2a loss rt eq :
  (forall r, In r (real_reactants rt eq) -> known sp2a loss eq r) ->
  react_line off sp2a loss rt eq =
  Ok (match real_reactants rt eq with
      | [] => []
      | _ => [Assign (eq + off) (line_of (react_facs off sp2a loss rt eq))]
      end).
Proof.
  intros Hk. unfold react_line. change (@nil tok) with (line_of []).
  rewrite react_fold.
  - cbn [bind app]. fold (reactants_of rt eq). fold (real_reactants rt eq).
    unfold react_facs. destruct (real_reactants rt eq) as [|r rs]; [reflexivity|].
    cbn [map]. destruct (line_of _) eqn:El; [apply line_nil in El; discriminate | reflexivity].
  - intros r Hr Hne. apply Hk. unfold real_reactants. apply filter_In. split; [exact Hr|].
    apply negb_true_iff, eqb_neq, Hne.
Qed.

(* Value of a reactant product. *)
Section Val.
Variable L : lang.
Variable off : nat.
Hypothesis Hloc : forall i, loc L (i + off) = Some i.
Variable env : arr -> list R.

Lemma rfac_value sp2a loss eq r x :
  nth_error (env AY) (ix sp2a r) = Some x -> pow_ok x (stq loss eq r) ->
  (isone (stq loss eq r) = false -> lit L (stq loss eq r) == stq loss eq r) ->
  e_factor L env (rfac off sp2a loss eq r) = Some (rpow x (stq loss eq r)).
Proof.
  intros Hx Hp Hl. unfold rfac, e_factor, e_atom. rewrite Hloc, Hx. unfold exp_of.
  destruct (isone (stq loss eq r)) eqn:E.
  - apply Qeq_bool_eq in E. f_equal. rewrite (rpow_proper _ _ _ E), rpow_one. reflexivity.
  - rewrite (qpow_proper x _ _ (Hl eq_refl)). exact Hp.
Qed.

Lemma react_value sp2a loss rt eq (c : str -> R) :
  real_reactants rt eq <> [] ->
  (forall r, In r (real_reactants rt eq) ->
     nth_error (env AY) (ix sp2a r) = Some (c r) /\ pow_ok (c r) (stq loss eq r) /\
     (isone (stq loss eq r) = false -> lit L (stq loss eq r) == stq loss eq r)) ->
  value L env (line_of (react_facs off sp2a loss rt eq)) =
  Some (rprod (map (fun r => rpow (c r) (stq loss eq r)) (real_reactants rt eq))).
Proof.
  unfold react_facs. intros Hne H.
  assert (HF : Forall2 (fun f x => e_factor L env f = Some x)
    (map (rfac off sp2a loss eq) (real_reactants rt eq))
    (map (fun r => rpow (c r) (stq loss eq r)) (real_reactants rt eq))).
  { clear Hne. induction (real_reactants rt eq) as [|r rs IH]; cbn [map]; constructor.
    - destruct (H r (or_introl eq_refl)) as (H1 & H2 & H3). apply rfac_value; assumption.
    - apply IH. intros; apply H; right; assumption. }
  destruct (real_reactants rt eq) as [|r rs]; [congruence|]. cbn [map line_of] in *.
  apply (value_prod L env _ _ _ HF).
Qed.
End Val.

(* ------------------------------------------------------------------ *)
(* mapM over lines. *)
Lemma mapM_total {A B} (f : A -> res B) (g : A -> B) l :
  (forall a, In a l -> f a = Ok (g a)) -> mapM f l = Ok (map g l).
Proof.
  induction l as [|a l IH]; intros H; cbn [mapM map]; [reflexivity|].
  rewrite H by (left; reflexivity). cbn [bind]. rewrite IH by (intros; apply H; right; assumption). reflexivity.
Qed.

Lemma assigns_omp_chunks {C E} i br (ls : list (list (gitem C E))) :
  assigns (omp_chunks i br ls) = flat_map assigns ls.
Proof.
  revert i; induction ls as [|l ls IH]; intros i; cbn [omp_chunks flat_map]; [reflexivity|].
  rewrite !assigns_app, IH. destruct (i =? 0), (inb i br); reflexivity.
Qed.

Lemma assigns_omp_frame {C E} omp (ls : list (list (gitem C E))) :
  assigns (omp_frame omp ls) = flat_map assigns ls.
Proof.
  destruct omp as [br|]; cbn [omp_frame].
  - rewrite assigns_app, assigns_omp_chunks. cbn [assigns]. apply app_nil_r.
  - apply assigns_concat.
Qed.

(* The assignments of the reactant program. *)
Definition react_assigns off n sp2a loss rt : list (nat * list tok) :=
  flat_map (fun eq => match real_reactants rt eq with
                      | [] => []
                      | _ => [(eq + off, line_of (react_facs off sp2a loss rt eq))]
                      end) (seq 0 n).

Definition all_known n sp2a (loss : table) rt : Prop :=
  forall eq r, eq < n -> In r (real_reactants rt eq) -> known sp2a loss eq r.

Lemma gen_reactants_numba_ok n sp2a rt loss : all_known n sp2a loss rt ->
  exists p, gen_reactants_numba n sp2a rt loss = Ok p /\ assigns p = react_assigns 0 n sp2a loss rt.
Proof.
  intros H. unfold gen_reactants_numba.
  rewrite (mapM_total _ (fun eq => match real_reactants rt eq with
      | [] => [] | _ => [Assign (eq + 0) (line_of (react_facs 0 sp2a loss rt eq))] end)).
  - cbn [bind]. eexists; split; [reflexivity|]. rewrite assigns_concat. unfold react_assigns.
    rewrite !flat_map_concat_map, map_map. f_equal. apply map_ext. intros eq.
    destruct (real_reactants rt eq); reflexivity.
  - intros eq Heq. apply react_line_ok. intros r Hr. apply H; [|exact Hr]. apply in_seq in Heq; lia.
Qed.

Lemma gen_reactants_fortran_ok omp n sp2a rt loss : all_known n sp2a loss rt ->
  exists p, gen_reactants_fortran omp n sp2a rt loss = Ok p /\ assigns p = react_assigns 1 n sp2a loss rt.
Proof.
  intros H. unfold gen_reactants_fortran.
  rewrite (mapM_total _ (fun eq => match real_reactants rt eq with
      | [] => [] | _ => [Assign (eq + 1) (line_of (react_facs 1 sp2a loss rt eq))] end)).
  - cbn [bind]. eexists; split; [reflexivity|]. rewrite assigns_omp_frame. unfold react_assigns.
    rewrite !flat_map_concat_map, map_map. f_equal. apply map_ext. intros eq.
    destruct (real_reactants rt eq); reflexivity.
  - intros eq Heq. apply react_line_ok. intros r Hr. apply H; [|exact Hr]. apply in_seq in Heq; lia.
Qed.

Lemma In_react_assigns off n sp2a loss rt c e :
  In (c, e) (react_assigns off n sp2a loss rt) <->
  exists eq, eq < n /\ real_reactants rt eq <> [] /\ c = eq + off /\ e = line_of (react_facs off sp2a loss rt eq).
Proof.
  unfold react_assigns. rewrite in_flat_map. split.
  - intros (eq & Heq & Hin). apply in_seq in Heq. exists eq.
    destruct (real_reactants rt eq) eqn:E; [destruct Hin|].
    destruct Hin as [Heq'|[]]. injection Heq' as <- <-. rewrite <- E.
    repeat split; [lia | rewrite E; discriminate].
  - intros (eq & H1 & H2 & -> & ->). exists eq. split; [apply in_seq; lia|].
    destruct (real_reactants rt eq); [congruence | left; reflexivity].
Qed.

Lemma cell_ok off n k : off = 0 \/ off = 1 -> k < n -> cell off n (k + off) = Some k.
Proof.
  intros [->| ->] H; unfold cell, cell0, cell1; cbn [Nat.eqb].
  - rewrite Nat.add_0_r. destruct (Nat.ltb_spec k n); [reflexivity | lia].
  - replace (k + 1) with (S k) by lia. destruct (Nat.ltb_spec k n); [reflexivity | lia].
Qed.

(* Running the reactant program. *)
Lemma run_reactants (L : lang) off (env : arr -> list R) n sp2a loss rt (c : str -> R) m0 p :
  (off = 0 \/ off = 1) -> (forall i, loc L (i + off) = Some i) ->
  assigns p = react_assigns off n sp2a loss rt ->
  (forall eq r, eq < n -> In r (real_reactants rt eq) ->
     nth_error (env AY) (ix sp2a r) = Some (c r) /\ pow_ok (c r) (stq loss eq r) /\
     (isone (stq loss eq r) = false -> lit L (stq loss eq r) == stq loss eq r)) ->
  exists m', run (cell off n) (value L env) p m0 = Some m' /\
    forall k, m' k = if (k <? n) && negb (match real_reactants rt k with [] => true | _ => false end)
                     then rprod (map (fun r => rpow (c r) (stq loss k r)) (real_reactants rt k))
                     else m0 k.
Proof.
  intros Hoff Hloc Hp H. rewrite run_is_assigns, Hp.
  destruct (run_assigns_ok (cell off n) (value L env) (react_assigns off n sp2a loss rt) m0) as (m' & Hr & Ho & Hw).
  - apply Forall_forall. intros [c0 e] Hin. apply In_react_assigns in Hin as (eq & Hlt & Hne & -> & ->).
    exists eq. eexists. cbn [fst snd]. split; [apply cell_ok; assumption|].
    apply (react_value L off Hloc env sp2a loss rt eq c Hne). intros r Hr; apply H; assumption.
  - exists m'. split; [exact Hr|]. intros k.
    destruct (Nat.ltb_spec k n) as [Hlt|Hge]; cbn [andb].
    + destruct (real_reactants rt k) eqn:E; cbn [negb].
      * apply Ho. intros c0 e Hin. apply In_react_assigns in Hin as (eq & Hlt' & Hne & -> & ->).
        rewrite cell_ok by assumption. intros Heq; injection Heq as ->. congruence.
      * rewrite <- E.
        apply (Hw) with (c := k + off) (e := line_of (react_facs off sp2a loss rt k)).
        -- intros c1 e1 c2 e2 d H1 H2 Hd1 Hd2.
           apply In_react_assigns in H1 as (q1 & Hq1 & _ & -> & ->).
           apply In_react_assigns in H2 as (q2 & Hq2 & _ & -> & ->).
           rewrite cell_ok in Hd1, Hd2 by assumption. congruence.
        -- apply In_react_assigns. exists k. repeat split; [exact Hlt | rewrite E; discriminate].
        -- apply cell_ok; assumption.
        -- apply (react_value L off Hloc env sp2a loss rt k c); [rewrite E; discriminate|].
           intros r Hr'; apply H; assumption.
    + apply Ho. intros c0 e Hin. apply In_react_assigns in Hin as (eq & Hlt' & Hne & -> & ->).
      rewrite cell_ok by assumption. intros Heq; injection Heq as ->. lia.
Qed.

(* ------------------------------------------------------------------ *)
(* Instances for the parsed tables. *)
Definition coefs_ok (m : mech) : Prop :=
  Forall (fun r => Forall (fun t : term => 0 <= fst t)%Q (lhs r ++ rhs r)) m.

Lemma reactants_of_interp m k r : nth_error m k = Some r ->
  reactants_of (p_reac (interp m)) k = names (lhs r).
Proof.
  intros Hr. unfold reactants_of, row_of, dget_or. rewrite interp_reac, Hr. unfold slots_entry.
  rewrite <- (map_snd_slots 0 (lhs r)). change (slots_from 0 (lhs r)) with (reactant_slots r).
  destruct (reactant_slots r); reflexivity.
Qed.

Lemma reactants_of_none m k : nth_error m k = None -> reactants_of (p_reac (interp m)) k = [].
Proof. intros Hr. unfold reactants_of, row_of, dget_or. rewrite interp_reac, Hr. reflexivity. Qed.

Lemma real_reactants_interp m k r : nth_error m k = Some r ->
  real_reactants (p_reac (interp m)) k = names (lhs r).
Proof.
  intros Hr. unfold real_reactants. rewrite (reactants_of_interp m k r Hr).
  assert (H : forall x, In x (names (lhs r)) -> negb (eqb x hv) = true).
  { intros x Hx. apply negb_true_iff, eqb_neq. intros ->. rewrite <- light_hv in Hx. apply (names_not_light _ Hx). }
  induction (names (lhs r)) as [|x l IH]; cbn [filter]; [reflexivity|].
  rewrite H by (left; reflexivity). rewrite IH by (intros; apply H; right; assumption). reflexivity.
Qed.

Lemma stq_interp m k r s : nth_error m k = Some r ->
  stq (p_loss (interp m)) k s == (if inb s (names (lhs r)) then total s (lhs r) else 0)%Q.
Proof.
  intros Hr. unfold stq. assert (H := interp_loss m s k). rewrite Hr in H.
  destruct (dget2 s k (p_loss (interp m))) as [q|]; cbn [entry_ok] in H.
  - destruct H as [H1 H2]. apply inb_In in H1. rewrite H1. exact H2.
  - apply inb_nIn in H. rewrite H. reflexivity.
Qed.

Lemma known_interp m k r s : nth_error m k = Some r -> In s (names (lhs r)) ->
  known (p_sp2a (interp m)) (p_loss (interp m)) k s.
Proof.
  intros Hr Hs. split.
  - assert (H := interp_loss m s k). rewrite Hr in H.
    destruct (dget2 s k (p_loss (interp m))) as [q|]; [eauto | contradiction].
  - assert (Hin : In s (species m)).
    { apply species_In. apply In_names in Hs as [H1 H2]. split; [exact H1|]. exists r.
      split; [eapply nth_error_In, Hr | apply in_or_app; left; exact H2]. }
    apply In_nth_error in Hin as (i & Hi). exists i. apply interp_sp2a, Hi.
Qed.

Lemma all_known_interp m : all_known (List.length m) (p_sp2a (interp m)) (p_loss (interp m)) (p_reac (interp m)).
Proof.
  intros k s Hk Hs. destruct (nth_error m k) as [r|] eqn:E; [|apply nth_error_None in E; lia].
  rewrite (real_reactants_interp m k r E) in Hs. eapply known_interp; eassumption.
Qed.

Lemma total_nonneg' s ts : Forall (fun t : term => 0 <= fst t)%Q ts -> (0 <= total s ts)%Q.
Proof.
  induction 1 as [|[c n] ts H _ IH]; cbn [total]; [discriminate|].
  destruct (str_eqb n s); [|exact IH]. cbn [fst] in H.
  setoid_replace 0%Q with (0 + 0)%Q by reflexivity. apply Qplus_le_compat; assumption.
Qed.
