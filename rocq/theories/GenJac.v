(* The generated Jacobian: what each entry evaluates to, for every iteration
   order of the sets, both languages and any OpenMP frame. *)
From Coq Require Import String List Bool Arith Lia Permutation ZArith QArith Reals Qreals Lra.
From Verif Require Import Base PyStr PyDict ModelParse ModelLang ModelGen ModelRhs SpecMech SpecKin
  ParseStruct ParseWritten ParseTables LangFacts GenReact GenLossGain GenParsed.
Import ListNotations.
Import Coq.Lists.List.
Open Scope nat_scope.
Open Scope list_scope.

Lemma rprod_perm' l l' : Permutation l l' -> rprod l = rprod l'.
Proof. induction 1; cbn [rprod]; [reflexivity | rewrite IHPermutation; reflexivity | ring | congruence]. Qed.

Definition isnil {A} (l : list A) : bool := match l with [] => true | _ => false end.
Definition one_f : factor := (ANum 1%Q, None).
(* the literal 1.0 that opens a product which does not start with a number *)
Definition lead1 (fs : list factor) : factor * list factor :=
  match fs with
  | (ARef a i, e) :: _ => (one_f, fs)
  | f :: fs' => (f, fs')
  | [] => (one_f, [])
  end.
Definition sgn (neg : bool) : tok := if neg then TMinus else TPlus.
Definition jline (neg : bool) (fs : list factor) : list tok :=
  match fs with [] => [] | _ => sgn neg :: pr_fac (fst (lead1 fs)) ++ pr_facs (snd (lead1 fs)) end.

Lemma pr_facs_app a b : pr_facs (a ++ b) = pr_facs a ++ pr_facs b.
Proof. apply flat_map_app. Qed.

Lemma jline_app neg fs gs : fs <> [] -> jline neg (fs ++ gs) = jline neg fs ++ pr_facs gs.
Proof.
  intros H. destruct fs as [|[[q|a i] e] fs]; [congruence|..]; cbn [app jline lead1 fst snd].
  - rewrite pr_facs_app. rewrite <- !app_assoc. cbn [app]. rewrite <- ?app_assoc. reflexivity.
  - change ((ARef a i, e) :: fs ++ gs) with (((ARef a i, e) :: fs) ++ gs). rewrite pr_facs_app.
    rewrite <- !app_assoc. cbn [app]. rewrite <- ?app_assoc. reflexivity.
Qed.

Section J.
Variable off : nat.
Variable sp2a : dict str nat.
Variable rt : rtable.
Variable loss gain : table.
Variable ord : set_order.
Variable conts : bool.
Hypothesis Hord : is_set_order ord.
Hypothesis HK : forall k x, In x (reactants_of rt k) -> known sp2a loss k x /\ x <> hv.

Definition jfacs (eq : nat) (x : str) (x2 : str) : list factor :=
  let sf := stq loss eq x in
  if eqb x2 hv then []
  else if eqb x2 x then
    if isone sf then []
    else if Qeq_bool sf 2 then [(ANum sf, None); (ARef AY (ix sp2a x2 + off), None)]
    else if Qle_bool sf 2 then []
    else [(ANum sf, None); (ARef AY (ix sp2a x2 + off), Some (sf - 1)%Q)]
  else [rfac off sp2a loss eq x2].

Lemma jac_fold neg eq x xs fs :
  (forall x2, In x2 xs -> x2 <> hv -> known sp2a loss eq x2) ->
  foldM (jac_factor off sp2a loss (sgn neg) eq x (stq loss eq x)) xs (isnil fs, jline neg fs) =
  Ok (isnil (fs ++ flat_map (jfacs eq x) xs), jline neg (fs ++ flat_map (jfacs eq x) xs)).
Proof.
  revert fs; induction xs as [|x2 xs IH]; intros fs Hk; cbn [foldM flat_map].
  - rewrite app_nil_r. reflexivity.
  - assert (Hstep : jac_factor off sp2a loss (sgn neg) eq x (stq loss eq x) (isnil fs, jline neg fs) x2 =
                    Ok (isnil (fs ++ jfacs eq x x2), jline neg (fs ++ jfacs eq x x2))).
    { unfold jac_factor, jfacs. destruct (eqb x2 hv) eqn:Eh; [rewrite app_nil_r; reflexivity|].
      apply eqb_neq in Eh. destruct (Hk x2 (or_introl eq_refl) Eh) as [(q & Hq) (i & Hi)].
      assert (Ei : ix sp2a x2 = i) by (unfold ix, dget_or; rewrite Hi; reflexivity).
      destruct (eqb x2 x) eqn:Ex.
      - destruct (isone (stq loss eq x)) eqn:E1; [rewrite app_nil_r; reflexivity|].
        rewrite Hi, Ei. cbn [key bind].
        destruct (Qeq_bool (stq loss eq x) 2) eqn:E2.
        + destruct fs as [|f fs]; [reflexivity|]. rewrite (jline_app neg (f :: fs)) by discriminate. reflexivity.
        + destruct (Qle_bool (stq loss eq x) 2) eqn:E3; [rewrite app_nil_r; reflexivity|].
          destruct fs as [|f fs]; [reflexivity|]. rewrite (jline_app neg (f :: fs)) by discriminate. reflexivity.
      - rewrite Hq, Hi. cbn [key bind].
        assert (Hp : power_toks off i q = pr_fac (rfac off sp2a loss eq x2)).
        { rewrite pr_rfac. unfold stq. rewrite Hq, Ei. reflexivity. }
        rewrite Hp. destruct fs as [|f fs].
        + cbn [app isnil jline lead1 rfac fst snd]. f_equal. f_equal. cbn [app pr_fac one_f fst snd pr_atom pr_exp pr_facs flat_map].
          rewrite app_nil_r. reflexivity.
        + rewrite (jline_app neg (f :: fs)) by discriminate. cbn [isnil app pr_facs flat_map].
          rewrite app_nil_r. reflexivity. }
    rewrite Hstep. cbn [bind]. rewrite IH by (intros; apply Hk; [right|]; assumption).
    rewrite <- app_assoc. reflexivity.
Qed.

Definition term_facs (s x : str) (gainp : bool) (eq : nat) : list factor :=
  flat_map (jfacs eq x) (ord (SiteEq s x eq gainp) (reactants_of rt eq)) ++ [(ARef AR (eq + off), None)].

Lemma jac_term_ok neg s x gainp eq : In x (reactants_of rt eq) ->
  jac_term off sp2a rt loss ord (sgn neg) s x gainp eq = Ok (jline neg (term_facs s x gainp eq)).
Proof.
  intros Hx. unfold jac_term. destruct (HK eq x Hx) as [[(q & Hq) _] _].
  rewrite Hq. cbn [key bind].
  assert (Esf : q = stq loss eq x) by (unfold stq; rewrite Hq; reflexivity). rewrite Esf.
  change (true, @nil tok) with (isnil (@nil factor), jline neg []).
  rewrite jac_fold.
  - cbn [bind app]. unfold term_facs. set (fs := flat_map _ _). f_equal.
    destruct fs as [|f fs]; [destruct neg; reflexivity|]. cbn [isnil].
    rewrite (jline_app neg (f :: fs)) by discriminate. reflexivity.
  - intros x2 H2 _. apply HK. apply (Hord (SiteEq s x eq gainp)), H2.
Qed.

(* Printed terms of a row entry. *)
Fixpoint jsterms (neg : bool) (s x : str) (gainp : bool) (flag : nat) (eqs : list nat) : list sterm * nat :=
  match eqs with
  | [] => ([], flag)
  | eq :: eqs' =>
      if inb x (reactants_of rt eq) then
        let rest := jsterms neg s x gainp (S (snd (cont 3 flag))) eqs' in
        ((conts && negb (isnil (fst (cont 3 flag))), (neg, lead1 (term_facs s x gainp eq))) :: fst rest, snd rest)
      else jsterms neg s x gainp flag eqs'
  end.

Lemma jac_terms_ok neg s x gainp flag eqs :
  jac_terms off sp2a rt loss ord conts (sgn neg) s x gainp flag eqs =
  Ok (pr_terms (fst (jsterms neg s x gainp flag eqs)), snd (jsterms neg s x gainp flag eqs)).
Proof.
  revert flag; induction eqs as [|eq eqs IH]; intros flag; cbn [jac_terms jsterms]; [reflexivity|].
  destruct (inb x (reactants_of rt eq)) eqn:E; [|apply IH].
  apply inb_In in E. destruct (cont 3 flag) as [c flag1] eqn:Ec. rewrite (jac_term_ok _ _ _ _ _ E). cbn [bind snd fst].
  rewrite IH. cbn [bind]. f_equal. f_equal. unfold pr_terms. cbn [flat_map pr_term fst snd].
  destruct (lead1 (term_facs s x gainp eq)) as [f fs] eqn:El.
  assert (Ej : jline neg (term_facs s x gainp eq) = sgn neg :: pr_fac f ++ pr_facs fs).
  { unfold jline. rewrite El. cbn [fst snd].
    destruct (term_facs s x gainp eq) eqn:Et; [|reflexivity].
    unfold term_facs in Et. destruct (flat_map _ _); discriminate. }
  rewrite Ej. 
  assert (Hc : (if conts then c else []) = (if conts && negb (isnil c) then [TCont] else [])).
  { unfold cont in Ec. destruct (3 <? flag); injection Ec as <- _; destruct conts; reflexivity. }
  rewrite Hc. unfold sgn. rewrite <- !app_assoc. cbn [app]. rewrite <- ?app_assoc. reflexivity.
Qed.

Definition cols (s : str) : list str :=
  ord (SiteFinal s) (ord (SiteLoss s) (flat_map (reactants_of rt) (dkeys (srow s loss))) ++
                     ord (SiteGain s) (flat_map (reactants_of rt) (dkeys (srow s gain)))).

Lemma cols_In s x : In x (cols s) <->
  exists k, (In k (dkeys (srow s loss)) \/ In k (dkeys (srow s gain))) /\ In x (reactants_of rt k).
Proof.
  unfold cols. rewrite (proj2 (Hord _ _)), in_app_iff, !(proj2 (Hord _ _)), !in_flat_map. split.
  - intros [(k & H1 & H2)|(k & H1 & H2)]; exists k; auto.
  - intros (k & [H1|H1] & H2); [left | right]; exists k; auto.
Qed.

Lemma cols_NoDup s : NoDup (cols s).
Proof. apply Hord. Qed.

Definition entry_terms (s x : str) : list sterm :=
  let l := jsterms true s x false 0 (dkeys (srow s loss)) in
  fst l ++ fst (jsterms false s x true (snd l) (dkeys (srow s gain))).

Lemma jac_row_ok s i : jac_row off sp2a rt loss gain ord conts (s, i) =
  Ok (if inb s excluded then []
      else map (fun x => Assign (i + off, ix sp2a x + off) (pr_terms (entry_terms s x))) (cols s)).
Proof.
  unfold jac_row. destruct (inb s excluded); [reflexivity|]. fold (cols s). apply mapM_total.
  intros x Hx. apply cols_In in Hx as (k & _ & Hk). destruct (HK k x Hk) as [[_ (j & Hj)] _].
  rewrite Hj. cbn [key bind]. change TMinus with (sgn true). change TPlus with (sgn false).
  rewrite jac_terms_ok. cbn [bind]. rewrite jac_terms_ok. cbn [bind].
  unfold ix, dget_or. rewrite Hj. unfold entry_terms, pr_terms. rewrite flat_map_app. reflexivity.
Qed.

Definition jac_assigns : list ((nat * nat) * list tok) :=
  flat_map (fun p => if inb (fst p) excluded then []
    else map (fun x => ((snd p + off, ix sp2a x + off), pr_terms (entry_terms (fst p) x))) (cols (fst p))) sp2a.

Lemma In_jac_assigns c e : In (c, e) jac_assigns <->
  exists s i x, In (s, i) sp2a /\ inb s excluded = false /\ In x (cols s) /\
    c = (i + off, ix sp2a x + off) /\ e = pr_terms (entry_terms s x).
Proof.
  unfold jac_assigns. rewrite in_flat_map. split.
  - intros ([s i] & Hs & H). cbn [fst snd] in H. destruct (inb s excluded) eqn:E; [destruct H|].
    apply in_map_iff in H as (x & Hx & Hin). injection Hx as <- <-. exists s, i, x. auto.
  - intros (s & i & x & Hs & E & Hx & -> & ->). exists (s, i). split; [exact Hs|]. cbn [fst snd]. rewrite E.
    apply in_map_iff. exists x. auto.
Qed.

(* ------------------------------------------------------------------ *)
(* Values. *)
Variable L : lang.
Variable env : arr -> list R.
Variable n : nat.
Variable c : str -> R.
Hypothesis Hloc : forall i, loc L (i + off) = Some i.
Hypothesis Hr : List.length (env AR) = n.
Hypothesis Hone : lit L 1 == 1.
(* number of equations; values, powers and literals of the reactants *)
Definition reactant_ok : Prop := forall k x, In x (reactants_of rt k) ->
  k < n /\ nth_error (env AY) (ix sp2a x) = Some (c x) /\
  pow_ok (c x) (stq loss k x) /\
  (isone (stq loss k x) = false -> lit L (stq loss k x) == stq loss k x) /\
  (Qle_bool (stq loss k x) 2 = false -> pow_ok (c x) (stq loss k x - 1) /\ lit L (stq loss k x - 1) == (stq loss k x - 1)%Q).
Hypothesis HR : reactant_ok.

(* derivative factor written for the reactant itself *)
Definition jd (q : Q) (x : R) : R :=
  if isone q then 1%R else if Qeq_bool q 2 then (Q2R q * x)%R
  else if Qle_bool q 2 then 1%R else (Q2R q * rpow x (q - 1))%R.
Definition jv (k : nat) (x x2 : str) : R :=
  if eqb x2 x then jd (stq loss k x) (c x) else rpow (c x2) (stq loss k x2).
Definition jprod (k : nat) (x : str) : R := rprod (map (jv k x) (first_seen (reactants_of rt k))).

Lemma jfacs_value k x x2 : In x2 (reactants_of rt k) -> In x (reactants_of rt k) ->
  e_factors L env (jfacs k x x2) = Some (jv k x x2).
Proof.
  intros H2 Hx. unfold jfacs, jv.
  assert (Eh : eqb x2 hv = false) by (apply eqb_neq, (HK k x2 H2)). rewrite Eh.
  destruct (HR k x2 H2) as (_ & Hv & Hp & Hl & Hl2).
  destruct (eqb x2 x) eqn:E.
  - apply eqb_eq in E; subst x2. unfold jd.
    destruct (isone (stq loss k x)) eqn:E1; [reflexivity|].
    destruct (Qeq_bool (stq loss k x) 2) eqn:E2.
    + cbn [e_factors e_factor e_atom omap2]. rewrite Hloc, Hv. cbn [omap2].
      rewrite (Qeq_eqR _ _ (Hl eq_refl)). f_equal. ring.
    + destruct (Qle_bool (stq loss k x) 2) eqn:E3; [reflexivity|].
      destruct (Hl2 eq_refl) as [Hp' Hl'].
      cbn [e_factors e_factor e_atom omap2]. rewrite Hloc, Hv. cbn [omap2].
      rewrite (qpow_proper _ _ _ Hl'), Hp'. cbn [omap2].
      rewrite (Qeq_eqR _ _ (Hl eq_refl)). f_equal. ring.
  - cbn [e_factors]. rewrite (rfac_value L off Hloc env sp2a loss k x2 (c x2) Hv Hp Hl).
    cbn [omap2]. f_equal. ring.
Qed.

Lemma e_factors_app a b x y : e_factors L env a = Some x -> e_factors L env b = Some y ->
  e_factors L env (a ++ b) = Some (x * y)%R.
Proof.
  revert x; induction a as [|f a IH]; intros x Ha Hb; cbn [app e_factors] in *.
  - injection Ha as <-. rewrite Hb. f_equal. ring.
  - destruct (e_factor L env f) as [u|]; [|discriminate]. destruct (e_factors L env a) as [v|]; [|discriminate].
    cbn [omap2] in Ha. injection Ha as <-. rewrite (IH v eq_refl Hb). cbn [omap2]. f_equal. ring.
Qed.

Lemma e_factors_flat k x l : (forall x2, In x2 l -> In x2 (reactants_of rt k)) -> In x (reactants_of rt k) ->
  e_factors L env (flat_map (jfacs k x) l) = Some (rprod (map (jv k x) l)).
Proof.
  intros Hl Hx. induction l as [|x2 l IH]; cbn [flat_map map rprod]; [reflexivity|].
  apply e_factors_app; [apply jfacs_value; [apply Hl; left; reflexivity | exact Hx]|].
  apply IH. intros; apply Hl; right; assumption.
Qed.

Lemma first_seen_spec (l : list str) : NoDup (first_seen l) /\ forall x, In x (first_seen l) <-> In x l.
Proof. split; [apply first_seen_NoDup | intros x; apply first_seen_In]. Qed.

Lemma e_term_value (neg : bool) s x gainp k b : In x (reactants_of rt k) ->
  e_term L env (un (b, (neg, lead1 (term_facs s x gainp k)))) =
  Some ((if neg then - (jprod k x * nth k (env AR) 0) else jprod k x * nth k (env AR) 0)%R).
Proof.
  intros Hx.
  assert (Hlead : forall fs v, fs <> [] -> e_factors L env fs = Some v ->
    e_factors L env (fst (lead1 fs) :: snd (lead1 fs)) = Some v).
  { intros [|[[q|a i] e] fs] v Hne Hv; [congruence|exact Hv|].
    cbn [lead1 fst snd]. 
    transitivity (omap2 Rmult (e_factor L env one_f) (Some v));
      [exact (f_equal (omap2 Rmult (e_factor L env one_f)) Hv)|].
    unfold one_f, e_factor, e_atom. cbn [omap2]. rewrite (Qeq_eqR _ _ Hone). f_equal. unfold Q2R; cbn. field. }
  assert (Hf : e_factors L env (term_facs s x gainp k) = Some (jprod k x * nth k (env AR) 0)%R).
  { unfold term_facs. apply e_factors_app.
    - rewrite e_factors_flat; [|intros x2 H2; apply (Hord (SiteEq s x k gainp)), H2 | exact Hx].
      unfold jprod. f_equal. apply rprod_perm', Permutation_map. apply NoDup_Permutation; [apply Hord | apply first_seen_spec|].
      intros a. rewrite (proj2 (Hord _ _)). symmetry. apply first_seen_spec.
    - cbn [e_factors e_factor e_atom]. rewrite Hloc.
      destruct (nth_error (env AR) k) as [v|] eqn:E.
      + rewrite (nth_error_nth _ _ 0%R E). cbn [omap2]. f_equal. ring.
      + apply nth_error_None in E. destruct (HR k x Hx) as [Hk _]. lia. }
  assert (Hne : term_facs s x gainp k <> []).
  { unfold term_facs. destruct (flat_map _ _); discriminate. }
  specialize (Hlead _ _ Hne Hf). destruct (lead1 (term_facs s x gainp k)) as [f fs]. cbn [un fst snd] in *.
  unfold e_term. rewrite Hlead. reflexivity.
Qed.

(* sum over the equations in the list that x takes part in *)
Definition jsum (x : str) (eqs : list nat) : R :=
  rsum (map (fun k => jprod k x * nth k (env AR) 0)%R (filter (fun k => inb x (reactants_of rt k)) eqs)).

Lemma jsterms_value (neg : bool) s x gainp flag eqs :
  exists xs, Forall2 (fun t v => e_term L env (un t) = Some v) (fst (jsterms neg s x gainp flag eqs)) xs /\
    rsum xs = (if neg then - jsum x eqs else jsum x eqs)%R.
Proof.
  unfold jsum. revert flag; induction eqs as [|eq eqs IH]; intros flag; cbn [jsterms filter].
  - exists []. split; [constructor|]. cbn [map rsum]. destruct neg; ring.
  - destruct (inb x (reactants_of rt eq)) eqn:E; [|apply IH]. apply inb_In in E.
    destruct (IH (S (snd (cont 3 flag)))) as (xs & H1 & H2). eexists (_ :: xs). split.
    + cbn [fst]. constructor; [apply e_term_value, E | exact H1].
    + cbn [map rsum]. rewrite H2. destruct neg; ring.
Qed.

Definition jac_val (s x : str) : R :=
  (jsum x (dkeys (srow s gain)) - jsum x (dkeys (srow s loss)))%R.

Lemma jsterms_head neg s x gainp eqs :
  match fst (jsterms neg s x gainp 0 eqs) with (true, _) :: _ => False | _ => True end.
Proof.
  induction eqs as [|eq eqs IH]; cbn [jsterms]; [exact I|].
  destruct (inb x (reactants_of rt eq)); [|exact IH]. cbn [fst cont Nat.ltb Nat.leb isnil negb].
  rewrite andb_false_r. exact I.
Qed.

Lemma jsterms_flag neg s x gainp flag eqs : fst (jsterms neg s x gainp flag eqs) = [] ->
  snd (jsterms neg s x gainp flag eqs) = flag.
Proof.
  revert flag; induction eqs as [|eq eqs IH]; intros flag; cbn [jsterms]; [reflexivity|].
  destruct (inb x (reactants_of rt eq)); [discriminate | apply IH].
Qed.

Lemma jsterms_nonempty neg s x gainp flag eqs k : In k eqs -> In x (reactants_of rt k) ->
  fst (jsterms neg s x gainp flag eqs) <> [].
Proof.
  revert flag; induction eqs as [|eq eqs IH]; intros flag; [contradiction|]. intros Hk Hx. cbn [jsterms].
  destruct (inb x (reactants_of rt eq)) eqn:E; [discriminate|].
  destruct Hk as [->|Hk]; [apply inb_nIn in E; contradiction | apply IH; assumption].
Qed.

Lemma entry_value s x : In x (cols s) -> value L env (pr_terms (entry_terms s x)) = Some (jac_val s x).
Proof.
  intros Hx. apply cols_In in Hx as (k & Hk & Hxk). unfold entry_terms.
  destruct (jsterms_value true s x false 0 (dkeys (srow s loss))) as (xs & H1 & H2).
  destruct (jsterms_value false s x true (snd (jsterms true s x false 0 (dkeys (srow s loss)))) (dkeys (srow s gain))) as (ys & H3 & H4).
  rewrite (value_terms L env _ (xs ++ ys)).
  - f_equal. rewrite rsum_app, H2, H4. unfold jac_val. ring.
  - destruct Hk as [Hk|Hk].
    + assert (H := jsterms_nonempty true s x false 0 _ k Hk Hxk).
      destruct (fst (jsterms true s x false 0 (dkeys (srow s loss)))); [congruence | discriminate].
    + assert (H := jsterms_nonempty false s x true (snd (jsterms true s x false 0 (dkeys (srow s loss)))) _ k Hk Hxk).
      intros E. apply app_eq_nil in E as [_ E]. exact (H E).
  - assert (G := jsterms_head true s x false (dkeys (srow s loss))).
    destruct (fst (jsterms true s x false 0 (dkeys (srow s loss)))) as [|[b t] l] eqn:E.
    + rewrite (jsterms_flag _ _ _ _ _ _ E). cbn [app]. apply jsterms_head.
    + exact G.
  - apply Forall2_app; assumption.
Qed.

Lemma jac_val_not_col s x : ~ In x (cols s) -> jac_val s x = 0%R.
Proof.
  intros H. unfold jac_val, jsum.
  assert (G : forall eqs, (forall k, In k eqs -> ~ In x (reactants_of rt k)) ->
    filter (fun k => inb x (reactants_of rt k)) eqs = []).
  { induction eqs as [|k eqs IH]; intros Hk; cbn [filter]; [reflexivity|].
    assert (E : inb x (reactants_of rt k) = false) by (apply inb_nIn, Hk; left; reflexivity).
    rewrite E. apply IH. intros; apply Hk; right; assumption. }
  rewrite !G; [cbn [map rsum]; ring | |]; intros k Hk Hx; apply H, cols_In; exists k; auto.
Qed.

(* ------------------------------------------------------------------ *)
Variable N : nat.
Hypothesis Hoff : off = 0 \/ off = 1.
Hypothesis Hkeys : NoDup (dkeys sp2a).
Hypothesis Hvals : NoDup (dvals sp2a).
Hypothesis Hrange : forall s i, In (s, i) sp2a -> i < N.

Lemma cell2_ok i j : i < N -> j < N -> cell2 off N (i + off, j + off) = Some (i, j).
Proof. intros Hi Hj. unfold cell2; cbn [fst snd]. rewrite !cell_ok by assumption. reflexivity. Qed.

Lemma cols_ix s x : In x (cols s) -> In (x, ix sp2a x) sp2a.
Proof.
  intros Hx. apply cols_In in Hx as (k & _ & Hk). destruct (HK k x Hk) as [[_ (j & Hj)] _].
  unfold ix, dget_or. rewrite Hj. apply dget_Some_In, Hj.
Qed.

Lemma NoDup_app_disjoint {A} (a b : list A) : NoDup a -> NoDup b -> (forall x, In x a -> ~ In x b) -> NoDup (a ++ b).
Proof.
  intros Ha Hb H. induction Ha as [|x a Hx Ha IH]; cbn [app]; [exact Hb|]. constructor.
  - rewrite in_app_iff. intros [Hi|Hi]; [contradiction | apply (H x); [left; reflexivity | exact Hi]].
  - apply IH. intros; apply H; right; assumption.
Qed.

(* Every cell is written at most once. *)
Lemma jac_cells_NoDup : NoDup (map fst jac_assigns).
Proof.
  unfold jac_assigns.
  assert (G : forall l : dict str nat, NoDup (dvals l) -> NoDup (map fst (flat_map (fun p : str * nat => if inb (fst p) excluded then []
    else map (fun x => ((snd p + off, ix sp2a x + off), pr_terms (entry_terms (fst p) x))) (cols (fst p))) l))).
  { induction l as [|[s i] l IH]; intros Hnd; cbn [flat_map map]; [constructor|].
    cbn [dvals map snd] in Hnd. inversion Hnd as [|? ? Hni Hnd']; subst.
    rewrite map_app. cbn [fst snd]. specialize (IH Hnd').
    destruct (inb s excluded) eqn:E; [exact IH|].
    rewrite map_map. cbn [fst]. apply NoDup_app_disjoint; [|exact IH|].
    - assert (Hx : forall x, In x (cols s) -> In (x, ix sp2a x) sp2a) by (intros; eapply cols_ix; eassumption).
      assert (Hn := cols_NoDup s). revert Hx Hn. generalize (cols s). clear - Hvals.
      induction l as [|x l IH]; intros Hx Hn; cbn [map]; constructor.
      + intros Hin. apply in_map_iff in Hin as (x' & Heq & Hx'). injection Heq as Heq.
        assert (Ei : ix sp2a x' = ix sp2a x) by lia. inversion Hn; subst.
        assert (x' = x); [|congruence].
        apply (In_vals_inj sp2a x' x (ix sp2a x) Hvals); [rewrite <- Ei; apply Hx; right; exact Hx' | apply Hx; left; reflexivity].
      + apply IH; [intros; apply Hx; right; assumption | inversion Hn; assumption].
    - intros c0 Hc Hin. apply in_map_iff in Hc as (x & <- & _).
      apply in_map_iff in Hin as ([c1 e1] & Heq & Hin). cbn [fst] in Heq. subst c1.
      apply in_flat_map in Hin as ([s' i'] & Hs' & Hin). cbn [fst snd] in Hin.
      destruct (inb s' excluded); [destruct Hin|]. apply in_map_iff in Hin as (x' & Heq & _).
      injection Heq as Heq _ _. assert (i' = i) by lia. subst. apply Hni.
      unfold dvals. change i with (snd (s', i)). apply in_map, Hs'. }
  apply G, Hvals.
Qed.

(* The program and what it computes. *)
Lemma run_jac prog m0 : assigns prog = jac_assigns ->
  exists m', run (cell2 off N) (value L env) prog m0 = Some m' /\
    (forall s i x j, In (s, i) sp2a -> inb s excluded = false -> In x (cols s) -> In (x, j) sp2a ->
       m' (i, j) = jac_val s x) /\
    (forall i j, (forall s x, In (s, i) sp2a -> In (x, j) sp2a -> inb s excluded = false -> ~ In x (cols s)) ->
       m' (i, j) = m0 (i, j)).
Proof.
  intros Hp. rewrite run_is_assigns, Hp.
  assert (Hix : forall x j, In (x, j) sp2a -> ix sp2a x = j).
  { intros x j H. unfold ix, dget_or. rewrite (dget_In _ _ _ Hkeys H). reflexivity. }
  assert (Hcell : forall s i x, In (s, i) sp2a -> In x (cols s) ->
    cell2 off N (i + off, ix sp2a x + off) = Some (i, ix sp2a x)).
  { intros s i x Hs Hx. apply cell2_ok; [eapply Hrange, Hs | eapply Hrange, cols_ix, Hx]. }
  destruct (run_assigns_ok (cell2 off N) (value L env) jac_assigns m0) as (m' & H1 & H2 & H3).
  - apply Forall_forall. intros [c0 e] H. apply In_jac_assigns in H as (s & i & x & Hs & He & Hx & -> & ->).
    eexists. eexists. split; [eapply Hcell; eassumption | apply entry_value, Hx].
  - exists m'. split; [exact H1|]. split.
    + intros s i x j Hs He Hx Hj. apply H3 with (c := (i + off, ix sp2a x + off)) (e := pr_terms (entry_terms s x)).
      * intros c1 e1 c2 e2 d Hi1 Hi2 Hd1 Hd2.
        apply In_jac_assigns in Hi1 as (s1 & i1 & x1 & Hs1 & He1 & Hx1 & -> & ->).
        apply In_jac_assigns in Hi2 as (s2 & i2 & x2 & Hs2 & He2 & Hx2 & -> & ->).
        rewrite (Hcell s1 _ _ Hs1 Hx1) in Hd1. rewrite (Hcell s2 _ _ Hs2 Hx2) in Hd2.
        assert (Hii : (i1, ix sp2a x1) = (i2, ix sp2a x2)) by congruence. injection Hii as -> Hxx.
        assert (s1 = s2) by (eapply In_vals_inj; eassumption).
        assert (x1 = x2) by (eapply (In_vals_inj sp2a x1 x2 (ix sp2a x1)); [exact Hvals | eapply cols_ix, Hx1 | rewrite Hxx; eapply cols_ix, Hx2]).
        subst. reflexivity.
      * apply In_jac_assigns. exists s, i, x. auto.
      * rewrite (Hcell s i x Hs Hx). rewrite (Hix x j Hj). reflexivity.
      * apply entry_value, Hx.
    + intros i j Hij. apply H2. intros c0 e H. apply In_jac_assigns in H as (s & i' & x & Hs & He & Hx & -> & ->).
      rewrite (Hcell s i' x Hs Hx). intros Heq. injection Heq as -> Hj. subst j.
      apply (Hij s x); try assumption. eapply cols_ix, Hx.
Qed.
End J.

(* The generators produce these assignments. *)
Lemma gen_jacobian_numba_ok ord sp2a rt loss gain : is_set_order ord ->
  (forall k x, In x (reactants_of rt k) -> known sp2a loss k x /\ x <> hv) ->
  exists p, gen_jacobian_numba ord sp2a rt loss gain = Ok p /\ assigns p = jac_assigns 0 sp2a rt loss gain ord false.
Proof.
  intros Ho HK. unfold gen_jacobian_numba.
  rewrite (mapM_total _ (fun p => if inb (fst p) excluded then []
      else map (fun x => Assign (snd p + 0, ix sp2a x + 0) (pr_terms (entry_terms 0 sp2a rt loss gain ord false (fst p) x)))
             (cols rt loss gain ord (fst p)))).
  - cbn [bind]. eexists; split; [reflexivity|]. rewrite assigns_concat. unfold jac_assigns.
    rewrite !flat_map_concat_map, map_map. f_equal. apply map_ext. intros [s i]. cbn [fst snd].
    destruct (inb s excluded); [reflexivity|]. induction (cols rt loss gain ord s) as [|x l IH]; [reflexivity|].
    cbn [map assigns]. f_equal. exact IH.
  - intros [s i] _. rewrite jac_row_ok by assumption. reflexivity.
Qed.

Lemma gen_jacobian_fortran_ok ord omp sp2a rt loss gain : is_set_order ord ->
  (forall k x, In x (reactants_of rt k) -> known sp2a loss k x /\ x <> hv) ->
  exists p, gen_jacobian_fortran ord omp sp2a rt loss gain = Ok p /\ assigns p = jac_assigns 1 sp2a rt loss gain ord true.
Proof.
  intros Ho HK. unfold gen_jacobian_fortran.
  rewrite (mapM_total _ (fun p => if inb (fst p) excluded then []
      else map (fun x => Assign (snd p + 1, ix sp2a x + 1) (pr_terms (entry_terms 1 sp2a rt loss gain ord true (fst p) x)))
             (cols rt loss gain ord (fst p)))).
  - cbn [bind]. eexists; split; [reflexivity|]. rewrite assigns_omp_frame. unfold jac_assigns.
    rewrite !flat_map_concat_map, map_map. f_equal. apply map_ext. intros [s i]. cbn [fst snd].
    destruct (inb s excluded); [reflexivity|]. induction (cols rt loss gain ord s) as [|x l IH]; [reflexivity|].
    cbn [map assigns]. f_equal. exact IH.
  - intros [s i] _. rewrite jac_row_ok by assumption. reflexivity.
Qed.
