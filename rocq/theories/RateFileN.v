(* Lemmas for reading back the rate files. *)
From Coq Require Import List Bool Arith Lia Ascii String ZArith QArith Reals.
From Verif Require Import Base PyStr PyDict SpecRate ModelExpr RateParse ModelLang ModelOmp ModelGen ModelRhs ModelGas ModelRateFile ModelRateBody ModelRateRun RateBody
  ModelSource ModelWrite SpecSource SourceRead SourceRun ParseShow ModelRateText ModelRateWrite ModelRateRead RateTrail.
Import ListNotations.
Import Coq.Lists.List.
Open Scope nat_scope.
Open Scope list_scope.
Local Arguments eqb : simpl never.

(* ------------------------------------------------------------------ *)
(* Lines *)
Lemma lex_text_app L a b : lex_text L (a ++ b) =
  match lex_text L a, lex_text L b with Some x, Some y => Some (x ++ y) | _, _ => None end.
Proof.
  induction a as [|l a IH]; cbn [app lex_text]; [destruct (lex_text L b); reflexivity|]. rewrite IH.
  destruct (tokens L l) as [[|t ts]|]; destruct (lex_text L a), (lex_text L b); reflexivity.
Qed.
Lemma span_lines_app p a b : forallb p a = true -> match b with l :: _ => p l = false | [] => True end -> span_lines p (a ++ b) = (a, b).
Proof.
  intros H N. induction a as [|l a IH]; cbn [app span_lines].
  - destruct b as [|l b]; [reflexivity|]. cbn. rewrite N. reflexivity.
  - cbn [forallb] in H. apply andb_prop in H. destruct H as [H1 H2]. rewrite H1, (IH H2). reflexivity.
Qed.
Lemma one_lines (l : list string) : forallb (fun s => negb (existsb (Ascii.eqb NL) (s_ s))) l = true -> Forall one_line (text_lines l).
Proof.
  intros H. apply Forall_map, Forall_forall. intros s I. rewrite forallb_forall in H. specialize (H s I). apply negb_true_iff in H. apply one_line_dec, H.
Qed.
Lemma split_unlines ls rest : Forall one_line ls -> split_char NL (unlines ls ++ rest) = ls ++ split_char NL rest.
Proof. intros H. apply (lines_unlines ls H). Qed.

(* The expression a text denotes. *)
Definition text_expr (L : rlang) (t : str) : option xexp := obind (tokens L t) parse_expr.
Lemma text_expr_value L en t e : text_expr L t = Some e -> text_value L en t = xeval L en e.
Proof. unfold text_expr, text_value. destruct (tokens L t); cbn [obind]; [|discriminate]. intros ->. reflexivity. Qed.

(* ------------------------------------------------------------------ *)
(* Python *)
Lemma py_comment_ok2 : comment_char py_spelling = "#"%char \/ comment_char py_spelling = "!"%char.
Proof. left. reflexivity. Qed.
Lemma py_letters2 c : exp_letter py_spelling c = true -> is_ident_char c = true /\ is_mant c = false.
Proof. destruct c as [[] [] [] [] [] [] [] []]; vm_compute; intuition congruence. Qed.
Lemma numba_line_lexes k e ts : tokens numba_lang e = Some ts ->
  tokens py_spelling (numba_rate_line (k, e)) = Some (KName (s_ "rate_values") :: KLb :: KNum (Z.of_nat k # 1) :: KRb :: KEq :: ts).
Proof.
  intros H. apply lexes_tokens. change (numba_rate_line (k, e)) with (s_ "    " ++ s_ "rate_values" ++ "["%char :: dec k ++ "]"%char :: " "%char :: "="%char :: e ++ s_ " ").
  apply lexes_spaces; [repeat constructor|].
  apply (lexes_name py_spelling py_comment_ok2 (s_ "rate_values")); [repeat constructor | eexists _, _; split; reflexivity | apply stop_cons; reflexivity|].
  apply (lexes_op py_spelling py_comment_ok2 "["%char KLb); [reflexivity | discriminate|].
  apply (lexes_dec py_spelling py_comment_ok2 py_letters2); [apply stop_cons; reflexivity|].
  apply (lexes_op py_spelling py_comment_ok2 "]"%char KRb); [reflexivity | discriminate|]. apply lexes_space; [reflexivity|].
  apply (lexes_op py_spelling py_comment_ok2 "="%char KEq); [reflexivity | discriminate|].
  eapply (lexes_trailing py_spelling eq_refl (S (List.length e))). exact H.
Qed.

(* What the statements of the reactions become. *)
Definition parsed_as (L : rlang) (p : nat * str) (x : nat * xexp) : Prop := fst p = fst x /\ text_expr L (snd p) = Some (snd x).
Definition rate_items (off : nat) (xs : list (nat * xexp)) : list (gitem nat xexp) := map (fun x => Assign (fst x + off) (snd x)) xs.

Lemma py_rate_cons out k ts x ls : parse_expr ts = Some x ->
  py_rate_lines out ((4, KName out :: KLb :: KNum (Z.of_nat k # 1) :: KRb :: KEq :: ts) :: ls) = ocons (Some (Assign k x)) (py_rate_lines out ls).
Proof. intros E. cbn [py_rate_lines]. rewrite eqb_refl, index_nat, E. destruct ls; reflexivity. Qed.
Lemma numba_lines_lex d xs : Forall2 (parsed_as numba_lang) d xs -> exists ls, lex_text py_spelling (map numba_rate_line d) = Some ls /\
  (forall b, py_rate_lines (s_ "rate_values") (ls ++ b) = match py_rate_lines (s_ "rate_values") b with Some r => Some (rate_items 0 xs ++ r) | None => None end) /\
  (forall b, match b with l :: _ => starts_with (s_ "rate_values") l = true | [] => True end ->
     match ls ++ b with l :: _ => starts_with (s_ "rate_values") l = true | [] => True end).
Proof.
  induction 1 as [|[k e] [k' x] d xs [K E] _ IH].
  - exists []. split; [reflexivity|]. split; [|auto]. intros b. cbn [app rate_items map]. destruct (py_rate_lines (s_ "rate_values") b); reflexivity.
  - destruct IH as (ls & A & B & _). cbn [fst snd] in K, E. subst k'. unfold text_expr in E. destruct (tokens numba_lang e) as [ts|] eqn:T; [|discriminate]. cbn [obind] in E.
    exists ((4, KName (s_ "rate_values") :: KLb :: KNum (Z.of_nat k # 1) :: KRb :: KEq :: ts) :: ls). cbn [map lex_text].
    rewrite (numba_line_lexes k e ts T), A. split; [reflexivity|]. split; [|intros; reflexivity].
    intros b. cbn [app].
    etransitivity; [exact (py_rate_cons (s_ "rate_values") k ts x (ls ++ b) E)|]. rewrite B. destruct (py_rate_lines (s_ "rate_values") b); [|reflexivity].
    cbn [ocons rate_items map fst snd app]. rewrite Nat.add_0_r. reflexivity.
Qed.

(* The module *)
Lemma module_indented ls p fs : forallb indented ls = true -> fold_right module_step (Some (p, fs)) ls = Some (ls ++ p, fs).
Proof.
  induction ls as [|l ls IH]; intros H; [reflexivity|]. cbn [forallb] in H. apply andb_prop in H. destruct H as [H1 H2].
  cbn [fold_right app]. rewrite (IH H2). unfold module_step. rewrite H1. reflexivity.
Qed.
Definition rate_args : list str := map s_ ["ttime"; "RO2"; "H2O"; "temp"; "rate_values"; "J"]%string.
Definition numba_funs : list pyfun := Eval vm_compute in
  match fold_right module_step (Some ([], [])) (text_lines numba_module) with Some (_, fs) => removelast fs | None => [] end.
Lemma numba_module_read B : fold_right module_step (Some (B, [])) (text_lines numba_module) =
  Some ([[]], numba_funs ++ [PyFun (s_ "evaluate_rates") rate_args B]).
Proof. vm_compute. reflexivity. Qed.
Lemma numba_date_read date fs : module_step (s_ "# File created at " ++ date ++ s_ " ") (Some ([[]], fs)) = Some ([], fs).
Proof. reflexivity. Qed.
Lemma numba_top_read fs : fold_right module_step (Some ([], fs)) (text_lines numba_top) = Some ([], fs).
Proof. vm_compute. reflexivity. Qed.
Definition numba_helpers : list (str * str) := Eval vm_compute in match mapo helper numba_funs with Some l => l | None => [] end.
Lemma numba_helpers_read : mapo helper numba_funs = Some numba_helpers.
Proof. vm_compute. reflexivity. Qed.
Lemma numba_fixed_lex : lex_text py_spelling (text_lines numba_fixed) = lex_lines numba_lang numba_body.
Proof. vm_compute. reflexivity. Qed.
Lemma numba_fixed_start ls : lex_lines numba_lang numba_body = Some ls -> forallb (fun l => negb (starts_with (s_ "rate_values") l)) ls = true.
Proof. intros H. assert (E : match lex_lines numba_lang numba_body with Some ls => forallb (fun l => negb (starts_with (s_ "rate_values") l)) ls = true | None => True end) by (vm_compute; reflexivity). rewrite H in E. exact E. Qed.

Lemma rate_line_one p : one_line (snd p) -> one_line (numba_rate_line p).
Proof.
  intros H. unfold numba_rate_line. repeat (intros I; apply in_app_or in I; destruct I as [I|I]; [revert I | revert I]);
    try (change (one_line (dec (fst p))); apply calm_one_line, dec_calm); try exact H; apply one_line_dec; reflexivity.
Qed.

Lemma numba_py_module date B : forallb indented B = true ->
  py_module ((text_lines numba_top ++ [s_ "# File created at " ++ date ++ s_ " "] ++ text_lines numba_module) ++ B) =
  Some (numba_funs ++ [PyFun (s_ "evaluate_rates") rate_args B]).
Proof.
  intros H. unfold py_module. rewrite !fold_right_app, module_indented by exact H. rewrite app_nil_r, numba_module_read.
  cbn [fold_right]. rewrite numba_date_read, numba_top_read. reflexivity.
Qed.
Lemma read_rates_numba date d xs : one_line date -> Forall (fun p => one_line (snd p)) d -> Forall2 (parsed_as numba_lang) d xs ->
  read_rates_python (write_rates_numba date d) = Some (PyRates (s_ "evaluate_rates") rate_args numba_helpers numba_prog (rate_items 0 xs)).
Proof.
  intros Hd Ho Hp. unfold read_rates_python, write_rates_numba.
  assert (O1 : Forall one_line (text_lines numba_top ++ [s_ "# File created at " ++ date ++ s_ " "] ++ text_lines numba_module ++ text_lines numba_fixed)).
  { apply Forall_app; split; [apply one_lines; vm_compute; reflexivity|]. apply Forall_app; split.
    - apply Forall_cons; [|constructor]. intros I. apply in_app_or in I. destruct I as [I|I]; [revert I; apply one_line_dec; reflexivity|].
      apply in_app_or in I. destruct I as [I|I]; [exact (Hd I) | revert I; apply one_line_dec; reflexivity].
    - apply Forall_app; split; apply one_lines; vm_compute; reflexivity. }
  assert (O2 : Forall one_line (map numba_rate_line d)).
  { apply Forall_map. eapply Forall_impl; [|exact Ho]. intros p Hp1. apply rate_line_one, Hp1. }
  rewrite split_unlines by exact O1. rewrite split_unlines by exact O2.
  assert (E3 : split_char NL (unlines (text_lines numba_end)) = text_lines numba_end ++ [[]]).
  { rewrite <- (app_nil_r (unlines (text_lines numba_end))). rewrite split_unlines; [reflexivity|]. apply one_lines. vm_compute; reflexivity. }
  rewrite E3. clear E3. set (B := text_lines numba_fixed ++ map numba_rate_line d ++ text_lines numba_end ++ [[]]).
  replace ((text_lines numba_top ++ [s_ "# File created at " ++ date ++ s_ " "] ++ text_lines numba_module ++ text_lines numba_fixed) ++
           map numba_rate_line d ++ text_lines numba_end ++ [[]])
    with ((text_lines numba_top ++ [s_ "# File created at " ++ date ++ s_ " "] ++ text_lines numba_module) ++ B)
    by (unfold B; rewrite <- !app_assoc; reflexivity).
  rewrite numba_py_module.
  2:{ unfold B. rewrite !forallb_app.
    assert (X : forallb indented (map numba_rate_line d) = true) by (apply forallb_forall; intros l I; apply in_map_iff in I; destruct I as (p & <- & _); reflexivity).
    rewrite X. vm_compute. reflexivity. }
  rewrite rev_app_distr. cbn [rev app pf_args]. unfold rate_args at 1. cbn [map]. rewrite rev_involutive, numba_helpers_read. cbn [obind pf_body].
  destruct (numba_lines_lex d xs Hp) as (ls & A1 & A2 & A3).
  unfold B. rewrite !lex_text_app, numba_fixed_lex, A1. pose proof numba_prog_eq as PE. unfold numba_program in PE.
  destruct (lex_lines numba_lang numba_body) as [F|] eqn:EF; [|discriminate PE]. cbn [obind] in PE.
  change (lex_text py_spelling (text_lines numba_end)) with (Some [(4, [KName (s_ "return"); KName (s_ "rate_values")])]).
  change (lex_text py_spelling [[]]) with (Some (@nil line)). cbn [obind]. rewrite app_nil_r.
  rewrite span_lines_app.
  - change (fun x => eqb x (s_ "J")) with (is_array numba_lang). rewrite PE. cbn [obind]. rewrite A2. cbn [obind].
    change (py_rate_lines (s_ "rate_values") [(4, [KName (s_ "return"); KName (s_ "rate_values")])]) with (Some (@nil (gitem nat xexp))). cbn [obind].
    rewrite app_nil_r. reflexivity.
  - apply numba_fixed_start, EF.
  - specialize (A3 [(4, [KName (s_ "return"); KName (s_ "rate_values")])] eq_refl). destruct (ls ++ _); [exact I|]. rewrite A3. reflexivity.
Qed.

(* ------------------------------------------------------------------ *)
(* Programs over texts as programs over expressions.  A text that is not an
   expression becomes one without a value. *)
Definition no_value : xexp := XCall [] (XNum 0).
Definition expr_of (L : rlang) (t : str) : xexp := match text_expr L t with Some e => e | None => no_value end.
Definition map_item {C E F} (g : E -> F) (i : gitem C E) : gitem C F :=
  match i with
  | Assign c e => Assign c (g e)
  | OmpParallel => OmpParallel | OmpSingle => OmpSingle | OmpEndSingle => OmpEndSingle | OmpEndParallel => OmpEndParallel
  end.
Definition map_items {C E F} (g : E -> F) : list (gitem C E) -> list (gitem C F) := map (map_item g).

Lemma expr_of_value L en t : is_array L [] = false -> func L [] = None -> xeval L en (expr_of L t) = text_value L en t.
Proof.
  intros A B. unfold expr_of. destruct (text_expr L t) as [e|] eqn:E; [symmetry; apply text_expr_value, E|].
  unfold no_value. cbn [xeval]. rewrite A, B. unfold text_expr in E. unfold text_value. destruct (tokens L t); cbn [obind] in *; [rewrite E|]; reflexivity.
Qed.
Lemma run_map {C D E F} `{EqB D} (addr : C -> option D) (g : E -> F) (v : F -> option R) (w : E -> option R) : (forall e, v (g e) = w e) ->
  forall p m, run addr v (map_items g p) m = run addr w p m.
Proof.
  intros V. induction p as [|i p IH]; intros m; [reflexivity|]. destruct i as [c e| | | |]; cbn [map_items map map_item run]; fold (map_items g p); try apply IH.
  unfold assign. rewrite V. destruct (addr c); [|reflexivity]. destruct (w e); [apply IH | reflexivity].
Qed.
Definition map_assign {C E F} (g : E -> F) (ce : C * E) : C * F := (fst ce, g (snd ce)).
Lemma omp_blocks_map {C E F} (g : E -> F) : forall (p : list (gitem C E)) cur,
  omp_blocks (option_map (map (map_assign g)) cur) (map_items g p) = option_map (map (map (map_assign g))) (omp_blocks cur p).
Proof.
  induction p as [|i p IH]; intros cur; [reflexivity|]. destruct i as [c l| | | |]; cbn [map_items map map_item omp_blocks]; fold (map_items g p).
  - destruct cur as [b|]; [|reflexivity]. cbn [option_map]. rewrite <- (IH (Some (b ++ [(c, l)]))). cbn [option_map]. rewrite map_app. reflexivity.
  - reflexivity.
  - destruct cur as [b|]; [reflexivity|]. exact (IH (Some [])).
  - destruct cur as [b|]; [|reflexivity]. cbn [option_map]. specialize (IH None). cbn [option_map] in IH. unfold block in *. rewrite IH.
    match goal with |- match option_map _ ?o with _ => _ end = _ => destruct o end; reflexivity.
  - destruct cur as [b|]; [reflexivity|]. cbn [option_map]. destruct p; reflexivity.
Qed.
Lemma omp_program_map {C E F} (g : E -> F) (p : list (gitem C E)) : omp_program (map_items g p) = option_map (map (map (map_assign g))) (omp_program p).
Proof. destruct p as [|[c l| | | |] p]; try reflexivity. exact (omp_blocks_map g p None). Qed.
Lemma execution_map {C E F} (g : E -> F) (bs : list (block C E)) tr : execution (map (map (map_assign g)) bs) tr ->
  exists tr0, execution bs tr0 /\ tr = map (map_assign g) tr0.
Proof.
  intros (threads & P & I). destruct (Permutation_concat_map _ _ _ P) as (th0 & -> & P0).
  destruct (interleaves_map (map_assign g) _ _ I (map (@concat _) th0)) as (tr0 & I0 & ->).
  { rewrite !map_map. apply map_ext. intros b. rewrite concat_map. reflexivity. }
  exists tr0. split; [exists th0; auto | reflexivity].
Qed.
Lemma runs_as_map {C E F} (g : E -> F) omp (p : list (gitem C E)) tr : runs_as omp (map_items g p) tr -> exists tr0, runs_as omp p tr0 /\ tr = map_items g tr0.
Proof.
  destruct omp as [br|]; cbn [runs_as]; [|intros ->; eauto]. intros (bs & t & Hb & He & ->). rewrite omp_program_map in Hb.
  destruct (omp_program p) as [bs0|] eqn:Ep; [|discriminate]. cbn [option_map] in Hb. assert (B : map (map (map_assign g)) bs0 = bs) by congruence. subst bs.
  destruct (execution_map _ _ _ He) as (t0 & H0 & ->). exists (as_items t0). split; [exists bs0, t0; auto|].
  unfold as_items, map_items. rewrite !map_map. reflexivity.
Qed.

(* What a call of the loaded module gives. *)
Lemma rate_items_exprs L d : Forall (fun p => text_expr L (snd p) <> None) d ->
  Forall2 (parsed_as L) d (map (fun p => (fst p, expr_of L (snd p))) d).
Proof.
  induction 1 as [|[k t] d H _ IH]; [constructor|]. cbn [map fst snd]. constructor; [|exact IH]. split; [reflexivity|]. cbn [snd] in *. unfold expr_of. destruct (text_expr L t); congruence.
Qed.
Lemma call_numba date d : one_line date -> Forall (fun p => one_line (snd p)) d -> Forall (fun p => text_expr numba_lang (snd p) <> None) d ->
  exists rs, read_rates_python (write_rates_numba date d) = Some rs /\ pr_name rs = s_ "evaluate_rates" /\ pr_args rs = rate_args /\
    forall ttime RO2 H2O temp n a, call_rates_python rs [ttime; RO2; H2O; temp] n a =
      obind (numba_run ttime RO2 H2O temp) (fun en => returned n (run (cell 0 n) (text_value numba_lang en) (gen_rates_python d) a)).
Proof.
  intros Hd Ho Hp. eexists. split; [apply read_rates_numba; [exact Hd | exact Ho | apply rate_items_exprs, Hp]|]. split; [reflexivity|]. split; [reflexivity|].
  intros t r w T n a. unfold call_rates_python. cbn [pr_args pr_helpers pr_stmts pr_rates].
  unfold numba_run. rewrite numba_prog_eq. cbn [obind].
  change (RLang (fun x => x) py_letter "#" (fun x => eqb x (last rate_args [])) (helper_func numba_helpers) false) with numba_lang.
  change (REnv (by_position rate_args [t; r; w; T]) (fun k => if k <? 63 then Some 0%R else None)) with (numba_start t r w T).
  destruct (run_stmts numba_lang numba_prog (numba_start t r w T)) as [en|]; [|reflexivity]. cbn [obind]. f_equal.
  unfold gen_rates_python. rewrite <- (run_map (cell 0 n) (expr_of numba_lang) (xeval numba_lang en) (text_value numba_lang en)).
  - f_equal. unfold rate_items, map_items. rewrite !map_map. apply map_ext. intros p. cbn [map_item fst snd]. rewrite Nat.add_0_r. reflexivity.
  - intros e. apply expr_of_value; reflexivity.
Qed.
