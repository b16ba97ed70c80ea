(* Lemmas for reading back the Fortran rate file. *)
From Coq Require Import List Bool Arith Lia Ascii String ZArith QArith Reals.
From Verif Require Import Base PyStr PyDict SpecRate ModelExpr RateParse ModelLang ModelOmp ModelGen ModelRhs ModelRateFile ModelRateBody ModelRateRun RateBody
  ModelSource ModelWrite SpecSource SourceRead ParseShow ModelRateText ModelRateWrite ModelRateRead RateTrail RateFileN.
Import ListNotations.
Import Coq.Lists.List.
Open Scope nat_scope.
Open Scope list_scope.
Local Arguments eqb : simpl never.

Lemma f_comment_ok2 : comment_char f_spelling = "#"%char \/ comment_char f_spelling = "!"%char.
Proof. right. reflexivity. Qed.
Lemma f_letters2 c : exp_letter f_spelling c = true -> is_ident_char c = true /\ is_mant c = false.
Proof. destruct c as [[] [] [] [] [] [] [] []]; vm_compute; intuition congruence. Qed.
Lemma fortran_line_lexes k e ts : tokens fortran_lang e = Some ts ->
  tokens f_spelling (fortran_rate_line (k, e)) = Some (KName (s_ "rate_values") :: KLp :: KNum (Z.of_nat (k + 1) # 1) :: KRp :: KEq :: ts).
Proof.
  intros H. apply lexes_tokens. change (fortran_rate_line (k, e)) with (s_ "    " ++ s_ "rate_values" ++ "("%char :: dec (k + 1) ++ ")"%char :: " "%char :: "="%char :: e ++ s_ " ").
  apply lexes_spaces; [repeat constructor|].
  apply (lexes_name f_spelling f_comment_ok2 (s_ "rate_values")); [repeat constructor | eexists _, _; split; reflexivity | apply stop_cons; reflexivity|].
  apply (lexes_op f_spelling f_comment_ok2 "("%char KLp); [reflexivity | discriminate|].
  apply (lexes_dec f_spelling f_comment_ok2 f_letters2); [apply stop_cons; reflexivity|].
  apply (lexes_op f_spelling f_comment_ok2 ")"%char KRp); [reflexivity | discriminate|]. apply lexes_space; [reflexivity|].
  apply (lexes_op f_spelling f_comment_ok2 "="%char KEq); [reflexivity | discriminate|].
  eapply (lexes_trailing f_spelling eq_refl (S (List.length e))). exact H.
Qed.

(* The declarations *)
Ltac g_name x := apply (lexes_name f_spelling f_comment_ok2 (s_ x)); [repeat constructor | eexists _, _; split; reflexivity | apply stop_cons; reflexivity|].
Ltac g_op c t := apply (lexes_op f_spelling f_comment_ok2 c t); [reflexivity | discriminate|].
Ltac g_sp := apply lexes_space; [reflexivity|].
Definition dim_line (n : nat) : str := s_ "    REAL(8), intent(out), dimension(" ++ dec n ++ s_ ") :: rate_values ".
Lemma dim_line_tokens n : tokens f_spelling (dim_line n) =
  Some [KName (s_ "real"); KLp; KNum (8 # 1); KRp; KComma; KName (s_ "intent"); KLp; KName (s_ "out"); KRp; KComma; KName (s_ "dimension"); KLp; KNum (Z.of_nat n # 1); KRp; KColon; KColon; KName (s_ "rate_values")].
Proof.
  apply lexes_tokens. unfold dim_line.
  change (s_ "    REAL(8), intent(out), dimension(" ++ dec n ++ s_ ") :: rate_values ") with
    (s_ "    " ++ s_ "REAL" ++ "("%char :: dec 8 ++ ")"%char :: ","%char :: " "%char :: s_ "intent" ++ "("%char :: s_ "out" ++ ")"%char :: ","%char :: " "%char :: s_ "dimension" ++ "("%char :: dec n ++ s_ ") :: rate_values ").
  apply lexes_spaces; [repeat constructor|]. g_name "REAL"%string. g_op "("%char KLp. apply (lexes_dec f_spelling f_comment_ok2 f_letters2 8); [apply stop_cons; reflexivity|].
  g_op ")"%char KRp. g_op ","%char KComma. g_sp. g_name "intent"%string. g_op "("%char KLp. g_name "out"%string.
  g_op ")"%char KRp. g_op ","%char KComma. g_sp. g_name "dimension"%string. g_op "("%char KLp.
  apply (lexes_dec f_spelling f_comment_ok2 f_letters2); [apply stop_cons; reflexivity|]. exists 40. reflexivity.
Qed.
Lemma dim_decl n r : decl_part (dim_line n :: r) =
  match decl_part r with Some (ds, r') => Some (FDecl (s_ "rate_values") (Some (s_ "out")) [n] None :: ds, r') | None => None end.
Proof.
  cbn [decl_part]. change (omp_line (dim_line n)) with (@None (option (item nat))). rewrite dim_line_tokens.
  match goal with |- match read_decls ?ts with _ => _ end = _ => change (read_decls ts) with
    (match index (Z.of_nat n # 1) with Some n => Some [FDecl (s_ "rate_values") (Some (s_ "out")) [n] None] | None => None end) end.
  rewrite index_nat. reflexivity.
Qed.
Definition fixed_lines : list str := get [] (logical None (text_lines fortran_fixed)).
Lemma fixed_logical : logical None (text_lines fortran_fixed) = Some fixed_lines.
Proof. vm_compute. reflexivity. Qed.
Definition fixed_decls : list fdecl := Eval vm_compute in match decl_part fixed_lines with Some (ds, _) => ds | None => [] end.
Definition fixed_skip : nat := Eval vm_compute in match decl_part fixed_lines with Some (_, r) => List.length fixed_lines - List.length r | None => 0 end.
Definition fixed_code : list str := skipn fixed_skip fixed_lines.
Lemma fixed_decl_part R : decl_part (fixed_lines ++ R) = Some (fixed_decls, fixed_code ++ R).
Proof. vm_compute. reflexivity. Qed.
Definition top_args : list str := map s_ ["ro2"; "h2o"; "temp"; "ttime"; "rate_values"]%string.
Lemma top_read R : sub_lines (text_lines fortran_top ++ R) = read_subroutine (s_ "evaluate_rates") top_args (text_lines (skipn 2 fortran_top) ++ R).
Proof. reflexivity. Qed.
Definition top_decls : list fdecl := map (fun x => FDecl (s_ x) (Some (s_ "in")) [] None) ["ro2"; "h2o"; "temp"]%string.
Lemma top_decl_part R : decl_part (text_lines (skipn 2 fortran_top) ++ R) =
  match decl_part R with Some (ds, r) => Some (top_decls ++ ds, r) | None => None end.
Proof. reflexivity. Qed.
Definition rate_decls (n : nat) : list fdecl := top_decls ++ FDecl (s_ "rate_values") (Some (s_ "out")) [n] None :: fixed_decls.
Lemma whole_decl_part n R : decl_part (text_lines (skipn 2 fortran_top) ++ dim_line n :: fixed_lines ++ R) = Some (rate_decls n, fixed_code ++ R).
Proof. rewrite top_decl_part, dim_decl, fixed_decl_part. reflexivity. Qed.

Lemma span_text_app p a b : forallb p a = true -> match b with l :: _ => p l = false | [] => True end -> span_text p (a ++ b) = (a, b).
Proof.
  intros H N. induction a as [|l a IH]; cbn [app span_text].
  - destruct b as [|l b]; [reflexivity|]. cbn. rewrite N. reflexivity.
  - cbn [forallb] in H. apply andb_prop in H. destruct H as [H1 H2]. rewrite H1, (IH H2). reflexivity.
Qed.
Lemma fixed_code_pre : forallb (fun l => negb (rate_part (s_ "rate_values") l)) fixed_code = true.
Proof. vm_compute. reflexivity. Qed.
Definition fixed_toks : list line := Eval vm_compute in get [] (lex_text f_spelling fixed_code).
Lemma fixed_code_lex : lex_text f_spelling fixed_code = Some fixed_toks.
Proof. vm_compute. reflexivity. Qed.
Definition fixed_stmts : list stmt := Eval vm_compute in get [] (f_stmts (fun x => eqb x (s_ "j")) (List.length fixed_toks) fixed_toks).
Lemma fixed_code_stmts : f_stmts (fun x => eqb x (s_ "j")) (List.length fixed_toks) fixed_toks = Some fixed_stmts.
Proof. vm_compute. reflexivity. Qed.
Lemma fixed_prog : parameters fixed_decls ++ fixed_stmts = fortran_prog.
Proof. vm_compute. reflexivity. Qed.
Definition rate_names : list str := Eval vm_compute in map fd_name (rate_decls 0).
Lemma rate_names_eq n : map fd_name (rate_decls n) = rate_names.
Proof. reflexivity. Qed.
Lemma rate_out n : filter (has_intent "out") (rate_decls n) = [FDecl (s_ "rate_values") (Some (s_ "out")) [n] None].
Proof. reflexivity. Qed.
Lemma rate_local n : filter (fun d => match fd_intent d, fd_dims d with None, [_] => true | _, _ => false end) (rate_decls n) = [FDecl (s_ "j") None [61] None].
Proof. reflexivity. Qed.
Lemma rate_params n : parameters (rate_decls n) = parameters fixed_decls.
Proof. reflexivity. Qed.
Lemma rate_inputs n : filter (input (rate_decls n)) top_args = map s_ ["ro2"; "h2o"; "temp"; "ttime"]%string.
Proof. reflexivity. Qed.
Lemma rate_known : forallb (known_stmt rate_names (s_ "j") 61) fortran_prog = true.
Proof. vm_compute. reflexivity. Qed.
Lemma args_declared : forallb (fun x => declared rate_names x) top_args = true.
Proof. vm_compute. reflexivity. Qed.

(* The statements of the reactions *)
Lemma fortran_line_omp p : @omp_line nat (fortran_rate_line p) = None.
Proof. reflexivity. Qed.
Definition reads_as (lg : list str) (p : list (gitem nat xexp)) : Prop := forall R,
  f_rate_lines (s_ "rate_values") (lg ++ R) = option_map (app p) (f_rate_lines (s_ "rate_values") R).
Lemma reads_nil : reads_as [] [].
Proof. intros R. cbn [app]. destruct (f_rate_lines _ R); reflexivity. Qed.
Lemma reads_app a p b q : reads_as a p -> reads_as b q -> reads_as (a ++ b) (p ++ q).
Proof. intros A B R. rewrite <- app_assoc, A, B. destruct (f_rate_lines _ R); [|reflexivity]. cbn [option_map]. rewrite app_assoc. reflexivity. Qed.
Lemma reads_line p : text_expr fortran_lang (snd p) <> None -> reads_as [fortran_rate_line p] [Assign (fst p + 1) (expr_of fortran_lang (snd p))].
Proof.
  intros H R. unfold expr_of. destruct (text_expr fortran_lang (snd p)) as [x|] eqn:E; [|congruence]. clear H. unfold text_expr in E.
  destruct (tokens fortran_lang (snd p)) as [ts|] eqn:T; [|discriminate]. cbn [obind] in E. destruct p as [k e]. cbn [fst snd] in *.
  cbn [app f_rate_lines]. rewrite fortran_line_omp, (fortran_line_lexes k e ts T).
  change (eqb (s_ "rate_values") (s_ "rate_values")) with true. cbv iota. rewrite index_nat, E. cbn [ocons option_map]. reflexivity.
Qed.
Lemma reads_parallel : reads_as [s_ "!$OMP PARALLEL  SHARED(rate_values, J)  "] [OmpParallel].
Proof. intros R. cbn [app f_rate_lines]. change (@omp_line nat (s_ "!$OMP PARALLEL  SHARED(rate_values, J)  ")) with (Some (Some (@OmpParallel nat (list tok)))). destruct (f_rate_lines _ R); reflexivity. Qed.
Lemma reads_single : reads_as [s_ "!$OMP SINGLE "] [OmpSingle].
Proof. intros R. cbn [app f_rate_lines]. change (@omp_line nat (s_ "!$OMP SINGLE ")) with (Some (Some (@OmpSingle nat (list tok)))). destruct (f_rate_lines _ R); reflexivity. Qed.
Lemma reads_end_single : reads_as [s_ "!$OMP END SINGLE NOWAIT "] [OmpEndSingle].
Proof. intros R. cbn [app f_rate_lines]. change (@omp_line nat (s_ "!$OMP END SINGLE NOWAIT ")) with (Some (Some (@OmpEndSingle nat (list tok)))). destruct (f_rate_lines _ R); reflexivity. Qed.
Lemma reads_end_parallel : reads_as [s_ "!$OMP END PARALLEL "] [OmpEndParallel].
Proof. intros R. cbn [app f_rate_lines]. change (@omp_line nat (s_ "!$OMP END PARALLEL ")) with (Some (Some (@OmpEndParallel nat (list tok)))). destruct (f_rate_lines _ R); reflexivity. Qed.

Definition begins (lg : list str) : Prop := match lg with l :: _ => rate_part (s_ "rate_values") l = true | [] => True end.
Definition good_rate (p : nat * str) : Prop := calm_text (snd p) /\ text_expr fortran_lang (snd p) <> None.
Lemma line_calm p : calm_text (snd p) -> calm_text (fortran_rate_line p).
Proof. intros H. unfold fortran_rate_line. repeat apply calm_app; try (repeat constructor; fail); [apply dec_calm | exact H]. Qed.
Lemma line_begins p R : text_expr fortran_lang (snd p) <> None -> begins (fortran_rate_line p :: R).
Proof.
  intros H. destruct p as [k e]. cbn [snd] in H. unfold text_expr in H. destruct (tokens fortran_lang e) as [ts|] eqn:T; [|destruct (H eq_refl)].
  cbn [begins]. unfold rate_part. rewrite fortran_line_omp, (fortran_line_lexes k e ts T). reflexivity.
Qed.
Lemma logical_line p : calm_text (snd p) -> fits (fortran_rate_line p) = true -> logical None [fortran_rate_line p] = Some [fortran_rate_line p].
Proof. intros C F. apply logical_settled; apply Forall_cons; try constructor; [exact F | apply calm_settled, line_calm, C]. Qed.

Definition assign_of (p : nat * str) : list (gitem nat str) := [Assign (fst p + 1) (snd p)].
(* The logical lines of a piece of text, what they are read as, how they begin. *)
Definition piece (ls : list str) (p : list (gitem nat str)) : Prop :=
  Forall (fun l => fits l = true) ls -> exists lg, logical None ls = Some lg /\ reads_as lg (map_items (expr_of fortran_lang) p) /\ begins lg /\ (lg = [] -> ls = []).
Lemma piece_nil : piece [] [].
Proof. intros _. exists []. repeat split. apply reads_nil. Qed.
Lemma piece_app a p b q : piece a p -> piece b q -> piece (a ++ b) (p ++ q).
Proof.
  intros A B F. apply Forall_app in F. destruct F as [F1 F2]. destruct (A F1) as (l1 & A1 & A2 & A3 & A4). destruct (B F2) as (l2 & B1 & B2 & B3 & B4).
  exists (l1 ++ l2). split; [rewrite (logical_app _ _ _ _ A1), B1; reflexivity|]. split; [unfold map_items; rewrite map_app; apply reads_app; assumption|].
  split; [destruct l1; [exact B3 | exact A3]|]. intros E. apply app_eq_nil in E. destruct E as [E1 E2]. rewrite A4, B4 by assumption. reflexivity.
Qed.
Lemma piece_line p : good_rate p -> piece [fortran_rate_line p] (assign_of p).
Proof.
  intros [C T] F. exists [fortran_rate_line p]. split; [apply logical_line; [exact C | exact (Forall_inv F)]|]. split; [apply reads_line, T|]. split; [apply line_begins, T|]. discriminate.
Qed.
Lemma piece_open : piece [s_ "!$OMP PARALLEL &"; s_ "!$OMP& SHARED(rate_values, J)  "; s_ "!$OMP SINGLE "] [OmpParallel; OmpSingle].
Proof.
  intros _. exists [s_ "!$OMP PARALLEL  SHARED(rate_values, J)  "; s_ "!$OMP SINGLE "]. split; [reflexivity|].
  split; [|split; [reflexivity | discriminate]]. exact (reads_app _ _ _ _ reads_parallel reads_single).
Qed.
Lemma piece_break : piece [s_ "!$OMP END SINGLE NOWAIT "; s_ "!$OMP SINGLE "] [OmpEndSingle; OmpSingle].
Proof. intros _. eexists. split; [reflexivity|]. split; [|split; [reflexivity | discriminate]]. exact (reads_app _ _ _ _ reads_end_single reads_single). Qed.
Lemma piece_close : piece [s_ "!$OMP END SINGLE NOWAIT "; s_ "!$OMP END PARALLEL "] [OmpEndSingle; OmpEndParallel].
Proof. intros _. eexists. split; [reflexivity|]. split; [|split; [reflexivity | discriminate]]. exact (reads_app _ _ _ _ reads_end_single reads_end_parallel). Qed.
Lemma piece_chunks breaks d : Forall good_rate d -> forall i, piece (rate_chunks i breaks d) (omp_chunks i breaks (map assign_of d)).
Proof.
  induction 1 as [|p d H _ IH]; intros i; [apply piece_nil|]. cbn [rate_chunks map omp_chunks].
  apply piece_app; [destruct (i =? 0); [apply piece_open | apply piece_nil]|].
  apply piece_app; [destruct (inb i breaks); [apply piece_break | apply piece_nil]|].
  exact (piece_app _ _ _ _ (piece_line p H) (IH (S i))).
Qed.
Lemma piece_rates omp d : Forall good_rate d -> piece (fortran_rate_lines omp d) (gen_rates_fortran omp d).
Proof.
  intros H. destruct omp as [breaks|]; cbn [fortran_rate_lines gen_rates_fortran]; unfold gen_rates_fortran, omp_frame.
  - apply piece_app; [apply piece_chunks, H | apply piece_close].
  - induction H as [|p d H _ IH]; [apply piece_nil|]. exact (piece_app _ _ _ _ (piece_line p H) IH).
Qed.

Lemma known_gen names omp (g : str -> xexp) d : Forall (fun p => known names (g (snd p)) = true) d ->
  forallb (known_rate names) (map_items g (gen_rates_fortran omp d)) = true.
Proof.
  intros H. assert (X : forall i breaks, forallb (known_rate names) (map_items g (omp_chunks i breaks (map assign_of d))) = true).
  { induction H as [|p d H _ IH]; intros i br; [reflexivity|]. cbn [map omp_chunks]. unfold map_items. rewrite !map_app, !forallb_app.
    cbn [assign_of map map_item forallb known_rate]. rewrite H. fold (map_items g (omp_chunks (S i) br (map assign_of d))). rewrite IH.
    destruct (i =? 0), (inb i br); reflexivity. }
  unfold gen_rates_fortran, omp_frame. destruct omp as [br|].
  - unfold map_items. rewrite map_app, forallb_app. apply andb_true_intro. split; [exact (X 0 br) | reflexivity].
  - clear X. induction H as [|p d H _ IH]; [reflexivity|]. cbn [map concat app map_items map_item forallb known_rate]. rewrite H. exact IH.
Qed.
Lemma rate_lines_one omp d : Forall good_rate d -> Forall one_line (fortran_rate_lines omp d).
Proof.
  intros H. assert (L : forall p, good_rate p -> one_line (fortran_rate_line p)) by (intros p [C _]; apply calm_one_line, line_calm, C).
  assert (K : forall l : list string, forallb (fun s => negb (existsb (Ascii.eqb NL) (s_ s))) l = true -> Forall one_line (text_lines l)) by exact one_lines.
  destruct omp as [br|]; cbn [fortran_rate_lines].
  - apply Forall_app. split; [|apply (K ["!$OMP END SINGLE NOWAIT "; "!$OMP END PARALLEL "]%string); reflexivity]. generalize 0 as i.
    induction H as [|p d H _ IH]; intros i; [constructor|]. cbn [rate_chunks].
    apply Forall_app. split; [destruct (i =? 0); [|constructor]; apply (K ["!$OMP PARALLEL &"; "!$OMP& SHARED(rate_values, J)  "; "!$OMP SINGLE "]%string); reflexivity|].
    apply Forall_app. split; [destruct (inb i br); [|constructor]; apply (K ["!$OMP END SINGLE NOWAIT "; "!$OMP SINGLE "]%string); reflexivity|].
    apply Forall_cons; [apply L, H | apply IH].
  - apply Forall_map. eapply Forall_impl; [|exact H]. exact L.
Qed.
Lemma dim_calm n : calm_text (dim_line n).
Proof. unfold dim_line. repeat apply calm_app; try apply dec_calm; repeat constructor. Qed.
Lemma top_logical : logical None (text_lines fortran_top) = Some (text_lines fortran_top).
Proof. vm_compute. reflexivity. Qed.
Lemma end_logical : logical None (text_lines fortran_end ++ [[]]) = Some (text_lines fortran_end ++ [[]]).
Proof. vm_compute. reflexivity. Qed.

Definition fortran_file (omp : option (list nat)) (d : dict nat str) : list str :=
  (text_lines fortran_top ++ [dim_line (List.length d)] ++ text_lines fortran_fixed) ++ fortran_rate_lines omp d ++ text_lines fortran_end ++ [[]].
Lemma fortran_split omp d : Forall good_rate d -> split_char NL (write_rates_fortran omp d) = fortran_file omp d.
Proof.
  intros H. unfold write_rates_fortran, fortran_file. rewrite split_unlines; [|].
  - f_equal. rewrite split_unlines by (apply rate_lines_one, H). apply f_equal. vm_compute. reflexivity.
  - apply Forall_app; split; [apply one_lines; vm_compute; reflexivity|]. apply Forall_app; split; [|apply one_lines; vm_compute; reflexivity].
    apply Forall_cons; [apply calm_one_line, dim_calm | constructor].
Qed.

Lemma logical_five a b c d e a' b' c' d' e' : logical None a = Some a' -> logical None b = Some b' -> logical None c = Some c' -> logical None d = Some d' ->
  logical None e = Some e' -> logical None ((a ++ b ++ c) ++ d ++ e) = Some (a' ++ b' ++ c' ++ d' ++ e').
Proof.
  intros A B C D E. rewrite <- !app_assoc. rewrite (logical_app _ _ _ _ A), (logical_app _ _ _ _ B), (logical_app _ _ _ _ C), (logical_app _ _ _ _ D), E. reflexivity.
Qed.
Lemma read_rates_f omp d : Forall good_rate d -> Forall (fun p => known rate_names (expr_of fortran_lang (snd p)) = true) d -> fine (write_rates_fortran omp d) ->
  read_rates_fortran (write_rates_fortran omp d) =
    Some (FRates (s_ "evaluate_rates") (map s_ ["ro2"; "h2o"; "temp"; "ttime"]%string) (s_ "rate_values") (List.length d) (s_ "j") 61
                 fortran_prog (map_items (expr_of fortran_lang) (gen_rates_fortran omp d))).
Proof.
  intros G K F. unfold fine in F. unfold read_rates_fortran. rewrite (fortran_split omp d G) in *. unfold fortran_file in *.
  apply Forall_app in F. destruct F as [F1 F2]. apply Forall_app in F1. destruct F1 as [_ F1]. apply Forall_app in F1. destruct F1 as [F1 _]. apply Forall_inv in F1.
  apply Forall_app in F2. destruct F2 as [F2 _]. destruct (piece_rates omp d G F2) as (lg & A1 & A2 & A3 & A4).
  assert (Dm : logical None [dim_line (List.length d)] = Some [dim_line (List.length d)]) by (apply logical_settled; apply Forall_cons; try constructor; [exact F1 | apply calm_settled, dim_calm]).
  rewrite (logical_five _ _ _ _ _ _ _ _ _ _ top_logical Dm fixed_logical A1 end_logical). cbn [obind].
  rewrite top_read. unfold read_subroutine. change ([dim_line (List.length d)] ++ fixed_lines ++ lg ++ text_lines fortran_end ++ [[]]) with
    (dim_line (List.length d) :: fixed_lines ++ lg ++ text_lines fortran_end ++ [[]]). rewrite whole_decl_part. cbn [obind].
  rewrite rate_out, rate_local.
  assert (S : exists pre post, span_text (fun l => negb (rate_part (s_ "rate_values") l)) (fixed_code ++ lg ++ text_lines fortran_end ++ [[]]) = (pre, post) /\
    lex_text f_spelling pre = Some fixed_toks /\ f_rate_lines (s_ "rate_values") post = Some (map_items (expr_of fortran_lang) (gen_rates_fortran omp d))).
  { assert (E0 : f_rate_lines (s_ "rate_values") (text_lines fortran_end ++ [[]]) = Some []) by (vm_compute; reflexivity).
    destruct lg as [|l lg].
    - exists (fixed_code ++ [[]]), [s_ "end subroutine"; []]. split; [|split].
      + cbn [app]. change (fixed_code ++ text_lines fortran_end ++ [[]]) with (fixed_code ++ [[]] ++ [s_ "end subroutine"; []]). rewrite app_assoc.
        apply span_text_app; [|reflexivity]. rewrite forallb_app, fixed_code_pre. reflexivity.
      + rewrite lex_text_app, fixed_code_lex. cbn [lex_text]. change (tokens f_spelling []) with (Some (@nil rtok)). reflexivity.
      + specialize (A2 []). rewrite app_nil_r in A2. specialize (A4 eq_refl).
        assert (D : omp = None /\ d = []).
        { destruct omp as [br|]; [|split; [reflexivity|]; cbn in A4; destruct d; [reflexivity | discriminate]]. cbn [fortran_rate_lines] in A4. apply app_eq_nil in A4. destruct A4; discriminate. }
        destruct D as [-> ->]. reflexivity.
    - exists fixed_code, ((l :: lg) ++ text_lines fortran_end ++ [[]]). split; [|split].
      + apply span_text_app; [exact fixed_code_pre|]. cbn [app begins] in *. rewrite A3. reflexivity.
      + exact fixed_code_lex.
      + rewrite A2, E0. cbn [option_map]. rewrite app_nil_r. reflexivity. }
  destruct S as (pre & post & S1 & S2 & S3). rewrite S1, S2. cbn [obind]. rewrite fixed_code_stmts. cbn [obind]. rewrite S3. cbn [obind].
  rewrite rate_params, fixed_prog, rate_names_eq, rate_known, (known_gen _ _ _ _ K), args_declared, rate_inputs. reflexivity.
Qed.
