(* C79: the generated source files, read as Python and Fortran read them, are
   the programs of ModelGen. *)
From Coq Require Import List Bool Arith Lia Ascii String ZArith QArith.
From Verif Require Import Base PyStr PyDict SpecRate ModelParse ModelExpr RateParse ModelLang ModelGen ModelSource ModelWrite SpecSource SpecMech ParseShow ParseStruct PropsOmp SourceRead SourceGen.
Import ListNotations.
Import Coq.Lists.List.
Open Scope nat_scope.
Open Scope list_scope.
Local Arguments eqb : simpl never.

(* ------------------------------------------------------------------ *)
(* Comment blocks *)
Lemma py_comment s : tokens py_src ("#"%char :: s) = Some [].
Proof. reflexivity. Qed.
Lemma f_comment s : tokens f_src ("!"%char :: s) = Some [].
Proof. reflexivity. Qed.
Lemma py_lines_header {C} (cellp : cell_reader C) rule titles date ls : py_lines cellp (header "#" rule titles date ++ ls) = py_lines cellp ls.
Proof.
  unfold header. rewrite <- app_assoc. induction ([rule] ++ titles ++ licence ++ [rule]) as [|l hs IH].
  - cbn [map app py_lines]. rewrite py_comment. reflexivity.
  - cbn [map app py_lines]. rewrite py_comment. exact IH.
Qed.
Lemma f_lines_header {C} (cellp : cell_reader C) rule titles date ls : f_lines cellp (header "!" rule titles date ++ ls) = f_lines cellp ls.
Proof.
  unfold header. rewrite <- app_assoc. induction ([rule] ++ titles ++ licence ++ [rule]) as [|l hs IH].
  - cbn [map app f_lines]. rewrite f_comment. reflexivity.
  - cbn [map app f_lines]. rewrite f_comment. exact IH.
Qed.
Definition no_nl (s : string) : bool := negb (existsb (Ascii.eqb NL) (s_ s)).
Lemma one_line_app a b : one_line a -> one_line b -> one_line (a ++ b).
Proof. intros H1 H2 I. apply in_app_or in I. destruct I; [exact (H1 H) | exact (H2 H)]. Qed.
Lemma one_line_cons c a : c <> NL -> one_line a -> one_line (c :: a).
Proof. intros H1 H2 [I|I]; [congruence | exact (H2 I)]. Qed.
Lemma header_one_line c rule titles date : c <> NL -> no_nl rule = true -> forallb no_nl titles = true -> one_line date ->
  Forall one_line (header c rule titles date).
Proof.
  intros Hc Hr Ht Hd. unfold header. apply Forall_app. split.
  - apply Forall_map. rewrite Forall_forall. intros l I. apply one_line_cons; [exact Hc|]. apply one_line_dec.
    assert (A : forallb no_nl ([rule] ++ titles ++ licence ++ [rule]) = true).
    { rewrite !forallb_app. cbn [forallb]. rewrite Hr, Ht. reflexivity. }
    rewrite forallb_forall in A. specialize (A l I). unfold no_nl in A. apply negb_true_iff in A. exact A.
  - apply Forall_cons; [|constructor]. apply one_line_cons; [exact Hc|]. apply one_line_app; [apply one_line_dec; reflexivity|].
    apply one_line_app; [exact Hd | apply one_line_dec; reflexivity].
Qed.
(* A comment does not go on in the next line. *)
Definition starts_dollar (s : string) : bool := match s_ s with c :: _ => Ascii.eqb c "$" | [] => false end.
Lemma comment_settled s : (forall r, s <> "$"%char :: r) -> continued ("!"%char :: s) = None.
Proof.
  intros H. unfold continued. assert (E : is_comment ("!"%char :: s) = true); [|rewrite E; reflexivity].
  unfold is_comment. change (lstrip is_space ("!"%char :: s)) with ("!"%char :: s). 
  destruct s as [|c s]; [reflexivity|].
  change (prefix_rest omp_mark ("!"%char :: c :: s)) with (if Ascii.eqb "$" c then prefix_rest (s_ "OMP") s else None). destruct (Ascii.eqb_spec "$" c) as [<-|_]; [exfalso; exact (H s eq_refl) | reflexivity].
Qed.
Lemma header_settled rule titles date : starts_dollar rule = false -> forallb (fun t => negb (starts_dollar t)) titles = true ->
  Forall (fun l => continued l = None) (header "!" rule titles date).
Proof.
  intros Hr Ht. unfold header. apply Forall_app. split.
  - apply Forall_map. rewrite Forall_forall. intros l I. apply comment_settled. intros r E.
    assert (A : forallb (fun t => negb (starts_dollar t)) ([rule] ++ titles ++ licence ++ [rule]) = true).
    { rewrite !forallb_app. cbn [forallb]. rewrite Hr, Ht. reflexivity. }
    rewrite forallb_forall in A. specialize (A l I). unfold starts_dollar in A. rewrite E in A. discriminate A.
  - apply Forall_cons; [|constructor]. apply comment_settled. intros r E. discriminate E.
Qed.

(* ------------------------------------------------------------------ *)
(* Declarations *)
Lemma stop_char c r : is_mant c = false -> is_ident_char c = false -> stop (c :: r).
Proof. intros H1 H2 d r' E. injection E as <- <-. auto. Qed.
Lemma lexes_f_dec i r ts : stop r -> lexes f_src r ts -> lexes f_src (dec i ++ r) (KNum (Z.of_nat i # 1) :: ts).
Proof. apply lexes_dec; [exact f_comment_ok | exact f_letters]. Qed.
Ltac f_name x := apply (lexes_name f_src f_comment_ok (s_ x)); [repeat constructor | eexists _, _; split; reflexivity | apply stop_char; reflexivity|].
Ltac f_op c t := apply (lexes_op f_src f_comment_ok c t); [reflexivity | discriminate|].
Ltac f_sp := apply lexes_space; [reflexivity|].
Lemma lexes_f_decl io io' r ts : lexes f_src r ts -> Forall (fun c => is_ident_char c = true) io -> (exists c x', io = c :: x' /\ is_digit c = false) -> norm f_src io = io' ->
  lexes f_src (s_ "    REAL(8), intent(" ++ io ++ s_ "), dimension(" ++ r)
  ([KName (s_ "real"); KLp; KNum 8; KRp; KComma; KName (s_ "intent"); KLp; KName io'; KRp; KComma; KName (s_ "dimension"); KLp] ++ ts).
Proof.
  intros H N1 N2 <-.
  change (s_ "    REAL(8), intent(" ++ io ++ s_ "), dimension(" ++ r) with
    (s_ "    " ++ s_ "REAL" ++ "("%char :: dec 8 ++ ")"%char :: ","%char :: " "%char :: s_ "intent" ++ "("%char :: io ++ ")"%char :: ","%char :: " "%char :: s_ "dimension" ++ "("%char :: r).
  cbn [app]. apply lexes_spaces; [repeat constructor|]. f_name "REAL"%string. f_op "("%char KLp. apply (lexes_f_dec 8); [apply stop_char; reflexivity|].
  f_op ")"%char KRp. f_op ","%char KComma. f_sp. f_name "intent"%string. f_op "("%char KLp.
  apply (lexes_name f_src f_comment_ok io); [exact N1 | exact N2 | apply stop_char; reflexivity|].
  f_op ")"%char KRp. f_op ","%char KComma. f_sp. f_name "dimension"%string. f_op "("%char KLp. exact H.
Qed.
Lemma lexes_f_in r ts : lexes f_src r ts -> lexes f_src (s_ "    REAL(8), intent(in), dimension(" ++ r)
  ([KName (s_ "real"); KLp; KNum 8; KRp; KComma; KName (s_ "intent"); KLp; KName (s_ "in"); KRp; KComma; KName (s_ "dimension"); KLp] ++ ts).
Proof. intros H. apply (lexes_f_decl (s_ "in")); [exact H | repeat constructor | eexists _, _; split; reflexivity | reflexivity]. Qed.
Lemma lexes_f_out r ts : lexes f_src r ts -> lexes f_src (s_ "    REAL(8), intent(out), dimension(" ++ r)
  ([KName (s_ "real"); KLp; KNum 8; KRp; KComma; KName (s_ "intent"); KLp; KName (s_ "out"); KRp; KComma; KName (s_ "dimension"); KLp] ++ ts).
Proof. intros H. apply (lexes_f_decl (s_ "out")); [exact H | repeat constructor | eexists _, _; split; reflexivity | reflexivity]. Qed.
Definition rest_ok (s x : string) : Prop :=
  stop (s_ s) /\ lexes f_src (s_ s) [KRp; KColon; KColon; KName (s_ x)].
Lemma decl_in n s x : rest_ok s x ->
  exists ts, tokens f_src (s_ "    REAL(8), intent(in), dimension(" ++ dec n ++ s_ s) = Some ts /\ ts <> [] /\ read_decl ts = Some (s_ x, (s_ "in", [n])).
Proof.
  intros [St Lx]. eexists. split; [apply lexes_tokens, lexes_f_in, lexes_f_dec; [exact St | exact Lx]|]. split; [discriminate|].
  cbn [app read_decl read_dims]. rewrite index_nat. reflexivity.
Qed.
Lemma decl_out n s x : rest_ok s x ->
  exists ts, tokens f_src (s_ "    REAL(8), intent(out), dimension(" ++ dec n ++ s_ s) = Some ts /\ ts <> [] /\ read_decl ts = Some (s_ x, (s_ "out", [n])).
Proof.
  intros [St Lx]. eexists. split; [apply lexes_tokens, lexes_f_out, lexes_f_dec; [exact St | exact Lx]|]. split; [discriminate|].
  cbn [app read_decl read_dims]. rewrite index_nat. reflexivity.
Qed.
Lemma decl_out2 n m s x : rest_ok s x ->
  exists ts, tokens f_src (s_ "    REAL(8), intent(out), dimension(" ++ dec n ++ s_ "," ++ dec m ++ s_ s) = Some ts /\ ts <> [] /\ read_decl ts = Some (s_ x, (s_ "out", [n; m])).
Proof.
  intros [St Lx]. eexists. split.
  - apply lexes_tokens, lexes_f_out, lexes_f_dec; [apply stop_char; reflexivity|].
    apply (lexes_op f_src f_comment_ok ","%char KComma); [reflexivity | discriminate|]. apply lexes_f_dec; [exact St | exact Lx].
  - split; [discriminate|]. cbn [app read_decl read_dims]. rewrite !index_nat. reflexivity.
Qed.
Ltac rest_done := split; [apply stop_char; reflexivity | exists 40; reflexivity].

Section Parts.
Context {C : Type} (cellp : cell_reader C).
Lemma decl_skip ds l ls : omp_line (C := C) l = None -> tokens f_src l = Some [] -> f_decl_part cellp ds (l :: ls) = f_decl_part cellp ds ls.
Proof. intros O T. cbn [f_decl_part]. rewrite O, T. reflexivity. Qed.
Lemma decl_step ds l ls ts d : omp_line (C := C) l = None -> tokens f_src l = Some ts -> ts <> [] -> read_decl ts = Some d ->
  f_decl_part cellp ds (l :: ls) = f_decl_part cellp (ds ++ [d]) ls.
Proof. intros O T N D. cbn [f_decl_part]. rewrite O, T, D. destruct ts; [congruence | reflexivity]. Qed.
(* subroutine name(arguments), implicit none *)
Lemma f_lines_sub l f args r l2 ls ds cl p : tokens f_src l = Some (KName (s_ "subroutine") :: KName f :: KLp :: r) -> read_args r = Some (args, []) ->
  f_implicit cellp (l2 :: ls) = Some (ds, cl, p) ->
  f_lines cellp (l :: l2 :: ls) = Some (FSource f args ds cl p).
Proof. intros T A D. cbn [f_lines]. rewrite T. change (is_name "subroutine" (s_ "subroutine")) with true. rewrite A, D. reflexivity. Qed.
Lemma f_implicit_none ls : f_implicit cellp (s_ "    implicit none " :: ls) = f_decl_part cellp [] ls.
Proof. reflexivity. Qed.
Lemma f_implicit_skip l ls : tokens f_src l = Some [] -> f_implicit cellp (l :: ls) = f_implicit cellp ls.
Proof. intros T. cbn [f_implicit]. rewrite T. reflexivity. Qed.
Lemma f_lines_blank ls : f_lines cellp ([] :: ls) = f_lines cellp ls.
Proof. reflexivity. Qed.
End Parts.
Lemma calm_decl io s n : calm_text (s_ io) -> calm_text (s_ s) -> calm_text (s_ io ++ dec n ++ s_ s).
Proof. intros A B. apply calm_app; [exact A|]. apply calm_app; [apply dec_calm | exact B]. Qed.
Lemma calm_dec s : forallb calm s = true -> calm_text s.
Proof. intros H. apply Forall_forall. rewrite forallb_forall in H. exact H. Qed.
Ltac calm_done := apply calm_dec; reflexivity.

(* A first statement cannot be taken for a declaration. *)
Lemma decl_body out ds : find (fun d => is_name "out" (fst (snd d))) ds = Some out -> forall ls p,
  f_body one_subscript (fst out) ls = Some p -> f_decl_part one_subscript ds ls = Some (ds, false, p).
Proof.
  intros Ho. induction ls as [|l ls IH]; intros p H; [discriminate|].
  assert (Eo : (match find (fun d => is_name "out" (fst (snd d))) ds with Some (x, _) => x | None => [] end) = fst out) by (rewrite Ho; destruct out; reflexivity).
  cbn [f_decl_part]. rewrite Eo. cbn [f_body] in H. destruct (omp_line l) as [o|] eqn:O.
  - assert (X : f_body one_subscript (fst out) (l :: ls) = Some p) by (cbn [f_body]; rewrite O; exact H). rewrite X. reflexivity.
  - destruct (tokens f_src l) as [ts|] eqn:T; [|discriminate]. destruct ts as [|t ts]; [exact (IH p H)|].
    assert (X : f_body one_subscript (fst out) (l :: ls) = Some p) by (cbn [f_body]; rewrite O, T; exact H).
    assert (A : read_decl (t :: ts) = None /\ read_clear (t :: ts) = None).
    { assert (D : (exists a b, t :: ts = [KName a; KName b]) \/ exists c it, read_assign one_subscript false (fst out) (t :: ts) = Some (Assign c it)).
      { destruct t; try (destruct (read_assign one_subscript false (fst out) _) eqn:R; [cbn in R; discriminate R | discriminate H]).
        destruct ts as [|t2 ts]; [cbn [read_assign one_subscript] in H; destruct (eqb x (fst out)); discriminate H|].
        destruct t2; try (cbn [read_assign one_subscript] in H; destruct (eqb x (fst out)); discriminate H).
        - destruct ts; [eauto|]. cbn [read_assign one_subscript] in H. destruct (eqb x (fst out)); discriminate H.
        - right. destruct (read_assign one_subscript false (fst out) _) as [it|] eqn:R in H |- *; [|destruct ts; discriminate H].
          unfold read_assign in R. destruct (eqb x (fst out)); [|discriminate R].
          destruct (one_subscript false (KLp :: ts)) as [[c r']|]; [|discriminate R]. destruct (read_toks false r'); [|discriminate R].
          injection R as <-. eauto.
        - right. destruct (read_assign one_subscript false (fst out) _) as [it|] eqn:R in H |- *; [|destruct ts; discriminate H].
          unfold read_assign in R. destruct (eqb x (fst out)); [|discriminate R].
          destruct (one_subscript false (KLb :: ts)) as [[c r']|]; [|discriminate R]. destruct (read_toks false r'); [|discriminate R].
          injection R as <-. eauto. }
      destruct D as [(a & b & ->) | (c & it & R)]; [split; reflexivity|].
      unfold read_assign in R. destruct t; try discriminate R. destruct (eqb x (fst out)); [|discriminate R].
      destruct (one_subscript false ts) as [[c' r']|] eqn:S1; [|discriminate R].
      destruct ts as [|[] ts]; try discriminate S1; destruct ts as [|[] ts]; try discriminate S1; destruct ts as [|[] ts]; try discriminate S1;
        destruct ts as [|[] ts]; try discriminate S1. split; reflexivity. }
    destruct A as [A1 A2]. rewrite A1, A2, X. reflexivity.
Qed.

(* ------------------------------------------------------------------ *)
(* Statements and numerals *)
Lemma plain_app {C} (p q : list (item C)) : plain (p ++ q) = plain p ++ plain q.
Proof. apply map_app. Qed.
Lemma plain_concat {C} (ls : list (list (item C))) : plain (concat ls) = concat (map plain ls).
Proof. apply concat_map. Qed.
Lemma plain_chunks {C} breaks : forall (ls : list (list (item C))) i, plain (omp_chunks i breaks ls) = omp_chunks i breaks (map plain ls).
Proof.
  induction ls as [|l ls IH]; intros i; [reflexivity|]. cbn [omp_chunks map]. rewrite !plain_app, IH.
  destruct (i =? 0), (inb i breaks); reflexivity.
Qed.
Lemma plain_frame {C} omp (ls : list (list (item C))) : plain (omp_frame omp ls) = omp_frame omp (map plain ls).
Proof. unfold omp_frame. destruct omp; [rewrite plain_app, plain_chunks; reflexivity | apply plain_concat]. Qed.
Lemma numerals_app {C} (p q : list (item C)) : numerals (p ++ q) = numerals p ++ numerals q.
Proof. apply flat_map_app. Qed.
Lemma numerals_In {C} (ls : list (list (item C))) l q : In l ls -> In q (numerals l) -> In q (numerals (concat ls)).
Proof.
  induction ls as [|k ls IH]; intros I Q; [destruct I|]. cbn [concat]. rewrite numerals_app. apply in_or_app. destruct I as [->|I]; auto.
Qed.
Lemma numerals_frame {C} omp (ls : list (list (item C))) : numerals (omp_frame omp ls) = numerals (concat ls).
Proof.
  unfold omp_frame. destruct omp as [breaks|]; [|reflexivity]. rewrite numerals_app. cbn [numerals flat_map]. rewrite app_nil_r.
  generalize 0. induction ls as [|l ls IH]; intros i; [reflexivity|]. cbn [omp_chunks concat]. rewrite !numerals_app, IH.
  destruct (i =? 0), (inb i breaks); reflexivity.
Qed.
Lemma good_of {C} num (l : list (item C)) : Forall shaped l -> (forall q, In q (numerals l) -> float_text (num q) q) -> Forall (good_item num) l.
Proof.
  induction 1 as [|i l (c & e & -> & Hs) _ IH]; intros P; [constructor|]. apply Forall_cons.
  - exists c, e. split; [reflexivity|]. split; [exact Hs|]. intros q I. apply P. cbn [numerals flat_map]. apply in_or_app. left. exact I.
  - apply IH. intros q I. apply P. cbn [numerals flat_map]. apply in_or_app. right. exact I.
Qed.

Lemma cell1_py : cell_ok py_src true one_subscript cell_text1.
Proof. apply cell_ok1; [exact py_comment_ok | exact py_letters]. Qed.
Lemma cell2_py : cell_ok py_src true two_subscripts cell_text2.
Proof. apply cell_ok2; [exact py_comment_ok | exact py_letters]. Qed.
Lemma cell1_f : cell_ok f_src false one_subscript cell_text1.
Proof. apply cell_ok1; [exact f_comment_ok | exact f_letters]. Qed.
Lemma cell2_f : cell_ok f_src false two_subscripts cell_text2.
Proof. apply cell_ok2; [exact f_comment_ok | exact f_letters]. Qed.
Ltac nm := split; [reflexivity|]; split; [repeat constructor | eexists _, _; split; reflexivity].
Ltac ol := repeat (apply Forall_cons; [apply one_line_dec; reflexivity|]); constructor.

(* ------------------------------------------------------------------ *)
(* C79.  For every table: the file that is written, read as a Python module,
   is one function with the expected name, arguments and result whose body is
   the generated program. *)
Theorem C79_reactants_numba num date n sp2a rt loss text : one_line date ->
  write_reactants_numba num date n sp2a rt loss = Ok text ->
  exists p, gen_reactants_numba n sp2a rt loss = Ok p /\
    (prints num p -> read_python one_subscript text =
       Some (Source (s_ "reactants") [s_ "y"; s_ "equations"; s_ "reactants_conc"] (s_ "reactants_conc") (plain p))).
Proof.
  intros Hd W. unfold write_reactants_numba in W. unfold gen_reactants_numba.
  destruct (mapM (react_line 0 sp2a loss rt) (seq 0 n)) as [ls|e] eqn:M; cbn [bind] in *; [|discriminate W].
  assert (W' : unlines (reactants_numba_head date) ++
      flat_map (fun l => chunk_text num cell_text1 true (s_ "reactants_conc") [] l ++ [NL]) ls ++
      unlines [s_ "    return reactants_conc "] = text) by congruence. clear W.
  exists (concat ls). split; [reflexivity|]. intros P. rewrite <- W'.
  assert (Sh : forall l, In l ls -> List.length l <= 1 /\ Forall shaped l /\ Forall unbroken l).
  { apply mapM_inv in M. clear - M. induction M as [|a b l1 l2 H _ IH]; intros l I; [destruct I|]. destruct I as [<-|I]; [eapply react_line_shape; exact H | exact (IH l I)]. }
  rewrite plain_concat, <- flat_map_concat_map.
  apply py_file with (out := s_ "reactants_conc").
  - unfold reactants_numba_head. apply Forall_app. split; [apply header_one_line; [discriminate | reflexivity | reflexivity | exact Hd] | ol].
  - apply one_line_dec. reflexivity.
  - apply py_text_flat. intros l I. destruct (Sh l I) as (S1 & S2 & S3).
    apply py_text_line; [exact cell1_py | exact cell_text1_calm | nm | exact S1| |exact S3].
    apply good_of; [exact S2|]. intros q J. apply P. eapply numerals_In; eauto.
  - intros rest. unfold reactants_numba_head. rewrite <- app_assoc, py_lines_header. reflexivity.
  - reflexivity.
  - reflexivity.
Qed.

Theorem C79_dydt_numba num date sp2a loss gain : one_line date ->
  prints num (snd (gen_loss_gain_numba sp2a loss gain)) ->
  read_python one_subscript (write_loss_gain_numba num date sp2a loss gain) =
    Some (Source (s_ "dydt") [s_ "loss_gain_list"; s_ "r"] (s_ "loss_gain_list") (plain (snd (gen_loss_gain_numba sp2a loss gain)))).
Proof.
  intros Hd. unfold write_loss_gain_numba, gen_loss_gain_numba. destruct (sparse_lg sp2a loss gain []) as [[loss' gain'] m]. cbn [snd]. intros P.
  assert (E : plain (flat_map (lg_line_numba loss' gain') sp2a) = flat_map (fun p => plain (lg_line_numba loss' gain' p)) sp2a).
  { rewrite !flat_map_concat_map, plain_concat, map_map. reflexivity. }
  rewrite E. apply py_file with (out := s_ "loss_gain_list").
  - unfold loss_gain_numba_head. apply Forall_app. split; [apply header_one_line; [discriminate | reflexivity | reflexivity | exact Hd] | ol].
  - apply one_line_dec. reflexivity.
  - apply py_text_flat. intros p I. destruct (lg_numba_shape loss' gain' p) as (S1 & S2 & S3).
    apply py_text_line; [exact cell1_py | exact cell_text1_calm | nm | exact S1| |exact S3].
    apply good_of; [exact S2|]. intros q J. apply P. rewrite flat_map_concat_map. eapply numerals_In; [apply in_map; exact I | exact J].
  - intros rest. unfold loss_gain_numba_head. rewrite <- app_assoc, py_lines_header. reflexivity.
  - reflexivity.
  - reflexivity.
Qed.

Theorem C79_jacobian_numba num date ord sp2a rt loss gain text : one_line date ->
  write_jacobian_numba num date ord sp2a rt loss gain = Ok text ->
  exists p, gen_jacobian_numba ord sp2a rt loss gain = Ok p /\
    (prints num p -> read_python two_subscripts text =
       Some (Source (s_ "jacobian") [s_ "r"; s_ "y"; s_ "dy_dy"] (s_ "dy_dy") (plain p))).
Proof.
  intros Hd W. unfold write_jacobian_numba in W. unfold gen_jacobian_numba.
  destruct (mapM (jac_row 0 sp2a rt loss gain ord false) sp2a) as [ls|e] eqn:M; cbn [bind] in *; [|discriminate W].
  assert (W' : unlines (jacobian_numba_head date) ++ flat_map (chunk_text num cell_text2 true (s_ "dy_dy") (s_ " " ++ [NL])) ls ++
      unlines [s_ "    return dy_dy "] = text) by congruence. clear W.
  exists (concat ls). split; [reflexivity|]. intros P. rewrite <- W'.
  assert (Sh : forall l, In l ls -> Forall shaped l /\ Forall unbroken l).
  { apply mapM_inv in M. clear - M. revert M. generalize sp2a at 2. intros sp M. induction M as [|a b l1 l2 H _ IH]; intros l I; [destruct I|].
    destruct I as [<-|I]; [|exact (IH l I)]. destruct (jac_row_shape _ _ _ _ _ _ _ _ _ H) as [A B]. auto. }
  rewrite plain_concat, <- flat_map_concat_map.
  apply py_file with (out := s_ "dy_dy").
  - unfold jacobian_numba_head. apply Forall_app. split; [apply header_one_line; [discriminate | reflexivity | reflexivity | exact Hd] | ol].
  - apply one_line_dec. reflexivity.
  - apply py_text_flat. intros l I. destruct (Sh l I) as (S2 & S3).
    apply py_text_chunk; [exact cell2_py | exact cell_text2_calm | nm | | exact S3 | repeat constructor | repeat constructor].
    apply good_of; [exact S2|]. intros q J. apply P. eapply numerals_In; eauto.
  - intros rest. unfold jacobian_numba_head. rewrite <- app_assoc, py_lines_header. reflexivity.
  - reflexivity.
  - reflexivity.
Qed.

(* Fortran: a file is accepted exactly when no line is longer than 132
   characters; then it is one subroutine with the expected arguments,
   declarations and clearing, and with the generated program. *)
Definition accepted {C} (cellp : cell_reader C) (text : str) (s : fsource C) : Prop :=
  (fine text -> read_fortran cellp text = Some s) /\ (~ fine text -> read_fortran cellp text = None).
Lemma accepted_intro {C} (cellp : cell_reader C) text s : (fine text -> read_fortran cellp text = Some s) -> accepted cellp text s.
Proof.
  intros H. split; [exact H|]. intros N. destruct (read_fortran cellp text) as [s'|] eqn:E; [|reflexivity]. exfalso. apply N. eapply read_fine, E.
Qed.
Ltac head_calm := repeat first [apply calm_app | apply dec_calm | calm_done].
Ltac calms := repeat (apply Forall_cons; [first [match goal with |- continued (_ ++ _) = None => apply calm_settled; head_calm end | reflexivity]|]); constructor.
Ltac heads := repeat (apply Forall_cons; [first [match goal with |- one_line (_ ++ _) => apply calm_one_line; head_calm end | apply one_line_dec; reflexivity]|]); constructor.

Theorem C79_reactants_fortran num date omp n sp2a rt loss text : one_line date ->
  write_reactants_fortran num date omp n sp2a rt loss = Ok text ->
  exists p, gen_reactants_fortran omp n sp2a rt loss = Ok p /\
    (prints num p -> accepted one_subscript text
       (FSource (s_ "reactants") [s_ "y"; s_ "reactants_conc"]
          [(s_ "y", (s_ "in", [List.length sp2a])); (s_ "reactants_conc", (s_ "out", [n]))] false (plain p))).
Proof.
  intros Hd W. unfold write_reactants_fortran in W. unfold gen_reactants_fortran.
  destruct (mapM (react_line 1 sp2a loss rt) (seq 0 n)) as [ls|e] eqn:M; cbn [bind] in *; [|discriminate W].
  assert (W' : unlines (reactants_fortran_head date n (List.length sp2a)) ++
      omp_text omp (s_ "y,reactants_conc") (fun l => chunk_text num cell_text1 false (s_ "reactants_conc") [] l ++ [NL]) ls ++
      unlines [s_ "end subroutine"] = text) by congruence. clear W.
  eexists. split; [reflexivity|]. intros P. apply accepted_intro. rewrite <- W'.
  assert (Sh : forall l, In l ls -> List.length l <= 1 /\ Forall shaped l).
  { apply mapM_inv in M. clear - M. induction M as [|a b l1 l2 H _ IH]; intros l I; [destruct I|]. destruct I as [<-|I]; [|exact (IH l I)].
    destruct (react_line_shape _ _ _ _ _ _ H) as (A & B & _). auto. }
  rewrite plain_frame.
  apply (f_file one_subscript (s_ "reactants_conc") _ _ _ (FSource (s_ "reactants") [s_ "y"; s_ "reactants_conc"]
          [(s_ "y", (s_ "in", [List.length sp2a])); (s_ "reactants_conc", (s_ "out", [n]))] false)).
  - unfold reactants_fortran_head. apply Forall_app. split; [apply header_one_line; [discriminate | reflexivity | reflexivity | exact Hd]|].
    heads.
  - apply one_line_dec. reflexivity.
  - reflexivity.
  - unfold reactants_fortran_head. apply Forall_app. split; [apply header_settled; reflexivity|]. calms.
  - apply f_text_omp; [split; [apply one_line_dec; reflexivity | eexists; split; reflexivity]|]. intros l I. destruct (Sh l I) as (S1 & S2).
    assert (O : plain_name f_src (s_ "reactants_conc")) by nm.
    apply (f_text_line one_subscript cell_text1 num (s_ "reactants_conc") cell1_f cell_text1_calm O l []); [exact S1| |left; reflexivity].
    apply good_of; [exact S2|]. intros q J. apply P. rewrite numerals_frame. eapply numerals_In; eauto.
  - intros rest q B. unfold reactants_fortran_head. rewrite <- app_assoc, f_lines_header.
    destruct (decl_in (List.length sp2a) ") :: y " "y") as (t1 & T1 & N1 & D1); [rest_done|].
    destruct (decl_out n ") :: reactants_conc " "reactants_conc") as (t2 & T2 & N2 & D2); [rest_done|].
    cbn [app].
    assert (X : f_decl_part one_subscript [] ((s_ "    ! Calculate reactant and stochiometric contribution for each reaction") ::
        (s_ "    REAL(8), intent(in), dimension(" ++ dec (List.length sp2a) ++ s_ ") :: y ") :: s_ "    !f2py intent(in) :: y " ::
        (s_ "    REAL(8), intent(out), dimension(" ++ dec n ++ s_ ") :: reactants_conc ") :: s_ "    !f2py intent(out) :: reactants_conc " :: rest)
        = Some ([(s_ "y", (s_ "in", [List.length sp2a])); (s_ "reactants_conc", (s_ "out", [n]))], false, q)).
    { rewrite decl_skip by reflexivity. erewrite decl_step; [|reflexivity | exact T1 | exact N1 | exact D1]. rewrite decl_skip by reflexivity.
      erewrite decl_step; [|reflexivity | exact T2 | exact N2 | exact D2]. rewrite decl_skip by reflexivity.
      apply (decl_body (s_ "reactants_conc", (s_ "out", [n]))); [reflexivity | exact B]. }
    rewrite f_lines_blank. eapply f_lines_sub; [reflexivity | reflexivity|]. rewrite f_implicit_none. exact X.
  - reflexivity.
Qed.

Theorem C79_dydt_fortran num date omp n nsp sp2a loss gain : one_line date ->
  prints num (gen_loss_gain_fortran omp sp2a loss gain) ->
  accepted one_subscript (write_loss_gain_fortran num date omp n nsp sp2a loss gain)
    (FSource (s_ "loss_gain") [s_ "r"; s_ "loss_gain_array"]
       [(s_ "r", (s_ "in", [n])); (s_ "loss_gain_array", (s_ "out", [nsp]))] true (plain (gen_loss_gain_fortran omp sp2a loss gain))).
Proof.
  intros Hd P. apply accepted_intro. unfold write_loss_gain_fortran. unfold gen_loss_gain_fortran in *. rewrite plain_frame.
  apply (f_file one_subscript (s_ "loss_gain_array") _ _ _ (FSource (s_ "loss_gain") [s_ "r"; s_ "loss_gain_array"]
       [(s_ "r", (s_ "in", [n])); (s_ "loss_gain_array", (s_ "out", [nsp]))] true)).
  - unfold loss_gain_fortran_head. apply Forall_app. split; [apply header_one_line; [discriminate | reflexivity | reflexivity | exact Hd]|].
    heads.
  - apply one_line_dec. reflexivity.
  - reflexivity.
  - unfold loss_gain_fortran_head. apply Forall_app. split; [apply header_settled; reflexivity|]. calms.
  - apply f_text_omp; [split; [apply one_line_dec; reflexivity | eexists; split; reflexivity]|]. intros l I.
    apply in_map_iff in I. destruct I as (p & <- & I). destruct (lg_fortran_shape loss gain p) as (S1 & S2).
    assert (O : plain_name f_src (s_ "loss_gain_array")) by nm.
    apply (f_text_line one_subscript cell_text1 num (s_ "loss_gain_array") cell1_f cell_text1_calm O _ (s_ " ")); [exact S1| |right; reflexivity].
    apply good_of; [exact S2|]. intros q J. apply P. rewrite numerals_frame. eapply numerals_In; [apply in_map; exact I | exact J].
  - intros rest q B. unfold loss_gain_fortran_head. rewrite <- app_assoc, f_lines_header.
    destruct (decl_in n ") :: r " "r") as (t1 & T1 & N1 & D1); [rest_done|].
    destruct (decl_out nsp ") :: loss_gain_array " "loss_gain_array") as (t2 & T2 & N2 & D2); [rest_done|].
    cbn [app]. rewrite !f_lines_blank. eapply f_lines_sub; [reflexivity | reflexivity|]. rewrite f_implicit_skip by reflexivity. rewrite f_implicit_none.
    erewrite decl_step; [|reflexivity | exact T1 | exact N1 | exact D1]. rewrite decl_skip by reflexivity.
    erewrite decl_step; [|reflexivity | exact T2 | exact N2 | exact D2]. rewrite !decl_skip by reflexivity.
    cbn [app].
    change (f_decl_part one_subscript [(s_ "r", (s_ "in", [n])); (s_ "loss_gain_array", (s_ "out", [nsp]))] (s_ "    loss_gain_array(:)=0.0D0 " :: rest))
      with (option_map (fun p => ([(s_ "r", (s_ "in", [n])); (s_ "loss_gain_array", (s_ "out", [nsp]))], true, p)) (f_body one_subscript (s_ "loss_gain_array") rest)).
    rewrite B. reflexivity.
  - reflexivity.
Qed.

Theorem C79_jacobian_fortran num date ord omp n nsp sp2a rt loss gain text : one_line date ->
  write_jacobian_fortran num date ord omp n nsp sp2a rt loss gain = Ok text ->
  exists p, gen_jacobian_fortran ord omp sp2a rt loss gain = Ok p /\
    (prints num p -> accepted two_subscripts text
       (FSource (s_ "jacobian") [s_ "r"; s_ "y"; s_ "dy_dy"]
          [(s_ "r", (s_ "in", [n])); (s_ "y", (s_ "in", [nsp])); (s_ "dy_dy", (s_ "out", [nsp; nsp]))] true (plain p))).
Proof.
  intros Hd W. unfold write_jacobian_fortran in W. unfold gen_jacobian_fortran.
  destruct (mapM (jac_row 1 sp2a rt loss gain ord true) sp2a) as [ls|e] eqn:M; cbn [bind] in *; [|discriminate W].
  assert (W' : unlines (jacobian_fortran_head date n nsp) ++
      omp_text omp (s_ "r,y,dy_dy") (chunk_text num cell_text2 false (s_ "dy_dy") (s_ " " ++ [NL])) ls ++
      unlines [s_ "end subroutine "] = text) by congruence. clear W.
  eexists. split; [reflexivity|]. intros P. apply accepted_intro. rewrite <- W'.
  assert (Sh : forall l, In l ls -> Forall shaped l).
  { apply mapM_inv in M. clear - M. revert M. generalize sp2a at 2. intros sp M. induction M as [|a b l1 l2 H _ IH]; intros l I; [destruct I|].
    destruct I as [<-|I]; [|exact (IH l I)]. destruct (jac_row_shape _ _ _ _ _ _ _ _ _ H) as [A B]. auto. }
  rewrite plain_frame.
  apply (f_file two_subscripts (s_ "dy_dy") _ _ _ (FSource (s_ "jacobian") [s_ "r"; s_ "y"; s_ "dy_dy"]
          [(s_ "r", (s_ "in", [n])); (s_ "y", (s_ "in", [nsp])); (s_ "dy_dy", (s_ "out", [nsp; nsp]))] true)).
  - unfold jacobian_fortran_head. apply Forall_app. split; [apply header_one_line; [discriminate | reflexivity | reflexivity | exact Hd]|].
    heads.
  - apply one_line_dec. reflexivity.
  - reflexivity.
  - unfold jacobian_fortran_head. apply Forall_app. split; [apply header_settled; reflexivity|]. calms.
  - apply f_text_omp; [split; [apply one_line_dec; reflexivity | eexists; split; reflexivity]|]. intros l I.
    assert (O : plain_name f_src (s_ "dy_dy")) by nm.
    apply (f_text_chunk two_subscripts cell_text2 num (s_ "dy_dy") cell2_f cell_text2_calm O l (s_ " ")); [|repeat constructor | repeat constructor].
    apply good_of; [exact (Sh l I)|]. intros q J. apply P. rewrite numerals_frame. eapply numerals_In; eauto.
  - intros rest q B. unfold jacobian_fortran_head. rewrite <- app_assoc, f_lines_header.
    destruct (decl_in n ") :: r " "r") as (t1 & T1 & N1 & D1); [rest_done|].
    destruct (decl_in nsp ") :: y " "y") as (t2 & T2 & N2 & D2); [rest_done|].
    destruct (decl_out2 nsp nsp ") :: dy_dy " "dy_dy") as (t3 & T3 & N3 & D3); [rest_done|].
    cbn [app]. rewrite !f_lines_blank. eapply f_lines_sub; [reflexivity | reflexivity|]. rewrite f_implicit_skip by reflexivity. rewrite f_implicit_none.
    erewrite decl_step; [|reflexivity | exact T1 | exact N1 | exact D1]. rewrite decl_skip by reflexivity.
    erewrite decl_step; [|reflexivity | exact T2 | exact N2 | exact D2]. rewrite decl_skip by reflexivity.
    erewrite decl_step; [|reflexivity | exact T3 | exact N3 | exact D3]. rewrite decl_skip by reflexivity.
    cbn [app].
    change (f_decl_part two_subscripts [(s_ "r", (s_ "in", [n])); (s_ "y", (s_ "in", [nsp])); (s_ "dy_dy", (s_ "out", [nsp; nsp]))] (s_ "    dy_dy(:,:)=0.0D0 " :: rest))
      with (option_map (fun p => ([(s_ "r", (s_ "in", [n])); (s_ "y", (s_ "in", [nsp])); (s_ "dy_dy", (s_ "out", [nsp; nsp]))], true, p)) (f_body two_subscripts (s_ "dy_dy") rest)).
    rewrite B. reflexivity.
  - reflexivity.
Qed.

(* Examples that meet the hypotheses are in PropsWidth.v. *)
Print Assumptions C79_reactants_numba.
Print Assumptions C79_dydt_numba.
Print Assumptions C79_jacobian_numba.
Print Assumptions C79_reactants_fortran.
Print Assumptions C79_dydt_fortran.
Print Assumptions C79_jacobian_fortran.
