(* The program that is read from the text of Partitioning.f90. *)
From Coq Require Import List Bool Arith Lia Ascii String ZArith QArith.
From Verif Require Import Base PyStr SpecRate ModelExpr RateParse ModelLang ModelSource ModelWrite ParseText ParseShow SourceRead SourceWidth ModelPartText ModelFort PartText.
Import ListNotations.
Import Coq.Lists.List.
Open Scope nat_scope.
Open Scope list_scope.
Local Arguments eqb : simpl never.

(* ------------------------------------------------------------------ *)
(* Lines of text and the lines of code they amount to. *)
Definition gives (ls : list str) (out : list fline) : Prop := exists lg, logical None ls = Some lg /\ code_lines lg = Some out.
Lemma code_lines_app a b oa ob : code_lines a = Some oa -> code_lines b = Some ob -> code_lines (a ++ b) = Some (oa ++ ob).
Proof.
  revert oa; induction a as [|l a IH]; intros oa Ha Hb; [injection Ha as <-; exact Hb|].
  cbn [app code_lines] in *. destruct (prefix_rest omp_mark l).
  - destruct (tokens f_src s); [|discriminate]. destruct (code_lines a) as [oa'|]; [|discriminate]. injection Ha as <-. rewrite (IH oa' eq_refl Hb). reflexivity.
  - destruct (tokens f_src l) as [[|t ts]|]; [apply IH; assumption | | discriminate].
    destruct (code_lines a) as [oa'|]; [|discriminate]. injection Ha as <-. rewrite (IH oa' eq_refl Hb). reflexivity.
Qed.
Lemma gives_app a oa b ob : gives a oa -> gives b ob -> gives (a ++ b) (oa ++ ob).
Proof.
  intros (la & A1 & A2) (lb & B1 & B2). exists (la ++ lb). split; [rewrite (logical_app _ _ _ _ A1), B1; reflexivity | apply code_lines_app; assumption].
Qed.
Lemma gives_nil : gives [] [].
Proof. exists []. split; reflexivity. Qed.
Lemma gives_cons l ol ls ols : gives [l] ol -> gives ls ols -> gives (l :: ls) (ol ++ ols).
Proof. apply (gives_app [l]). Qed.

(* Lines that go on. *)
Lemma logical_more : forall ls p q, ls <> [] -> logical (Some (p ++ q)) ls =
  match logical (Some q) ls with Some (x :: r) => Some ((p ++ x) :: r) | o => o end.
Proof.
  induction ls as [|l ls IH]; intros p q N; [congruence|]. cbn [logical]. destruct (fits l); [|reflexivity].
  destruct (continued l) as [l0|].
  - rewrite <- app_assoc. destruct ls as [|l2 ls]; [reflexivity|]. apply IH. discriminate.
  - destruct (logical None ls); cbn [ocons]; [rewrite <- app_assoc|]; reflexivity.
Qed.
Lemma continued_tail x sp : calm_text x -> Forall (fun c => is_space c = true) sp -> continued (x ++ "&"%char :: sp) = Some x.
Proof.
  intros C F. unfold continued.
  assert (E : is_comment (x ++ "&"%char :: sp) = false).
  { unfold is_comment. destruct (lstrip is_space (x ++ "&"%char :: sp)) as [|c r] eqn:E; [reflexivity|]. apply lstrip_In in E.
    destruct (Ascii.eqb_spec c "!") as [->|_]; [|reflexivity]. exfalso. apply in_app_or in E. destruct E as [E|[E|E]]; [|discriminate E|].
    - pose proof (calm_In _ _ C E). discriminate.
    - rewrite Forall_forall in F. specialize (F _ E). discriminate F. }
  rewrite E. rewrite rev_app_distr. cbn [rev]. rewrite <- app_assoc. cbn [app].
  assert (G : forall u v, Forall (fun c => is_space c = true) u -> lstrip is_space (u ++ "&"%char :: v) = "&"%char :: v).
  { intros u v. induction u as [|c u IH]; intros U; [reflexivity|]. inversion U; subst. cbn [app lstrip]. rewrite H1. apply IH; assumption. }
  rewrite G by (apply Forall_rev; exact F). rewrite rev_involutive. reflexivity.
Qed.
Lemma fits_short l : List.length l <= 132 -> fits l = true.
Proof.
  intros H. unfold fits. apply orb_true_intro. right. apply Nat.leb_le. unfold rstrip. rewrite rev_length.
  assert (G : forall s, List.length (lstrip is_space s) <= List.length s) by (induction s as [|c s IH]; [reflexivity|]; cbn [lstrip]; destruct (is_space c); cbn [List.length]; lia).
  specialize (G (rev l)). rewrite rev_length in G. lia.
Qed.
Definition calm_str (s : str) : bool := forallb calm s.
Lemma calm_str_ok s : calm_str s = true -> calm_text s.
Proof. intros H. apply Forall_forall. apply forallb_forall. exact H. Qed.
Definition short (n : nat) : Prop := List.length (dec n) <= 20.
Lemma open_text_dec a : existsb (Ascii.eqb "!") a = false -> match rev a with c :: _ => edge c | [] => false end = true -> open_text a.
Proof.
  intros N E. split; [|exact N]. destruct (rev a) as [|c r] eqn:R; [discriminate|]. exists (rev r), c. split; [|exact E].
  rewrite <- (rev_involutive a), R. reflexivity.
Qed.
Lemma stop_dec b : match b with c :: _ => negb (is_mant c) && negb (is_ident_char c) | [] => true end = true -> stop b.
Proof. intros H c r ->. apply andb_prop in H. destruct H as [A B]. apply negb_true_iff in A, B. auto. Qed.

Definition head_ok (a : str) : bool :=
  calm_str a && match lstrip is_space a with c :: _ => negb (Ascii.eqb c "!") | [] => false end &&
  negb (existsb (Ascii.eqb "!") a) && match rev a with c :: _ => edge c | [] => false end && (List.length a <=? 55).
Lemma not_omp a r : calm_str a = true -> lstrip is_space a <> [] -> prefix_rest omp_mark (a ++ r) = None.
Proof.
  intros C N. destruct a as [|c a]; [destruct (N eq_refl)|]. cbn [app]. apply andb_prop in C. destruct C as [C _].
  cbn [omp_mark s_ list_ascii_of_string prefix_rest]. destruct (Ascii.eqb_spec "!" c) as [<-|_]; [discriminate C | reflexivity].
Qed.
Lemma head_ok_ok a : head_ok a = true -> calm_text a /\ open_text a /\ (forall r, prefix_rest omp_mark (a ++ r) = None) /\ List.length a <= 55.
Proof.
  unfold head_ok. rewrite !andb_true_iff. intros ((((C & S) & N) & E) & L). apply negb_true_iff in N. apply Nat.leb_le in L.
  split; [apply calm_str_ok; exact C|]. split; [apply open_text_dec; assumption|]. split; [|exact L].
  intros r. apply not_omp; [exact C|]. intros Z. rewrite Z in S. discriminate.
Qed.
Definition tail_ok (b : str) : bool :=
  calm_str b && match b with c :: _ => negb (is_mant c) && negb (is_ident_char c) | [] => true end && (List.length b <=? 55).
Lemma code_one l ts : prefix_rest omp_mark l = None -> tokens f_src l = Some ts -> ts <> [] -> code_lines [l] = Some [LCode ts].
Proof. intros P T N. cbn [code_lines]. rewrite P, T. destruct ts; [congruence|]. reflexivity. Qed.

(* a line with one printed number *)
Lemma gives_number a n b t1 t2 : head_ok a = true -> tail_ok b = true -> short n -> tokens f_src a = Some t1 -> tokens f_src b = Some t2 ->
  gives [a ++ dec n ++ b] [LCode (t1 ++ KNum (Z.of_nat n # 1) :: t2)].
Proof.
  intros A B Sn H1 H2. destruct (head_ok_ok a A) as (Ca & Oa & Pa & La). unfold tail_ok in B. rewrite !andb_true_iff in B.
  destruct B as ((Cb & Sb) & Lb). apply Nat.leb_le in Lb. exists [a ++ dec n ++ b]. split.
  - apply logical_settled; (apply Forall_cons; [|constructor]).
    + apply fits_short. rewrite !app_length. unfold short in Sn. lia.
    + apply calm_settled. repeat apply calm_app; [exact Ca | apply dec_calm | apply calm_str_ok; exact Cb].
  - apply code_one; [apply Pa | apply one_number; try assumption; apply stop_dec; exact Sb | destruct t1; discriminate].
Qed.
(* with two *)
Lemma gives_numbers a n b k c t1 t2 t3 : head_ok a = true -> tail_ok b = true -> head_ok b = true -> tail_ok c = true -> short n -> short k ->
  List.length a + List.length b + List.length c <= 92 ->
  tokens f_src a = Some t1 -> tokens f_src b = Some t2 -> tokens f_src c = Some t3 ->
  gives [a ++ dec n ++ b ++ dec k ++ c] [LCode (t1 ++ KNum (Z.of_nat n # 1) :: t2 ++ KNum (Z.of_nat k # 1) :: t3)].
Proof.
  intros A B B' C Sn Sk L H1 H2 H3. destruct (head_ok_ok a A) as (Ca & Oa & Pa & La). destruct (head_ok_ok b B') as (_ & Ob & _ & _).
  unfold tail_ok in B, C. rewrite !andb_true_iff in B, C.
  destruct B as ((Cb & Sb) & Lb). destruct C as ((Cc & Sc) & Lc). exists [a ++ dec n ++ b ++ dec k ++ c]. split.
  - apply logical_settled; (apply Forall_cons; [|constructor]).
    + apply fits_short. rewrite !app_length. unfold short in *. lia.
    + apply calm_settled. repeat apply calm_app; try apply dec_calm; try (apply calm_str_ok; assumption). exact Ca.
  - apply code_one; [apply Pa | apply two_numbers; try assumption; apply stop_dec; assumption | destruct t1; discriminate].
Qed.
(* a line with one printed number that goes on in fixed lines *)
Lemma gives_broken a n b sp rest u t1 t2 : head_ok a = true -> tail_ok b = true -> short n -> forallb is_space sp = true -> List.length sp <= 1 ->
  rest <> [] -> logical (Some []) rest = Some [u] -> tokens f_src a = Some t1 -> tokens f_src (b ++ u) = Some t2 -> b <> [] ->
  gives ((a ++ dec n ++ b ++ "&"%char :: sp) :: rest) [LCode (t1 ++ KNum (Z.of_nat n # 1) :: t2)].
Proof.
  intros A B Sn Sp Lsp Nr G H1 H2 Nb. destruct (head_ok_ok a A) as (Ca & Oa & Pa & La). unfold tail_ok in B. rewrite !andb_true_iff in B.
  destruct B as ((Cb & Sb) & Lb). apply Nat.leb_le in Lb. exists [a ++ dec n ++ b ++ u]. split.
  - cbn [logical]. rewrite fits_short by (rewrite !app_length; cbn [List.length]; unfold short in Sn; lia).
    replace (a ++ dec n ++ b ++ "&"%char :: sp) with ((a ++ dec n ++ b) ++ "&"%char :: sp) by (rewrite <- !app_assoc; reflexivity).
    rewrite continued_tail.
    + rewrite <- (app_nil_r (a ++ dec n ++ b)), logical_more by exact Nr. rewrite G, <- !app_assoc. reflexivity.
    + repeat apply calm_app; [exact Ca | apply dec_calm | apply calm_str_ok; exact Cb].
    + apply Forall_forall. apply forallb_forall. exact Sp.
  - apply code_one; [apply Pa | apply one_number; try assumption; apply stop_dec; destruct b; [congruence | exact Sb] | destruct t1; discriminate].
Qed.

(* The same with everything about the fixed text in one test. *)
Definition toks (a : str) : list rtok := match tokens f_src a with Some t => t | None => [] end.
Definition lexable (a : str) : bool := match tokens f_src a with Some _ => true | None => false end.
Lemma toks_ok a : lexable a = true -> tokens f_src a = Some (toks a).
Proof. unfold lexable, toks. destruct (tokens f_src a); [reflexivity | discriminate]. Qed.
Lemma gives_number' a n b : head_ok a && tail_ok b && lexable a && lexable b = true -> short n ->
  gives [a ++ dec n ++ b] [LCode (toks a ++ KNum (Z.of_nat n # 1) :: toks b)].
Proof. rewrite !andb_true_iff. intros (((A & B) & C) & D) S. apply gives_number; auto using toks_ok. Qed.
Lemma gives_numbers' a n b k c :
  head_ok a && tail_ok b && head_ok b && tail_ok c && (List.length a + List.length b + List.length c <=? 92) && lexable a && lexable b && lexable c = true -> short n -> short k ->
  gives [a ++ dec n ++ b ++ dec k ++ c] [LCode (toks a ++ KNum (Z.of_nat n # 1) :: toks b ++ KNum (Z.of_nat k # 1) :: toks c)].
Proof. rewrite !andb_true_iff. intros (((((((A & B) & C) & D) & E) & F) & G) & H) S1 S2. apply Nat.leb_le in E. apply gives_numbers; auto using toks_ok. Qed.
Definition joined_rest (rest : list str) : str := match logical (Some []) rest with Some [u] => u | _ => [] end.
Lemma gives_broken' a n b sp rest :
  head_ok a && tail_ok b && forallb is_space sp && (List.length sp <=? 1) && match logical (Some []) rest with Some [_] => true | _ => false end &&
  match rest, b with [], _ | _, [] => false | _, _ => true end && lexable a && lexable (b ++ joined_rest rest) = true -> short n ->
  gives ((a ++ dec n ++ b ++ "&"%char :: sp) :: rest) [LCode (toks a ++ KNum (Z.of_nat n # 1) :: toks (b ++ joined_rest rest))].
Proof.
  rewrite !andb_true_iff. intros (((((((A & B) & C) & D) & E) & F) & G) & H) S. apply Nat.leb_le in D.
  apply (gives_broken a n b sp rest (joined_rest rest)); auto using toks_ok.
  - destruct rest; [discriminate F | discriminate].
  - unfold joined_rest. destruct (logical (Some []) rest) as [[|u [|]]|]; try discriminate E. reflexivity.
  - destruct b; [destruct rest; discriminate F | discriminate].
Qed.
Lemma gives_as ls o o' : gives ls o -> o = o' -> gives ls o'.
Proof. intros H <-. exact H. Qed.

(* ------------------------------------------------------------------ *)
(* The pieces of the file. *)
Definition lines_of_code (ls : list str) : list fline :=
  match logical None ls with Some lg => match code_lines lg with Some o => o | None => [] end | None => [] end.
Definition checked (ls : list str) : option (list fline) := match logical None ls with Some lg => code_lines lg | None => None end.
Lemma gives_fixed ls out : checked ls = Some out -> gives ls out.
Proof. unfold checked. destruct (logical None ls) as [lg|] eqn:E; [|discriminate]. intros H. exists lg. auto. Qed.
Lemma gives_header : gives part_header [].
Proof. apply gives_fixed. vm_compute. reflexivity. Qed.
Definition top_items : list fline := Eval vm_compute in lines_of_code (skipn 1 (part_top [])).
Lemma gives_top date : gives (part_top date) top_items.
Proof.
  unfold part_top. apply (gives_cons _ []).
  - exists [s_ "! File created at " ++ date ++ s_ " "]. split; [apply logical_settled; (apply Forall_cons; [reflexivity | constructor])|]. reflexivity.
  - apply gives_fixed. vm_compute. reflexivity.
Qed.
Definition clear_items : list fline := Eval vm_compute in lines_of_code part_clear.
Lemma gives_clear : gives part_clear clear_items.
Proof. apply gives_fixed. vm_compute. reflexivity. Qed.
Definition bin_items : list fline := Eval vm_compute in lines_of_code part_bin.
Lemma gives_bin : gives part_bin bin_items.
Proof. apply gives_fixed. vm_compute. reflexivity. Qed.
Definition end_items : list fline := Eval vm_compute in lines_of_code part_end.
Lemma gives_end : gives part_end end_items.
Proof. apply gives_fixed. vm_compute. reflexivity. Qed.
Definition do_item (nb : nat) : fline := LCode [KName (s_ "do"); KName (s_ "size_step"); KEq; KNum (1 # 1); KComma; KNum (Z.of_nat nb # 1)].
Lemma gives_do nb : short nb -> gives [part_do nb] [do_item nb].
Proof. intros S. unfold part_do. eapply gives_as; [apply gives_number'; [vm_compute; reflexivity | exact S] | vm_compute; reflexivity]. Qed.
Definition gas_item (p : nat * nat) : fline :=
  LCode [KName (s_ "dy_dt_gas_matrix"); KLp; KNum (Z.of_nat (fst p + 1) # 1); KComma; KName (s_ "size_step"); KRp; KEq; KName (s_ "dm_dt"); KLp; KNum (Z.of_nat (snd p + 1) # 1); KRp].
Lemma gives_gas p : short (fst p + 1) -> short (snd p + 1) -> gives [part_gas p] [gas_item p].
Proof. intros S1 S2. unfold part_gas. eapply gives_as; [apply gives_numbers'; [vm_compute; reflexivity | exact S1 | exact S2]|]. unfold gas_item. generalize (Z.of_nat (fst p + 1)) (Z.of_nat (snd p + 1)). intros x y. vm_compute. reflexivity. Qed.
Lemma gives_gases l : Forall (fun p => short (fst p + 1) /\ short (snd p + 1)) l -> gives (map part_gas l) (map gas_item l).
Proof. induction 1 as [|p l [S1 S2] _ IH]; [exact gives_nil|]. cbn [map]. apply (gives_cons _ [gas_item p]); [apply gives_gas; assumption | exact IH]. Qed.
Definition Q_ (n : nat) : Q := Z.of_nat n # 1.
Definition decl_items (tl nb ns nc : nat) : list fline := [
  LCode (toks (s_ "    REAL(8), intent(in), dimension(") ++ KNum (Q_ tl) :: toks (s_ ") :: y "));
  LCode (toks (s_ "    REAL(8), intent(in), dimension(") ++ KNum (Q_ nb) :: toks (s_ ") :: ycore,core_mass_array," ++ joined_rest [s_ "                         core_density_array, N_perbin "]));
  LCode (toks (s_ "    REAL(8), intent(in), dimension(") ++ KNum (Q_ nc) :: toks (s_ ") :: density_input,DStar_org," ++ joined_rest [s_ "                         alpha_d_org, gamma_gas, Latent_heat,C_g_i_t "]));
  LCode (toks (s_ "    INTEGER(8), intent(in), dimension(") ++ KNum (Q_ ns) :: toks (s_ ") :: ignore_index "));
  LCode (toks (s_ "    REAL(8), intent(in), dimension(") ++ KNum (Q_ nc) :: toks (s_ ") :: mw_array,Psat "));
  LCode (toks (s_ "    REAL(8), intent(in) :: core_diss, GRAV,Updraft,cp,Ra,Lv_water_vapour "));
  LCode (toks (s_ "    REAL(8), intent(in) :: sigma,NA,kb,Rv,R_gas,Model_temp "));
  LCode (toks (s_ "    REAL(8), intent(out) :: total_SOA_mass "));
  LCode (toks (s_ "    REAL(8), intent(out), dimension(") ++ KNum (Q_ nb) :: toks (s_ ") :: aw_array "));
  LCode (toks (s_ "    REAL(8), intent(out), dimension(") ++ KNum (Q_ nb) :: toks (s_ ") :: size_array "));
  LCode (toks (s_ "    REAL(8), intent(out), dimension(") ++ KNum (Q_ tl) :: toks (s_ ") :: dy_dt "));
  LCode (toks (s_ "    REAL(8), dimension(") ++ KNum (Q_ nc) :: toks (s_ ") :: Inverse_Kn, Correction_part1, " ++ joined_rest [s_ "                              Correction_part2, Correction_part3,& "; s_ "                              Correction, Kn, dm_dt,& "; s_ "                              k_i_m_t_part1, k_i_m_t "]));
  LCode (toks (s_ "    REAL(8), dimension(") ++ KNum (Q_ ns) :: toks (s_ ",") ++ KNum (Q_ nb) :: toks (s_ ") :: dy_dt_gas_matrix "));
  LCode (toks (s_ "    REAL(8), dimension(") ++ KNum (Q_ nb) :: toks (s_ ") :: total_SOA_mass_array "));
  LCode (toks (s_ "    REAL(8) total_moles, density, diameter, radius, water_moles  "));
  LCode (toks (s_ "    REAL(8), dimension(") ++ KNum (Q_ nc) :: toks (s_ ") :: Pressure_eq, Cstar_i_m_t "));
  LCode (toks (s_ "    REAL(8), dimension(") ++ KNum (Q_ nc) :: toks (s_ ") :: kelvin_factor,y_mole_fractions  "));
  LCode (toks (s_ "    REAL(8), dimension(") ++ KNum (Q_ nc) :: toks (s_ ") :: temp_array  "));
  LCode (toks (s_ "    REAL(8), dimension(") ++ KNum (Q_ (nc + 1)) :: toks (s_ ") :: mass_array, density_array, mass_fractions_array "));
  LCode (toks (s_ "    REAL(8) total_water_cond_mass, total_mass "));
  LCode (toks (s_ "    INTEGER(8) size_step, index1, index2  "));
  LCode (toks (s_ "    REAL(8), PARAMETER :: Pi = 3.1415927 "));
  LCode (toks (s_ "    INTEGER(8), PARAMETER :: num_species = ") ++ KNum (Q_ ns) :: toks (s_ " "));
  LCode (toks (s_ "    INTEGER(8), PARAMETER :: num_species_condensed = ") ++ KNum (Q_ nc) :: toks (s_ " "))].
Lemma gives_decls tl nb ns nc : short tl -> short nb -> short ns -> short nc -> short (nc + 1) -> gives (part_decls tl nb ns nc) (decl_items tl nb ns nc).
Proof.
  intros S1 S2 S3 S4 S5. unfold part_decls, decl_items.
  apply (gives_cons _ [_]); [apply gives_number'; [vm_compute; reflexivity | assumption]|].
  apply (gives_cons _ []); [apply gives_fixed; vm_compute; reflexivity|].
  apply (gives_app (_ :: [s_ "                         core_density_array, N_perbin "]) [_]); [exact (gives_broken' (s_ "    REAL(8), intent(in), dimension(") nb (s_ ") :: ycore,core_mass_array,") (s_ " ") [s_ "                         core_density_array, N_perbin "] eq_refl ltac:(assumption))|].
  apply (gives_cons _ []); [apply gives_fixed; vm_compute; reflexivity|].
  apply (gives_cons _ []); [apply gives_fixed; vm_compute; reflexivity|].
  apply (gives_app (_ :: [s_ "                         alpha_d_org, gamma_gas, Latent_heat,C_g_i_t "]) [_]); [exact (gives_broken' (s_ "    REAL(8), intent(in), dimension(") nc (s_ ") :: density_input,DStar_org,") (s_ " ") [s_ "                         alpha_d_org, gamma_gas, Latent_heat,C_g_i_t "] eq_refl ltac:(assumption))|].
  apply (gives_cons _ []); [apply gives_fixed; vm_compute; reflexivity|].
  apply (gives_cons _ []); [apply gives_fixed; vm_compute; reflexivity|].
  apply (gives_cons _ [_]); [apply gives_number'; [vm_compute; reflexivity | assumption]|].
  apply (gives_cons _ []); [apply gives_fixed; vm_compute; reflexivity|].
  apply (gives_cons _ [_]); [apply gives_number'; [vm_compute; reflexivity | assumption]|].
  apply (gives_cons _ []); [apply gives_fixed; vm_compute; reflexivity|].
  apply (gives_cons _ []); [apply gives_fixed; vm_compute; reflexivity|].
  apply (gives_cons _ [_]); [apply gives_fixed; vm_compute; reflexivity|].
  apply (gives_cons _ []); [apply gives_fixed; vm_compute; reflexivity|].
  apply (gives_cons _ [_]); [apply gives_fixed; vm_compute; reflexivity|].
  apply (gives_cons _ []); [apply gives_fixed; vm_compute; reflexivity|].
  apply (gives_cons _ [_]); [apply gives_fixed; vm_compute; reflexivity|].
  apply (gives_cons _ [_]); [apply gives_number'; [vm_compute; reflexivity | assumption]|].
  apply (gives_cons _ [_]); [apply gives_number'; [vm_compute; reflexivity | assumption]|].
  apply (gives_cons _ [_]); [apply gives_number'; [vm_compute; reflexivity | assumption]|].
  apply (gives_cons _ []); [apply gives_fixed; vm_compute; reflexivity|].
  apply (gives_cons _ []); [apply gives_fixed; vm_compute; reflexivity|].
  apply (gives_cons _ []); [apply gives_fixed; vm_compute; reflexivity|].
  apply (gives_app (_ :: [s_ "                              Correction_part2, Correction_part3,& "; s_ "                              Correction, Kn, dm_dt,& "; s_ "                              k_i_m_t_part1, k_i_m_t "]) [_]); [exact (gives_broken' (s_ "    REAL(8), dimension(") nc (s_ ") :: Inverse_Kn, Correction_part1, ") (s_ "") [s_ "                              Correction_part2, Correction_part3,& "; s_ "                              Correction, Kn, dm_dt,& "; s_ "                              k_i_m_t_part1, k_i_m_t "] eq_refl ltac:(assumption))|].
  apply (gives_cons _ [_]); [apply gives_numbers'; [vm_compute; reflexivity | assumption | assumption]|].
  apply (gives_cons _ [_]); [apply gives_number'; [vm_compute; reflexivity | assumption]|].
  apply (gives_cons _ [_]); [apply gives_fixed; vm_compute; reflexivity|].
  apply (gives_cons _ [_]); [apply gives_number'; [vm_compute; reflexivity | assumption]|].
  apply (gives_cons _ [_]); [apply gives_number'; [vm_compute; reflexivity | assumption]|].
  apply (gives_cons _ [_]); [apply gives_number'; [vm_compute; reflexivity | assumption]|].
  apply (gives_cons _ [_]); [apply gives_number'; [vm_compute; reflexivity | assumption]|].
  apply (gives_cons _ [_]); [apply gives_fixed; vm_compute; reflexivity|].
  apply (gives_cons _ [_]); [apply gives_fixed; vm_compute; reflexivity|].
  apply (gives_cons _ []); [apply gives_fixed; vm_compute; reflexivity|].
  apply (gives_cons _ [_]); [apply gives_fixed; vm_compute; reflexivity|].
  apply (gives_cons _ [_]); [apply gives_number'; [vm_compute; reflexivity | assumption]|].
  apply (gives_cons _ [_]); [apply gives_number'; [vm_compute; reflexivity | assumption]|].
  exact gives_nil.
Qed.
