(* Reading Partitioning.f90: the declarations, the statements, the program. *)
From Coq Require Import List Bool Arith Lia Ascii String ZArith QArith.
From Verif Require Import Base PyStr SpecRate ModelExpr RateParse ModelLang ModelSource ModelWrite SpecSource ParseText ParseShow SourceRead SourceWidth ModelPartText ModelFort PartText PartRead.
Import ListNotations.
Import Coq.Lists.List.
Open Scope nat_scope.
Open Scope list_scope.

Definition declare (xs : list string) (int : bool) (io : option string) (dims : list nat) : list vdecl :=
  map (fun x => VDecl (s_ x) int (option_map s_ io) dims None) xs.
Definition part_vdecls (tl nb ns nc : nat) : list vdecl :=
  declare ["y"%string] false (Some "in"%string) [tl] ++
  declare ["ycore"%string; "core_mass_array"%string; "core_density_array"%string; "n_perbin"%string] false (Some "in"%string) [nb] ++
  declare ["density_input"%string; "dstar_org"%string; "alpha_d_org"%string; "gamma_gas"%string; "latent_heat"%string; "c_g_i_t"%string] false (Some "in"%string) [nc] ++
  declare ["ignore_index"%string] true (Some "in"%string) [ns] ++
  declare ["mw_array"%string; "psat"%string] false (Some "in"%string) [nc] ++
  declare ["core_diss"%string; "grav"%string; "updraft"%string; "cp"%string; "ra"%string; "lv_water_vapour"%string] false (Some "in"%string) [] ++
  declare ["sigma"%string; "na"%string; "kb"%string; "rv"%string; "r_gas"%string; "model_temp"%string] false (Some "in"%string) [] ++
  declare ["total_soa_mass"%string] false (Some "out"%string) [] ++
  declare ["aw_array"%string] false (Some "out"%string) [nb] ++
  declare ["size_array"%string] false (Some "out"%string) [nb] ++
  declare ["dy_dt"%string] false (Some "out"%string) [tl] ++
  declare ["inverse_kn"%string; "correction_part1"%string; "correction_part2"%string; "correction_part3"%string; "correction"%string; "kn"%string; "dm_dt"%string; "k_i_m_t_part1"%string; "k_i_m_t"%string] false None [nc] ++
  declare ["dy_dt_gas_matrix"%string] false None [ns; nb] ++
  declare ["total_soa_mass_array"%string] false None [nb] ++
  declare ["total_moles"%string; "density"%string; "diameter"%string; "radius"%string; "water_moles"%string] false None [] ++
  declare ["pressure_eq"%string; "cstar_i_m_t"%string] false None [nc] ++
  declare ["kelvin_factor"%string; "y_mole_fractions"%string] false None [nc] ++
  declare ["temp_array"%string] false None [nc] ++
  declare ["mass_array"%string; "density_array"%string; "mass_fractions_array"%string] false None [nc + 1] ++
  declare ["total_water_cond_mass"%string; "total_mass"%string] false None [] ++
  declare ["size_step"%string; "index1"%string; "index2"%string] true None [] ++

  [VDecl (s_ "pi") false None [] (Some (31415927 # 10000000));
   VDecl (s_ "num_species") true None [] (Some (Q_ ns));
   VDecl (s_ "num_species_condensed") true None [] (Some (Q_ nc))].

Lemma v_part_step ts ds ls ds' r : read_vdecl ts = Some ds -> v_part ls = Some (ds', r) -> v_part (LCode ts :: ls) = Some (ds ++ ds', r).
Proof. intros H1 H2. cbn [v_part]. rewrite H1, H2. reflexivity. Qed.

(* The parts of a declaration. *)
Lemma index_Q n : index (Q_ n) = Some n.
Proof. exact (index_nat n). Qed.
Lemma v_io f int io dims p a i r : is_name "intent" a = true ->
  v_attrs (S f) int io dims p (KComma :: KName a :: KLp :: KName i :: KRp :: r) = v_attrs f int (Some i) dims p r.
Proof. intros H. cbn [v_attrs]. rewrite H. reflexivity. Qed.
Lemma v_dim1 f int io dims p a n r : is_name "intent" a = false -> is_name "dimension" a = true ->
  v_attrs (S f) int io dims p (KComma :: KName a :: KLp :: KNum (Q_ n) :: KRp :: r) = v_attrs f int io [n] p r.
Proof. intros H1 H2. cbn [v_attrs]. rewrite H1, H2. cbn [read_dims]. rewrite index_Q. reflexivity. Qed.
Lemma v_dim2 f int io dims p a n k r : is_name "intent" a = false -> is_name "dimension" a = true ->
  v_attrs (S f) int io dims p (KComma :: KName a :: KLp :: KNum (Q_ n) :: KComma :: KNum (Q_ k) :: KRp :: r) = v_attrs f int io [n; k] p r.
Proof. intros H1 H2. cbn [v_attrs]. rewrite H1, H2. cbn [read_dims]. rewrite !index_Q. reflexivity. Qed.
Lemma v_par f int io dims p a x n : is_name "parameter" a = true ->
  v_attrs (S (S f)) int io dims p [KComma; KName a; KColon; KColon; KName x; KEq; KNum (Q_ n)] = Some [VDecl x int io dims (Some (Q_ n))].
Proof. intros H. cbn [v_attrs]. rewrite H. reflexivity. Qed.
Lemma v_real a q r : Qeq_bool q 8 = true -> is_name "real" a = true -> read_vdecl (KName a :: KLp :: KNum q :: KRp :: r) = v_attrs (List.length r) false None [] false r.
Proof. intros H1 H2. unfold read_vdecl. rewrite H1, H2. reflexivity. Qed.
Lemma v_integer a q r : Qeq_bool q 8 = true -> is_name "real" a = false -> is_name "integer" a = true -> read_vdecl (KName a :: KLp :: KNum q :: KRp :: r) = v_attrs (List.length r) true None [] false r.
Proof. intros H1 H2 H3. unfold read_vdecl. rewrite H1, H2, H3. reflexivity. Qed.
Ltac flat := repeat match goal with |- context [toks ?a] => let t := eval vm_compute in (toks a) in replace (toks a) with t by (vm_compute; reflexivity) end; cbn [app].
Ltac yes := vm_compute; reflexivity.
Ltac readdecl := flat;
  first [rewrite v_real by yes | rewrite v_integer by yes]; cbn [List.length];
  try rewrite v_io by yes; try first [rewrite v_dim1 by yes | rewrite v_dim2 by yes | rewrite v_par by yes]; try reflexivity; yes.
Ltac onedecl n := eapply v_part_step; [readdecl|].
Lemma v_part_decls tl nb ns nc rest : v_part rest = Some ([], rest) -> v_part (decl_items tl nb ns nc ++ rest) = Some (part_vdecls tl nb ns nc, rest).
Proof.
  intros H. unfold decl_items, part_vdecls. cbn [app].
  apply (v_part_step _ (declare ["y"%string] false (Some "in"%string) [tl])); [readdecl|].
  apply (v_part_step _ (declare ["ycore"%string; "core_mass_array"%string; "core_density_array"%string; "n_perbin"%string] false (Some "in"%string) [nb])); [readdecl|].
  apply (v_part_step _ (declare ["density_input"%string; "dstar_org"%string; "alpha_d_org"%string; "gamma_gas"%string; "latent_heat"%string; "c_g_i_t"%string] false (Some "in"%string) [nc])); [readdecl|].
  apply (v_part_step _ (declare ["ignore_index"%string] true (Some "in"%string) [ns])); [readdecl|].
  apply (v_part_step _ (declare ["mw_array"%string; "psat"%string] false (Some "in"%string) [nc])); [readdecl|].
  apply (v_part_step _ (declare ["core_diss"%string; "grav"%string; "updraft"%string; "cp"%string; "ra"%string; "lv_water_vapour"%string] false (Some "in"%string) [])); [readdecl|].
  apply (v_part_step _ (declare ["sigma"%string; "na"%string; "kb"%string; "rv"%string; "r_gas"%string; "model_temp"%string] false (Some "in"%string) [])); [readdecl|].
  apply (v_part_step _ (declare ["total_soa_mass"%string] false (Some "out"%string) [])); [readdecl|].
  apply (v_part_step _ (declare ["aw_array"%string] false (Some "out"%string) [nb])); [readdecl|].
  apply (v_part_step _ (declare ["size_array"%string] false (Some "out"%string) [nb])); [readdecl|].
  apply (v_part_step _ (declare ["dy_dt"%string] false (Some "out"%string) [tl])); [readdecl|].
  apply (v_part_step _ (declare ["inverse_kn"%string; "correction_part1"%string; "correction_part2"%string; "correction_part3"%string; "correction"%string; "kn"%string; "dm_dt"%string; "k_i_m_t_part1"%string; "k_i_m_t"%string] false None [nc])); [readdecl|].
  apply (v_part_step _ (declare ["dy_dt_gas_matrix"%string] false None [ns; nb])); [readdecl|].
  apply (v_part_step _ (declare ["total_soa_mass_array"%string] false None [nb])); [readdecl|].
  apply (v_part_step _ (declare ["total_moles"%string; "density"%string; "diameter"%string; "radius"%string; "water_moles"%string] false None [])); [readdecl|].
  apply (v_part_step _ (declare ["pressure_eq"%string; "cstar_i_m_t"%string] false None [nc])); [readdecl|].
  apply (v_part_step _ (declare ["kelvin_factor"%string; "y_mole_fractions"%string] false None [nc])); [readdecl|].
  apply (v_part_step _ (declare ["temp_array"%string] false None [nc])); [readdecl|].
  apply (v_part_step _ (declare ["mass_array"%string; "density_array"%string; "mass_fractions_array"%string] false None [nc + 1])); [readdecl|].
  apply (v_part_step _ (declare ["total_water_cond_mass"%string; "total_mass"%string] false None [])); [readdecl|].
  apply (v_part_step _ (declare ["size_step"%string; "index1"%string; "index2"%string] true None [])); [readdecl|].
  apply (v_part_step _ [_]); [readdecl|].
  apply (v_part_step _ [_]); [readdecl|].
  apply (v_part_step _ [_] _ []); [readdecl | exact H].
Qed.

(* ------------------------------------------------------------------ *)
(* The statements *)
Definition part_args : list string := ["y"; "ycore"; "core_diss"; "core_mass_array"; "density_input"; "core_density_array"; "ignore_index"; "mw_array"; "psat"; "dstar_org"; "alpha_d_org"; "c_g_i_t"; "n_perbin"; "gamma_gas"; "latent_heat"; "grav"; "updraft"; "sigma"; "na"; "kb"; "rv"; "r_gas"; "model_temp"; "cp"; "ra"; "lv_water_vapour"; "total_soa_mass"; "aw_array"; "size_array"; "dy_dt"]%string.
Definition part_private : list string := ["size_step"; "total_mass"; "total_moles"; "y_mole_fractions"; "temp_array"; "mass_array"; "mass_fractions_array"; "density_array"; "density"; "water_moles"; "kn"; "inverse_kn"; "correction_part1"; "correction_part2"; "correction_part3"; "correction"; "kelvin_factor"; "pressure_eq"; "cstar_i_m_t"; "k_i_m_t_part1"; "k_i_m_t"; "dm_dt"]%string.
Definition part_shared : list string := ["total_water_cond_mass"; "size_array"; "ycore"; "core_diss"; "mw_array"; "density_input"; "c_g_i_t"; "dy_dt"; "core_mass_array"; "r_gas"; "psat"; "gamma_gas"; "na"; "alpha_d_org"; "model_temp"; "dstar_org"; "dy_dt_gas_matrix"; "aw_array"; "total_soa_mass_array"]%string.
Definition part_pre : list fstmt := [
  FSet (s_ "total_soa_mass_array") [SAll] (FNum 0);
  FSet (s_ "dy_dt_gas_matrix") [SAll; SAll] (FNum 0);
  FSet (s_ "pressure_eq") [SAll] (FNum 0);
  FSet (s_ "cstar_i_m_t") [SAll] (FNum 0);
  FSet (s_ "kelvin_factor") [SAll] (FNum 0);
  FSet (s_ "y_mole_fractions") [SAll] (FNum 0);
  FSet (s_ "temp_array") [SAll] (FNum 0);
  FSet (s_ "mass_array") [SAll] (FNum 0);
  FSet (s_ "density_array") [SAll] (FNum 0);
  FSet (s_ "mass_fractions_array") [SAll] (FNum 0);
  FSet (s_ "aw_array") [SAll] (FNum 0);
  FSet (s_ "size_array") [SAll] (FNum 0);
  FSet (s_ "dy_dt") [SAll] (FNum 0)].
Definition part_body : list fstmt := [
  FSet (s_ "temp_array") [SAll] (FPart (s_ "y") [SFromTo (IAdd (IAdd (IVar (s_ "num_species")) (INum 1)) (IMul (ISub (IVar (s_ "size_step")) (INum 1)) (IVar (s_ "num_species_condensed")))) (IAdd (IVar (s_ "num_species")) (IMul (IVar (s_ "size_step")) (IVar (s_ "num_species_condensed"))))]);
  FSet (s_ "total_moles") [] (FAdd (FSum (FPart (s_ "temp_array") [SAll])) (FMul (FPart (s_ "ycore") [SAt (IVar (s_ "size_step"))]) (FName (s_ "core_diss"))));
  FSet (s_ "y_mole_fractions") [SAll] (FDiv (FPart (s_ "temp_array") [SAll]) (FName (s_ "total_moles")));
  FSet (s_ "mass_array") [SFromTo (INum 1) (IVar (s_ "num_species_condensed"))] (FMul (FDiv (FPart (s_ "temp_array") [SAll]) (FName (s_ "na"))) (FPart (s_ "mw_array") [SAll]));
  FSet (s_ "mass_array") [SAt (IAdd (IVar (s_ "num_species_condensed")) (INum 1))] (FPart (s_ "core_mass_array") [SAt (IVar (s_ "size_step"))]);
  FSet (s_ "density_array") [SFromTo (INum 1) (IVar (s_ "num_species_condensed"))] (FPart (s_ "density_input") [SFromTo (INum 1) (IVar (s_ "num_species_condensed"))]);
  FSet (s_ "density_array") [SAt (IAdd (IVar (s_ "num_species_condensed")) (INum 1))] (FPart (s_ "core_density_array") [SAt (IVar (s_ "size_step"))]);
  FSet (s_ "total_soa_mass_array") [SAt (IVar (s_ "size_step"))] (FSum (FPart (s_ "mass_array") [SFromTo (INum 1) (ISub (IVar (s_ "num_species_condensed")) (INum 1))]));
  FSet (s_ "total_water_cond_mass") [] (FAdd (FName (s_ "total_water_cond_mass")) (FPart (s_ "mass_array") [SAt (IVar (s_ "num_species_condensed"))]));
  FSet (s_ "aw_array") [SAt (IVar (s_ "size_step"))] (FDiv (FPart (s_ "temp_array") [SAt (IVar (s_ "num_species_condensed"))]) (FName (s_ "total_moles")));
  FSet (s_ "total_mass") [] (FSum (FPart (s_ "mass_array") [SAll]));
  FSet (s_ "mass_fractions_array") [SAll] (FDiv (FPart (s_ "mass_array") [SAll]) (FName (s_ "total_mass")));
  FSet (s_ "density") [] (FDiv (FNum 1) (FSum (FDiv (FPart (s_ "mass_fractions_array") [SAll]) (FPart (s_ "density_array") [SAll]))));
  FSet (s_ "size_array") [SAt (IVar (s_ "size_step"))] (FPow (FDiv (FMul (FNum 3) (FDiv (FMul (FName (s_ "total_mass")) (FNum 1000)) (FMul (FPart (s_ "n_perbin") [SAt (IVar (s_ "size_step"))]) (FNum 1000000)))) (FMul (FMul (FNum 4) (FName (s_ "pi"))) (FName (s_ "density")))) (FDiv (FNum 1) (FNum 3)));
  FSet (s_ "kn") [SAll] (FDiv (FPart (s_ "gamma_gas") [SAll]) (FPart (s_ "size_array") [SAt (IVar (s_ "size_step"))]));
  FSet (s_ "inverse_kn") [SAll] (FDiv (FNum 1) (FPart (s_ "kn") [SAll]));
  FSet (s_ "correction_part1") [SAll] (FDiv (FAdd (FNum (133 # 100)) (FMul (FNum (71 # 100)) (FPart (s_ "inverse_kn") [SAll]))) (FAdd (FNum 1) (FPart (s_ "inverse_kn") [SAll])));
  FSet (s_ "correction_part2") [SAll] (FDiv (FMul (FNum 4) (FSub (FNum 1) (FPart (s_ "alpha_d_org") [SAll]))) (FMul (FNum 3) (FPart (s_ "alpha_d_org") [SAll])));
  FSet (s_ "correction_part3") [SAll] (FAdd (FNum 1) (FMul (FAdd (FPart (s_ "correction_part1") [SAll]) (FPart (s_ "correction_part2") [SAll])) (FPart (s_ "kn") [SAll])));
  FSet (s_ "correction") [SAll] (FDiv (FNum 1) (FPart (s_ "correction_part3") [SAll]));
  FSet (s_ "kelvin_factor") [SAll] (FExp (FDiv (FMul (FMul (FMul (FNum 4) (FPart (s_ "mw_array") [SAll])) (FNum (1 # 1000))) (FName (s_ "sigma"))) (FMul (FMul (FMul (FMul (FName (s_ "r_gas")) (FName (s_ "model_temp"))) (FPart (s_ "size_array") [SAt (IVar (s_ "size_step"))])) (FNum 2)) (FName (s_ "density")))));
  FSet (s_ "pressure_eq") [SAll] (FMul (FMul (FMul (FPart (s_ "kelvin_factor") [SAll]) (FPart (s_ "y_mole_fractions") [SAll])) (FPart (s_ "psat") [SAll])) (FNum 101325));
  FSet (s_ "cstar_i_m_t") [SAll] (FMul (FPart (s_ "pressure_eq") [SAll]) (FDiv (FName (s_ "na")) (FMul (FNum (41572299 # 5)) (FName (s_ "model_temp")))));
  FSet (s_ "k_i_m_t_part1") [SAll] (FMul (FPart (s_ "dstar_org") [SAll]) (FPart (s_ "correction") [SAll]));
  FSet (s_ "k_i_m_t") [SAll] (FMul (FMul (FMul (FMul (FMul (FNum 4) (FName (s_ "pi"))) (FPart (s_ "size_array") [SAt (IVar (s_ "size_step"))])) (FNum 100)) (FPart (s_ "n_perbin") [SAt (IVar (s_ "size_step"))])) (FPart (s_ "k_i_m_t_part1") [SAll]));
  FSet (s_ "dm_dt") [SAll] (FMul (FPart (s_ "k_i_m_t") [SAll]) (FSub (FPart (s_ "c_g_i_t") [SAll]) (FPart (s_ "cstar_i_m_t") [SAll])))].
Definition gas_stmt (p : nat * nat) : fstmt :=
  FSet (s_ "dy_dt_gas_matrix") [SAt (INum (fst p + 1)); SAt (IVar (s_ "size_step"))] (FPart (s_ "dm_dt") [SAt (INum (snd p + 1))]).
Definition part_store : list fstmt := [
  FSetI (s_ "index1") (IAdd (IAdd (IVar (s_ "num_species")) (INum 1)) (IMul (ISub (IVar (s_ "size_step")) (INum 1)) (IVar (s_ "num_species_condensed"))));
  FSetI (s_ "index2") (IAdd (IVar (s_ "num_species")) (IMul (IVar (s_ "size_step")) (IVar (s_ "num_species_condensed"))));
  FSet (s_ "dy_dt") [SFromTo (IVar (s_ "index1")) (IVar (s_ "index2"))] (FPart (s_ "dm_dt") [SFromTo (INum 1) (IVar (s_ "num_species_condensed"))])].
Definition part_post : list fstmt := [
  FSet (s_ "dy_dt") [SFromTo (INum 1) (IVar (s_ "num_species"))]
    (FSub (FPart (s_ "dy_dt") [SFromTo (INum 1) (IVar (s_ "num_species"))]) (FSumDim (FName (s_ "dy_dt_gas_matrix")) 2));
  FSet (s_ "total_soa_mass") [] (FMul (FSum (FName (s_ "total_soa_mass_array"))) (FNum (1000000000000 # 1)))].
Definition gas_pairs (include : list nat) : list (nat * nat) := combine include (seq 0 (List.length include)).
Definition partition_sub (tl nb ns nc : nat) (include : list nat) : fsub :=
  FSubroutine (s_ "dydt_partition") (map s_ part_args) (part_vdecls tl nb ns nc) part_pre (map s_ part_private) (map s_ part_shared)
    (s_ "size_step") nb (part_body ++ map gas_stmt (gas_pairs include) ++ part_store) part_post.

Lemma span_app p a x b : forallb p a = true -> p x = false -> span_lines2 p (a ++ x :: b) = (a, x :: b).
Proof.
  intros A X. induction a as [|l a IH]; cbn [app span_lines2]; [rewrite X; reflexivity|].
  cbn [forallb] in A. apply andb_prop in A. destruct A as [A1 A2]. rewrite A1, (IH A2). reflexivity.
Qed.
Lemma stmts_app ds a b x y : stmts_of ds a = Some x -> stmts_of ds b = Some y -> stmts_of ds (a ++ b) = Some (x ++ y).
Proof.
  revert x; induction a as [|l a IH]; intros x A B; [injection A as <-; exact B|].
  cbn [app stmts_of] in *. destruct (stmt_of ds l) as [s|]; [|discriminate]. cbn [ocons] in A.
  destruct (stmts_of ds a) as [x'|]; [|discriminate]. injection A as <-. rewrite (IH x' eq_refl B). reflexivity.
Qed.
Definition pre_items : list fline := firstn (List.length part_pre) clear_items.
Definition omp_item : fline := nth (List.length part_pre) clear_items (LCode []).
Definition store_items : list fline := firstn 3 end_items.
Definition post_items : list fline := firstn 2 (skipn 5 end_items).
Section Read.
Context (tl nb ns nc : nat).
Notation ds := (part_vdecls tl nb ns nc).
Lemma read_pre : stmts_of ds pre_items = Some part_pre.
Proof. vm_compute. reflexivity. Qed.
Lemma read_bin : stmts_of ds bin_items = Some part_body.
Proof. vm_compute. reflexivity. Qed.
Lemma read_store : stmts_of ds store_items = Some part_store.
Proof. vm_compute. reflexivity. Qed.
Lemma read_post : stmts_of ds post_items = Some part_post.
Proof. vm_compute. reflexivity. Qed.
Lemma i_num n r f : match r with KMul :: _ | KAdd :: _ | KSub :: _ => False | _ => True end -> i_sum (S (S (S f))) (KNum (Q_ n) :: r) = Some (INum n, r).
Proof.
  intros N. cbn [i_sum i_term i_atom]. rewrite index_Q. cbn [option_map].
  assert (E1 : i_term_rest (S f) (INum n) r = Some (INum n, r)) by (cbn [i_term_rest]; destruct r as [|[] r]; try reflexivity; destruct N).
  assert (E2 : i_sum_rest (S (S f)) (INum n) r = Some (INum n, r)) by (cbn [i_sum_rest]; destruct r as [|[] r]; try reflexivity; destruct N).
  rewrite E1. exact E2.
Qed.
Lemma sect_num_last n r f g : (exists h, fuel_for (KNum (Q_ n) :: KRp :: r) = S (S (S h))) -> f = S g -> sects f (KNum (Q_ n) :: KRp :: r) = Some ([SAt (INum n)], r).
Proof. intros [h H] ->. cbn [sects]. rewrite H. rewrite i_num by exact I. reflexivity. Qed.
Lemma sect_num_more n r f g l r' : (exists h, fuel_for (KNum (Q_ n) :: KComma :: r) = S (S (S h))) -> f = S g -> sects g r = Some (l, r') ->
  sects f (KNum (Q_ n) :: KComma :: r) = Some (SAt (INum n) :: l, r').
Proof. intros [h H] -> E. cbn [sects]. rewrite H. rewrite i_num by exact I. rewrite E. reflexivity. Qed.
Lemma e_part (arr : str -> bool) x r l f : arr x = true -> sects f r = Some (l, []) -> e_sum arr (S (S (S (S f)))) (KName x :: KLp :: r) = Some (FPart x l, []).
Proof.
  intros A E. cbn [e_sum e_term e_power e_atom]. rewrite A, E. destruct f; reflexivity.
Qed.
Lemma stmt_gas p : stmt_of ds (gas_item p) = Some (gas_stmt p).
Proof.
  unfold gas_item, stmt_of, read_fstmt. replace (is_arr ds (s_ "dy_dt_gas_matrix")) with true by (vm_compute; reflexivity).
  change (Z.of_nat (fst p + 1) # 1) with (Q_ (fst p + 1)). change (Z.of_nat (snd p + 1) # 1) with (Q_ (snd p + 1)).
  match goal with |- context [sects ?a ?b] => rewrite (sect_num_more (fst p + 1) _ a (pred a) [SAt (IVar (s_ "size_step"))] [KEq; KName (s_ "dm_dt"); KLp; KNum (Q_ (snd p + 1)); KRp]) end.
  3: { generalize (Q_ (snd p + 1)). intros q. vm_compute. reflexivity. }
  2: { eexists. cbn. reflexivity. }
  2: { reflexivity. }
  unfold fuel_for. cbn [List.length Nat.mul Nat.add].
  rewrite (e_part _ _ _ [SAt (INum (snd p + 1))]); [reflexivity | vm_compute; reflexivity|].
  eapply sect_num_last; [eexists; cbn; reflexivity | reflexivity].
Qed.
Lemma read_gases l : stmts_of ds (map gas_item l) = Some (map gas_stmt l).
Proof. induction l as [|p l IH]; [reflexivity|]. cbn [map stmts_of]. rewrite stmt_gas, IH. reflexivity. Qed.

Definition body_items (include : list nat) : list fline :=
  pre_items ++ omp_item :: do_item nb :: (bin_items ++ map gas_item (gas_pairs include) ++ store_items) ++
  LCode [KName (s_ "enddo")] :: LOmp [KName (s_ "end"); KName (s_ "parallel"); KName (s_ "do")] :: post_items ++ [LCode [KName (s_ "end"); KName (s_ "subroutine")]].
Lemma body_items_eq include : clear_items ++ [do_item nb] ++ bin_items ++ map gas_item (gas_pairs include) ++ end_items = body_items include.
Proof. unfold body_items. rewrite <- !app_assoc. reflexivity. Qed.
Lemma gas_plain l : forallb plain_code (map gas_item l) = true.
Proof.
  induction l as [|p l IH]; [reflexivity|]. cbn [map forallb]. rewrite IH, andb_true_r. reflexivity.
Qed.
Lemma gas_known l : forallb (f_known ds) (map gas_stmt l) = true.
Proof.
  induction l as [|p l IH]; [reflexivity|]. cbn [map forallb]. rewrite IH, andb_true_r. vm_compute. reflexivity.
Qed.
Lemma read_body_items include : read_body (s_ "dydt_partition") (map s_ part_args) (decl_items tl nb ns nc ++ body_items include) = Some (partition_sub tl nb ns nc include).
Proof.
  unfold read_body. rewrite (v_part_decls tl nb ns nc (body_items include)) by (vm_compute; reflexivity).
  unfold body_items at 1. rewrite span_app by (vm_compute; reflexivity).
  change omp_item with (LOmp (match omp_item with LOmp o => o | LCode _ => [] end)).
  unfold do_item. cbv iota.
  rewrite span_app by (try (vm_compute; reflexivity); rewrite !forallb_app, gas_plain; vm_compute; reflexivity).
  cbv iota. rewrite span_app by (vm_compute; reflexivity). cbv iota.
  change (Z.of_nat nb # 1) with (Q_ nb). rewrite index_Q.
  replace (read_parallel_do (match omp_item with LOmp o => o | LCode _ => [] end)) with (Some (map s_ part_private, map s_ part_shared)) by (vm_compute; reflexivity).
  match goal with |- (if ?c then _ else _) = _ => replace c with true by (vm_compute; reflexivity) end.
  rewrite read_pre. cbn [obind].
  rewrite (stmts_app ds _ _ _ _ read_bin (stmts_app ds _ _ _ _ (read_gases (gas_pairs include)) read_store)). cbn [obind].
  rewrite read_post. cbn [obind]. rewrite !forallb_app, gas_known.
  match goal with |- (if ?c then _ else _) = _ => replace c with true by (vm_compute; reflexivity) end.
  reflexivity.
Qed.
End Read.

Lemma gives_end_text ls out : gives ls out -> gives (ls ++ [[]]) out.
Proof. intros H. rewrite <- (app_nil_r out). apply gives_app; [exact H | apply gives_fixed; vm_compute; reflexivity]. Qed.

Lemma line_app a b : one_line a -> one_line b -> one_line (a ++ b).
Proof. intros H1 H2 I. apply in_app_or in I. destruct I; [exact (H1 H) | exact (H2 H)]. Qed.
Lemma line_dec n : one_line (dec n).
Proof. apply calm_one_line, dec_calm. Qed.
Lemma line_all ls : forallb (fun s => negb (existsb (Ascii.eqb NL) s)) ls = true -> Forall one_line ls.
Proof. intros H. apply Forall_forall. intros l I. apply one_line_dec. apply negb_true_iff. exact (proj1 (forallb_forall _ _) H l I). Qed.
Ltac one := first [apply line_dec | apply one_line_dec; vm_compute; reflexivity | apply line_app; one].
Lemma partition_one_line date tl nb ns nc include : one_line date -> Forall one_line (partition_lines date tl nb ns nc include).
Proof.
  intros D. unfold partition_lines. repeat (apply Forall_app; split).
  - apply line_all. vm_compute. reflexivity.
  - unfold part_top. constructor; [repeat apply line_app; try exact D; one | apply line_all; vm_compute; reflexivity].
  - unfold part_decls. repeat (apply Forall_cons; [one|]). constructor.
  - apply line_all. vm_compute. reflexivity.
  - constructor; [unfold part_do; one | constructor].
  - apply line_all. vm_compute. reflexivity.
  - apply Forall_map, Forall_forall. intros p _. unfold part_gas. one.
  - apply line_all. vm_compute. reflexivity.
Qed.
Lemma short_small n : n < 10 ^ 20 -> short n.
Proof. intros H. apply dec_width; [lia | exact H]. Qed.
Lemma gas_pairs_In include p : In p (gas_pairs include) -> nth_error include (snd p) = Some (fst p).
Proof.
  unfold gas_pairs. intros I. destruct (In_nth_error _ _ I) as [k Hk]. destruct p as [g s]. cbn [fst snd].
  assert (G : forall (l : list nat) o k, nth_error (combine l (seq o (List.length l))) k = Some (g, s) -> nth_error l k = Some g /\ s = o + k).
  { clear. induction l as [|x l IH]; intros o [|k] H; try discriminate; cbn in H.
    - injection H as <- <-. split; [reflexivity | lia].
    - destruct (IH (S o) k H) as [A B]. split; [exact A | lia]. }
  destruct (G include 0 k Hk) as [A ->]. exact A.
Qed.

(* What the compiler makes of the file. *)
Theorem reads_partition date tl nb ns nc include : one_line date -> tl + nb + ns + nc + 1 < 10 ^ 20 -> List.length include <= nc -> Forall (fun g => g < ns) include ->
  read_fsub (partition_text date tl nb ns nc include) = Some (partition_sub tl nb ns nc include).
Proof.
  intros D W L F.
  assert (Sh : forall n, n <= tl + nb + ns + nc + 1 -> short n) by (intros n Hn; apply short_small; apply (Nat.le_lt_trans _ _ _ Hn W)).
  assert (G : gives (partition_lines date tl nb ns nc include ++ [[]]) (top_items ++ decl_items tl nb ns nc ++ body_items nb include)).
  { apply gives_end_text. unfold partition_lines. refine (gives_app _ [] _ _ gives_header (gives_app _ top_items _ _ (gives_top date) _)).
    apply gives_app; [apply gives_decls; apply Sh; lia|]. rewrite <- body_items_eq.
    apply gives_app; [apply gives_clear|]. apply gives_app; [apply gives_do; apply Sh; lia|]. apply gives_app; [apply gives_bin|].
    apply gives_app; [|apply gives_end]. apply gives_gases. apply Forall_forall. intros p I. apply gas_pairs_In in I.
    assert (fst p < ns) by (apply (proj1 (Forall_forall _ _) F); apply nth_error_In in I; exact I).
    assert (snd p < List.length include) by (apply nth_error_Some; congruence).
    split; apply Sh; lia. }
  destruct G as (lg & G1 & G2). unfold read_fsub, partition_text.
  pose proof (lines_unlines _ (partition_one_line date tl nb ns nc include D) []) as E. rewrite app_nil_r in E. rewrite E. clear E.
  change (split_char NL []) with [@nil ascii]. rewrite G1. cbn [obind]. rewrite G2. cbn [obind].
  transitivity (read_body (s_ "dydt_partition") (map s_ part_args) (decl_items tl nb ns nc ++ body_items nb include)); [|apply read_body_items].
  generalize (decl_items tl nb ns nc ++ body_items nb include). intros ls.
  generalize read_body. intros B. vm_compute. reflexivity.
Qed.
