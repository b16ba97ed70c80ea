(* C80: from the text of the mechanism through the text of the generated files
   to mass-action kinetics. *)
From Coq Require Import String List Bool Arith Lia Ascii ZArith QArith Reals Lra.
From Verif Require Import Base PyStr PyDict SpecRate ModelParse SpecMech ParseStruct ParseTables ParseWritten ParseShow PropsParse
  ModelLang ModelGen ModelRhs ModelOmp OmpFacts PropsOmp SpecKin LangFacts GenReact GenLossGain GenParsed PropsKin PropsRhs ModelGas PropsGas
  ModelSource ModelWrite SpecSource SourceRead SourceGen PropsSource SourceRun.
Import ListNotations.
Import Coq.Lists.List.
Open Scope nat_scope.
Open Scope list_scope.
Local Arguments eqb : simpl never.

(* The functions in the files are the functions of the programs. *)
Theorem C80_jacobian_numba num date ord sp2a rt loss gain text : one_line date ->
  write_jacobian_numba num date ord sp2a rt loss gain = Ok text ->
  exists p, gen_jacobian_numba ord sp2a rt loss gain = Ok p /\
    (prints num p -> exists s, read_python two_subscripts text = Some s /\
       forall N y r, jacobian_numba (src_prog s) N y r = jacobian_numba p N y r).
Proof.
  intros Hd W. destruct (C79_jacobian_numba _ _ _ _ _ _ _ _ Hd W) as (p & G & R). exists p. split; [exact G|]. intros P.
  eexists. split; [exact (R P)|]. intros N y r. apply jacobian_numba_plain. eapply well_jacobian_numba, G.
Qed.
Theorem C80_jacobian_fortran num date ord omp n nsp sp2a rt loss gain text : one_line date ->
  write_jacobian_fortran num date ord omp n nsp sp2a rt loss gain = Ok text ->
  exists p, gen_jacobian_fortran ord omp sp2a rt loss gain = Ok p /\
    (prints num p -> fine text -> exists s, read_fortran two_subscripts text = Some s /\
       forall tr, runs_as omp (f_prog s) tr -> exists tr0, runs_as omp p tr0 /\
         forall rnd N y r, jacobian_fortran rnd tr N y r = jacobian_fortran (fun q => rnd (Qred q)) tr0 N y r).
Proof.
  intros Hd W. destruct (C79_jacobian_fortran _ _ _ _ _ _ _ _ _ _ _ Hd W) as (p & G & R). exists p. split; [exact G|]. intros P F.
  eexists. split; [exact (proj1 (R P) F)|]. intros tr Ht. cbn [f_prog] in Ht. destruct (runs_as_plain _ _ _ Ht) as (tr0 & H0 & ->).
  exists tr0. split; [exact H0|]. intros rnd N y r. apply jacobian_fortran_plain. eapply runs_as_well; [|exact H0]. eapply well_jacobian_fortran, G.
Qed.

(* Reading a mechanism, writing the two Python files, loading them and
   calling reactants and dydt gives mass-action kinetics. *)
Theorem C80_numba_partial : forall m text num date, written m text -> one_line date ->
  Forall products_safe m -> Forall distinct_reactants m ->
  exists st p1 t1, extract_mechanism text = Ok (Z.of_nat (List.length m), st) /\
    gen_reactants_numba (List.length m) (p_sp2a st) (p_reac st) (p_loss st) = Ok p1 /\
    write_reactants_numba num date (List.length m) (p_sp2a st) (p_reac st) (p_loss st) = Ok t1 /\
    (prints num p1 -> prints num (snd (gen_loss_gain_numba (p_sp2a st) (p_loss st) (p_gain st))) ->
     exists s1 s2, read_python one_subscript t1 = Some s1 /\
       read_python one_subscript (write_loss_gain_numba num date (p_sp2a st) (p_loss st) (p_gain st)) = Some s2 /\
     forall ks y, List.length ks = List.length m -> List.length y = species_count st -> nonneg y ->
      exists v, rhs_numba (src_prog s1) (src_prog s2) (List.length m) (species_count st) ks y = Some v /\
        List.length v = species_count st /\
        forall s i, dget s (p_sp2a st) = Some i ->
          nth_error v i = Some (if inb s bath then 0%R else kinetics m ks (conc_of (p_sp2a st) y) s)).
Proof.
  intros m text num date W Hd Hs Hr. destruct (C16_partial m text W Hs Hr) as (st & p1 & E & G & HV).
  assert (W1 : exists t1, write_reactants_numba num date (List.length m) (p_sp2a st) (p_reac st) (p_loss st) = Ok t1).
  { unfold gen_reactants_numba in G. unfold write_reactants_numba.
    destruct (mapM (react_line 0 (p_sp2a st) (p_loss st) (p_reac st)) (seq 0 (List.length m))); cbn [bind] in *; [eauto | discriminate]. }
  destruct W1 as (t1 & W1). exists st, p1, t1. repeat (split; [assumption|]). intros P1 P2.
  destruct (C79_reactants_numba _ _ _ _ _ _ _ Hd W1) as (p1' & G' & R1). rewrite G in G'. injection G' as <-.
  pose proof (C79_dydt_numba num date (p_sp2a st) (p_loss st) (p_gain st) Hd P2) as R2.
  eexists _, _. split; [exact (R1 P1)|]. split; [exact R2|]. cbn [src_prog]. intros ks y Hks Hy Hn.
  destruct (HV ks y Hks Hy Hn) as (v & Hv & Lv & Vv). exists v. split; [|split; [exact Lv | exact Vv]]. rewrite <- Hv. unfold rhs_numba.
  rewrite reactants_numba_plain by (eapply well_reactants_numba, G).
  destruct (reactants_numba p1 (List.length m) y); [|reflexivity]. apply dydt_numba_plain, well_loss_gain_numba.
Qed.

(* The same for the Fortran files, with or without OpenMP, for every parallel
   execution, provided no line is too long. *)
Theorem C80_fortran_partial : forall m text num date, written m text -> one_line date -> first_seen (reading_order m) <> [] ->
  Forall unit_coefficients m -> Forall (fun r => NoDup (names (rhs r)) /\ ~ In (last_reactant r) (names (rhs r))) m ->
  Forall distinct_reactants m ->
  exists st, extract_mechanism text = Ok (Z.of_nat (List.length m), st) /\
  forall o1 o2, exists p1 t1,
    gen_reactants_fortran o1 (List.length m) (p_sp2a st) (p_reac st) (p_loss st) = Ok p1 /\
    write_reactants_fortran num date o1 (List.length m) (p_sp2a st) (p_reac st) (p_loss st) = Ok t1 /\
    let t2 := write_loss_gain_fortran num date o2 (List.length m) (species_count st) (p_sp2a st) (p_loss st) (p_gain st) in
    (prints num p1 -> prints num (gen_loss_gain_fortran o2 (p_sp2a st) (p_loss st) (p_gain st)) -> fine t1 -> fine t2 ->
     exists s1 s2, read_fortran one_subscript t1 = Some s1 /\ read_fortran one_subscript t2 = Some s2 /\
     forall tr1 tr2, runs_as o1 (f_prog s1) tr1 -> runs_as o2 (f_prog s2) tr2 ->
     forall rnd m0 ks y, is_rounding rnd -> List.length ks = List.length m -> List.length y = species_count st -> nonneg y ->
      exists v, rhs_fortran rnd tr1 tr2 (List.length m) (species_count st) m0 ks y = Some v /\
        forall s i, dget s (p_sp2a st) = Some i ->
          nth_error v i = Some (if inb s bath then 0%R else kinetics m ks (conc_of (p_sp2a st) y) s)).
Proof.
  intros m text num date W Hd Hne Hu Hp Hr. destruct (C16_fortran_partial m text W Hu Hp Hr) as (st & E & HV).
  assert (Est : st = interp m) by (assert (X := written_extract _ _ W); rewrite E in X; congruence).
  assert (Hm : List.length m <> 0).
  { intros X. apply length_zero_iff_nil in X. subst m. apply Hne. reflexivity. }
  assert (Hsp : p_sp2a st <> []).
  { rewrite Est. destruct (interp_species m) as (_ & -> & _ & _). unfold species. destruct (first_seen (reading_order m)); [congruence | discriminate]. }
  assert (Hnd : NoDup (dvals (p_sp2a st))) by (rewrite Est; exact (wf_vals _ _ _ _ _ (interp_lg_wf m))).
  exists st. split; [exact E|]. intros o1 o2. destruct (HV o1 None) as (p1 & G1 & _). destruct (HV None None) as (p0 & G0 & V0). exists p1.
  assert (W1 : exists t1, write_reactants_fortran num date o1 (List.length m) (p_sp2a st) (p_reac st) (p_loss st) = Ok t1).
  { unfold gen_reactants_fortran in G1. unfold write_reactants_fortran.
    destruct (mapM (react_line 1 (p_sp2a st) (p_loss st) (p_reac st)) (seq 0 (List.length m))); cbn [bind] in *; [eauto | discriminate]. }
  destruct W1 as (t1 & W1). exists t1. split; [exact G1|]. split; [exact W1|]. intros t2 P1 P2 F1 F2.
  destruct (C79_reactants_fortran _ _ _ _ _ _ _ _ Hd W1) as (p1' & G' & R1). rewrite G1 in G'. injection G' as <-.
  pose proof (C79_dydt_fortran num date o2 (List.length m) (species_count st) (p_sp2a st) (p_loss st) (p_gain st) Hd P2) as R2.
  eexists _, _. split; [exact (proj1 (R1 P1) F1)|]. split; [exact (proj1 R2 F2)|]. cbn [f_prog].
  intros tr1 tr2 T1 T2 rnd m0 ks y Hrnd Hks Hy Hn.
  destruct (runs_as_plain _ _ _ T1) as (u1 & U1 & ->). destruct (runs_as_plain _ _ _ T2) as (u2 & U2 & ->).
  destruct (runs_as_reactants _ _ _ _ _ _ _ Hm G1 U1) as (p0' & G0' & X1). rewrite G0 in G0'. injection G0' as <-.
  pose proof (runs_as_loss_gain _ _ _ _ _ Hsp Hnd U2) as X2.
  destruct (V0 (reduced_rnd rnd) m0 ks y (reduced_rounding rnd Hrnd) Hks Hy Hn) as (v & Hv & Vv). exists v. split; [|exact Vv]. rewrite <- Hv. unfold rhs_fortran.
  rewrite reactants_fortran_plain by (eapply runs_as_well; [eapply well_reactants_fortran, G1 | exact U1]). rewrite X1.
  destruct (reactants_fortran (reduced_rnd rnd) p0 (List.length m) m0 y); [|reflexivity].
  rewrite loss_gain_fortran_plain by (eapply runs_as_well; [apply well_loss_gain_fortran | exact U2]). apply X2.
Qed.

(* Examples that meet the hypotheses are in PropsWidth.v. *)
Print Assumptions C80_jacobian_numba.
Print Assumptions C80_jacobian_fortran.
Print Assumptions C80_numba_partial.
Print Assumptions C80_fortran_partial.
