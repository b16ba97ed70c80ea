(* C64: the derivative of the aerosol model with the gas-phase chemistry put
   in: what a species gains or loses in all phases together is what the
   chemistry makes of it. *)
From Coq Require Import String List Bool Arith Lia ZArith QArith Reals Lra Permutation.
From Verif Require Import Base PyStr PyDict ModelParse SpecMech ParseStruct ParseTables ParseWritten ParseShow PropsParse
  ModelLang ModelGen ModelRhs SpecKin LangFacts PropsKin PropsRhs ModelOmp ModelRate ModelRateFile ModelRo2 SpecRo2
  ModelSolver ModelPart SpecPart ModelAero SpecAero PropsAero PropsAeroRun RateExpr ModelGas SpecGas PropsGas.
Import ListNotations.
Import Coq.Lists.List.
Open Scope nat_scope.
Open Scope list_scope.
Local Arguments eqb : simpl never.

Lemma nth_error_firstn_Some {A} n (l : list A) i a : nth_error (firstn n l) i = Some a -> nth_error l i = Some a.
Proof.
  revert l i; induction n as [|n IH]; intros [|x l] [|i]; cbn; try discriminate; auto.
Qed.

Lemma RO2_sum_firstn ind n y x : RO2_sum ind (firstn n y) = Ok x -> RO2_sum ind y = Ok x.
Proof.
  unfold RO2_sum. destruct ind as [|i0 ind]; [discriminate|]. generalize (i0 :: ind) as l. intros l.
  destruct (mapM (py_nth (firstn n y)) l) as [vs|] eqn:E; cbn [bind]; [|discriminate].
  assert (E' : mapM (py_nth y) l = Ok vs).
  { clear -E. revert vs E; induction l as [|i l IH]; intros vs; cbn [mapM]; [auto|].
    unfold py_nth at 1. destruct (nth_error (firstn n y) i) as [a|] eqn:Ei; cbn [bind]; [|discriminate].
    destruct (mapM _ l) as [ws|] eqn:El; cbn [bind]; [|discriminate]. intros H.
    unfold py_nth at 1. rewrite (nth_error_firstn_Some _ _ _ _ Ei). cbn [bind]. rewrite (IH ws eq_refl). exact H. }
  rewrite E'. auto.
Qed.

Theorem C64_partial : forall m text e, written m text ->
  Forall unit_coefficients m -> Forall (fun r => NoDup (names (rhs r)) /\ ~ In (last_reactant r) (names (rhs r))) m ->
  Forall distinct_reactants m -> peroxy_clean (first_seen (reading_order m)) ->
  let sp := first_seen (reading_order m) in let N := List.length sp in
  exists st, extract_mechanism text = Ok (Z.of_nat (List.length m), st) /\
  forall o1 o2 o3 p1 tr1 tr2 tr3,
    gen_reactants_fortran o1 (List.length m) (p_sp2a st) (p_reac st) (p_loss st) = Ok p1 -> runs_as o1 p1 tr1 ->
    runs_as o2 (gen_loss_gain_fortran o2 (p_sp2a st) (p_loss st) (p_gain st)) tr2 ->
    runs_as o3 (gen_rates_fortran o3 (convert_dict convert_fortran (p_rate st))) tr3 ->
  forall rnd a0 m0 start_time t H2O T y v, is_rounding rnd -> (0 < T)%R -> (0 <= H2O)%R -> nonneg y ->
  forall smiles objects cutoff p d nb y_core nper core_density core_mw diss bins,
    Pure_component1 N (p_sp st) (p_sp2a st) smiles objects true cutoff = Ok p ->
    prepare N (p_sp2a st) p true T = Ok d ->
    (forall i x c, dget i (p_sp st) = Some x -> molecule_of smiles objects x c -> sensible c) ->
    List.length y_core = nb -> List.length nper = nb -> List.length y = d_ns d + d_nc d * nb ->
    Forall (Rlt 0) y_core -> Forall (Rlt 0) nper -> (0 < core_density)%R -> (0 < core_mw)%R -> (0 < diss)%R ->
    Permutation bins (seq 0 nb) -> nb <> 0 ->
    let c := conc_of (p_sp2a st) (firstn N y) in
    coefficients m e (start_time + t) (peroxy_total sp c) H2O T v ->
    let gas := gas_dydt_fortran rnd tr3 tr1 tr2 (List.length m) a0 m0 (RO2_sum (write_RO2_indices (p_sp2a st)) y) start_time t H2O T in
    exists q dy, Pure_component2 (d_nc d) (d_mw d) Rgas T = Some q /\
      aerosol_rhs gas d q nb y_core nper core_density core_mw diss T bins y = Some dy /\
      List.length dy = List.length y /\
      (forall i s j, nth_error sp i = Some s -> nth_error (d_include d) j = Some i ->
         (nth i dy 0 + rsum (map (fun b => nth (slot (d_ns d) (d_nc d) b j) dy 0) (seq 0 nb)) = expected m v c s)%R) /\
      (forall i s, nth_error sp i = Some s -> ~ In i (d_include d) -> nth i dy 0%R = expected m v c s) /\
      (nth N dy 0 + rsum (map (fun b => nth (slot (d_ns d) (d_nc d) b (d_nc d - 1)) dy 0) (seq 0 nb)) = 0)%R.
Proof.
  intros m text e W Hu Hp Hd Hc sp N.
  destruct (C59_fortran_partial m text e W Hu Hp Hd Hc) as (st & E & HF). exists st. split; [exact E|].
  intros o1 o2 o3 p1 tr1 tr2 tr3 G1 R1 R2 R3 rnd a0 m0 t0 t H2O T y v Hrnd HT HH Hn
    smiles objects cutoff p d nb y_core nper cd cm diss bins Hpc Hpd Hmol L1 L2 L3 F1 F2 F3 F4 F5 PB Hnb c HC gas.
  assert (Est : st = interp m) by (assert (X := written_extract _ _ W); rewrite E in X; congruence).
  assert (HN : List.length (p_sp st) = N).
  { rewrite Est. destruct (interp_species m) as (-> & _). rewrite combine_length, seq_length. apply Nat.min_id. }
  assert (Hns : d_ns d = N + 1).
  { rewrite <- HN in Hpc, Hpd. destruct (C44_partial _ _ _ smiles objects cutoff p T E Hpc) as (d' & Hd' & Hns & _).
    rewrite Hpd in Hd'. injection Hd' as <-. rewrite Hns, HN. lia. }
  assert (Ly : List.length (firstn N y) = List.length sp) by (rewrite firstn_length; unfold N in *; lia).
  assert (Hn' : nonneg (firstn N y)).
  { unfold nonneg in *. rewrite <- (firstn_skipn N y) in Hn. apply Forall_app in Hn. apply Hn. }
  destruct (HF o1 o2 o3 p1 tr1 tr2 tr3 G1 R1 R2 R3 rnd a0 m0 t0 t H2O T (firstn N y) v Hrnd HT HH Ly Hn' HC) as (g & Hg & Lg & Vg).
  assert (Hro : RO2_sum (write_RO2_indices (p_sp2a st)) y = RO2_sum (write_RO2_indices (p_sp2a st)) (firstn N y)).
  { destruct Hc as (P1 & P2 & P3 & P4). rewrite (PropsRo2.C33_partial m text st W E P1 P2 P3 P4 (firstn N y) Ly).
    eapply RO2_sum_firstn, (PropsRo2.C33_partial m text st W E P1 P2 P3 P4 (firstn N y) Ly). }
  rewrite Ly in Lg. fold N in Lg.
  rewrite <- HN in Hpc, Hpd.
  destruct (C62_conservation text _ st smiles objects cutoff T p d nb y_core nper cd cm diss y bins gas g E Hpc Hpd Hmol HT L1 L2 L3 F1 F2 F3 F4 F5)
    as (q & inp & dy & Q1 & _ & Q3 & Q4 & Q5 & Q6 & Q7 & _); try assumption.
  - intros b j Hb Hj. unfold nonneg in Hn. rewrite Forall_forall in Hn.
    destruct (Nat.lt_ge_cases (slot (d_ns d) (d_nc d) b j) (List.length y)) as [K|K].
    + apply Hn, nth_In, K.
    + rewrite nth_overflow by exact K. lra.
  - unfold gas. rewrite Hro, HN. exact Hg.
  - rewrite HN. exact Lg.
  - rewrite HN in *. exists q, dy. split; [exact Q1|]. split; [exact Q3|]. split; [exact Q4|].
    assert (VG : forall i s, nth_error sp i = Some s -> nth i g 0%R = expected m v c s).
    { intros i s Hi. apply nth_error_nth, Vg, Hi. }
    split; [|split; [|exact Q7]].
    + intros i s j Hi Hj. assert (Hi' : i < N) by (apply nth_error_Some; unfold sp in *; congruence).
      rewrite (Q5 j i Hj Hi'). apply VG, Hi.
    + intros i s Hi Hni. assert (Hi' : i < N) by (apply nth_error_Some; unfold sp in *; congruence).
      rewrite (Q6 i Hi' Hni). apply VG, Hi.
Qed.

(* The hypotheses meet: the mechanism of C59_hypotheses, molecules for two of
   its species, two size bins. *)
Definition gas_smiles : dict str str := [(s_ "HCHO", s_ "C=O"); (s_ "CH3O2", s_ "CO[O]")].
Definition gas_objects : dict str chem := [(s_ "C=O", Chem 0.8 30.03 0.6 1 2 1); (s_ "CO[O]", Chem 1 47.03 (-7) 1 3 2)].

Example C64_example : exists st p d q tr1 v dy j,
  let y := repeat 1%R (8 + d_nc d * 2) in
  extract_mechanism (ParseShow.show gas_words) = Ok (3%Z, st) /\
  Pure_component1 7 (p_sp st) (p_sp2a st) gas_smiles gas_objects true (-6) = Ok p /\
  prepare 7 (p_sp2a st) p true 288.15 = Ok d /\
  nth_error (d_include d) j = Some 0 /\
  aerosol_rhs (gas_dydt_fortran (fun x => x) (gen_rates_fortran None (convert_dict convert_fortran (p_rate st))) tr1
                 (gen_loss_gain_fortran None (p_sp2a st) (p_loss st) (p_gain st)) 3 zeros zeros
                 (RO2_sum (write_RO2_indices (p_sp2a st)) y) 43200 60 1 288.15)
    d q 2 [1; 1]%R [1; 1]%R 1770 132.14 3 288.15 (seq 0 2) y = Some dy /\
  (nth 0 dy 0 + rsum (map (fun b => nth (slot 8 (d_nc d) b j) dy 0) (seq 0 2)) =
     expected gas_mech v (conc_of (p_sp2a st) (firstn 7 y)) (s_ "CH3O2"))%R.
Proof.
  destruct C59_hypotheses as (W & H1 & H2 & H3 & H4 & H5 & H6).
  destruct (C64_partial gas_mech _ gas_expr W H3 H4 H2 H5) as (st & E & HX).
  assert (Est : st = interp gas_mech) by (assert (X := written_extract _ _ W); rewrite E in X; congruence).
  destruct (C16_fortran_partial gas_mech _ W H3 H4 H2) as (st' & E' & HR). rewrite E in E'. injection E' as <-.
  destruct (HR None None) as (p1 & G1 & _). clear HR.
  assert (Nsp : List.length (p_sp st) = 7) by (rewrite Est; vm_compute; reflexivity).
  destruct (proj2 (C43_exactly_when _ _ _ gas_smiles gas_objects true (-6)%R E)) as [p Hp].
  { intros i x s _ Hs. apply dget_Some_In in Hs. destruct Hs as [Hs|[Hs|[]]]; apply (f_equal snd) in Hs; cbn [snd] in Hs; subst s; eexists.
    - split; [vm_compute; reflexivity | discriminate].
    - split; [vm_compute; reflexivity | discriminate]. }
  destruct (C44_partial _ _ _ gas_smiles gas_objects (-6)%R p 288.15%R E Hp) as (d & Hd & Hns & Hnc & R44).
  rewrite Nsp in *.
  destruct (H6 (43200 + 60)%R (peroxy_total (first_seen (reading_order gas_mech))
     (conc_of (p_sp2a st) (firstn 7 (repeat 1%R (8 + d_nc d * 2))))) 1%R 288.15%R ltac:(lra)) as [v Hv].
  assert (N7 : List.length (first_seen (reading_order gas_mech)) = 7) by (vm_compute; reflexivity).
  cbv zeta in HX. rewrite N7 in HX.
  destruct (HX None None None p1 p1 _ _ G1 eq_refl eq_refl eq_refl (fun x => x) zeros zeros 43200%R 60%R 1%R 288.15%R
     (repeat 1%R (8 + d_nc d * 2)) v) with (smiles := gas_smiles) (objects := gas_objects) (cutoff := (-6)%R) (p := p) (d := d)
     (nb := 2) (y_core := [1;1]%R) (nper := [1;1]%R) (core_density := 1770%R) (core_mw := 132.14%R) (diss := 3%R) (bins := seq 0 2)
     as (q & dy & Q1 & Q2 & Q3 & Q4 & Q5 & Q6); try lra; try assumption; try reflexivity; try discriminate.
  - intros x Hx. reflexivity.
  - apply Forall_forall. intros x Hx. apply repeat_spec in Hx. subst. lra.
  - intros i x c _ (s & Hs & Hc). apply dget_Some_In in Hc. cbn [In gas_objects] in Hc. destruct Hc as [Hc|[Hc|[]]]; injection Hc as _ <-; split; cbn; lra.
  - rewrite repeat_length, Hns. reflexivity.
  - repeat constructor; lra.
  - repeat constructor; lra.
  - assert (Hj : exists j, nth_error (d_include d) j = Some 0).
    { destruct R44 as (_ & _ & _ & _ & _ & _ & _ & Hex & _). destruct (Hex 0 (s_ "CH3O2")) as (j & _ & Hj); [| | exists j; exact Hj].
      - rewrite Est. vm_compute. reflexivity.
      - intros [Hx|(_ & c & (s & Hs & Hc) & Hv')]; [vm_compute in Hx; discriminate|].
        assert (Es : s = s_ "CO[O]") by (apply (f_equal (fun o => match o with Some v => v | None => [] end)) in Hs; rewrite <- Hs; vm_compute; reflexivity).
        subst s. apply (f_equal (fun o => match o with Some v => c_vp v | None => 0%R end)) in Hc. revert Hv'.
        change (match dget (s_ "CO[O]") gas_objects with Some v => c_vp v | None => 0%R end) with (-7)%R in Hc. rewrite <- Hc. lra. }
    destruct Hj as [j Hj]. exists st, p, d, q, p1, v, dy, j. cbv zeta. split; [exact E|]. split; [exact Hp|]. split; [exact Hd|].
    split; [exact Hj|]. split; [exact Q2|]. rewrite <- (Q4 0 (s_ "CH3O2") j); [rewrite Hns; reflexivity | vm_compute; reflexivity | exact Hj].
Qed.

Print Assumptions C64_partial.
