(* A whole call of the subroutine in Partitioning.f90. *)
From Coq Require Import List Bool Arith Lia Ascii String ZArith QArith Reals Lra Qreals Permutation.
From Verif Require Import Base PyStr SpecKin SpecRate ModelExpr ModelRhs ModelSource ModelPart SpecPart PartFacts PartValue ModelFort PartRead PartProg PartRun.
Import ListNotations.
Import Coq.Lists.List.
Open Scope nat_scope.
Open Scope list_scope.
Local Arguments eqb : simpl never.
Local Arguments s_ : simpl never.

(* ------------------------------------------------------------------ *)
(* Undefined contents *)
Definition placed (d : vdecl) : bool := v_int d || (List.length (v_dims d) <=? 2).
Lemma undefined_one_ok g d m : placed d = true -> exists m', undefined_one g d m = Some m' /\
  (forall x, eqb x (v_name d) = false -> look x (st_val m') = look x (st_val m) /\ look x (st_int m') = look x (st_int m)) /\
  (v_int d = false -> exists v, shaped (v_dims d) (g_real g (v_name d)) = Some v /\ look (v_name d) (st_val m') = Some v) /\
  (v_int d = true -> v_dims d = [] -> exists z, look (v_name d) (st_int m') = Some z).
Proof.
  unfold placed, undefined_one. intros H. destruct (v_int d) eqn:Ei; cbn [orb] in H.
  - destruct (v_dims d) as [|n dims]; eexists; (split; [reflexivity|]); (split; [|split; [discriminate|]]); cbn [st_val st_int].
    + intros x N. split; [reflexivity | apply look_other; exact N].
    + intros _ _. eexists. apply look_same.
    + auto.
    + discriminate.
  - assert (S : exists v, shaped (v_dims d) (g_real g (v_name d)) = Some v).
    { destruct (v_dims d) as [|n [|k [|l dims]]]; cbn in H; try discriminate; eexists; reflexivity. }
    destruct S as [v S]. rewrite S. cbn [obind]. eexists. split; [reflexivity|]. cbn [st_val st_int]. split; [|split; [|discriminate]].
    + intros x N. split; [apply look_other; exact N | reflexivity].
    + intros _. exists v. split; [reflexivity | apply look_same].
Qed.
Lemma eqb_str_sym (x y : str) : eqb x y = eqb y x.
Proof.
  destruct (eqb x y) eqn:E.
  - apply eqb_eq in E. subst. symmetry. apply eqb_refl.
  - symmetry. apply eqb_neq. apply eqb_neq in E. congruence.
Qed.
Lemma undefined_all g : forall ds m, forallb placed ds = true -> distinct (map v_name ds) = true -> exists m', ofold (undefined_one g) ds m = Some m' /\
  (forall x, inb x (map v_name ds) = false -> look x (st_val m') = look x (st_val m) /\ look x (st_int m') = look x (st_int m)) /\
  (forall d, In d ds -> v_int d = false -> exists v, shaped (v_dims d) (g_real g (v_name d)) = Some v /\ look (v_name d) (st_val m') = Some v) /\
  (forall d, In d ds -> v_int d = true -> v_dims d = [] -> exists z, look (v_name d) (st_int m') = Some z).
Proof.
  induction ds as [|d ds IH]; intros m P D.
  - exists m. split; [reflexivity|]. split; [auto|]. split; intros d [].
  - cbn [forallb map distinct] in P, D. apply andb_prop in P, D. destruct P as [P1 P2]. destruct D as [D1 D2]. apply negb_true_iff in D1.
    destruct (undefined_one_ok g d m P1) as (m1 & E1 & F1 & R1 & I1). destruct (IH m1 P2 D2) as (m2 & E2 & F2 & R2 & I2).
    exists m2. cbn [ofold]. rewrite E1. cbn [obind]. split; [exact E2|]. split; [|split].
    + intros x N. cbn [map inb existsb] in N. apply orb_false_iff in N. destruct N as [N1 N2].
      destruct (F2 x N2) as [A1 A2]. destruct (F1 x N1) as [B1 B2]. split; congruence.
    + intros d' [<-|I] T; [|exact (R2 d' I T)]. destruct (R1 T) as (v & S & L). exists v. split; [exact S|]. rewrite (proj1 (F2 _ D1)). exact L.
    + intros d' [<-|I] T S; [|exact (I2 d' I T S)]. destruct (I1 T S) as (z & L). exists z. rewrite (proj2 (F2 _ D1)). exact L.
Qed.

(* ------------------------------------------------------------------ *)
(* Memory that holds every declared variable in its declared shape. *)
Definition fits_dims (dims : list nat) (v : value) : Prop :=
  match dims, v with
  | [], VS _ => True
  | [n], VV l => List.length l = n
  | [n; k], VM rows => List.length rows = n /\ Forall (fun r => List.length r = k) rows
  | _, _ => False
  end.
Lemma shaped_fits dims j v : shaped dims j = Some v -> fits_dims dims v.
Proof.
  destruct dims as [|n [|k [|l dims]]]; cbn [shaped]; intros H; try discriminate; injection H as <-; cbn [fits_dims].
  - exact I.
  - apply array_len.
  - rewrite map_length, seq_length. split; [reflexivity|]. apply Forall_forall. intros r H. apply in_map_iff in H as (i & <- & _). apply array_len.
Qed.
Definition typed (ds : list vdecl) (m : store) : Prop := forall d, In d ds ->
  (v_int d = false -> exists v, look (v_name d) (st_val m) = Some v /\ fits_dims (v_dims d) v) /\
  (v_int d = true -> v_dims d = [] -> exists z, look (v_name d) (st_int m) = Some z).
Lemma inb_In (x : str) l : inb x l = true -> In x l.
Proof. unfold inb. intros H. apply existsb_exists in H as (y & I & E). apply eqb_eq in E. subst. exact I. Qed.
Lemma In_inb (x : str) l : In x l -> inb x l = true.
Proof. unfold inb. intros H. apply existsb_exists. exists x. split; [exact H | apply eqb_refl]. Qed.
Lemma decl_of_In ds x d : decl_of ds x = Some d -> In d ds /\ x = v_name d.
Proof. unfold decl_of. intros H. apply find_some in H. destruct H as [I E]. apply eqb_eq in E. auto. Qed.
Lemma decl_unique ds d d' : distinct (map v_name ds) = true -> In d ds -> In d' ds -> v_name d = v_name d' -> d = d'.
Proof.
  induction ds as [|e ds IH]; [intros _ []|]. cbn [map distinct]. intros D I I' E. apply andb_prop in D. destruct D as [D1 D2]. apply negb_true_iff in D1.
  assert (N : forall f, In f ds -> v_name f = v_name e -> False).
  { intros f If Ef. rewrite <- Ef in D1. rewrite In_inb in D1; [discriminate | apply in_map, If]. }
  destruct I as [<-|I]; destruct I' as [<-|I']; [reflexivity | exfalso; eapply N; [exact I' | congruence] | exfalso; eapply N; [exact I | congruence] | auto].
Qed.
Section Typed.
Context (ds : list vdecl) (Di : distinct (map v_name ds) = true).
Lemma typed_set m m' x v d : typed ds m -> set_to m m' x v -> decl_of ds x = Some d -> v_int d = false -> fits_dims (v_dims d) v -> typed ds m'.
Proof.
  intros T [E1 E2] D Ni F e Ie. apply decl_of_In in D as [Id ->]. rewrite E1, E2. destruct (T e Ie) as [T1 T2]. split; [|exact T2]. intros Ni'.
  destruct (eqb (v_name e) (v_name d)) eqn:E.
  - apply eqb_eq in E. rewrite (decl_unique _ _ _ Di Ie Id E). exists v. split; [apply look_same | exact F].
  - rewrite look_other by exact E. exact (T1 Ni').
Qed.
Lemma typed_seti m m' x z d : typed ds m -> seti_to m m' x z -> decl_of ds x = Some d -> v_int d = true -> typed ds m'.
Proof.
  intros T [E1 E2] D Ni e Ie. apply decl_of_In in D as [Id ->]. rewrite E1, E2. destruct (T e Ie) as [T1 T2]. split; [exact T1|]. intros Ni' Nd.
  destruct (eqb (v_name e) (v_name d)) eqn:E.
  - apply eqb_eq in E. rewrite E. exists z. apply look_same.
  - rewrite look_other by exact E. exact (T2 Ni' Nd).
Qed.
Lemma typed_undefined g m : forallb placed ds = true -> exists m', ofold (undefined_one g) ds m = Some m' /\ typed ds m'.
Proof.
  intros P. destruct (undefined_all g ds m P Di) as (m' & E & _ & R & I). exists m'. split; [exact E|]. intros d Id. split; [|exact (I d Id)].
  intros Ni. destruct (R d Id Ni) as (v & S & L). exists v. split; [exact L | exact (shaped_fits _ _ _ S)].
Qed.
Lemma typed_private g ps m : typed ds m -> forallb placed ps = true -> distinct (map v_name ps) = true -> incl ps ds ->
  exists m', ofold (undefined_one g) ps m = Some m' /\ typed ds m' /\
    (forall x, inb x (map v_name ps) = false -> look x (st_val m') = look x (st_val m) /\ look x (st_int m') = look x (st_int m)).
Proof.
  intros T P D In_. destruct (undefined_all g ps m P D) as (m' & E & F & R & I). exists m'. split; [exact E|]. split; [|exact F].
  intros d Id. destruct (inb (v_name d) (map v_name ps)) eqn:N.
  - apply inb_In in N. apply in_map_iff in N as (d' & N & Id'). rewrite (decl_unique _ d d' Di Id (In_ _ Id') (eq_sym N)). split; [|exact (I d' Id')].
    intros Ni. destruct (R d' Id' Ni) as (v & S & L). exists v. split; [exact L | exact (shaped_fits _ _ _ S)].
  - destruct (F _ N) as [F1 F2]. rewrite F1, F2. exact (T d Id).
Qed.
Lemma restore_all before : typed ds before -> forall ps m, incl ps ds -> exists m', ofold (restore_one before) ps m = Some m' /\
  (forall x, inb x (map v_name ps) = false -> look x (st_val m') = look x (st_val m) /\ look x (st_int m') = look x (st_int m)).
Proof.
  intros T. induction ps as [|d ps IH]; intros m In_; [exists m; split; [reflexivity | auto]|].
  assert (G : exists m1, restore_one before d m = Some m1 /\ forall x, eqb x (v_name d) = false -> look x (st_val m1) = look x (st_val m) /\ look x (st_int m1) = look x (st_int m)).
  { destruct (T d (In_ d (or_introl eq_refl))) as [T1 T2]. unfold restore_one. destruct (v_int d).
    - destruct (v_dims d); [|exists m; auto]. destruct (T2 eq_refl eq_refl) as [z Z]. rewrite Z. cbn [obind]. eexists. split; [reflexivity|].
      intros x N. cbn [st_val st_int]. rewrite look_other by exact N. auto.
    - destruct (T1 eq_refl) as (v & V & _). rewrite V. cbn [obind]. eexists. split; [reflexivity|]. intros x N. cbn [st_val st_int]. rewrite look_other by exact N. auto. }
  destruct G as (m1 & E1 & F1). destruct (IH m1 (fun x H => In_ x (or_intror H))) as (m2 & E2 & F2). exists m2. cbn [ofold]. rewrite E1. cbn [obind].
  split; [exact E2|]. intros x N. cbn [map inb existsb] in N. apply orb_false_iff in N. destruct N as [N1 N2].
  destruct (F1 x N1) as [A1 A2]. destruct (F2 x N2) as [B1 B2]. split; congruence.
Qed.
(* read off by name *)
Context (m : store) (T : typed ds m).
Lemma name_vec x n : option_map (fun d => (v_int d, v_dims d)) (decl_of ds (s_ x)) = Some (false, [n]) -> has_vec m n x.
Proof.
  destruct (decl_of ds (s_ x)) as [d|] eqn:E; [|discriminate]. intros H. injection H as H1 H2. destruct (decl_of_In _ _ _ E) as [I N].
  destruct (proj1 (T d I) H1) as (v & L & F). rewrite H2 in F. destruct v as [|l|]; [destruct F| |destruct F]. exists l. split; [unfold real_is; rewrite N; exact L | exact F].
Qed.
Lemma name_scalar x : option_map (fun d => (v_int d, v_dims d)) (decl_of ds (s_ x)) = Some (false, []) -> has_scalar m x.
Proof.
  destruct (decl_of ds (s_ x)) as [d|] eqn:E; [|discriminate]. intros H. injection H as H1 H2. destruct (decl_of_In _ _ _ E) as [I N].
  destruct (proj1 (T d I) H1) as (v & L & F). rewrite H2 in F. destruct v as [r| |]; [|destruct F|destruct F]. exists r. unfold real_is. rewrite N. exact L.
Qed.
Lemma name_int x : option_map (fun d => (v_int d, v_dims d)) (decl_of ds (s_ x)) = Some (true, []) -> has_int m x.
Proof.
  destruct (decl_of ds (s_ x)) as [d|] eqn:E; [|discriminate]. intros H. injection H as H1 H2. destruct (decl_of_In _ _ _ E) as [I N].
  destruct (proj2 (T d I) H1 H2) as (z & L). exists z. unfold int_is. rewrite N. exact L.
Qed.
Lemma name_matrix x n k : option_map (fun d => (v_int d, v_dims d)) (decl_of ds (s_ x)) = Some (false, [n; k]) ->
  exists rows, real_is m x (VM rows) /\ List.length rows = n /\ Forall (fun r => List.length r = k) rows.
Proof.
  destruct (decl_of ds (s_ x)) as [d|] eqn:E; [|discriminate]. intros H. injection H as H1 H2. destruct (decl_of_In _ _ _ E) as [I N].
  destruct (proj1 (T d I) H1) as (v & L & F). rewrite H2 in F. destruct v as [| |rows]; [destruct F|destruct F|]. exists rows. split; [unfold real_is; rewrite N; exact L | exact F].
Qed.
End Typed.

(* Arguments. *)
Definition fits_actual (d : vdecl) (a : actual) : Prop :=
  match a, v_int d, v_dims d with
  | AReal _, false, [] => True
  | AReals l, false, [n] => List.length l = n
  | AInts l, true, [n] => List.length l = n
  | _, _, _ => False
  end.
Definition holds_actual (m : store) (d : vdecl) (a : actual) : Prop :=
  match a with
  | AReal r => look (v_name d) (st_val m) = Some (VS r)
  | AReals l => look (v_name d) (st_val m) = Some (VV l)
  | AInts _ => True
  end.
Lemma bind_all : forall ds vs m, distinct (map v_name ds) = true -> Forall2 fits_actual ds vs -> exists m', bind_args ds vs m = Some m' /\
  st_int m' = st_int m /\ (forall x, inb x (map v_name ds) = false -> look x (st_val m') = look x (st_val m)) /\
  (forall d a, In (d, a) (combine ds vs) -> holds_actual m' d a).
Proof.
  induction ds as [|d ds IH]; intros vs m D F; inversion F as [|? a ? vs' Fa F']; subst.
  - exists m. split; [reflexivity|]. split; [reflexivity|]. split; [auto | intros d a []].
  - cbn [map distinct] in D. apply andb_prop in D. destruct D as [D1 D2]. apply negb_true_iff in D1.
    assert (G : exists m1, bind_arg d a m = Some m1 /\ st_int m1 = st_int m /\ (forall x, eqb x (v_name d) = false -> look x (st_val m1) = look x (st_val m)) /\ holds_actual m1 d a).
    { unfold fits_actual in Fa. unfold bind_arg. destruct a as [r|l|l]; destruct (v_int d); destruct (v_dims d) as [|n [|k dims]]; try contradiction; try rewrite (proj2 (Nat.eqb_eq _ _) Fa);
        eexists; (split; [reflexivity|]); cbn [st_int st_val holds_actual]; (split; [reflexivity|]); split; try apply look_same; auto; intros x N; apply look_other, N. }
    destruct G as (m1 & E1 & I1 & F1 & H1). destruct (IH vs' m1 D2 F') as (m2 & E2 & I2 & F2 & H2). exists m2. cbn [bind_args]. rewrite E1. cbn [obind].
    split; [exact E2|]. split; [congruence|]. split.
    + intros x N. cbn [map inb existsb] in N. apply orb_false_iff in N. destruct N as [N1 N2]. rewrite F2, F1 by assumption. reflexivity.
    + intros e c [E|Ie]; [|exact (H2 e c Ie)]. inversion E; subst. unfold holds_actual in *. rewrite (F2 _ D1). exact H1.
Qed.
Lemma typed_bind ds m : distinct (map v_name ds) = true -> forall is vs m', incl is ds -> typed ds m -> bind_args is vs m = Some m' -> typed ds m'.
Proof.
  intros Di is. revert m. induction is as [|d is IH]; intros m [|a vs] m' In_ T H; try discriminate; [injection H as <-; exact T|].
  cbn [bind_args] in H. destruct (bind_arg d a m) as [m1|] eqn:E; [|discriminate]. cbn [obind] in H. apply (IH m1 vs m' (fun x I => In_ x (or_intror I))); [|exact H].
  pose proof (In_ d (or_introl eq_refl)) as Id.
  assert (Dd : decl_of ds (v_name d) = Some d).
  { destruct (decl_of ds (v_name d)) as [d'|] eqn:E'.
    - apply decl_of_In in E' as [Id' N]. rewrite (decl_unique _ d d' Di Id Id' N). reflexivity.
    - unfold decl_of in E'. pose proof (find_none _ _ E' d Id) as N. cbn in N. rewrite eqb_refl in N. discriminate. }
  unfold bind_arg in E. destruct a as [r|l|l]; destruct (v_int d) eqn:Ei; destruct (v_dims d) as [|n [|k dims]] eqn:Ed; try discriminate.
  - injection E as <-. eapply (typed_set ds Di m _ (v_name d) (VS r) d T); [split; reflexivity | exact Dd | exact Ei | rewrite Ed; exact I].
  - destruct (List.length l =? n) eqn:L; [|discriminate]. injection E as <-. apply Nat.eqb_eq in L.
    eapply (typed_set ds Di m _ (v_name d) (VV l) d T); [split; reflexivity | exact Dd | exact Ei | rewrite Ed; exact L].
  - destruct (List.length l =? n); [|discriminate]. injection E as <-. exact T.
Qed.

Definition in_vdecls (tl nb ns nc : nat) : list vdecl :=
  declare ["y"%string] false (Some "in"%string) [tl] ++
  declare ["ycore"%string] false (Some "in"%string) [nb] ++
  declare ["core_diss"%string] false (Some "in"%string) [] ++
  declare ["core_mass_array"%string] false (Some "in"%string) [nb] ++
  declare ["density_input"%string] false (Some "in"%string) [nc] ++
  declare ["core_density_array"%string] false (Some "in"%string) [nb] ++
  declare ["ignore_index"%string] true (Some "in"%string) [ns] ++
  declare ["mw_array"%string] false (Some "in"%string) [nc] ++
  declare ["psat"%string] false (Some "in"%string) [nc] ++
  declare ["dstar_org"%string] false (Some "in"%string) [nc] ++
  declare ["alpha_d_org"%string] false (Some "in"%string) [nc] ++
  declare ["c_g_i_t"%string] false (Some "in"%string) [nc] ++
  declare ["n_perbin"%string] false (Some "in"%string) [nb] ++
  declare ["gamma_gas"%string] false (Some "in"%string) [nc] ++
  declare ["latent_heat"%string] false (Some "in"%string) [nc] ++
  declare ["grav"%string] false (Some "in"%string) [] ++
  declare ["updraft"%string] false (Some "in"%string) [] ++
  declare ["sigma"%string] false (Some "in"%string) [] ++
  declare ["na"%string] false (Some "in"%string) [] ++
  declare ["kb"%string] false (Some "in"%string) [] ++
  declare ["rv"%string] false (Some "in"%string) [] ++
  declare ["r_gas"%string] false (Some "in"%string) [] ++
  declare ["model_temp"%string] false (Some "in"%string) [] ++
  declare ["cp"%string] false (Some "in"%string) [] ++
  declare ["ra"%string] false (Some "in"%string) [] ++
  declare ["lv_water_vapour"%string] false (Some "in"%string) [].

(* The arguments in the order in which the driver passes them
   (Aerosol/f2py/ODE_solver.py:131-134); those that the routine does not use
   are arbitrary. *)
Record unused := Unused { u_ignore : list Z; u_latent : list R; u_grav : R; u_updraft : R; u_kb : R; u_rv : R; u_cp : R; u_ra : R; u_lv : R }.
Definition actuals (inp : inputs) (u : unused) : list actual :=
  [AReals (i_y inp); AReals (i_ycore inp); AReal (i_diss inp); AReals (i_core_mass inp); AReals (i_density inp); AReals (i_core_density inp);
   AInts (u_ignore u); AReals (i_mw inp); AReals (i_psat inp); AReals (i_dstar inp); AReals (i_alpha inp); AReals (i_cg inp); AReals (i_nper inp);
   AReals (i_gamma inp); AReals (u_latent u); AReal (u_grav u); AReal (u_updraft u); AReal (i_sigma inp); AReal (i_NA inp); AReal (u_kb u); AReal (u_rv u);
   AReal (i_Rgas inp); AReal (i_temp inp); AReal (u_cp u); AReal (u_ra u); AReal (u_lv u)].

Lemma with_value_none ds m : Forall (fun d => v_value d = None) ds -> ofold with_value ds m = Some m.
Proof. induction 1 as [|d ds H _ IH]; [reflexivity|]. cbn [ofold]. unfold with_value at 1. rewrite H. exact IH. Qed.
Lemma ofold_app {A B} (f : A -> B -> option B) l l' x : ofold f (l ++ l') x = obind (ofold f l x) (ofold f l').
Proof. revert x; induction l as [|a l IH]; intros x; [reflexivity|]. cbn [app ofold]. destruct (f a x); [apply IH | reflexivity]. Qed.
Lemma Pi_value : Q2R (31415927 # 10000000) = Pi.
Proof. unfold Q2R, Pi. cbn [Qnum Qden]. lra. Qed.
Lemma clear_array q (l : list R) n : List.length l = n -> map (fun _ => num q) l = array n (fun _ => num q).
Proof.
  intros <-. unfold array. generalize 0. induction l as [|a l IH]; intros k; [reflexivity|]. cbn [List.length map seq]. rewrite (IH (S k)). reflexivity.
Qed.
Lemma clear_rows q (rows : list (list R)) n k : List.length rows = n -> Forall (fun r => List.length r = k) rows ->
  map (map (fun _ => num q)) rows = map (fun _ => array k (fun _ => num q)) (seq 0 n).
Proof.
  intros <- F. generalize 0. induction F as [|r rows L F IH]; intros i; [reflexivity|]. cbn [List.length map seq]. rewrite (IH (S i)), (clear_array q r k L). reflexivity.
Qed.
Lemma as_array l n : List.length l = n -> l = array n (at_ l).
Proof. intros <-. exact (list_as_map l). Qed.

Lemma firstn_array n k f : firstn n (array (n + k) f) = array n f.
Proof.
  unfold array. rewrite seq_app, map_app, firstn_app, map_length, seq_length, Nat.sub_diag. cbn [firstn]. rewrite app_nil_r.
  apply firstn_all2. rewrite map_length, seq_length. lia.
Qed.

Section Call.
Context (nb ns nc : nat) (include : list nat) (inp : inputs) (u : unused).
Notation tl := (ns + nc * nb).
Notation p := (partition_sub tl nb ns nc include).
Notation ds := (part_vdecls tl nb ns nc).
Context (ph : workable ns nc nb inp) (Ui : List.length (u_ignore u) = ns) (Ul : List.length (u_latent u) = nc).
Lemma in_dummies : dummies "in" p = in_vdecls tl nb ns nc.
Proof. yes. Qed.
Lemma out_dummies : map v_name (dummies "out" p) = map s_ ["total_soa_mass"; "aw_array"; "size_array"; "dy_dt"]%string.
Proof. yes. Qed.
Definition priv_vdecls : list vdecl := pick ds (fs_private p).
Lemma ds_placed : forallb placed ds = true. Proof. yes. Qed.
Lemma ds_distinct : distinct (map v_name ds) = true. Proof. yes. Qed.
Lemma priv_placed : forallb placed priv_vdecls = true. Proof. yes. Qed.
Lemma priv_distinct : distinct (map v_name priv_vdecls) = true. Proof. yes. Qed.
Lemma in_distinct : distinct (map v_name (in_vdecls tl nb ns nc)) = true. Proof. yes. Qed.
Lemma pick_incl l xs : incl (pick l xs) l.
Proof.
  intros d H. unfold pick in H. apply in_flat_map in H as (x & _ & H). destruct (decl_of l x) eqn:E; [|destruct H]. destruct H as [<-|[]].
  apply decl_of_In in E as [E _]. exact E.
Qed.
Lemma in_incl : incl (in_vdecls tl nb ns nc) ds.
Proof. rewrite <- in_dummies. intros d H. unfold dummies in H. apply filter_In in H as [H _]. exact (pick_incl _ _ d H). Qed.

(* the constants *)
Lemma start_values m : typed ds m -> exists m', ofold with_value ds m = Some m' /\ typed ds m' /\
  real_is m' "pi" (VS Pi) /\ int_is m' "num_species" (Z.of_nat ns) /\ int_is m' "num_species_condensed" (Z.of_nat nc).
Proof.
  intros T. set (front := firstn 59 ds).
  assert (E : ds = front ++ [VDecl (s_ "pi") false None [] (Some (31415927 # 10000000)); VDecl (s_ "num_species") true None [] (Some (Q_ ns)); VDecl (s_ "num_species_condensed") true None [] (Some (Q_ nc))]) by yes.
  assert (Hf : Forall (fun d => v_value d = None) front) by (unfold front, part_vdecls; cbn [declare map app firstn]; repeat constructor).
  set (m1 := Store (st_int m) (put (s_ "pi") (VS (Q2R (31415927 # 10000000))) (st_val m))).
  set (m2 := Store (put (s_ "num_species") (Z.of_nat ns) (st_int m1)) (st_val m1)).
  set (m3 := Store (put (s_ "num_species_condensed") (Z.of_nat nc) (st_int m2)) (st_val m2)).
  exists m3. split; [|split].
  - rewrite E at 1. rewrite ofold_app, with_value_none by exact Hf. cbn [obind ofold]. unfold with_value. cbn [v_value v_int v_name]. rewrite !index_Q. reflexivity.
  - apply (typed_seti ds m2 m3 (s_ "num_species_condensed") (Z.of_nat nc) (VDecl (s_ "num_species_condensed") true None [] (Some (Q_ nc)))); [|split; reflexivity | yes | reflexivity].
    apply (typed_seti ds m1 m2 (s_ "num_species") (Z.of_nat ns) (VDecl (s_ "num_species") true None [] (Some (Q_ ns)))); [|split; reflexivity | yes | reflexivity].
    apply (typed_set ds ds_distinct m m1 (s_ "pi") (VS (Q2R (31415927 # 10000000))) (VDecl (s_ "pi") false None [] (Some (31415927 # 10000000)))); [exact T | split; reflexivity | yes | reflexivity | exact I].
  - unfold real_is, int_is, m3, m2, m1. cbn [st_int st_val]. split; [rewrite look_same, Pi_value; reflexivity|]. split; [rewrite look_other by yes|]; apply look_same.
Qed.
(* the arguments *)
Lemma start_args m : typed ds m -> real_is m "pi" (VS Pi) -> int_is m "num_species" (Z.of_nat ns) -> int_is m "num_species_condensed" (Z.of_nat nc) ->
  exists m', bind_args (dummies "in" p) (actuals inp u) m = Some m' /\ typed ds m' /\ base ns nc nb inp m'.
Proof.
  intros T Hpi Hns Hnc. rewrite in_dummies.
  pose proof (wk_len_y _ _ _ _ ph) as Ly. pose proof (lens_nb ns nc nb inp ph) as Lb. pose proof (lens_nc ns nc nb inp ph) as Lc.
  assert (F : Forall2 fits_actual (in_vdecls tl nb ns nc) (actuals inp u)).
  { unfold in_vdecls, actuals. cbn [declare map app option_map].
    repeat (apply Forall2_cons; [unfold fits_actual; cbn [v_int v_dims]; first [exact I | assumption | apply Lb; cbn; tauto | apply Lc; cbn; tauto]|]). apply Forall2_nil. }
  destruct (bind_all (in_vdecls tl nb ns nc) (actuals inp u) m in_distinct F) as (m' & E & Ei & Fr & H). exists m'. split; [exact E|].
  split; [exact (typed_bind ds m ds_distinct _ _ _ in_incl T E)|].
  pose proof (fun k d a (K : nth_error (combine (in_vdecls tl nb ns nc) (actuals inp u)) k = Some (d, a)) => H d a (nth_error_In _ k K)) as G.
  constructor; unfold real_is, int_is; try (rewrite Ei; assumption); try (rewrite Fr by yes; assumption);
    try (match goal with |- look _ _ = Some (VV (array ?n (at_ ?l))) => rewrite <- (as_array l n) by (first [apply Lb; cbn; tauto | apply Lc; cbn; tauto]) end).
  - exact (G 0 _ _ eq_refl).
  - exact (G 1 _ _ eq_refl).
  - exact (G 3 _ _ eq_refl).
  - exact (G 5 _ _ eq_refl).
  - exact (G 12 _ _ eq_refl).
  - exact (G 4 _ _ eq_refl).
  - exact (G 9 _ _ eq_refl).
  - exact (G 10 _ _ eq_refl).
  - exact (G 13 _ _ eq_refl).
  - exact (G 11 _ _ eq_refl).
  - exact (G 7 _ _ eq_refl).
  - exact (G 8 _ _ eq_refl).
  - exact (G 2 _ _ eq_refl).
  - exact (G 17 _ _ eq_refl).
  - exact (G 18 _ _ eq_refl).
  - exact (G 21 _ _ eq_refl).
  - exact (G 22 _ _ eq_refl).
Qed.
(* the clears *)
Lemma typed_shapes m : typed ds m -> shapes nc m.
Proof.
  intros T. constructor; apply Forall_forall; intros x I; cbn in I;
    repeat match goal with H : _ \/ _ |- _ => destruct H | H : False |- _ => destruct H end; subst x;
    first [apply (name_vec ds m T); yes | apply (name_scalar ds m T); yes | apply (name_int ds m T); yes].
Qed.
Lemma typed_clear m m' x n : typed ds m -> set_to m m' (s_ x) (VV (array n (fun _ => num 0))) ->
  option_map (fun d => (v_int d, v_dims d)) (decl_of ds (s_ x)) = Some (false, [n]) -> typed ds m'.
Proof.
  intros T C H. destruct (decl_of ds (s_ x)) as [d|] eqn:E; [|discriminate]. injection H as H1 H2.
  apply (typed_set ds ds_distinct m m' (s_ x) _ d T C E H1). rewrite H2. apply array_len.
Qed.
Ltac clear_one x n T B := let l := fresh "l" in let K := fresh "K" in let L := fresh "L" in let m' := fresh "m" in let C := fresh "C" in let T' := fresh "T" in let B' := fresh "B" in
  destruct (name_vec ds _ T x n ltac:(yes)) as (l & K & L); eapply run_clear; [exact K|]; intros m' C; rewrite (clear_array 0 l n L) in C;
  pose proof (typed_clear _ _ _ _ T C ltac:(yes)) as T';
  pose proof (base_frame _ _ _ _ _ _ (frame_set _ _ _ _ base_names base_ints C ltac:(yes)) B) as B';
  clear K L T B l;
  repeat match goal with H : real_is _ _ _ |- _ => eapply (carry_other _ _ _ _ _ _ C) in H; [|yes] end; apply carry_real in C; rename T' into T; rename B' into B.
Definition clean (m : store) : Prop := typed ds m /\ base ns nc nb inp m /\ rel ns nc nb cleared m.
Lemma run_pre m : typed ds m -> base ns nc nb inp m -> ends clean part_pre m.
Proof.
  intros T B. unfold part_pre.
  clear_one "total_soa_mass_array"%string nb T B.
  destruct (name_matrix ds _ T "dy_dt_gas_matrix" ns nb ltac:(yes)) as (rows & K & L1 & L2). eapply run_clear2; [exact K|]. intros m1 C1.
  rewrite (clear_rows 0 rows ns nb L1 L2) in C1.
  assert (T1 : typed ds m1).
  { destruct (decl_of ds (s_ "dy_dt_gas_matrix")) as [d|] eqn:E; [|vm_compute in E; discriminate].
    assert (Hd : option_map (fun d => (v_int d, v_dims d)) (decl_of ds (s_ "dy_dt_gas_matrix")) = Some (false, [ns; nb])) by yes. rewrite E in Hd. injection Hd as H1 H2.
    apply (typed_set ds ds_distinct _ _ _ _ d T C1 E H1). rewrite H2. cbn [fits_dims]. rewrite map_length, seq_length. split; [reflexivity|].
    apply Forall_forall. intros r H. apply in_map_iff in H as (k & <- & _). apply array_len. }
  pose proof (base_frame _ _ _ _ _ _ (frame_set _ _ _ _ base_names base_ints C1 ltac:(yes)) B) as B1. clear K T B L1 L2 rows. rename T1 into T. rename B1 into B.
  repeat match goal with H : real_is _ _ _ |- _ => eapply (carry_other _ _ _ _ _ _ C1) in H; [|yes] end. apply carry_real in C1.
  clear_one "pressure_eq"%string nc T B. clear_one "cstar_i_m_t"%string nc T B. clear_one "kelvin_factor"%string nc T B. clear_one "y_mole_fractions"%string nc T B.
  clear_one "temp_array"%string nc T B. clear_one "mass_array"%string (nc + 1) T B. clear_one "density_array"%string (nc + 1) T B. clear_one "mass_fractions_array"%string (nc + 1) T B.
  clear_one "aw_array"%string nb T B. clear_one "size_array"%string nb T B. clear_one "dy_dt"%string (ns + nc * nb) T B.
  apply ends_nil. split; [exact T|]. split; [exact B|]. constructor; assumption.
Qed.

(* the loop *)
Context (Fi : Forall (fun g => g < ns) include) (Li : List.length include <= nc).
Lemma loop_ok : forall bins mm m, Forall (fun b => b < nb) bins -> base ns nc nb inp m -> shapes nc m -> rel ns nc nb mm m -> exists ls mm' m',
  omap (bin_steps ns nc include inp) bins = Some ls /\ run_steps ns nc nb (concat ls) mm = Some mm' /\
  ofold (iteration p) bins m = Some m' /\ base ns nc nb inp m' /\ shapes nc m' /\ rel ns nc nb mm' m'.
Proof.
  induction bins as [|b bins IH]; intros mm m F Ba Sh Re.
  - exists [], mm, m. split; [reflexivity|]. split; [reflexivity|]. split; [reflexivity|]. auto.
  - pose proof (Forall_inv F) as Hb. pose proof (Forall_inv_tail F) as F'.
    destruct (iteration_ok ns nc nb inp ph b Hb tl include Fi Li mm m Ba Sh Re) as (st & mm1 & m1 & E1 & E2 & E3 & Ba1 & Sh1 & Re1).
    destruct (IH mm1 m1 F' Ba1 Sh1 Re1) as (ls & mm2 & m2 & G1 & G2 & G3 & G4 & G5 & G6).
    exists (st :: ls), mm2, m2. cbn [omap ofold concat]. rewrite E1, E3. cbn [obind]. rewrite G1. cbn [obind]. split; [reflexivity|].
    split; [|auto]. rewrite run_steps_app, E2. exact G2.
Qed.

(* after the loop *)
Lemma run_post mm m soa0 : base ns nc nb inp m -> rel ns nc nb mm m -> real_is m "total_soa_mass" (VS soa0) ->
  ends (fun m' => forall soa aw size dy, outputs ns nc nb mm = (soa, aw, size, dy) ->
    real_is m' "total_soa_mass" (VS soa) /\ real_is m' "aw_array" (VV aw) /\ real_is m' "size_array" (VV size) /\ real_is m' "dy_dt" (VV dy)) part_post m.
Proof.
  intros Ba Re Hs. pose proof (b_ns _ _ _ _ _ Ba) as Ens. destruct Re as [R1 R2 R3 R4 R5]. clear Ba. unfold part_post.
  eapply (run_range _ _ _ _ _ _ (array ns (fun x => (m_dy mm x - rsum (array nb (m_gas mm x)))%R)) _ _ 0 ns).
  - eapply ev_sub.
    + eapply ev_to; [eapply ev_range; [lk | li | li | apply (range_ok _ _ _ 0 ns); rewrite ?array_len; lia]|]. cbn [skipn].
      apply f_equal, (firstn_array ns (nc * nb)).
    + cbn [feval]. rewrite (R4 : look _ _ = _). cbn [obind]. rewrite map_map. reflexivity.
    + apply (lift_vv Rminus ns (m_dy mm) (fun i => rsum (array nb (m_gas mm i)))).
  - lk.
  - li.
  - li.
  - rewrite array_len. apply (range_ok _ _ _ 0 ns); lia.
  - rewrite array_len. reflexivity.
  - intros m1 C1. rewrite (slice_array 1 0 (le_n 1)) in C1 by (rewrite ?array_len; lia).
    eapply (carry_other _ _ _ _ _ _ C1) in R1; [|yes]. eapply (carry_other _ _ _ _ _ _ C1) in R2; [|yes]. eapply (carry_other _ _ _ _ _ _ C1) in R3; [|yes].
    eapply (carry_other _ _ _ _ _ _ C1) in Hs; [|yes]. apply carry_real in C1.
    eapply run_scalar; [ev | exact Hs |]. intros m2 C2. apply ends_nil. intros soa aw size dy E. unfold outputs in E.
    eapply (carry_other _ _ _ _ _ _ C2) in R2; [|yes]. eapply (carry_other _ _ _ _ _ _ C2) in R3; [|yes]. eapply (carry_other _ _ _ _ _ _ C2) in C1; [|yes]. apply carry_real in C2.
    injection E as <- <- <- <-. split; [|split; [exact R2 | split; [exact R3|]]].
    + exact C2.
    + replace (array tl (fun x => if x <? ns then (m_dy mm x - rsum (array nb (m_gas mm x)))%R else m_dy mm x)) with
        (array tl (fun x => if (0 <=? x) && (x <? 0 + ns) then nth (x - 0) (array ns (fun x => (m_dy mm x - rsum (array nb (m_gas mm x)))%R)) 0%R else m_dy mm x)); [exact C1|].
      apply array_same. intros j Hj. cbn [Nat.leb andb Nat.add]. destruct (Nat.ltb_spec j ns) as [H|H]; [|reflexivity].
      rewrite Nat.sub_0_r. apply nth_error_nth, array_at, H.
Qed.

Lemma frame_of m m' xs is l : (forall x, inb x l = false -> look x (st_val m') = look x (st_val m) /\ look x (st_int m') = look x (st_int m)) ->
  forallb (fun z => negb (inb (s_ z) l)) xs = true -> forallb (fun z => negb (inb (s_ z) l)) is = true -> frame m m' xs is.
Proof.
  intros F A B. split; intros x I; apply F; apply negb_true_iff; [exact (proj1 (forallb_forall _ _) A x I) | exact (proj1 (forallb_forall _ _) B x I)].
Qed.
Theorem call_partition bins g g' : Forall (fun b => b < nb) bins -> exists soa aw size dy,
  dydt_partition ns nc nb include inp bins = Some (soa, aw, size, dy) /\
  call_fsub p bins g g' (actuals inp u) = Some [VS soa; VV aw; VV size; VV dy].
Proof.
  intros Hb. unfold call_fsub. cbn [fs_decls fs_pre fs_post partition_sub].
  destruct (typed_undefined ds ds_distinct g (Store [] []) ds_placed) as (m1 & E1 & T1). rewrite E1. cbn [obind]. clear E1.
  destruct (start_values m1 T1) as (m2 & E2 & T2 & P2 & N2 & C2). rewrite E2. cbn [obind]. clear E2 T1 m1.
  destruct (start_args m2 T2 P2 N2 C2) as (m3 & E3 & T3 & B3). rewrite E3. cbn [obind]. clear E3 T2 P2 N2 C2 m2.
  destruct (run_pre m3 T3 B3) as (m4 & E4 & T4 & B4 & R4). rewrite E4. cbn [obind]. clear E4 T3 B3 m3.
  unfold enter. cbn [fs_decls partition_sub]. fold priv_vdecls.
  destruct (typed_private ds ds_distinct g' priv_vdecls m4 T4 priv_placed priv_distinct (pick_incl _ _)) as (m5 & E5 & T5 & F5). rewrite E5. cbn [obind]. clear E5.
  assert (B5 : base ns nc nb inp m5) by (apply (base_frame _ _ _ _ m4); [eapply frame_of; [exact F5 | yes | yes] | exact B4]).
  assert (R5 : rel ns nc nb cleared m5) by (apply (rel_frame _ _ _ _ m4 _ []); [eapply frame_of; [exact F5 | yes | yes] | exact R4]).
  destruct (loop_ok bins cleared m5 Hb B5 (typed_shapes _ T5) R5) as (ls & mm & m6 & L1 & L2 & L3 & B6 & S6 & R6). rewrite L3. cbn [obind]. clear L3 F5 T5 B5 R5.
  unfold leave. cbn [fs_decls partition_sub]. fold priv_vdecls.
  destruct (restore_all ds m4 T4 priv_vdecls m6 (pick_incl _ _)) as (m7 & E7 & F7). rewrite E7. cbn [obind]. clear E7.
  assert (B7 : base ns nc nb inp m7) by (apply (base_frame _ _ _ _ m6); [eapply frame_of; [exact F7 | yes | yes] | exact B6]).
  assert (R7 : rel ns nc nb mm m7) by (apply (rel_frame _ _ _ _ m6 _ []); [eapply frame_of; [exact F7 | yes | yes] | exact R6]).
  destruct (proj1 (Forall_forall _ _) (sh_scalar _ _ S6) "total_soa_mass"%string ltac:(cbn; tauto)) as (soa0 & Hs).
  assert (Hs7 : real_is m7 "total_soa_mass" (VS soa0)) by (eapply frame_real; [apply (frame_of m6 m7 ["total_soa_mass"%string] [] _ F7); yes | left; reflexivity | exact Hs]).
  destruct (run_post mm m7 soa0 B7 R7 Hs7) as (m8 & E8 & O8). rewrite E8. cbn [obind].
  destruct (outputs ns nc nb mm) as [[[soa aw] size] dy] eqn:Eo. destruct (O8 soa aw size dy eq_refl) as (O1 & O2 & O3 & O4).
  exists soa, aw, size, dy. split.
  - unfold dydt_partition. rewrite (dims ns nc nb inp ph). unfold serial. rewrite L1. cbn [option_map obind]. rewrite L2. cbn [obind]. rewrite Eo. reflexivity.
  - assert (Tm : forall l, traverse (fun d => look (v_name d) (st_val m8)) l = traverse (fun x => look x (st_val m8)) (map v_name l)).
    { induction l as [|d l IH]; [reflexivity|]. cbn [traverse map]. rewrite IH. reflexivity. }
    rewrite Tm, out_dummies. cbn [map traverse]. rewrite (O1 : look _ _ = _), (O2 : look _ _ = _), (O3 : look _ _ = _), (O4 : look _ _ = _). reflexivity.
Qed.
End Call.
