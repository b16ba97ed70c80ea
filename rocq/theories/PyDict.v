(* Insertion-ordered dictionaries (Python dict / collections.defaultdict). *)
From Coq Require Import List Bool Arith Lia.
From Verif Require Import Base.
Import ListNotations.

Definition dict (K V : Type) := list (K * V).

Section Dict.
Context {K V : Type} `{EqB K}.

Fixpoint dget (k : K) (d : dict K V) : option V :=
  match d with
  | [] => None
  | (k', v) :: d' => if eqb k k' then Some v else dget k d'
  end.

(* d[k] = v : keeps the position of an existing key, else appends. *)
Fixpoint dset (k : K) (v : V) (d : dict K V) : dict K V :=
  match d with
  | [] => [(k, v)]
  | (k', v') :: d' => if eqb k k' then (k', v) :: d' else (k', v') :: dset k v d'
  end.

Definition dmem (k : K) (d : dict K V) : bool :=
  match dget k d with Some _ => true | None => false end.

Definition dkeys (d : dict K V) : list K := map fst d.
Definition dvals (d : dict K V) : list V := map snd d.

(* Reading a missing key of a defaultdict inserts the default. *)
Definition dtouch (v0 : V) (k : K) (d : dict K V) : dict K V :=
  if dmem k d then d else dset k v0 d.

Definition dget_or (v0 : V) (k : K) (d : dict K V) : V :=
  match dget k d with Some v => v | None => v0 end.

Lemma dget_dset_same k v d : dget k (dset k v d) = Some v.
Proof.
  induction d as [|[k' v'] d IH]; simpl.
  - rewrite eqb_refl; reflexivity.
  - destruct (eqb k k') eqn:E; simpl; rewrite E; [reflexivity | exact IH].
Qed.

Lemma dget_dset_other k k' v d : k <> k' -> dget k (dset k' v d) = dget k d.
Proof.
  intros Hne; induction d as [|[k2 v2] d IH]; simpl.
  - apply eqb_neq in Hne; rewrite Hne; reflexivity.
  - destruct (eqb k' k2) eqn:E; simpl.
    + apply eqb_eq in E; subst. apply eqb_neq in Hne; rewrite Hne; reflexivity.
    + destruct (eqb k k2); [reflexivity | exact IH].
Qed.

Lemma dget_dset k k' v d :
  dget k (dset k' v d) = if eqb k k' then Some v else dget k d.
Proof.
  destruct (eqb k k') eqn:E.
  - apply eqb_eq in E; subst; apply dget_dset_same.
  - apply dget_dset_other, eqb_neq, E.
Qed.

Lemma dget_None k d : dget k d = None <-> ~ In k (dkeys d).
Proof.
  induction d as [|[k' v'] d IH]; simpl.
  - split; auto.
  - destruct (eqb k k') eqn:E.
    + apply eqb_eq in E; subst. split; [discriminate | intros Hn; exfalso; auto].
    + apply eqb_neq in E. rewrite IH. split; [intros Hn [|]; auto; congruence | auto].
Qed.

Lemma dget_Some_In k v d : dget k d = Some v -> In (k, v) d.
Proof.
  induction d as [|[k' v'] d IH]; simpl; [discriminate|].
  destruct (eqb k k') eqn:E; intros Hg.
  - apply eqb_eq in E; subst. injection Hg as ->. left; reflexivity.
  - right; apply IH, Hg.
Qed.

Lemma dget_In k v d : NoDup (dkeys d) -> In (k, v) d -> dget k d = Some v.
Proof.
  induction d as [|[k' v'] d IH]; simpl; [contradiction|].
  intros Hnd [Heq|Hin]; inversion Hnd as [|? ? Hni Hnd']; subst.
  - injection Heq as -> ->. rewrite eqb_refl; reflexivity.
  - destruct (eqb k k') eqn:E.
    + apply eqb_eq in E; subst. exfalso; apply Hni.
      apply in_map with (f := fst) in Hin; exact Hin.
    + apply IH; assumption.
Qed.

Lemma dmem_In k d : dmem k d = true <-> In k (dkeys d).
Proof.
  unfold dmem; destruct (dget k d) eqn:E; split; intros Hx; try discriminate; auto.
  - apply dget_Some_In in E. apply in_map with (f := fst) in E; exact E.
  - apply dget_None in E; contradiction.
Qed.

Lemma dkeys_dset k v d :
  dkeys (dset k v d) = if dmem k d then dkeys d else dkeys d ++ [k].
Proof.
  unfold dmem; induction d as [|[k' v'] d IH]; simpl; [reflexivity|].
  destruct (eqb k k') eqn:E; simpl; [reflexivity|].
  rewrite IH; destruct (dget k d); reflexivity.
Qed.

Lemma dset_fresh k v d : dmem k d = false -> dset k v d = d ++ [(k, v)].
Proof.
  unfold dmem; induction d as [|[k' v'] d IH]; simpl; [reflexivity|].
  destruct (eqb k k') eqn:E; [discriminate|]. intros Hd; rewrite IH by exact Hd; reflexivity.
Qed.

Lemma NoDup_dset k v d : NoDup (dkeys d) -> NoDup (dkeys (dset k v d)).
Proof.
  intros Hnd; rewrite dkeys_dset. destruct (dmem k d) eqn:E; [exact Hnd|].
  assert (Hni : ~ In k (dkeys d)) by (rewrite <- dmem_In, E; discriminate).
  clear E; induction (dkeys d) as [|x l IH]; simpl.
  - constructor; [auto | constructor].
  - inversion Hnd; subst; constructor.
    + rewrite in_app_iff; simpl; intros [|[|[]]]; subst; auto. apply Hni; left; reflexivity.
    + apply IH; auto. intros Hx; apply Hni; right; exact Hx.
Qed.

End Dict.

(* Nested access d[k1][k2] on dictionaries of dictionaries. *)
Section Nested.
Context {K1 K2 V : Type} `{EqB K1} `{EqB K2}.

Definition dget2 (k1 : K1) (k2 : K2) (d : dict K1 (dict K2 V)) : option V :=
  match dget k1 d with Some i => dget k2 i | None => None end.

(* d[k1][k2] = v on a defaultdict whose default is an empty dict. *)
Definition dset2 (k1 : K1) (k2 : K2) (v : V) (d : dict K1 (dict K2 V)) :=
  dset k1 (dset k2 v (dget_or ([] : dict K2 V) k1 d)) d.

Lemma dget2_dset2 a b k1 k2 v d :
  dget2 a b (dset2 k1 k2 v d) =
  if eqb a k1 && eqb b k2 then Some v else dget2 a b d.
Proof.
  unfold dget2, dset2, dget_or. rewrite dget_dset.
  destruct (eqb a k1) eqn:E1; simpl; [|reflexivity].
  apply eqb_eq in E1; subst. rewrite dget_dset.
  destruct (eqb b k2); [reflexivity|].
  destruct (dget k1 d); reflexivity.
Qed.

Lemma dget2_dtouch a b k d :
  dget2 a b (dtouch ([] : dict K2 V) k d) = dget2 a b d.
Proof.
  unfold dtouch, dmem; destruct (dget k d) eqn:E; [reflexivity|].
  unfold dget2; rewrite dget_dset.
  destruct (eqb a k) eqn:E1; [|reflexivity].
  apply eqb_eq in E1; subst; rewrite E; reflexivity.
Qed.

End Nested.
