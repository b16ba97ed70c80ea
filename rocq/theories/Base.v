(* Shared definitions: Python-style results and list helpers. *)
From Coq Require Import List Bool Arith Lia Ascii String.
Import ListNotations.

(* A Python computation either returns a value or raises an exception. *)
Inductive exn :=
| IndexError | ValueError | KeyError | UnboundLocalError
| FileNotFoundError | SyntaxError | TypeError
| ZeroDivisionError | OverflowError | NameError | AttributeError
| IsADirectoryError | ImportError | EOFError.

Inductive res (A : Type) := Ok (a : A) | Err (e : exn).
Arguments Ok {A} _.
Arguments Err {A} _.

Definition bind {A B} (m : res A) (f : A -> res B) : res B :=
  match m with Ok a => f a | Err e => Err e end.

Definition is_ok {A} (m : res A) : bool :=
  match m with Ok _ => true | Err _ => false end.

Declare Scope py_scope.
Delimit Scope py_scope with py.
Notation "'do' x <- m ; k" := (bind m (fun x => k))
  (at level 200, x name, m at level 100, k at level 200) : py_scope.
Notation "'do' ' p <- m ; k" := (bind m (fun p => k))
  (at level 200, p strict pattern, m at level 100, k at level 200) : py_scope.
Open Scope py_scope.

(* Python list indexing l[i] for i >= 0. *)
Definition py_nth {A} (l : list A) (i : nat) : res A :=
  match nth_error l i with Some a => Ok a | None => Err IndexError end.

(* Python l[-1]. *)
Definition py_last {A} (l : list A) : res A :=
  match rev l with a :: _ => Ok a | [] => Err IndexError end.

(* [for x in l: st = f(st, x)] where the body may raise. *)
Fixpoint foldM {A S} (f : S -> A -> res S) (l : list A) (s : S) : res S :=
  match l with
  | [] => Ok s
  | a :: l' => do s' <- f s a; foldM f l' s'
  end.

Fixpoint mapM {A B} (f : A -> res B) (l : list A) : res (list B) :=
  match l with
  | [] => Ok []
  | a :: l' => do b <- f a; do bs <- mapM f l'; Ok (b :: bs)
  end.

Lemma bind_Ok A B (m : res A) (f : A -> res B) b :
  bind m f = Ok b -> exists a, m = Ok a /\ f a = Ok b.
Proof. destruct m; simpl; [eauto | discriminate]. Qed.

Lemma mapM_Ok_Forall2 A B (f : A -> res B) l bs :
  mapM f l = Ok bs <-> Forall2 (fun a b => f a = Ok b) l bs.
Proof.
  revert bs; induction l as [|a l IH]; intros bs; simpl.
  - split; intros H; [injection H as <-; constructor | inversion H; reflexivity].
  - split; intros H.
    + apply bind_Ok in H as (b & Hb & H). apply bind_Ok in H as (bs' & Hbs & H).
      injection H as <-. constructor; [exact Hb | apply IH, Hbs].
    + inversion H as [|? b ? bs' Hb Hbs]; subst. rewrite Hb; simpl.
      apply IH in Hbs. rewrite Hbs. reflexivity.
Qed.

Lemma Forall2_impl A B (P Q : A -> B -> Prop) l1 l2 :
  (forall a b, P a b -> Q a b) -> Forall2 P l1 l2 -> Forall2 Q l1 l2.
Proof. intros H; induction 1; constructor; auto. Qed.

Lemma foldM_app A S (f : S -> A -> res S) l1 l2 s :
  foldM f (l1 ++ l2) s = bind (foldM f l1 s) (foldM f l2).
Proof.
  revert s; induction l1 as [|a l1 IH]; intros s; simpl; [reflexivity|].
  destruct (f s a); simpl; [apply IH | reflexivity].
Qed.

Lemma foldM_total A S (f : S -> A -> res S) (g : S -> A -> S) l s :
  (forall s a, In a l -> f s a = Ok (g s a)) ->
  foldM f l s = Ok (fold_left g l s).
Proof.
  revert s; induction l as [|a l IH]; intros s H; simpl; [reflexivity|].
  rewrite H by (left; reflexivity). simpl. apply IH. intros; apply H; right; assumption.
Qed.

(* Boolean equality classes for dictionary keys. *)
Class EqB (A : Type) := {
  eqb : A -> A -> bool;
  eqb_eq : forall a b, eqb a b = true <-> a = b
}.

#[global] Instance EqB_nat : EqB nat := {| eqb := Nat.eqb; eqb_eq := Nat.eqb_eq |}.

#[global] Instance EqB_natpair : EqB (nat * nat).
Proof.
  exists (fun a b => (fst a =? fst b) && (snd a =? snd b)).
  intros [a1 a2] [b1 b2]; cbn [fst snd]. rewrite andb_true_iff, !Nat.eqb_eq. split.
  - intros [-> ->]; reflexivity.
  - intros H; injection H as -> ->; auto.
Defined.

Lemma eqb_refl {A} `{EqB A} a : eqb a a = true.
Proof. apply eqb_eq; reflexivity. Qed.

Lemma eqb_neq {A} `{EqB A} a b : eqb a b = false <-> a <> b.
Proof.
  split; intros H1.
  - intros ->. rewrite eqb_refl in H1; discriminate.
  - destruct (eqb a b) eqn:E; [apply eqb_eq in E; contradiction | reflexivity].
Qed.

Lemma eqb_dec {A} `{EqB A} (a b : A) : {a = b} + {a <> b}.
Proof.
  destruct (eqb a b) eqn:E; [left; apply eqb_eq, E | right; apply eqb_neq, E].
Defined.

Definition inb {A} `{EqB A} (a : A) (l : list A) : bool := existsb (eqb a) l.

Lemma inb_In {A} `{EqB A} (a : A) l : inb a l = true <-> In a l.
Proof.
  unfold inb; rewrite existsb_exists; split.
  - intros (x & Hin & Hx). apply eqb_eq in Hx; subst; assumption.
  - intros Hin; exists a; split; [assumption | apply eqb_refl].
Qed.

Lemma inb_nIn {A} `{EqB A} (a : A) l : inb a l = false <-> ~ In a l.
Proof.
  rewrite <- inb_In; destruct (inb a l); split; intros; try congruence.
Qed.
