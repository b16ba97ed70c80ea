(* OpenMP execution of the generated Fortran routines.

   The generators emit (Parse_eqn_file.py:1755-1767, 2326-2352, 2580-2643,
   2729-2937)
     !$OMP PARALLEL & SHARED(..)
     !$OMP SINGLE            block of assignments
     !$OMP END SINGLE NOWAIT
     ...
     !$OMP END PARALLEL
   Each SINGLE block is executed by exactly one thread of the team; because of
   NOWAIT the other threads do not wait, so blocks run concurrently.  An
   assignment evaluates an expression over arrays that the routine does not
   write and stores it in one array element.  Simplification: an assignment is
   one step (evaluation and store are not split). *)
From Coq Require Import List Bool Arith Lia Permutation Reals.
From Verif Require Import Base ModelLang.
Import ListNotations.
Open Scope list_scope.

Section Omp.
Context {C E : Type}.
Definition block := list (C * E).

(* Reads the region; cur is the block being read, if a SINGLE is open.  None:
   the directives do not nest properly. *)
Fixpoint omp_blocks (cur : option block) (p : list (gitem C E)) : option (list block) :=
  match p with
  | [] => None
  | OmpParallel :: _ => None
  | OmpSingle :: p' => match cur with None => omp_blocks (Some []) p' | Some _ => None end
  | Assign c e :: p' => match cur with Some b => omp_blocks (Some (b ++ [(c, e)])) p' | None => None end
  | OmpEndSingle :: p' =>
      match cur with
      | Some b => match omp_blocks None p' with Some bs => Some (b :: bs) | None => None end
      | None => None
      end
  | OmpEndParallel :: p' => match cur, p' with None, [] => Some [] | _, _ => None end
  end.

Definition omp_program (p : list (gitem C E)) : option (list block) :=
  match p with OmpParallel :: p' => omp_blocks None p' | _ => None end.

(* tr merges the sequences ls, keeping the order of each. *)
Inductive interleaves {A} : list (list A) -> list A -> Prop :=
| il_done ls : Forall (fun l => l = []) ls -> interleaves ls []
| il_step ls1 a l ls2 tr : interleaves (ls1 ++ l :: ls2) tr -> interleaves (ls1 ++ (a :: l) :: ls2) (a :: tr).

(* An execution: every block is given to one thread (any number of threads, in
   any order), and the threads' assignments are merged. *)
Definition execution (bs : list block) (tr : block) : Prop :=
  exists threads : list (list block),
    Permutation (concat threads) bs /\ interleaves (map (@concat _) threads) tr.

Definition as_items (tr : block) : list (gitem C E) := map (fun ce => Assign (fst ce) (snd ce)) tr.
End Omp.
Arguments block : clear implicits.

(* Same outcome: both fail, or both leave the same contents. *)
Definition same_result {D} (a b : option (D -> R)) : Prop :=
  match a, b with
  | Some f, Some g => forall d, f d = g d
  | None, None => True
  | _, _ => False
  end.
