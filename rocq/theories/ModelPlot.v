(* Model of stacked_bar (Aerosol/f2py/Fixed_yield/Plotting.py:39-93; the root
   Plotting.py has the same text but does not compile).  What is drawn is the
   result: for each time the bars (height and bottom in every bin) and the
   number in the title. *)
From Coq Require Import List Bool Arith Reals.
From Verif Require Import Base SpecKin ModelExpr ModelPart.
Import ListNotations.
Open Scope nat_scope.
Open Scope list_scope.

(* Plotting.py:64-65, the size bin [b] is size-1.  NumPy multiplies arrays of
   equal length; it would also stretch an array of length 1, which is left out. *)
Definition y_mass_array (num_species : nat) (y molw : list R) (NA : R) (b : nat) : res (list R) :=
  let part := firstn num_species (skipn (num_species + b * num_species) y) in
  if List.length part =? List.length molw then
    Ok (map (fun p => let m := (fst p / NA * snd p * 1000000000000)%R in if Rlt_dec m 0 then 0%R else m) (combine part molw))
  else Err ValueError.

(* 70: the column of y_abs_matrix must get num_species-1 numbers. *)
Definition abs_column (num_species : nat) (y molw : list R) (NA : R) (b : nat) : res (list R) :=
  do m <- y_mass_array num_species y molw NA b;
  let col := firstn (num_species - 1) m in
  if List.length col =? num_species - 1 then Ok col else Err ValueError.
(* 71: division by zero gives nan, None here. *)
Definition norm_column (col : list R) : list (option R) := map (fun v => rdiv v (rsum col)) col.

Definition oadd (a b : option R) : option R := obind a (fun x => obind b (fun y => Some (x + y)%R)).

(* 78-86: the loop over the components; [norms] are the columns of
   y_norm_matrix, [cum] is y_cummulative, one entry per bin. *)
Definition row (norms : list (list (option R))) (org : nat) : list (option R) := map (fun col => nth org col None) norms.
Fixpoint draw (norms : list (list (option R))) (cum : list (option R)) (org todo : nat) : list (list (option R * option R)) :=
  match todo with
  | 0 => []
  | S todo' =>
      let cum := if org =? 0 then cum else map (fun p => oadd (fst p) (snd p)) (combine cum (row norms (org - 1))) in
      combine (row norms org) cum :: draw norms cum (S org) todo'
  end.

(* One time step (49-88). *)
Definition bars_at (num_species num_bins : nat) (y molw : list R) (NA : R) : res (list (list (option R * option R)) * R) :=
  do cols <- mapM (abs_column num_species y molw NA) (seq 0 num_bins);
  Ok (draw (map norm_column cols) (repeat (Some 0%R) num_bins) 0 (num_species - 1), rsum (map rsum cols)).

(* 39-93 *)
Definition stacked_bar {T} (time : list T) (y_matrix : list (list R)) (num_species num_bins : nat) (molw : list R) (NA : R)
  : res (list (list (list (option R * option R)) * R)) :=
  mapM (fun k => do y <- py_nth y_matrix k; bars_at num_species num_bins y molw NA) (seq 0 (List.length time)).
