(* Model of the loop in Aerosol/f2py/ODE_solver_opsplit.py (run_simulation,
   232-306), which solves the gas phase and the partitioning in turn.  The
   solver is an arbitrary function, as in ModelSolver; the two right-hand sides
   are parameters.  pdb.set_trace() (191) and the plot (308-318) are left out. *)
From Coq Require Import List Bool Arith ZArith Reals.
From Flocq Require Import Core BinarySingleNaN.
From Verif Require Import Base ModelSolver.
Import ListNotations.
Open Scope nat_scope.
Open Scope list_scope.

Section Split.
Context {S : Type}.
Context (simulate : solver S).
Context (gas_only aerosol_only : b64 -> S -> res S).   (* dydt_func_gas_only 39-74, dydt_func_aerosol_only 76-143 *)
Context (jac : b64 -> S -> res (nat * nat -> R)).      (* none is set (282); usejac is False (294) *)

(* 254-306.  [rows] counts the rows of y_matrix not yet written, [batch] and
   [gas_step] are the variables of these names; t0 stays 0.0. *)
Fixpoint split_loop (simulation_time gas_only_time partitioning_only_time : b64) (zero_row : S)
    (rows : nat) (total_time batch : b64) (gas_step : bool) (y : S) (out : option S) : res (list b64 * list S) :=
  if Bltb total_time simulation_time then
    do pb <- (if Beqb total_time fzero then Ok (Problem gas_only jac y fzero, true, batch)
              else match out with
                   | None => Err UnboundLocalError
                   | Some o => if gas_step then Ok (Problem aerosol_only jac o fzero, false, partitioning_only_time)
                               else Ok (Problem gas_only jac o fzero, true, gas_only_time)
                   end);
    let '(p, gas_step, batch) := pb in
    do y1 <- simulate p batch;
    let total_time := fadd total_time batch in
    match rows with
    | 0 => Err IndexError
    | Datatypes.S rows' =>
        do r <- split_loop simulation_time gas_only_time partitioning_only_time zero_row rows' total_time batch gas_step (pb_y0 p) (Some y1);
        Ok (total_time :: fst r, y1 :: snd r)
    end
  else Ok ([], repeat zero_row rows).

(* 232-306; the code has 3600.0, 100.0, 10.0 and 20.0 for the four times. *)
Definition run_split (simulation_time batch_step gas_only_time partitioning_only_time : b64) (zero_row y0 : S) : res (list b64 * list S) :=
  do q <- py_div simulation_time batch_step;
  do n <- py_trunc q;
  if (n <? 0)%Z then Err ValueError
  else split_loop simulation_time gas_only_time partitioning_only_time zero_row (Z.to_nat n) fzero batch_step false y0 None.
End Split.
