(* Model of ODE_solver.py (run_simulation) and f2py/ODE_solver.py, which has
   the same set-up and the same loop.  Times are IEEE binary64 numbers (Flocq),
   as in the code; concentrations are reals. *)
From Coq Require Import List Bool Arith String ZArith QArith Reals Qreals.
From Flocq Require Import Core BinarySingleNaN.
From Verif Require Import Base PyStr PyDict.
Import ListNotations.
Import Coq.Lists.List.
Open Scope nat_scope.
Open Scope list_scope.

Definition prec64 : Z := 53.
Definition emax64 : Z := 1024.
#[global] Instance prec64_gt : Prec_gt_0 prec64 := eq_refl.
#[global] Instance prec64_lt : Prec_lt_emax prec64 emax64 := eq_refl.
Definition b64 := binary_float prec64 emax64.

Definition fzero : b64 := B754_zero false.
Definition fadd (x y : b64) : b64 := Bplus mode_NE x y.
Definition fdiv (x y : b64) : b64 := Bdiv mode_NE x y.
(* x / y on Python floats: dividing by zero raises. *)
Definition py_div (x y : b64) : res b64 :=
  if Beqb y fzero then Err ZeroDivisionError else Ok (fdiv x y).
(* int(x) *)
Definition py_trunc (x : b64) : res Z :=
  match x with
  | B754_nan => Err ValueError
  | B754_infinity _ => Err OverflowError
  | _ => Ok (Btrunc x)
  end.

(* ODE_solver.py:205-214, f2py/ODE_solver.py:152-162: the starting vector.
   y0 = [0]*num_species; y0[species_dict2array[specie]] = conc*2.55e10. *)
Definition Cfactor : R := 25500000000%R.
Definition set_initial (sp2a : dict str nat) (y : list R) (sc : str * R) : res (list R) :=
  match dget (fst sc) sp2a with
  | None => Err KeyError
  | Some i => if i <? List.length y then Ok (set_nth i (snd sc * Cfactor)%R y) else Err IndexError
  end.
Definition initial_state (num_species : nat) (sp2a : dict str nat) (conc : dict str R) : res (list R) :=
  foldM (set_initial sp2a) conc (repeat 0%R num_species).

Section Run.
Context {S : Type}.

(* Explicit_Problem(dydt_func,y0,t0) with exp_mod.jac = jac. *)
Record problem := Problem {
  pb_rhs : b64 -> S -> res S;
  pb_jac : b64 -> S -> res (nat * nat -> R);
  pb_y0 : S;
  pb_t0 : b64 }.

(* exp_sim.simulate(tfinal): the solver is an arbitrary function from the
   problem and the final time to the last row of its output (or a failure);
   the solver options are fixed in the code and part of that function. *)
Definition solver := problem -> b64 -> res S.

Context (simulate : solver).
Context (rhs_at : b64 -> S -> res S).              (* right-hand side at a clock time *)
Context (jac_at : b64 -> S -> res (nat * nat -> R)).
Context (start_time : b64).

(* ODE_solver.py:83-99 / 145-170: dydt_func(t,y) and jac(t,y) add start_time. *)
Definition dydt_func (t : b64) (y : S) : res S := rhs_at (fadd start_time t) y.
Definition jac (t : b64) (y : S) : res (nat * nat -> R) := jac_at (fadd start_time t) y.

(* ODE_solver.py:245-292, f2py/ODE_solver.py:187-229: the while loop.  [rows] is
   the number of rows of y_matrix not written yet, [y] the variable y0, [out]
   the last row of y_output if there is one; t0 keeps the value 0.0.  Writing
   past the last row raises IndexError, so the loop ends.  Rows that were
   never written keep the value [zero_row]. *)
Fixpoint loop (simulation_time batch_step : b64) (zero_row : S) (rows : nat) (total_time : b64) (y : S) (out : option S)
  : res (list b64 * list S) :=
  if Bltb total_time simulation_time then
    do y0 <- (if Beqb total_time fzero then Ok y
              else match out with Some o => Ok o | None => Err UnboundLocalError end);
    do y1 <- simulate (Problem dydt_func jac y0 fzero) batch_step;
    let total_time := fadd total_time batch_step in
    match rows with
    | 0 => Err IndexError
    | Datatypes.S rows' =>
        do r <- loop simulation_time batch_step zero_row rows' total_time y0 (Some y1);
        Ok (total_time :: fst r, y1 :: snd r)
    end
  else Ok ([], repeat zero_row rows).

(* ODE_solver.py:236-241: number_steps=int(simulation_time/batch_step);
   numpy.zeros((number_steps,len(y0))) raises ValueError if negative. *)
Definition run_batches (simulation_time batch_step : b64) (zero_row y0 : S) : res (list b64 * list S) :=
  do q <- py_div simulation_time batch_step;
  do n <- py_trunc q;
  if (n <? 0)%Z then Err ValueError
  else loop simulation_time batch_step zero_row (Z.to_nat n) fzero y0 None.
End Run.
Arguments problem S : clear implicits.
Arguments solver S : clear implicits.

(* ODE_solver.py:192-292: run_simulation from the unpacking of input_dict to
   the return of t_array and y_matrix; num_species = len(species_dict). *)
Definition run_simulation (simulate : solver (list R)) rhs_at jac_at (start_time : b64)
    (species_dict : dict nat str) (sp2a : dict str nat) (conc : dict str R) (simulation_time batch_step : b64)
  : res (list b64 * list (list R)) :=
  do y0 <- initial_state (List.length species_dict) sp2a conc;
  run_batches simulate rhs_at jac_at start_time simulation_time batch_step (repeat 0%R (List.length y0)) y0.
