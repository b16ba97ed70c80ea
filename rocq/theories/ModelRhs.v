(* Calling the generated functions, and the right-hand side of the ODE that
   ODE_solver.py:70-142 and f2py/ODE_solver.py:56-91 assemble from them. *)
From Coq Require Import List Bool Arith Lia ZArith QArith Reals.
From Verif Require Import Base PyDict ModelLang.
Import ListNotations.
Open Scope nat_scope.
Open Scope list_scope.

(* Cells of an output array of length n as printed: Python counts from 0,
   Fortran from 1.  Anything else is out of bounds. *)
Definition cell0 (n : nat) (c : nat) : option nat := if c <? n then Some c else None.
Definition cell1 (n : nat) (c : nat) : option nat :=
  match c with 0 => None | S k => if k <? n then Some k else None end.
Definition cell (off n c : nat) : option nat := if off =? 0 then cell0 n c else cell1 n c.
Definition cell2 (off n : nat) (c : nat * nat) : option (nat * nat) :=
  match cell off n (fst c), cell off n (snd c) with
  | Some i, Some j => Some (i, j)
  | _, _ => None
  end.

(* The arrays a generated function can read. *)
Definition py_env (y r : list R) (a : arr) : list R := match a with AY => y | AR => r end.

Definition zeros {A} : A -> R := fun _ => 0%R.
Definition array (n : nat) (m : nat -> R) : list R := map m (seq 0 n).

Definition returned (n : nat) (o : option (nat -> R)) : option (list R) :=
  match o with Some m => Some (array n m) | None => None end.

(* reactants(y,equations,numpy.zeros((equations)))  (ODE_solver.py:101) *)
Definition reactants_numba (prog : list (item nat)) (n : nat) (y : list R) : option (list R) :=
  returned n (run (cell 0 n) (value python (py_env y [])) prog zeros).
(* dydt_eval(numpy.zeros((len(y))),r)  (ODE_solver.py:108) *)
Definition dydt_numba (prog : list (item nat)) (N : nat) (r : list R) : option (list R) :=
  returned N (run (cell 0 N) (value python (py_env [] r)) prog zeros).
(* reactants_fortran(y); the output array starts with contents m0
   (f2py/ODE_solver.py:81) *)
Definition reactants_fortran (rnd : Q -> Q) (prog : list (item nat)) (n : nat) (m0 : nat -> R) (y : list R)
  : option (list R) := returned n (run (cell 1 n) (value (fortran rnd) (py_env y [])) prog m0).
(* loss_gain_fortran(r); the subroutine clears its output first
   (f2py/ODE_solver.py:88, Parse_eqn_file.py:2576) *)
Definition loss_gain_fortran (rnd : Q -> Q) (prog : list (item nat)) (N : nat) (r : list R) : option (list R) :=
  returned N (run (cell 1 N) (value (fortran rnd) (py_env [] r)) prog zeros).

(* jacobian(r,y,numpy.zeros((N,N)))  (ODE_solver.py:168) and
   jacobian_fortran(r,y) (f2py/ODE_solver.py:120, dy_dy cleared at
   Parse_eqn_file.py:2717); the matrix as a function of row and column. *)
Definition jacobian_numba (prog : list (item (nat * nat))) (N : nat) (y r : list R) : option (nat * nat -> R) :=
  run (cell2 0 N) (value python (py_env y r)) prog zeros.
Definition jacobian_fortran (rnd : Q -> Q) (prog : list (item (nat * nat))) (N : nat) (y r : list R)
  : option (nat * nat -> R) := run (cell2 1 N) (value (fortran rnd) (py_env y r)) prog zeros.

(* numpy.multiply *)
Definition multiply (a b : list R) : list R := map (fun p => fst p * snd p)%R (combine a b).

(* dydt_func with the numba functions; ks is what evaluate_rates returned. *)
Definition rhs_numba (p1 p2 : list (item nat)) (n N : nat) (ks y : list R) : option (list R) :=
  match reactants_numba p1 n y with
  | Some c => dydt_numba p2 N (multiply c ks)
  | None => None
  end.
(* dydt_func with the Fortran subroutines. *)
Definition rhs_fortran (rnd : Q -> Q) (p1 p2 : list (item nat)) (n N : nat) (m0 : nat -> R) (ks y : list R)
  : option (list R) :=
  match reactants_fortran rnd p1 n m0 y with
  | Some c => loss_gain_fortran rnd p2 N (multiply c ks)
  | None => None
  end.
