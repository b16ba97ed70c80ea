(* Model of the Jacobian function the gas-phase drivers give to the solver. *)
From Coq Require Import List Bool Arith ZArith QArith Reals.
From Verif Require Import Base PyStr PyDict ModelParse ModelLang ModelGen ModelRhs ModelExpr ModelRate ModelRateFile
  ModelRateBody ModelRateRun RateSym ModelRo2 ModelGas.
Import ListNotations.
Open Scope nat_scope.
Open Scope list_scope.

(* ODE_solver.py:143-173 (jac) with the modules generated for the parsed
   mechanism [st] of [n] equations; [ord] is the order in which the generator
   went through its sets.  start_time+t is taken in the reals, as in
   gas_dydt_numba. *)
Definition gas_jac_numba (ord : set_order) (st : pstate) (n : nat) (start_time t H2O temp : R) (y : list R) : option (nat * nat -> R) :=
  match RO2_sum (write_RO2_indices (p_sp2a st)) y, gen_jacobian_numba ord (p_sp2a st) (p_reac st) (p_loss st) (p_gain st) with
  | Ok RO2, Ok pj =>
      obind (numba_run (start_time + t) RO2 H2O temp) (fun en =>
      obind (returned n (run (cell 0 n) (text_value numba_lang en)
                             (gen_rates_python (convert_dict convert_numba (p_rate st))) zeros)) (fun rates =>
      jacobian_numba pj (List.length y) y rates))
  | _, _ => None
  end.

(* f2py/ODE_solver.py:100-129 (jacobian): [pr] and [pj] are the statements
   executed by evaluate_rates and jacobian, [a0] what the array rate_values
   held before.  jacobian clears dy_dy itself. *)
Definition gas_jac_fortran (rnd : Q -> Q) (pr : list (gitem nat str)) (pj : list (item (nat * nat))) (n : nat)
    (a0 : nat -> R) (RO2 : res R) (start_time t H2O temp : R) (y : list R) : option (nat * nat -> R) :=
  match RO2 with
  | Ok RO2 =>
      obind (fortran_run (start_time + t) RO2 H2O temp) (fun en =>
      obind (returned n (run (cell 1 n) (text_value fortran_lang en) pr a0)) (fun rates =>
      jacobian_fortran rnd pj (List.length y) y rates))
  | Err _ => None
  end.

(* One call of the functions of the f2py driver: the statements the generated
   subroutines execute (OpenMP leaves their order open) and what their output
   arrays held before. *)
Record fortran_call := FCall {
  f_rates : list (gitem nat str); f_reactants : list (item nat); f_loss_gain : list (item nat); f_jacobian : list (item (nat * nat));
  f_a0 : nat -> R; f_m0 : nat -> R }.
(* A call that executes the modules generated for the parsed mechanism [st] of
   [n] equations with the OpenMP options o1, ..., o4. *)
Definition is_fortran_call (ord : set_order) (st : pstate) (n : nat) (o1 o2 o3 o4 : option (list nat)) (c : fortran_call) : Prop :=
  (exists p1, gen_reactants_fortran o1 n (p_sp2a st) (p_reac st) (p_loss st) = Ok p1 /\ runs_as o1 p1 (f_reactants c)) /\
  runs_as o2 (gen_loss_gain_fortran o2 (p_sp2a st) (p_loss st) (p_gain st)) (f_loss_gain c) /\
  runs_as o3 (gen_rates_fortran o3 (convert_dict convert_fortran (p_rate st))) (f_rates c) /\
  (exists pj, gen_jacobian_fortran ord o4 (p_sp2a st) (p_reac st) (p_loss st) (p_gain st) = Ok pj /\ runs_as o4 pj (f_jacobian c)).

(* f2py/ODE_solver.py:59-96 and 100-129 at the state y. *)
Definition f2py_dydt (st : pstate) (n : nat) (rnd : Q -> Q) (start_time t H2O temp : R) (c : fortran_call) (y : list R) : option (list R) :=
  gas_dydt_fortran rnd (f_rates c) (f_reactants c) (f_loss_gain c) n (f_a0 c) (f_m0 c) (RO2_sum (write_RO2_indices (p_sp2a st)) y) start_time t H2O temp y.
Definition f2py_jac (st : pstate) (n : nat) (rnd : Q -> Q) (start_time t H2O temp : R) (c : fortran_call) (y : list R) : option (nat * nat -> R) :=
  gas_jac_fortran rnd (f_rates c) (f_jacobian c) n (f_a0 c) (RO2_sum (write_RO2_indices (p_sp2a st)) y) start_time t H2O temp y.
