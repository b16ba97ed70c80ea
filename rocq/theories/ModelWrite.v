(* The source files that Parse_eqn_file.py writes for reactant products, dydt
   and the Jacobian, character by character.  The statements are the token
   sequences of ModelGen.v; here each token gets the spelling it has in the
   f.write calls.  [num] is what %s prints for a coefficient (Python's repr of
   a float), [date] what datetime.now() prints. *)
From Coq Require Import List Bool Arith Ascii String ZArith QArith.
From Verif Require Import Base PyStr PyDict ModelParse ModelLang ModelGen ParseShow.
Import ListNotations.
Import Coq.Lists.List.
Open Scope nat_scope.
Open Scope list_scope.

Definition unlines (ls : list str) : str := flat_map (fun l => l ++ [NL]) ls.

(* The comment block at the head of each file, without the comment character
   (2182-2203; 2287-2309; 2417-2438; 2525-2547; 2676-2698; 2965-2988, which has
   one more line "#"). *)
Definition licence : list string := [
"    Copyright (C) 2018  David Topping : david.topping@manchester.ac.uk                             # ";
"                                      : davetopp80@gmail.com                                       # ";
"    Personal website: davetoppingsci.com                                                           # ";
"                                                                                                   # ";
"    All Rights Reserved.                                                                           # ";
"    This file is part of PyBox.                                                                    # ";
"                                                                                                   # ";
"    PyBox is free software: you can redistribute it and/or modify it under                         # ";
"    the terms of the GNU General Public License as published by the Free Software                  # ";
"    Foundation, either version 3 of the License, or (at your option) any later                     # ";
"    version.                                                                                       # ";
"                                                                                                   # ";
"    PyBox is distributed in the hope that it will be useful, but WITHOUT                           # ";
"    ANY WARRANTY; without even the implied warranty of MERCHANTABILITY or FITNESS                  # ";
"    FOR A PARTICULAR PURPOSE.  See the GNU General Public License for more                         # ";
"    details.                                                                                       # ";
"                                                                                                   # ";
"    You should have received a copy of the GNU General Public License along with                   # ";
"    PyBox.  If not, see <http://www.gnu.org/licenses/>.                                            # ";
"                                                                                                   # "]%string.
Definition rule : string := "#################################################################################################### ".
Definition header (c : ascii) (rule : string) (titles : list string) (date : str) : list str :=
  map (fun l => c :: s_ l) ([rule] ++ titles ++ licence ++ [rule]) ++ [c :: s_ " File created at " ++ date ++ s_ " "].

Section Write.
Variable num : Q -> str.

(* y[%s], r[%s] in Python, y(%s), r(%s) in Fortran. *)
Definition bracketed (sq : bool) (s : str) : str := if sq then s_ "[" ++ s ++ s_ "]" else s_ "(" ++ s ++ s_ ")".
Definition tok_text (sq : bool) (t : tok) : str :=
  match t with
  | TNum q => num q
  | TRef a i => (match a with AY => s_ "y" | AR => s_ "r" end) ++ bracketed sq (dec i)
  | TStar => s_ "*" | TPow => s_ "**" | TPlus => s_ "+" | TMinus => s_ "-"
  | TCont => s_ " & " ++ NL :: s_ "    "
  end.
Definition expr_text (sq : bool) (l : list tok) : str := flat_map (tok_text sq) l.
(* '    out[%s]=' and what follows, up to the end of the line. *)
Definition cell_text1 (c : nat) : str := dec c.
Definition cell_text2 (c : nat * nat) : str := dec (fst c) ++ s_ "," ++ dec (snd c).
Definition assign_text {C} (ct : C -> str) (sq : bool) (out : str) (c : C) (l : list tok) : str :=
  s_ "    " ++ out ++ bracketed sq (ct c) ++ s_ "=" ++ expr_text sq l.

(* The text of the assignments of one pass of the loop. *)
Definition chunk_text {C} (ct : C -> str) (sq : bool) (out sep : str) (l : list (item C)) : str :=
  flat_map (fun i => match i with Assign c e => assign_text ct sq out c e ++ sep | _ => [] end) l.

(* The OpenMP directives (2326-2333, 2350-2352; 2580-2587, 2641-2643;
   2729-2735, 2935-2937). *)
Fixpoint omp_chunks_text {A} (share : str) (i : nat) (breaks : list nat) (text : A -> str) (ls : list A) : str :=
  match ls with
  | [] => []
  | l :: ls' =>
      (if i =? 0 then unlines [s_ "!$OMP PARALLEL &"; s_ "!$OMP& SHARED(" ++ share ++ s_ ")  "; s_ "!$OMP SINGLE "] else []) ++
      (if inb i breaks then unlines [s_ "!$OMP END SINGLE NOWAIT"; s_ "!$OMP SINGLE "] else []) ++ text l ++
      omp_chunks_text share (S i) breaks text ls'
  end.
Definition omp_text {A} (omp : option (list nat)) (share : str) (text : A -> str) (ls : list A) : str :=
  match omp with
  | None => flat_map text ls
  | Some breaks => omp_chunks_text share 0 breaks text ls ++ unlines [s_ "!$OMP END SINGLE NOWAIT"; s_ "!$OMP END PARALLEL "]
  end.

Variable date : str.

(* write_reactants_indices, Reactants_conc_numba.py (2178-2233). *)
Definition reactants_numba_head : list str := header "#" rule [] date ++
  [[]; s_ "import numpy as np"; s_ "import numba as nb";
   s_ "@nb.jit('float64[:](float64[:],int32,float64[:])', nopython=True, cache=True)";
   s_ "def reactants(y,equations,reactants_conc):";
   s_ "    # Calculate reactant and stochiometric contribution for each reaction";
   s_ "    # reactants_conc=numpy.zeros((len(equations)))"].
Definition write_reactants_numba (n : nat) sp2a rt loss : res str :=
  do ls <- mapM (react_line 0 sp2a loss rt) (seq 0 n);
  Ok (unlines reactants_numba_head ++
      flat_map (fun l => chunk_text cell_text1 true (s_ "reactants_conc") [] l ++ [NL]) ls ++
      unlines [s_ "    return reactants_conc "]).

(* write_reactants_indices_fortran, Reactants_conc.f90 (2284-2354). *)
Definition reactants_fortran_head (n nsp : nat) : list str :=
  header "!" ("#" ++ rule) [" Fortran function to hold indices for calculating reactant contributions to each equation          # "%string] date ++
  [[]; s_ "subroutine reactants(y,reactants_conc)"; s_ "    implicit none ";
   s_ "    ! Calculate reactant and stochiometric contribution for each reaction";
   s_ "    REAL(8), intent(in), dimension(" ++ dec nsp ++ s_ ") :: y "; s_ "    !f2py intent(in) :: y ";
   s_ "    REAL(8), intent(out), dimension(" ++ dec n ++ s_ ") :: reactants_conc "; s_ "    !f2py intent(out) :: reactants_conc "].
Definition write_reactants_fortran (omp : option (list nat)) (n : nat) (sp2a : dict str nat) rt loss : res str :=
  do ls <- mapM (react_line 1 sp2a loss rt) (seq 0 n);
  Ok (unlines (reactants_fortran_head n (List.length sp2a)) ++
      omp_text omp (s_ "y,reactants_conc") (fun l => chunk_text cell_text1 false (s_ "reactants_conc") [] l ++ [NL]) ls ++
      unlines [s_ "end subroutine"]).

(* write_loss_gain_matrix, Loss_Gain_numba.py (2412-2500); the tables are as
   the sparse part left them. *)
Definition loss_gain_numba_head : list str := header "#" rule [] date ++
  [[]; s_ "import numpy as np"; s_ "import numba as nb";
   s_ "@nb.jit('float64[:](float64[:],float64[:])', nopython=True, cache=True)";
   s_ "def dydt(loss_gain_list,r):"; s_ "    # Calculate loss and gain for each specie"; s_ "    # loss_gain_list=[0]*num_species"].
Definition write_loss_gain_numba (sp2a : dict str nat) (loss gain : table) : str :=
  let '(loss', gain', _) := sparse_lg sp2a loss gain [] in
  unlines loss_gain_numba_head ++
  flat_map (fun p => chunk_text cell_text1 true (s_ "loss_gain_list") [] (lg_line_numba loss' gain' p) ++ [NL]) sp2a ++
  unlines [s_ "    return loss_gain_list "].

(* write_loss_gain_fortran, Loss_Gain.f90 (2524-2645). *)
Definition loss_gain_fortran_head (n nsp : nat) : list str :=
  header "!" ("#" ++ rule) [" Fortran function to hold indices for calculating loss and gain for each species                    # "%string] date ++
  [[]; []; s_ "subroutine loss_gain(r,loss_gain_array)"; s_ "    ! Calculate loss and gain for each specie"; s_ "    implicit none ";
   s_ "    REAL(8), intent(in), dimension(" ++ dec n ++ s_ ") :: r "; s_ "    !f2py intent(in) :: r ";
   s_ "    REAL(8), intent(out), dimension(" ++ dec nsp ++ s_ ") :: loss_gain_array "; s_ "    !f2py intent(out) :: loss_gain_array ";
   s_ "    !Set values to zero "; s_ "    loss_gain_array(:)=0.0D0 "].
Definition write_loss_gain_fortran (omp : option (list nat)) (n nsp : nat) (sp2a : dict str nat) (loss gain : table) : str :=
  unlines (loss_gain_fortran_head n nsp) ++
  omp_text omp (s_ "r,loss_gain_array") (fun l => chunk_text cell_text1 false (s_ "loss_gain_array") [] l ++ s_ " " ++ [NL]) (map (lg_line_fortran loss gain) sp2a) ++
  unlines [s_ "end subroutine "].

(* write_gas_jacobian_numba, Jacobian_numba.py (2958-3200). *)
Definition jacobian_numba_head : list str :=
  header "#" ("#" ++ rule) [" Numba function to calculate jacobian function                                                    # "%string] date ++
  [[]; s_ "import numpy as np"; s_ "import numba as nb";
   s_ "@nb.jit('float64[:,:](float64[:],float64[:],float64[:,:])', nopython=True, cache=True)"; s_ "def jacobian(r,y,dy_dy):"].
Definition write_jacobian_numba (ord : set_order) sp2a rt loss gain : res str :=
  do ls <- mapM (jac_row 0 sp2a rt loss gain ord false) sp2a;
  Ok (unlines jacobian_numba_head ++
      flat_map (chunk_text cell_text2 true (s_ "dy_dy") (s_ " " ++ [NL])) ls ++
      unlines [s_ "    return dy_dy "]).

(* write_gas_jacobian_fortran, Jacobian.f90 (2672-2938). *)
Definition jacobian_fortran_head (n nsp : nat) : list str :=
  header "!" ("#" ++ rule) [" Fortran function to calculate jacobian function                                                    # "%string] date ++
  [[]; []; s_ "subroutine jacobian(r,y,dy_dy)"; s_ "    ! Calculate loss and gain for each specie"; s_ "    implicit none ";
   s_ "    REAL(8), intent(in), dimension(" ++ dec n ++ s_ ") :: r "; s_ "    !f2py intent(in) :: r ";
   s_ "    REAL(8), intent(in), dimension(" ++ dec nsp ++ s_ ") :: y "; s_ "    !f2py intent(in) :: loss_gain_array ";
   s_ "    REAL(8), intent(out), dimension(" ++ dec nsp ++ s_ "," ++ dec nsp ++ s_ ") :: dy_dy "; s_ "    !f2py intent(out) :: dy_dy ";
   s_ "    dy_dy(:,:)=0.0D0 "].
Definition write_jacobian_fortran (ord : set_order) (omp : option (list nat)) (n nsp : nat) sp2a rt loss gain : res str :=
  do ls <- mapM (jac_row 1 sp2a rt loss gain ord true) sp2a;
  Ok (unlines (jacobian_fortran_head n nsp) ++
      omp_text omp (s_ "r,y,dy_dy") (chunk_text cell_text2 false (s_ "dy_dy") (s_ " " ++ [NL])) ls ++
      unlines [s_ "end subroutine "]).
End Write.
