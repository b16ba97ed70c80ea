(* rate_coeff_conversion.py: rewriting the KPP rate texts for Python, numba
   and Fortran. *)
From Coq Require Import List Bool Arith Lia Ascii String ZArith.
From Verif Require Import Base PyStr PyDict.
Import ListNotations.
Import Coq.Lists.List.
Open Scope nat_scope.
Open Scope list_scope.

(* The conversion tables (64-73, 140-158, 243-259). *)
Definition math_plain : list (str * str) :=
  [(s_ "dabs", s_ "numpy.abs"); (s_ "dsqrt", s_ "numpy.sqrt"); (s_ "dlog", s_ "numpy.log");
   (s_ "LOG", s_ "numpy.log"); (s_ "EXP", s_ "numpy.exp")].
Definition math_numba : list (str * str) :=
  [(s_ "dabs", s_ "numba_abs"); (s_ "dsqrt", s_ "numba_sqrt"); (s_ "dlog", s_ "numba_log");
   (s_ "LOG", s_ "numba_log"); (s_ "EXP", s_ "numba_exp")].
Definition math_fortran : list (str * str) :=
  [(s_ "dabs", s_ "ABS"); (s_ "dsqrt", s_ "SQRT"); (s_ "dlog", s_ "LOG")].
Definition map_plain : list (str * str) := [(s_ "D-", s_ "E-"); (s_ "D+", s_ "E+")].
Definition map_full : list (str * str) :=
  [(s_ "D-", s_ "E-"); (s_ "D+", s_ "E+"); (s_ "D1", s_ "E+1"); (s_ "D2", s_ "E+2"); (s_ "D3", s_ "E+3");
   (s_ "D4", s_ "E+4"); (s_ "D5", s_ "E+5"); (s_ "D6", s_ "E+6"); (s_ "D7", s_ "E+7"); (s_ "D8", s_ "E+8");
   (s_ "D9", s_ "E+9")].

(* for operation in math_list: temp_text=rate_full.replace(..)  (79-80,
   165-166, 266-267).  Every pass starts again from rate_full. *)
Definition conv_math (ops : list (str * str)) (rate_full : str) : str :=
  fold_left (fun _ op => replace (fst op) (snd op) rate_full) ops [].
(* for syntax in map_list: temp_text=temp_text.replace(..)  (81-82, 167-168,
   268-269). *)
Definition conv_map (ops : list (str * str)) (t : str) : str :=
  fold_left (fun t op => replace (fst op) (snd op) t) ops t.

(* l[i]=c where i is the result of find: -1 (None) is the last element. *)
Definition set_found (i : option nat) (c : ascii) (l : str) : str :=
  match i with Some i => set_nth i c l | None => set_nth (List.length l - 1) c l end.

(* The positions of 'J(' (171-177).  fuel bounds the number of passes of the
   while loop; every pass moves index forward. *)
Fixpoint find_all (fuel : nat) (p t : str) (from : nat) : list nat :=
  match fuel with
  | 0 => []
  | S f => match find_from p t from with
           | Some i => i :: find_all f p t (S i)
           | None => []
           end
  end.

(* 179-189: the searches are made in the unchanged temp_text. *)
Definition bracket_step (t l : str) (num : nat) : str :=
  set_found (find_from (s_ ")") t num) "]" (set_found (find_from (s_ "(") t num) "[" l).
Definition photolysis_brackets (t : str) : str :=
  fold_left (bracket_step t) (find_all (S (List.length t)) (s_ "J(") t 0) t.

(* convert_rate_mcm_numba, one text (163-213). *)
Definition convert_numba (rate_full : str) : str :=
  photolysis_brackets (conv_map map_full (conv_math math_numba rate_full)).
(* convert_rate_mcm_fortran, one text (264-324). *)
Definition convert_fortran (rate_full : str) : str :=
  conv_map map_full (conv_math math_fortran rate_full).

(* convert_rate_mcm, one text (77-111).  The try block: index raises
   ValueError when the name does not occur, and then nothing changes. *)
Definition square (c : ascii) : ascii :=
  if Ascii.eqb c "(" then "["%char else if Ascii.eqb c ")" then "]"%char else c.
Definition call_step (t substr : str) : str :=
  match find_sub substr t with
  | None => t
  | Some after =>
      set_found (find_from (s_ "]") t after) ")" (set_found (find_from (s_ "[") t after) "(" t)
  end.
Definition convert_plain (rate_full : str) : str :=
  fold_left call_step [s_ "numpy.abs"; s_ "numpy.sqrt"; s_ "numpy.log"; s_ "numpy.exp"]
    (map square (conv_map map_plain (conv_math math_plain rate_full))).

(* for equation_step, rate_full in rate_dict.items(): ..
   rate_dict[equation_step]=temp_text; the dictionary is changed in place and
   returned. *)
Definition convert_dict (f : str -> str) (d : dict nat str) : dict nat str :=
  map (fun p => (fst p, f (snd p))) d.
