(* How Python and gfortran read the rate files: the module with its helper
   functions and evaluate_rates; the subroutine with its declarations.  A file
   that is not of this shape, or (Fortran) uses an undeclared name, is
   rejected.  Then: a call of what was read.  Lexing, expressions and
   statements are those of ModelExpr.v, lines and directives those of
   ModelSource.v. *)
From Coq Require Import List Bool Arith Ascii String ZArith QArith Reals.
From Verif Require Import Base PyStr SpecRate ModelExpr ModelLang ModelRhs ModelRateRun ModelSource.
Import ListNotations.
Import Coq.Lists.List.
Open Scope nat_scope.
Open Scope list_scope.

(* Lines with something on them: indentation and tokens. *)
Fixpoint lex_text (L : rlang) (ls : list str) : option (list line) :=
  match ls with
  | [] => Some []
  | l :: ls' =>
      match tokens L l, lex_text L ls' with
      | Some [], Some r => Some r
      | Some ts, Some r => Some ((List.length (fst (span is_space l)), ts) :: r)
      | _, _ => None
      end
  end.

(* ------------------------------------------------------------------ *)
(* Python *)
Record pyfun := PyFun { pf_name : str; pf_args : list str; pf_body : list str }.
Definition indented (l : str) : bool := match l with [] => true | c :: _ => is_space c end.
Definition decorator (l : str) : bool := match l with c :: _ => Ascii.eqb c "@" | [] => false end.
(* One line, given the indented lines that follow it and the functions after
   those. *)
Definition module_step (l : str) (st : option (list str * list pyfun)) : option (list str * list pyfun) :=
  match st with
  | None => None
  | Some (pend, fs) =>
      if indented l then Some (l :: pend, fs)
      else if decorator l then (if forallb blank pend then Some ([], fs) else None)
      else match tokens py_src l with
           | Some [] => if forallb blank pend then Some ([], fs) else None
           | Some (KName w :: r) =>
               if is_name "import" w then (if forallb blank pend then Some ([], fs) else None)
               else if is_name "def" w then
                 match r with
                 | KName f :: KLp :: r => match read_args r with Some (args, [KColon]) => Some ([], PyFun f args pend :: fs) | _ => None end
                 | _ => None
                 end
               else None
           | _ => None
           end
  end.
Definition py_module (ls : list str) : option (list pyfun) :=
  match fold_right module_step (Some ([], [])) ls with
  | Some (pend, fs) => if forallb blank pend then Some fs else None
  | None => None
  end.

Fixpoint mapo {A B} (f : A -> option B) (l : list A) : option (list B) :=
  match l with [] => Some [] | a :: l' => ocons (f a) (mapo f l') end.
(* def f(x): and, on the next line, return np.g(x) *)
Definition helper (f : pyfun) : option (str * str) :=
  match pf_args f, filter (fun l => negb (blank l)) (pf_body f) with
  | [x], [l] =>
      match prefix_rest (s_ "    return np.") l with
      | Some r => let (g, r') := span is_ident_char r in
                  if eqb (rstrip r') (s_ "(" ++ x ++ s_ ")") then Some (pf_name f, g) else None
      | None => None
      end
  | _, _ => None
  end.

(* numpy functions of one number. *)
Definition np_func : str -> option (R -> option R) := fun g => assoc g
  [("exp"%string, some1 exp); ("log10"%string, rlog10); ("log"%string, rlog); ("abs"%string, some1 Rabs);
   ("sqrt"%string, rsqrt); ("arccos"%string, racos); ("cos"%string, some1 cos); ("sin"%string, some1 sin); ("arctan"%string, some1 atan)].
(* The helpers of the module, and the builtin int. *)
Fixpoint helper_func (hs : list (str * str)) (f : str) : option (R -> option R) :=
  match hs with
  | [] => if eqb f (s_ "int") then Some (some1 rint) else None
  | (n, g) :: hs' => if eqb f n then np_func g else helper_func hs' f
  end.

(* The statements that set the output, and the last line. *)
Fixpoint py_rate_lines (out : str) (ls : list line) : option (list (gitem nat xexp)) :=
  match ls with
  | [(4, [KName w; KName x])] => if is_name "return" w && eqb x out then Some [] else None
  | (4, KName x :: KLb :: KNum q :: KRb :: KEq :: ts) :: ls' =>
      if eqb x out then
        match index q, parse_expr ts with
        | Some i, Some e => ocons (Some (Assign i e)) (py_rate_lines out ls')
        | _, _ => None
        end
      else None
  | _ => None
  end.
Definition starts_with (out : str) (l : line) : bool := match snd l with KName x :: _ => eqb x out || is_name "return" x | _ => false end.

Record pyrates := PyRates {
  pr_name : str; pr_args : list str;                (* of the rate function *)
  pr_helpers : list (str * str);
  pr_stmts : list stmt;
  pr_rates : list (gitem nat xexp)
}.
Definition py_spelling : rlang := RLang (fun x => x) py_letter "#" (fun _ => false) (fun _ => None) false.
(* The last function of the module has four numbers, the array of results and
   the photolysis array as arguments. *)
Definition read_rates_python (text : str) : option pyrates :=
  match py_module (split_char NL text) with
  | Some fs =>
      match rev fs with
      | f :: hs =>
          match pf_args f with
          | [_; _; _; _; out; J] =>
              obind (mapo helper (rev hs)) (fun hs =>
              obind (lex_text py_spelling (pf_body f)) (fun ls =>
              let (pre, post) := span_lines (fun l => negb (starts_with out l)) ls in
              obind (py_stmts (fun x => eqb x J) (List.length pre) pre) (fun st =>
              obind (py_rate_lines out post) (fun rs => Some (PyRates (pf_name f) (pf_args f) hs st rs)))))
          | _ => None
          end
      | [] => None
      end
  | None => None
  end.
(* evaluate_rates(ttime,RO2,H2O,temp,rate_values,J) with J=numpy.zeros(63)
   (ODE_solver.py:99,166): arguments by position. *)
Fixpoint by_position (xs : list str) (vs : list R) (x : str) : option R :=
  match xs, vs with
  | y :: xs', v :: vs' => if eqb x y then Some v else by_position xs' vs' x
  | _, _ => None
  end.
Definition call_rates_python (p : pyrates) (vals : list R) (n : nat) (a : nat -> R) : option (list R) :=
  let J := last (pr_args p) [] in
  let L := RLang (fun x => x) py_letter "#" (fun x => eqb x J) (helper_func (pr_helpers p)) false in
  obind (run_stmts L (pr_stmts p) (REnv (by_position (pr_args p) vals) (fun k => if k <? 63 then Some 0%R else None))) (fun en =>
  returned n (run (cell 0 n) (xeval L en) (pr_rates p) a)).

(* ------------------------------------------------------------------ *)
(* Fortran *)
Definition f_spelling : rlang := RLang lower kpp_letter "!" (fun _ => false) (fun _ => None) true.
(* REAL(8), intent(..), dimension(..), PARAMETER :: a, b   or   x = value *)
Record fdecl := FDecl { fd_name : str; fd_intent : option str; fd_dims : list nat; fd_value : option xexp }.
Fixpoint decl_names (io : option str) (dims : list nat) (ts : list rtok) : option (list fdecl) :=
  match ts with
  | [KName x] => Some [FDecl x io dims None]
  | KName x :: KComma :: r => ocons (Some (FDecl x io dims None)) (decl_names io dims r)
  | _ => None
  end.
Fixpoint decl_rest (io : option str) (dims : list nat) (param : bool) (ts : list rtok) : option (list fdecl) :=
  match ts with
  | KComma :: KName a :: KLp :: KName i :: KRp :: r => if is_name "intent" a then decl_rest (Some i) dims param r else None
  | KComma :: KName a :: KLp :: KNum q :: KRp :: r =>
      if is_name "dimension" a then match index q with Some n => decl_rest io [n] param r | None => None end else None
  | KComma :: KName a :: r => if is_name "parameter" a then decl_rest io dims true r else None
  | KColon :: KColon :: KName x :: KEq :: r => if param then option_map (fun e => [FDecl x io dims (Some e)]) (parse_expr r) else None
  | KColon :: KColon :: r => if param then None else decl_names io dims r
  | _ => match io, dims, param with None, [], false => decl_names io dims ts | _, _, _ => None end
  end.
Definition read_decls (ts : list rtok) : option (list fdecl) :=
  match ts with
  | KName a :: KLp :: KNum _ :: KRp :: r => if is_name "real" a then decl_rest None [] false r else None
  | _ => None
  end.
(* The declarations and the lines after them. *)
Fixpoint decl_part (ls : list str) : option (list fdecl * list str) :=
  match ls with
  | [] => Some ([], [])
  | l :: ls' =>
      match omp_line (C:=nat) l, tokens f_spelling l with
      | None, Some [] => decl_part ls'
      | None, Some ts =>
          match read_decls ts with
          | Some ds => match decl_part ls' with Some (ds', r) => Some (ds ++ ds', r) | None => None end
          | None => Some ([], ls)
          end
      | _, _ => Some ([], ls)
      end
  end.

(* What may come after the fixed part: a directive, an assignment to the
   output, the end. *)
Definition rate_part (out : str) (l : str) : bool :=
  match omp_line (C:=nat) l with
  | Some _ => true
  | None => match tokens f_spelling l with
            | Some [KName a; KName b] => is_name "end" a && is_name "subroutine" b
            | Some (KName x :: _) => eqb x out
            | _ => false
            end
  end.
Fixpoint span_text (p : str -> bool) (ls : list str) : list str * list str :=
  match ls with l :: ls' => if p l then let (a, b) := span_text p ls' in (l :: a, b) else ([], ls) | [] => ([], []) end.
Fixpoint f_rate_lines (out : str) (ls : list str) : option (list (gitem nat xexp)) :=
  match ls with
  | [] => None
  | l :: ls' =>
      match omp_line (C:=nat) l with
      | Some (Some OmpParallel) => ocons (Some OmpParallel) (f_rate_lines out ls')
      | Some (Some OmpSingle) => ocons (Some OmpSingle) (f_rate_lines out ls')
      | Some (Some OmpEndSingle) => ocons (Some OmpEndSingle) (f_rate_lines out ls')
      | Some (Some OmpEndParallel) => ocons (Some OmpEndParallel) (f_rate_lines out ls')
      | Some _ => None
      | None =>
          match tokens f_spelling l with
          | Some [] => f_rate_lines out ls'
          | Some [KName a; KName b] => if is_name "end" a && is_name "subroutine" b && forallb (fun l => match tokens f_spelling l with Some [] => true | _ => false end) ls' then Some [] else None
          | Some (KName x :: KLp :: KNum q :: KRp :: KEq :: ts) =>
              if eqb x out then
                match index q, parse_expr ts with
                | Some i, Some e => ocons (Some (Assign i e)) (f_rate_lines out ls')
                | _, _ => None
                end
              else None
          | _ => None
          end
      end
  end.

(* implicit none: every name is declared or an intrinsic function; elements of
   the local array are inside its bounds. *)
Section Known.
Variable names : list str.
Definition declared (x : str) : bool := inb x names.
Definition intrinsic (f : str) : bool := match fortran_func f with Some _ => true | None => false end.
Fixpoint known (e : xexp) : bool :=
  match e with
  | XNum _ => true
  | XVar x => declared x
  | XCall f e => (declared f || intrinsic f) && known e
  | XIdx _ _ => false
  | XAdd a b | XSub a b | XMul a b | XDiv a b | XPow a b => known a && known b
  | XNeg a => known a
  end.
Definition known_simple (J : str) (size : nat) (s : simple) : bool :=
  match s with
  | SSet x e => declared x && known e
  | SSetJ k e => declared J && (1 <=? k) && (k <=? size) && known e
  end.
Definition known_stmt (J : str) (size : nat) (s : stmt) : bool :=
  match s with
  | SDo s => known_simple J size s
  | SIfLe a b th el => known a && known b && forallb (known_simple J size) th && forallb (known_simple J size) el
  end.
Definition known_rate (i : gitem nat xexp) : bool := match i with Assign _ e => known e | _ => true end.
End Known.

Record frates := FRates {
  fr_name : str; fr_in : list str;                  (* intent(in) arguments, in the order of the argument list *)
  fr_out : str; fr_size : nat;                      (* intent(out) array *)
  fr_array : str; fr_bound : nat;                   (* local array *)
  fr_stmts : list stmt;                             (* parameters, then statements *)
  fr_rates : list (gitem nat xexp)
}.
Definition has_intent (w : string) (d : fdecl) : bool := match fd_intent d with Some i => is_name w i | None => false end.
Definition input (ds : list fdecl) (x : str) : bool := existsb (fun d => eqb x (fd_name d) && has_intent "in" d) ds.
Definition parameters (ds : list fdecl) : list stmt :=
  flat_map (fun d => match fd_value d with Some e => [SDo (SSet (fd_name d) e)] | None => [] end) ds.
Definition read_subroutine (name : str) (args : list str) (ls : list str) : option frates :=
  obind (decl_part ls) (fun p => let (ds, rest) := p in
  match filter (has_intent "out") ds, filter (fun d => match fd_intent d, fd_dims d with None, [_] => true | _, _ => false end) ds with
  | [FDecl out _ [n] _], [FDecl J _ [size] _] =>
      let (pre, post) := span_text (fun l => negb (rate_part out l)) rest in
      obind (lex_text f_spelling pre) (fun ls =>
      obind (f_stmts (fun x => eqb x J) (List.length ls) ls) (fun st =>
      obind (f_rate_lines out post) (fun rs =>
      let st := parameters ds ++ st in
      let names := map fd_name ds in
      if forallb (known_stmt names J size) st && forallb (known_rate names) rs && forallb (fun x => declared names x) args
      then Some (FRates name (filter (input ds) args) out n J size st rs) else None)))
  | _, _ => None
  end).
Fixpoint sub_lines (ls : list str) : option frates :=
  match ls with
  | [] => None
  | l :: ls' =>
      match tokens f_spelling l with
      | Some [] => sub_lines ls'
      | Some (KName w :: KName f :: KLp :: r) =>
          if is_name "subroutine" w then
            match read_args r, ls' with
            | Some (args, []), l2 :: ls2 =>
                match tokens f_spelling l2 with
                | Some [KName a; KName b] => if is_name "implicit" a && is_name "none" b then read_subroutine f args ls2 else None
                | _ => None
                end
            | _, _ => None
            end
          else None
      | _ => None
      end
  end.
Definition read_rates_fortran (text : str) : option frates :=
  obind (logical None (split_char NL text)) sub_lines.
(* evaluate_rates(RO2,H2O,temp,ttime) through f2py (f2py/ODE_solver.py:74):
   the intent(in) arguments by position; the local array has no initial
   values.  [tr]: the statements of one execution. *)
Definition call_rates_fortran (p : frates) (tr : list (gitem nat xexp)) (vals : list R) (a : nat -> R) : option (list R) :=
  let L := RLang lower kpp_letter "!" (fun x => eqb x (fr_array p)) fortran_func true in
  obind (run_stmts L (fr_stmts p) (REnv (by_position (fr_in p) vals) (fun _ => None))) (fun en =>
  returned (fr_size p) (run (cell 1 (fr_size p)) (xeval L en) tr a)).
