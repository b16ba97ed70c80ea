(* The expression and statement language of the generated rate modules
   (Rate_coefficients_numba.py and Rate_coefficients.f90): lexer, parser and
   meaning over the reals.  Only what those files use is covered: assignments,
   one level of if/else, arithmetic, calls with one argument and J.
   Simplifications: exact real arithmetic; Fortran literals and ATAN are not
   rounded to single precision; integers are unbounded. *)
From Coq Require Import List Bool Arith Lia Ascii String ZArith QArith Reals Qreals.
From Verif Require Import Base PyStr SpecRate.
Import ListNotations.
Import Coq.Lists.List.
Open Scope nat_scope.
Open Scope list_scope.

(* ------------------------------------------------------------------ *)
(* Tokens *)
Inductive rtok :=
| KNum (q : Q) | KName (x : str)
| KAdd | KSub | KMul | KDiv | KPow | KLp | KRp | KLb | KRb | KEq | KLe | KColon | KComma.

(* What distinguishes the two languages. *)
Record rlang := RLang {
  norm : str -> str;                        (* spelling of names that counts *)
  exp_letter : ascii -> bool;               (* exponent letters of literals *)
  comment_char : ascii;
  is_array : str -> bool;
  func : str -> option (R -> option R);
  int_arith : bool                          (* integers have their own arithmetic *)
}.

Fixpoint span (p : ascii -> bool) (s : str) : str * str :=
  match s with
  | c :: s' => if p c then let (a, b) := span p s' in (c :: a, b) else ([], s)
  | [] => ([], [])
  end.
Definition is_mant (c : ascii) : bool := is_digit c || Ascii.eqb c ".".
Definition is_sign (c : ascii) : bool := Ascii.eqb c "+" || Ascii.eqb c "-".
(* Splits the literal off the text: mantissa, and an exponent if a letter is
   followed by an optional sign and a digit. *)
Definition span_sign (s : str) : str * str :=
  match s with c :: s' => if is_sign c then ([c], s') else ([], s) | [] => ([], []) end.
Definition span_literal (letter : ascii -> bool) (s : str) : str * str :=
  let (m, r) := span is_mant s in
  match r with
  | c :: r' =>
      if letter c then
        let (sg, r2) := span_sign r' in
        let (ds, r3) := span is_digit r2 in
        match ds with [] => (m, r) | _ => (m ++ c :: sg ++ ds, r3) end
      else (m, r)
  | [] => (m, r)
  end.

Definition op_tok (c : ascii) : option rtok :=
  if Ascii.eqb c "+" then Some KAdd else if Ascii.eqb c "-" then Some KSub else
  if Ascii.eqb c "*" then Some KMul else if Ascii.eqb c "/" then Some KDiv else
  if Ascii.eqb c "(" then Some KLp else if Ascii.eqb c ")" then Some KRp else
  if Ascii.eqb c "[" then Some KLb else if Ascii.eqb c "]" then Some KRb else
  if Ascii.eqb c "=" then Some KEq else if Ascii.eqb c ":" then Some KColon else
  if Ascii.eqb c "," then Some KComma else None.

Section Lex.
Variable L : rlang.
Fixpoint lex (fuel : nat) (s : str) : option (list rtok) :=
  match fuel with
  | 0 => None
  | S f =>
      match s with
      | [] => Some []
      | c :: s' =>
          if is_space c then lex f s'
          else if Ascii.eqb c (comment_char L) then Some []
          else if is_mant c then
            let (l, r) := span_literal (exp_letter L) s in
            match read_literal (exp_letter L) l with
            | Some q => option_map (cons (KNum q)) (lex f r)
            | None => None
            end
          else if is_ident_char c then
            let (x, r) := span is_ident_char s in option_map (cons (KName (norm L x))) (lex f r)
          else match s with
               | "*"%char :: "*"%char :: r => option_map (cons KPow) (lex f r)
               | "<"%char :: "="%char :: r => option_map (cons KLe) (lex f r)
               | _ => match op_tok c with
                      | Some t => option_map (cons t) (lex f s')
                      | None => None
                      end
               end
      end
  end.
Definition tokens (s : str) : option (list rtok) := lex (S (List.length s)) s.
End Lex.

(* ------------------------------------------------------------------ *)
(* Expressions *)
Inductive xexp :=
| XNum (q : Q) | XVar (x : str) | XCall (f : str) (e : xexp) | XIdx (x : str) (e : xexp)
| XAdd (a b : xexp) | XSub (a b : xexp) | XMul (a b : xexp) | XDiv (a b : xexp) | XPow (a b : xexp)
| XNeg (a : xexp).

Definition parsed := option (xexp * list rtok).
Fixpoint p_sum (f : nat) (ts : list rtok) : parsed :=
  match f with
  | 0 => None
  | S f => match p_term f ts with Some (a, r) => p_sum_rest f a r | None => None end
  end
with p_sum_rest (f : nat) (a : xexp) (ts : list rtok) : parsed :=
  match f with
  | 0 => None
  | S f =>
      match ts with
      | KAdd :: r => match p_term f r with Some (b, r') => p_sum_rest f (XAdd a b) r' | None => None end
      | KSub :: r => match p_term f r with Some (b, r') => p_sum_rest f (XSub a b) r' | None => None end
      | _ => Some (a, ts)
      end
  end
with p_term (f : nat) (ts : list rtok) : parsed :=
  match f with
  | 0 => None
  | S f => match p_unary f ts with Some (a, r) => p_term_rest f a r | None => None end
  end
with p_term_rest (f : nat) (a : xexp) (ts : list rtok) : parsed :=
  match f with
  | 0 => None
  | S f =>
      match ts with
      | KMul :: r => match p_unary f r with Some (b, r') => p_term_rest f (XMul a b) r' | None => None end
      | KDiv :: r => match p_unary f r with Some (b, r') => p_term_rest f (XDiv a b) r' | None => None end
      | _ => Some (a, ts)
      end
  end
with p_unary (f : nat) (ts : list rtok) : parsed :=
  match f with
  | 0 => None
  | S f =>
      match ts with
      | KSub :: r => match p_unary f r with Some (a, r') => Some (XNeg a, r') | None => None end
      | _ =>
          match p_atom f ts with
          | Some (a, KPow :: r) => match p_unary f r with Some (b, r') => Some (XPow a b, r') | None => None end
          | o => o
          end
      end
  end
with p_atom (f : nat) (ts : list rtok) : parsed :=
  match f with
  | 0 => None
  | S f =>
      match ts with
      | KNum q :: r => Some (XNum q, r)
      | KName x :: KLp :: r => match p_sum f r with Some (e, KRp :: r') => Some (XCall x e, r') | _ => None end
      | KName x :: KLb :: r => match p_sum f r with Some (e, KRb :: r') => Some (XIdx x e, r') | _ => None end
      | KName x :: r => Some (XVar x, r)
      | KLp :: r => match p_sum f r with Some (e, KRp :: r') => Some (e, r') | _ => None end
      | _ => None
      end
  end.
Definition fuel_for (ts : list rtok) : nat := 8 * S (List.length ts).
Definition parse_expr (ts : list rtok) : option xexp :=
  match p_sum (fuel_for ts) ts with Some (e, []) => Some e | _ => None end.

(* ------------------------------------------------------------------ *)
(* Meaning *)
(* x**e: None where Python raises or gives a complex number. *)
Definition rpow (x e : R) : option R :=
  if Rlt_dec 0 x then Some (Rpower x e)
  else if Req_EM_T x 0 then
    (if Rlt_dec 0 e then Some 0%R else if Req_EM_T e 0 then Some 1%R else None)
  else if Req_EM_T e (IZR (Int_part e)) then Some (powerRZ x (Int_part e)) else None.
Definition rdiv (x y : R) : option R := if Req_EM_T y 0 then None else Some (x / y)%R.

(* int(x): towards zero; floor *)
Definition rint (x : R) : R := if Rle_dec 0 x then IZR (Int_part x) else (- IZR (Int_part (- x)))%R.
Definition rfloor (x : R) : R := IZR (Int_part x).
(* Fortran: / and ** of integers drop the fraction, so that 1/2 is 0 and
   2**(-1) is 0. *)
Definition iquot (x y : R) : option R := option_map rint (rdiv x y).
Definition ipow (x y : R) : option R := option_map rint (rpow x y).
(* The expressions of type integer: literals (SpecRate.real_literal), what is
   built from them, and the result of floor. *)
Fixpoint x_int (e : xexp) : bool :=
  match e with
  | XNum q => (Qden q =? 1)%positive
  | XVar _ | XIdx _ _ => false
  | XCall f a => eqb f (s_ "floor") || eqb f (s_ "abs") && x_int a
  | XAdd a b | XSub a b | XMul a b | XDiv a b | XPow a b => x_int a && x_int b
  | XNeg a => x_int a
  end.
(* The other intrinsics refuse an integer. *)
Definition refused (f : str) (a : xexp) : bool := x_int a && negb (eqb f (s_ "abs")).

Record renv := REnv { rvar : str -> option R; rj : nat -> option R }.
Definition set_var (x : str) (v : R) (en : renv) : renv :=
  REnv (fun y => if eqb y x then Some v else rvar en y) (rj en).
Definition set_j (k : nat) (v : R) (en : renv) : renv :=
  REnv (rvar en) (fun i => if i =? k then Some v else rj en i).

(* The subscript of J is an integer literal. *)
Definition subscript (e : xexp) : option nat :=
  match e with
  | XNum q => if (Qden q =? 1)%positive then (if (0 <=? Qnum q)%Z then Some (Z.to_nat (Qnum q)) else None) else None
  | _ => None
  end.
Definition obind {A B} (o : option A) (f : A -> option B) : option B := match o with Some a => f a | None => None end.

Section Eval.
Variable L : rlang.
Variable en : renv.
Fixpoint xeval (e : xexp) : option R :=
  match e with
  | XNum q => Some (Q2R q)
  | XVar x => rvar en x
  | XCall f a =>
      if is_array L f then obind (subscript a) (rj en)
      else match func L f with
           | Some g => if int_arith L && refused f a then None else obind (xeval a) g
           | None => None
           end
  | XIdx x a => if is_array L x then obind (subscript a) (rj en) else None
  | XAdd a b => obind (xeval a) (fun x => obind (xeval b) (fun y => Some (x + y)%R))
  | XSub a b => obind (xeval a) (fun x => obind (xeval b) (fun y => Some (x - y)%R))
  | XMul a b => obind (xeval a) (fun x => obind (xeval b) (fun y => Some (x * y)%R))
  | XDiv a b => obind (xeval a) (fun x => obind (xeval b) (fun y => if int_arith L && (x_int a && x_int b) then iquot x y else rdiv x y))
  | XPow a b => obind (xeval a) (fun x => obind (xeval b) (fun y => if int_arith L && (x_int a && x_int b) then ipow x y else rpow x y))
  | XNeg a => obind (xeval a) (fun x => Some (- x)%R)
  end.
End Eval.
(* The value of an expression text. *)
Definition text_value (L : rlang) (en : renv) (t : str) : option R :=
  obind (tokens L t) (fun ts => obind (parse_expr ts) (xeval L en)).

(* ------------------------------------------------------------------ *)
(* Statements *)
Inductive simple := SSet (x : str) (e : xexp) | SSetJ (k : nat) (e : xexp).
Inductive stmt := SDo (s : simple) | SIfLe (a b : xexp) (th el : list simple).

Definition run_simple (L : rlang) (s : simple) (en : renv) : option renv :=
  match s with
  | SSet x e => obind (xeval L en e) (fun v => Some (set_var x v en))
  | SSetJ k e => obind (xeval L en e) (fun v => Some (set_j k v en))
  end.
Fixpoint run_simples (L : rlang) (l : list simple) (en : renv) : option renv :=
  match l with
  | [] => Some en
  | s :: l' => obind (run_simple L s en) (run_simples L l')
  end.
Definition run_stmt (L : rlang) (s : stmt) (en : renv) : option renv :=
  match s with
  | SDo s => run_simple L s en
  | SIfLe a b th el =>
      obind (xeval L en a) (fun x => obind (xeval L en b) (fun y =>
        if Rle_dec x y then run_simples L th en else run_simples L el en))
  end.
Fixpoint run_stmts (L : rlang) (l : list stmt) (en : renv) : option renv :=
  match l with
  | [] => Some en
  | s :: l' => obind (run_stmt L s en) (run_stmts L l')
  end.

(* Lines: indentation and tokens; empty lines disappear. *)
Definition line := (nat * list rtok)%type.
Fixpoint lex_lines (L : rlang) (ls : list string) : option (list line) :=
  match ls with
  | [] => Some []
  | l :: ls' =>
      let s := s_ l in
      match tokens L s, lex_lines L ls' with
      | Some [], Some r => Some r
      | Some ts, Some r => Some ((List.length (fst (span is_space s)), ts) :: r)
      | _, _ => None
      end
  end.
Definition parse_simple (is_arr : str -> bool) (ts : list rtok) : option simple :=
  match ts with
  | KName x :: KEq :: r => option_map (SSet x) (parse_expr r)
  | KName x :: KLb :: KNum q :: KRb :: KEq :: r
  | KName x :: KLp :: KNum q :: KRp :: KEq :: r =>
      if is_arr x then obind (subscript (XNum q)) (fun k => option_map (SSetJ k) (parse_expr r)) else None
  | _ => None
  end.
Fixpoint parse_simples (is_arr : str -> bool) (ls : list line) : option (list simple) :=
  match ls with
  | [] => Some []
  | (_, ts) :: ls' =>
      match parse_simple is_arr ts, parse_simples is_arr ls' with
      | Some s, Some l => Some (s :: l)
      | _, _ => None
      end
  end.
Fixpoint span_lines (p : line -> bool) (ls : list line) : list line * list line :=
  match ls with
  | l :: ls' => if p l then let (a, b) := span_lines p ls' in (l :: a, b) else ([], ls)
  | [] => ([], [])
  end.
Definition parse_le (ts : list rtok) : option (xexp * xexp * list rtok) :=
  match p_sum (fuel_for ts) ts with
  | Some (a, KLe :: r) => match p_sum (fuel_for r) r with Some (b, r') => Some (a, b, r') | None => None end
  | _ => None
  end.

(* Python: 'if a <= b:', deeper lines, 'else:', deeper lines. *)
Fixpoint py_stmts (is_arr : str -> bool) (fuel : nat) (ls : list line) : option (list stmt) :=
  match fuel, ls with
  | _, [] => Some []
  | 0, _ => None
  | S f, (i, ts) :: ls' =>
      match ts with
      | KName x :: r =>
          if eqb x (s_ "if") then
            match parse_le r with
            | Some (a, b, [KColon]) =>
                let (th, l1) := span_lines (fun l => i <? fst l) ls' in
                match l1 with
                | (_, [KName y; KColon]) :: l2 =>
                    if eqb y (s_ "else") then
                      let (el, l3) := span_lines (fun l => i <? fst l) l2 in
                      match parse_simples is_arr th, parse_simples is_arr el, py_stmts is_arr f l3 with
                      | Some t, Some e, Some r => Some (SIfLe a b t e :: r)
                      | _, _, _ => None
                      end
                    else None
                | _ => None
                end
            | _ => None
            end
          else match parse_simple is_arr ts, py_stmts is_arr f ls' with
               | Some s, Some r => Some (SDo s :: r)
               | _, _ => None
               end
      | _ => None
      end
  end.

(* Fortran: 'if ( a <= b ) then', lines, 'else', lines, 'end if'. *)
Definition is_word (w : string) (l : line) : bool :=
  match snd l with KName x :: _ => eqb x (s_ w) | _ => false end.
Fixpoint f_stmts (is_arr : str -> bool) (fuel : nat) (ls : list line) : option (list stmt) :=
  match fuel, ls with
  | _, [] => Some []
  | 0, _ => None
  | S f, (i, ts) :: ls' =>
      match ts with
      | KName x :: r =>
          if eqb x (s_ "if") then
            match r with
            | KLp :: r =>
                match parse_le r with
                | Some (a, b, [KRp; KName w]) =>
                    let (th, l1) := span_lines (fun l => negb (is_word "else" l)) ls' in
                    match l1 with
                    | _ :: l2 =>
                        let (el, l3) := span_lines (fun l => negb (is_word "end" l)) l2 in
                        match l3 with
                        | _ :: l4 =>
                            match parse_simples is_arr th, parse_simples is_arr el, f_stmts is_arr f l4 with
                            | Some t, Some e, Some r => if eqb w (s_ "then") then Some (SIfLe a b t e :: r) else None
                            | _, _, _ => None
                            end
                        | [] => None
                        end
                    | [] => None
                    end
                | _ => None
                end
            | _ => None
            end
          else match parse_simple is_arr ts, f_stmts is_arr f ls' with
               | Some s, Some r => Some (SDo s :: r)
               | _, _ => None
               end
      | _ => None
      end
  end.

(* ------------------------------------------------------------------ *)
(* The two languages *)
Definition some1 (f : R -> R) : R -> option R := fun x => Some (f x).
Definition rlog10 (x : R) : option R := if Rlt_dec 0 x then Some (ln x / ln 10)%R else None.
Definition rlog (x : R) : option R := if Rlt_dec 0 x then Some (ln x) else None.
Definition rsqrt (x : R) : option R := if Rle_dec 0 x then Some (sqrt x) else None.
Definition racos (x : R) : option R := if Rle_dec (-1) x then if Rle_dec x 1 then Some (acos x) else None else None.

Fixpoint assoc {A} (x : str) (l : list (string * A)) : option A :=
  match l with [] => None | (k, a) :: l' => if eqb x (s_ k) then Some a else assoc x l' end.

(* Parse_eqn_file.py:852-895: the helpers of the numba module, and the builtin
   int. *)
Definition numba_func : str -> option (R -> option R) := fun f => assoc f
  [("numba_exp"%string, some1 exp); ("numba_log10"%string, rlog10); ("numba_log"%string, rlog);
   ("numba_abs"%string, some1 Rabs); ("numba_sqrt"%string, rsqrt); ("numba_arccos"%string, racos); ("numba_cos"%string, some1 cos);
   ("numba_sin"%string, some1 sin); ("numba_arctan"%string, some1 atan); ("int"%string, some1 rint)].
Definition numba_lang : rlang := RLang (fun x => x) py_letter "#" (fun x => eqb x (s_ "J")) numba_func false.

(* Fortran intrinsics; names are case insensitive. *)
Definition lower (x : str) : str :=
  map (fun c => let n := nat_of_ascii c in if (65 <=? n) && (n <=? 90) then ascii_of_nat (n + 32) else c) x.
Definition fortran_func : str -> option (R -> option R) := fun f => assoc f
  [("exp"%string, some1 exp); ("log10"%string, rlog10); ("log"%string, rlog); ("abs"%string, some1 Rabs);
   ("sqrt"%string, rsqrt); ("cos"%string, some1 cos); ("sin"%string, some1 sin); ("atan"%string, some1 atan);
   ("floor"%string, some1 rfloor)].
Definition fortran_lang : rlang := RLang lower kpp_letter "!" (fun x => eqb x (s_ "j")) fortran_func true.

Definition numba_program (ls : list string) : option (list stmt) :=
  obind (lex_lines numba_lang ls) (fun l => py_stmts (is_array numba_lang) (List.length l) l).
Definition fortran_program (ls : list string) : option (list stmt) :=
  obind (lex_lines fortran_lang ls) (fun l => f_stmts (is_array fortran_lang) (List.length l) l).
