(* How gfortran reads Partitioning.f90 and what the compiled subroutine does
   when f2py calls it: declarations, assignments to scalars, elements, sections
   and whole arrays, array expressions with broadcast scalars, EXP and SUM, one
   OpenMP parallel loop.  A file that is not of this shape, or that uses an
   undeclared name, is rejected (None).
   Simplifications: numbers are reals, and an operation without a finite result
   stops the run (None), as does an access outside an array; literals are not
   rounded to single precision; integers do not overflow.  One thread runs the
   loop; the interleavings of several threads are in ModelPart.v (C60). *)
From Coq Require Import List Bool Arith Lia Ascii String ZArith QArith Reals Qreals.
From Verif Require Import Base PyStr SpecKin SpecRate ModelExpr ModelLang ModelRhs ModelRateRun ModelSource.
Import ListNotations.
Import Coq.Lists.List.
Open Scope nat_scope.
Open Scope list_scope.

(* ------------------------------------------------------------------ *)
(* Expressions *)
Inductive iexp := INum (n : nat) | IVar (x : str) | IAdd (a b : iexp) | ISub (a b : iexp) | IMul (a b : iexp).
(* a(:), a(i), a(i:j) *)
Inductive sect := SAll | SAt (i : iexp) | SFromTo (i j : iexp).
Inductive fexp :=
| FNum (q : Q) | FName (x : str) | FPart (x : str) (s : list sect)
| FAdd (a b : fexp) | FSub (a b : fexp) | FMul (a b : fexp) | FDiv (a b : fexp) | FPow (a b : fexp)
| FExp (a : fexp) | FSum (a : fexp) | FSumDim (a : fexp) (d : nat).

(* Subscripts: sums and products of numerals and names. *)
Fixpoint i_sum (f : nat) (ts : list rtok) : option (iexp * list rtok) :=
  match f with
  | 0 => None
  | S f => match i_term f ts with Some (a, r) => i_sum_rest f a r | None => None end
  end
with i_sum_rest (f : nat) (a : iexp) (ts : list rtok) : option (iexp * list rtok) :=
  match f with
  | 0 => None
  | S f =>
      match ts with
      | KAdd :: r => match i_term f r with Some (b, r') => i_sum_rest f (IAdd a b) r' | None => None end
      | KSub :: r => match i_term f r with Some (b, r') => i_sum_rest f (ISub a b) r' | None => None end
      | _ => Some (a, ts)
      end
  end
with i_term (f : nat) (ts : list rtok) : option (iexp * list rtok) :=
  match f with
  | 0 => None
  | S f => match i_atom f ts with Some (a, r) => i_term_rest f a r | None => None end
  end
with i_term_rest (f : nat) (a : iexp) (ts : list rtok) : option (iexp * list rtok) :=
  match f with
  | 0 => None
  | S f =>
      match ts with
      | KMul :: r => match i_atom f r with Some (b, r') => i_term_rest f (IMul a b) r' | None => None end
      | _ => Some (a, ts)
      end
  end
with i_atom (f : nat) (ts : list rtok) : option (iexp * list rtok) :=
  match f with
  | 0 => None
  | S f =>
      match ts with
      | KNum q :: r => option_map (fun n => (INum n, r)) (index q)
      | KName x :: r => Some (IVar x, r)
      | KLp :: r => match i_sum f r with Some (e, KRp :: r') => Some (e, r') | _ => None end
      | _ => None
      end
  end.
(* The subscripts after the opening parenthesis, and what follows them. *)
Fixpoint sects (f : nat) (ts : list rtok) : option (list sect * list rtok) :=
  match f with
  | 0 => None
  | S f =>
      match (match ts with
             | KColon :: r => Some (SAll, r)
             | _ => match i_sum (fuel_for ts) ts with
                    | Some (a, KColon :: r) => match i_sum (fuel_for r) r with Some (b, r') => Some (SFromTo a b, r') | None => None end
                    | Some (a, r) => Some (SAt a, r)
                    | None => None
                    end
             end) with
      | Some (s, KRp :: r) => Some ([s], r)
      | Some (s, KComma :: r) => match sects f r with Some (l, r') => Some (s :: l, r') | None => None end
      | _ => None
      end
  end.

Section Parse.
(* Which names are arrays. *)
Variable arr : str -> bool.
Fixpoint e_sum (f : nat) (ts : list rtok) : option (fexp * list rtok) :=
  match f with
  | 0 => None
  | S f => match e_term f ts with Some (a, r) => e_sum_rest f a r | None => None end
  end
with e_sum_rest (f : nat) (a : fexp) (ts : list rtok) : option (fexp * list rtok) :=
  match f with
  | 0 => None
  | S f =>
      match ts with
      | KAdd :: r => match e_term f r with Some (b, r') => e_sum_rest f (FAdd a b) r' | None => None end
      | KSub :: r => match e_term f r with Some (b, r') => e_sum_rest f (FSub a b) r' | None => None end
      | _ => Some (a, ts)
      end
  end
with e_term (f : nat) (ts : list rtok) : option (fexp * list rtok) :=
  match f with
  | 0 => None
  | S f => match e_power f ts with Some (a, r) => e_term_rest f a r | None => None end
  end
with e_term_rest (f : nat) (a : fexp) (ts : list rtok) : option (fexp * list rtok) :=
  match f with
  | 0 => None
  | S f =>
      match ts with
      | KMul :: r => match e_power f r with Some (b, r') => e_term_rest f (FMul a b) r' | None => None end
      | KDiv :: r => match e_power f r with Some (b, r') => e_term_rest f (FDiv a b) r' | None => None end
      | _ => Some (a, ts)
      end
  end
with e_power (f : nat) (ts : list rtok) : option (fexp * list rtok) :=
  match f with
  | 0 => None
  | S f =>
      match e_atom f ts with
      | Some (a, KPow :: r) => match e_power f r with Some (b, r') => Some (FPow a b, r') | None => None end
      | o => o
      end
  end
with e_atom (f : nat) (ts : list rtok) : option (fexp * list rtok) :=
  match f with
  | 0 => None
  | S f =>
      match ts with
      | KNum q :: r => if (Qden q =? 1)%positive then None else Some (FNum (Qred q), r)   (* no integers in real arithmetic *)
      | KName x :: KLp :: r =>
          if arr x then match sects f r with Some (s, r') => Some (FPart x s, r') | None => None end
          else if is_name "exp" x then match e_sum f r with Some (e, KRp :: r') => Some (FExp e, r') | _ => None end
          else if is_name "sum" x then
            match e_sum f r with
            | Some (e, KRp :: r') => Some (FSum e, r')
            | Some (e, KComma :: KName d :: KEq :: KNum q :: KRp :: r') =>
                if is_name "dim" d then option_map (fun n => (FSumDim e n, r')) (index q) else None
            | _ => None
            end
          else None
      | KName x :: r => Some (FName x, r)
      | KLp :: r => match e_sum f r with Some (e, KRp :: r') => Some (e, r') | _ => None end
      | _ => None
      end
  end.

(* Statements: assignment to an integer; to a real scalar (no subscripts) or a
   part of an array. *)
Inductive fstmt := FSetI (x : str) (e : iexp) | FSet (x : str) (s : list sect) (e : fexp).
Variable int : str -> bool.
Definition read_fstmt (ts : list rtok) : option fstmt :=
  match ts with
  | KName x :: KEq :: r =>
      if int x then match i_sum (fuel_for r) r with Some (e, []) => Some (FSetI x e) | _ => None end
      else match e_sum (fuel_for r) r with Some (e, []) => Some (FSet x [] e) | _ => None end
  | KName x :: KLp :: r =>
      if arr x then
        match sects (fuel_for r) r with
        | Some (s, KEq :: r') => match e_sum (fuel_for r') r' with Some (e, []) => Some (FSet x s e) | _ => None end
        | _ => None
        end
      else None
  | _ => None
  end.
End Parse.

(* ------------------------------------------------------------------ *)
(* Lines of the program: directives and code, without comments. *)
Inductive fline := LOmp (ts : list rtok) | LCode (ts : list rtok).
Fixpoint code_lines (ls : list str) : option (list fline) :=
  match ls with
  | [] => Some []
  | l :: ls' =>
      match prefix_rest omp_mark l with
      | Some r => match tokens f_src r with Some ts => ocons (Some (LOmp ts)) (code_lines ls') | None => None end
      | None => match tokens f_src l with
                | Some [] => code_lines ls'
                | Some ts => ocons (Some (LCode ts)) (code_lines ls')
                | None => None
                end
      end
  end.

(* Declarations: type, then attributes or a list of names. *)
Record vdecl := VDecl { v_name : str; v_int : bool; v_intent : option str; v_dims : list nat; v_value : option Q }.
Fixpoint v_names (int : bool) (io : option str) (dims : list nat) (ts : list rtok) : option (list vdecl) :=
  match ts with
  | [KName x] => Some [VDecl x int io dims None]
  | KName x :: KComma :: r => ocons (Some (VDecl x int io dims None)) (v_names int io dims r)
  | _ => None
  end.
Fixpoint v_attrs (f : nat) (int : bool) (io : option str) (dims : list nat) (param : bool) (ts : list rtok) : option (list vdecl) :=
  match f with
  | 0 => None
  | S f =>
      match ts with
      | KComma :: KName a :: KLp :: r =>
          if is_name "intent" a then match r with KName i :: KRp :: r' => v_attrs f int (Some i) dims param r' | _ => None end
          else if is_name "dimension" a then match read_dims r with Some (d, r') => v_attrs f int io d param r' | None => None end
          else None
      | KComma :: KName a :: r => if is_name "parameter" a then v_attrs f int io dims true r else None
      | KColon :: KColon :: KName x :: KEq :: r => match param, r with true, [KNum q] => Some [VDecl x int io dims (Some q)] | _, _ => None end
      | KColon :: KColon :: r => if param then None else v_names int io dims r
      | _ => match io, dims, param with None, [], false => v_names int io dims ts | _, _, _ => None end
      end
  end.
Definition read_vdecl (ts : list rtok) : option (list vdecl) :=
  match ts with
  | KName a :: KLp :: KNum q :: KRp :: r =>
      if Qeq_bool q 8 then
        if is_name "real" a then v_attrs (List.length r) false None [] false r
        else if is_name "integer" a then v_attrs (List.length r) true None [] false r
        else None
      else None
  | _ => None
  end.
Fixpoint v_part (ls : list fline) : option (list vdecl * list fline) :=
  match ls with
  | LCode ts :: ls' =>
      match read_vdecl ts with
      | Some ds => match v_part ls' with Some (ds', r) => Some (ds ++ ds', r) | None => None end
      | None => Some ([], ls)
      end
  | _ => Some ([], ls)
  end.

(* PRIVATE(..), SHARED(..): the private names and the shared ones. *)
Fixpoint clauses (f : nat) (ts : list rtok) : option (list str * list str) :=
  match f with
  | 0 => None
  | S f =>
      match ts with
      | KName c :: KLp :: r =>
          match read_args r with
          | Some (xs, r') =>
              match (match r' with [] => Some ([], []) | KComma :: r2 => clauses f r2 | _ => None end) with
              | Some (p, s) => if is_name "private" c then Some (xs ++ p, s) else if is_name "shared" c then Some (p, xs ++ s) else None
              | None => None
              end
          | None => None
          end
      | _ => None
      end
  end.
Definition read_parallel_do (ts : list rtok) : option (list str * list str) :=
  match ts with
  | KName a :: KName b :: r => if is_name "parallel" a && is_name "do" b then clauses (List.length r) r else None
  | _ => None
  end.
Definition is_words (ws : list string) (ts : list rtok) : bool :=
  (List.length ws =? List.length ts) && forallb (fun p => match snd p with KName x => is_name (fst p) x | _ => false end) (combine ws ts).

Record fsub := FSubroutine {
  fs_name : str; fs_args : list str; fs_decls : list vdecl;
  fs_pre : list fstmt;
  fs_private : list str; fs_shared : list str; fs_var : str; fs_bound : nat; fs_body : list fstmt;
  fs_post : list fstmt }.

Fixpoint span_lines2 (p : fline -> bool) (ls : list fline) : list fline * list fline :=
  match ls with l :: ls' => if p l then let (a, b) := span_lines2 p ls' in (l :: a, b) else ([], ls) | [] => ([], []) end.
Definition plain_code (l : fline) : bool := match l with LOmp _ => false | LCode ts => negb (is_words ["enddo"%string] ts) && negb (is_words ["end"; "subroutine"]%string ts) end.
Section Body.
Variable ds : list vdecl.
Definition is_arr (x : str) : bool := existsb (fun d => eqb x (v_name d) && match v_dims d with [] => false | _ => true end) ds.
Definition is_int (x : str) : bool := existsb (fun d => eqb x (v_name d) && v_int d) ds.
Definition stmt_of (l : fline) : option fstmt := match l with LCode ts => read_fstmt is_arr is_int ts | LOmp _ => None end.
Fixpoint stmts_of (ls : list fline) : option (list fstmt) :=
  match ls with [] => Some [] | l :: ls' => ocons (stmt_of l) (stmts_of ls') end.

(* implicit none: every name is declared. *)
Definition has_decl (x : str) : bool := existsb (fun d => eqb x (v_name d)) ds.
Fixpoint i_known (e : iexp) : bool :=
  match e with INum _ => true | IVar x => has_decl x | IAdd a b | ISub a b | IMul a b => i_known a && i_known b end.
Definition s_known (s : sect) : bool := match s with SAll => true | SAt i => i_known i | SFromTo i j => i_known i && i_known j end.
Fixpoint e_known (e : fexp) : bool :=
  match e with
  | FNum _ => true | FName x => has_decl x | FPart x s => has_decl x && forallb s_known s
  | FAdd a b | FSub a b | FMul a b | FDiv a b | FPow a b => e_known a && e_known b
  | FExp a | FSum a | FSumDim a _ => e_known a
  end.
Definition f_known (s : fstmt) : bool :=
  match s with FSetI x e => has_decl x && i_known e | FSet x s e => has_decl x && forallb s_known s && e_known e end.
End Body.
Fixpoint distinct (l : list str) : bool := match l with [] => true | x :: l' => negb (inb x l') && distinct l' end.

Definition read_body (name : str) (args : list str) (ls : list fline) : option fsub :=
  match v_part ls with
  | None => None
  | Some (ds, rest) =>
      let (pre, rest) := span_lines2 plain_code rest in
      match rest with
      | LOmp omp :: LCode [KName w; KName v; KEq; KNum one; KComma; KNum n] :: rest =>
          let (body, rest) := span_lines2 plain_code rest in
          match rest with
          | LCode e :: LOmp e' :: rest =>
              let (post, rest) := span_lines2 plain_code rest in
              match rest, read_parallel_do omp, index n with
              | [LCode e''], Some (priv, shr), Some nb =>
                  if is_name "do" w && Qeq_bool one 1 && is_words ["enddo"%string] e &&
                     is_words ["end"; "parallel"; "do"]%string e' && is_words ["end"; "subroutine"]%string e'' then
                    obind (stmts_of ds pre) (fun pre =>
                    obind (stmts_of ds body) (fun body =>
                    obind (stmts_of ds post) (fun post =>
                    if distinct (map v_name ds) && forallb (has_decl ds) (v :: args ++ priv ++ shr) && is_int ds v &&
                       forallb (f_known ds) (pre ++ body ++ post)
                    then Some (FSubroutine name args ds pre priv shr v nb body post) else None)))
                  else None
              | _, _, _ => None
              end
          | _ => None
          end
      | _ => None
      end
  end.
Definition read_fsub (text : str) : option fsub :=
  obind (logical None (split_char NL text)) (fun ls =>
  obind (code_lines ls) (fun ls =>
  match ls with
  | LCode (KName w :: KName f :: KLp :: r) :: LCode i :: ls' =>
      if is_name "subroutine" w && is_words ["implicit"; "none"]%string i then
        match read_args r with Some (args, []) => read_body f args ls' | _ => None end
      else None
  | _ => None
  end)).

(* ------------------------------------------------------------------ *)
(* Running *)
Inductive value := VS (r : R) | VV (l : list R) | VM (rows : list (list R)).
Record store := Store { st_int : list (str * Z); st_val : list (str * value) }.
Fixpoint look {A} (x : str) (m : list (str * A)) : option A :=
  match m with [] => None | (y, v) :: m' => if eqb x y then Some v else look x m' end.
Definition put {A} (x : str) (v : A) (m : list (str * A)) : list (str * A) := (x, v) :: m.

Fixpoint ieval (m : list (str * Z)) (e : iexp) : option Z :=
  match e with
  | INum n => Some (Z.of_nat n)
  | IVar x => look x m
  | IAdd a b => obind (ieval m a) (fun x => obind (ieval m b) (fun y => Some (x + y)%Z))
  | ISub a b => obind (ieval m a) (fun x => obind (ieval m b) (fun y => Some (x - y)%Z))
  | IMul a b => obind (ieval m a) (fun x => obind (ieval m b) (fun y => Some (x * y)%Z))
  end.
(* A subscript in 1..n, counted from 0. *)
Definition cell_of (n : nat) (z : Z) : option nat :=
  if ((1 <=? z) && (z <=? Z.of_nat n))%Z then Some (Z.to_nat (z - 1)) else None.
(* A section i:j inside 1..n: how many elements come before it, how many are
   in it. *)
Definition range_of (n : nat) (i j : Z) : option (nat * nat) :=
  if (j <? i)%Z then Some (0, 0)
  else if ((1 <=? i) && (j <=? Z.of_nat n))%Z then Some (Z.to_nat (i - 1), Z.to_nat (j - i + 1)) else None.

Fixpoint traverse {A B} (f : A -> option B) (l : list A) : option (list B) :=
  match l with [] => Some [] | a :: l' => obind (f a) (fun b => obind (traverse f l') (fun r => Some (b :: r))) end.
Fixpoint zip_with (f : R -> R -> option R) (l l' : list R) : option (list R) :=
  match l, l' with
  | [], [] => Some []
  | a :: l, b :: l' => obind (f a b) (fun c => obind (zip_with f l l') (fun r => Some (c :: r)))
  | _, _ => None
  end.
(* Elementwise; a scalar goes with every element. *)
Definition lift2 (f : R -> R -> option R) (a b : value) : option value :=
  match a, b with
  | VS x, VS y => option_map VS (f x y)
  | VS x, VV l => option_map VV (traverse (fun y => f x y) l)
  | VV l, VS y => option_map VV (traverse (fun x => f x y) l)
  | VV l, VV l' => option_map VV (zip_with f l l')
  | _, _ => None
  end.
Definition total (f : R -> R -> R) (x y : R) : option R := Some (f x y).

Section Eval.
Variable m : store.
Definition part_of (v : value) (s : list sect) : option value :=
  match v, s with
  | VV l, [SAll] => Some (VV l)
  | VV l, [SAt i] => obind (ieval (st_int m) i) (fun z => obind (cell_of (List.length l) z) (fun k => option_map VS (nth_error l k)))
  | VV l, [SFromTo i j] =>
      obind (ieval (st_int m) i) (fun a => obind (ieval (st_int m) j) (fun b =>
      obind (range_of (List.length l) a b) (fun r => Some (VV (firstn (snd r) (skipn (fst r) l))))))
  | _, _ => None
  end.
Fixpoint feval (e : fexp) : option value :=
  match e with
  | FNum q => Some (VS (Q2R q))
  | FName x => look x (st_val m)
  | FPart x s => obind (look x (st_val m)) (fun v => part_of v s)
  | FAdd a b => obind (feval a) (fun x => obind (feval b) (lift2 (total Rplus) x))
  | FSub a b => obind (feval a) (fun x => obind (feval b) (lift2 (total Rminus) x))
  | FMul a b => obind (feval a) (fun x => obind (feval b) (lift2 (total Rmult) x))
  | FDiv a b => obind (feval a) (fun x => obind (feval b) (lift2 rdiv x))
  | FPow a b => obind (feval a) (fun x => obind (feval b) (lift2 rpow x))
  | FExp a => obind (feval a) (fun v => match v with VS x => Some (VS (exp x)) | VV l => Some (VV (map exp l)) | VM _ => None end)
  | FSum a => obind (feval a) (fun v => match v with VV l => Some (VS (rsum l)) | _ => None end)
  | FSumDim a d => obind (feval a) (fun v => match v, d with VM rows, 2 => Some (VV (map rsum rows)) | _, _ => None end)
  end.

Definition replace_at {A} (k : nat) (v : A) (l : list A) : list A := firstn k l ++ v :: skipn (S k) l.
(* The new value of a variable after assigning to part of it. *)
Definition store_part (old : value) (s : list sect) (v : value) : option value :=
  match old, s, v with
  | VS _, [], VS r => Some (VS r)
  | VV l, [SAll], VS r => Some (VV (map (fun _ => r) l))
  | VV l, [SAll], VV l' => if List.length l =? List.length l' then Some (VV l') else None
  | VM rows, [SAll; SAll], VS r => Some (VM (map (map (fun _ => r)) rows))
  | VV l, [SAt i], VS r =>
      obind (ieval (st_int m) i) (fun z => obind (cell_of (List.length l) z) (fun k => Some (VV (replace_at k r l))))
  | VV l, [SFromTo i j], VV l' =>
      obind (ieval (st_int m) i) (fun a => obind (ieval (st_int m) j) (fun b =>
      obind (range_of (List.length l) a b) (fun r =>
      if snd r =? List.length l' then Some (VV (firstn (fst r) l ++ l' ++ skipn (fst r + snd r) l)) else None)))
  | VM rows, [SAt i; SAt j], VS r =>
      obind (ieval (st_int m) i) (fun a => obind (ieval (st_int m) j) (fun b =>
      obind (cell_of (List.length rows) a) (fun k =>
      obind (nth_error rows k) (fun row =>
      obind (cell_of (List.length row) b) (fun k' => Some (VM (replace_at k (replace_at k' r row) rows)))))))
  | _, _, _ => None
  end.
End Eval.

Definition run_fstmt (s : fstmt) (m : store) : option store :=
  match s with
  | FSetI x e => obind (look x (st_int m)) (fun _ => obind (ieval (st_int m) e) (fun z => Some (Store (put x z (st_int m)) (st_val m))))
  | FSet x s e =>
      obind (feval m e) (fun v => obind (look x (st_val m)) (fun old =>
      obind (store_part m old s v) (fun w => Some (Store (st_int m) (put x w (st_val m))))))
  end.
Fixpoint run_fstmts (l : list fstmt) (m : store) : option store :=
  match l with [] => Some m | s :: l' => obind (run_fstmt s m) (run_fstmts l') end.

(* What is in memory before anything is assigned. *)
Record garbage := Garbage { g_real : str -> nat -> R; g_int : str -> Z }.
Definition shaped (dims : list nat) (j : nat -> R) : option value :=
  match dims with
  | [] => Some (VS (j 0))
  | [n] => Some (VV (array n j))
  | [n; k] => Some (VM (map (fun i => array k (fun l => j (i * k + l))) (seq 0 n)))
  | _ => None
  end.
(* Undefined contents for a declared variable: arrays of integers take no part
   in any statement and get no place. *)
Definition undefined_one (g : garbage) (d : vdecl) (m : store) : option store :=
  match v_int d, v_dims d with
  | true, [] => Some (Store (put (v_name d) (g_int g (v_name d)) (st_int m)) (st_val m))
  | true, _ => Some m
  | false, dims => obind (shaped dims (g_real g (v_name d))) (fun v => Some (Store (st_int m) (put (v_name d) v (st_val m))))
  end.
Definition with_value (d : vdecl) (m : store) : option store :=
  match v_value d with
  | None => Some m
  | Some q => if v_int d then obind (index q) (fun n => Some (Store (put (v_name d) (Z.of_nat n) (st_int m)) (st_val m)))
              else Some (Store (st_int m) (put (v_name d) (VS (Q2R q)) (st_val m)))
  end.
Fixpoint ofold {A B} (f : A -> B -> option B) (l : list A) (b : B) : option B :=
  match l with [] => Some b | a :: l' => obind (f a b) (ofold f l') end.

(* Actual arguments: f2py checks type and extent (3475-3493). *)
Inductive actual := AReal (r : R) | AReals (l : list R) | AInts (l : list Z).
Definition decl_of (ds : list vdecl) (x : str) : option vdecl := find (fun d => eqb x (v_name d)) ds.
Definition intent_is (w : string) (d : vdecl) : bool := match v_intent d with Some i => is_name w i | None => false end.
Definition bind_arg (d : vdecl) (a : actual) (m : store) : option store :=
  match a, v_int d, v_dims d with
  | AReal r, false, [] => Some (Store (st_int m) (put (v_name d) (VS r) (st_val m)))
  | AReals l, false, [n] => if List.length l =? n then Some (Store (st_int m) (put (v_name d) (VV l) (st_val m))) else None
  | AInts l, true, [n] => if List.length l =? n then Some m else None
  | _, _, _ => None
  end.
Fixpoint bind_args (ds : list vdecl) (vs : list actual) (m : store) : option store :=
  match ds, vs with
  | [], [] => Some m
  | d :: ds', v :: vs' => obind (bind_arg d v m) (bind_args ds' vs')
  | _, _ => None
  end.
Definition pick (ds : list vdecl) (xs : list str) : list vdecl := flat_map (fun x => match decl_of ds x with Some d => [d] | None => [] end) xs.
Definition dummies (w : string) (p : fsub) : list vdecl := filter (intent_is w) (pick (fs_decls p) (fs_args p)).

(* The private copies of a thread are undefined at the start of the loop; the
   variables of that name outside the loop keep their values. *)
Definition enter (g : garbage) (p : fsub) (m : store) : option store := ofold (undefined_one g) (pick (fs_decls p) (fs_private p)) m.
Definition restore_one (before : store) (d : vdecl) (m : store) : option store :=
  match v_int d, v_dims d with
  | true, [] => obind (look (v_name d) (st_int before)) (fun z => Some (Store (put (v_name d) z (st_int m)) (st_val m)))
  | true, _ => Some m
  | false, _ => obind (look (v_name d) (st_val before)) (fun v => Some (Store (st_int m) (put (v_name d) v (st_val m))))
  end.
Definition leave (p : fsub) (before m : store) : option store := ofold (restore_one before) (pick (fs_decls p) (fs_private p)) m.
Definition iteration (p : fsub) (b : nat) (m : store) : option store :=
  run_fstmts (fs_body p) (Store (put (fs_var p) (Z.of_nat (S b)) (st_int m)) (st_val m)).

(* A call: the results are the intent(out) arguments in order.  [order]: the
   iterations in the order in which the thread runs them. *)
Definition call_fsub (p : fsub) (order : list nat) (g g' : garbage) (vs : list actual) : option (list value) :=
  obind (ofold (undefined_one g) (fs_decls p) (Store [] [])) (fun m =>
  obind (ofold with_value (fs_decls p) m) (fun m =>
  obind (bind_args (dummies "in" p) vs m) (fun m =>
  obind (run_fstmts (fs_pre p) m) (fun m =>
  obind (enter g' p m) (fun m1 =>
  obind (ofold (iteration p) order m1) (fun m2 =>
  obind (leave p m m2) (fun m3 =>
  obind (run_fstmts (fs_post p) m3) (fun m4 =>
  traverse (fun d => look (v_name d) (st_val m4)) (dummies "out" p))))))))).
