(* How Python and gfortran read the generated source files Reactants_conc*,
   Loss_Gain* and Jacobian*: lines, continuation, comments, declarations,
   OpenMP directives and assignments.  A file is read into the programs of
   ModelLang; what is not of the shape below is rejected (None), as the
   interpreter or compiler would.  Simplifications: only the statements these
   files use; a subscript is a numeral with a whole value. *)
From Coq Require Import List Bool Arith Lia Ascii String ZArith QArith.
From Verif Require Import Base PyStr SpecRate ModelExpr ModelLang.
Import ListNotations.
Import Coq.Lists.List.
Open Scope nat_scope.
Open Scope list_scope.

(* Spelling: Python distinguishes case, Fortran does not; numerals may have an
   exponent with e (Python) or e, d (Fortran). *)
Definition py_src : rlang :=
  RLang (fun x => x) (fun c => Ascii.eqb c "e" || Ascii.eqb c "E") "#" (fun _ => false) (fun _ => None) false.
Definition f_src : rlang :=
  RLang lower (fun c => Ascii.eqb c "e" || Ascii.eqb c "E" || Ascii.eqb c "d" || Ascii.eqb c "D") "!" (fun _ => false) (fun _ => None) true.

Definition is_name (w : string) (x : str) : bool := eqb x (s_ w).
Definition index (q : Q) : option nat :=
  if (Qden q =? 1)%positive && (0 <=? Qnum q)%Z then Some (Z.to_nat (Qnum q)) else None.
Definition array_name (x : str) : option arr := if is_name "y" x then Some AY else if is_name "r" x then Some AR else None.

(* An element of an array: brackets in Python (sq), parentheses in Fortran. *)
Definition read_ref (x : str) (q : Q) : option tok :=
  match array_name x, index q with Some a, Some i => Some (TRef a i) | _, _ => None end.
Definition ocons {A} (a : option A) (l : option (list A)) : option (list A) :=
  match a, l with Some a, Some l => Some (a :: l) | _, _ => None end.
Fixpoint read_toks (sq : bool) (ts : list rtok) : option (list tok) :=
  match ts with
  | [] => Some []
  | KNum q :: r => ocons (Some (TNum (Qred q))) (read_toks sq r)
  | KName x :: KLb :: KNum q :: KRb :: r => if sq then ocons (read_ref x q) (read_toks sq r) else None
  | KName x :: KLp :: KNum q :: KRp :: r => if sq then None else ocons (read_ref x q) (read_toks sq r)
  | KMul :: r => ocons (Some TStar) (read_toks sq r)
  | KPow :: r => ocons (Some TPow) (read_toks sq r)
  | KAdd :: r => ocons (Some TPlus) (read_toks sq r)
  | KSub :: r => ocons (Some TMinus) (read_toks sq r)
  | _ => None
  end.

(* The subscripts of the cell assigned to, up to and including the equals
   sign: one or two. *)
Definition cell_reader (C : Type) := bool -> list rtok -> option (C * list rtok).
Definition one_subscript : cell_reader nat := fun sq ts =>
  match ts with
  | KLb :: KNum q :: KRb :: KEq :: r => if sq then option_map (fun i => (i, r)) (index q) else None
  | KLp :: KNum q :: KRp :: KEq :: r => if sq then None else option_map (fun i => (i, r)) (index q)
  | _ => None
  end.
Definition opair {A B} (a : option A) (b : option B) : option (A * B) :=
  match a, b with Some a, Some b => Some (a, b) | _, _ => None end.
Definition two_subscripts : cell_reader (nat * nat) := fun sq ts =>
  match ts with
  | KLb :: KNum q :: KComma :: KNum q' :: KRb :: KEq :: r => if sq then option_map (fun ij => (ij, r)) (opair (index q) (index q')) else None
  | KLp :: KNum q :: KComma :: KNum q' :: KRp :: KEq :: r => if sq then None else option_map (fun ij => (ij, r)) (opair (index q) (index q'))
  | _ => None
  end.

Section Files.
Context {C : Type} (cellp : cell_reader C).

(* 'out[i]=expression' *)
Definition read_assign (sq : bool) (out : str) (ts : list rtok) : option (item C) :=
  match ts with
  | KName x :: r =>
      if eqb x out then
        match cellp sq r with
        | Some (c, r') => option_map (Assign c) (read_toks sq r')
        | None => None
        end
      else None
  | _ => None
  end.

Fixpoint read_args (ts : list rtok) : option (list str * list rtok) :=
  match ts with
  | KName x :: KRp :: r => Some ([x], r)
  | KName x :: KComma :: r => match read_args r with Some (l, r') => Some (x :: l, r') | None => None end
  | _ => None
  end.

(* ------------------------------------------------------------------ *)
(* Python: comments, imports and decorators; one function with a body indented
   by four blanks which assigns to elements of one array and returns it. *)
Record source := Source { src_name : str; src_args : list str; src_out : str; src_prog : list (item C) }.

Definition blank (l : str) : bool := match tokens py_src l with Some [] => true | _ => false end.
Fixpoint py_body (out : str) (ls : list str) : option (list (item C)) :=
  match ls with
  | [] => None
  | l :: ls' =>
      match tokens py_src l with
      | Some [] => py_body out ls'
      | Some [KName w; KName x] => if is_name "return" w && eqb x out && (List.length (fst (span is_space l)) =? 4) && forallb blank ls' then Some [] else None
      | Some ts => if List.length (fst (span is_space l)) =? 4 then ocons (read_assign true out ts) (py_body out ls') else None
      | None => None
      end
  end.
(* The name after return. *)
Fixpoint py_result (ls : list str) : option str :=
  match ls with
  | [] => None
  | l :: ls' => match tokens py_src l with
                | Some [KName w; KName x] => if is_name "return" w then Some x else py_result ls'
                | _ => py_result ls'
                end
  end.
Fixpoint py_lines (ls : list str) : option source :=
  match ls with
  | [] => None
  | ("@"%char :: _) :: ls' => py_lines ls'
  | l :: ls' =>
      match tokens py_src l with
      | Some [] => py_lines ls'
      | Some (KName w :: r) =>
          if is_name "import" w then py_lines ls'
          else if is_name "def" w then
            match r with
            | KName f :: KLp :: r =>
                match read_args r, py_result ls' with
                | Some (args, [KColon]), Some out => option_map (Source f args out) (py_body out ls')
                | _, _ => None
                end
            | _ => None
            end
          else None
      | _ => None
      end
  end.
Definition read_python (text : str) : option source := py_lines (split_char NL text).

(* ------------------------------------------------------------------ *)
(* Fortran free form: a line that ends in & goes on in the next one; more than
   132 characters are an error except in comments. *)
Definition rstrip (s : str) : str := rev (lstrip is_space (rev s)).
Definition omp_mark : str := s_ "!$OMP".
Definition is_comment (l : str) : bool :=
  match lstrip is_space l with
  | c :: r => Ascii.eqb c "!" && match prefix_rest omp_mark (c :: r) with Some _ => false | None => true end
  | [] => false
  end.
Definition fits (l : str) : bool := is_comment l || (List.length (rstrip l) <=? 132).
(* The line without its final &. *)
Definition continued (l : str) : option str :=
  if is_comment l then None
  else match lstrip is_space (rev l) with
       | "&"%char :: r => Some (rev r)
       | _ => None
       end.
(* A directive goes on after the mark !$OMP&. *)
Definition unmark (l : str) : str := match prefix_rest (s_ "!$OMP&") l with Some r => r | None => l end.
Fixpoint logical (pre : option str) (ls : list str) : option (list str) :=
  match ls with
  | [] => match pre with None => Some [] | Some _ => None end
  | l :: ls' =>
      if fits l then
        let whole l := match pre with None => l | Some p => p ++ unmark l end in
        match continued l with
        | Some l0 => logical (Some (whole l0)) ls'
        | None => ocons (Some (whole l)) (logical None ls')
        end
      else None
  end.

Definition omp_line (l : str) : option (option (item C)) :=
  match prefix_rest omp_mark l with
  | None => None
  | Some r =>
      Some (match split_ws r with
            | [a] => if is_name "SINGLE" a then Some OmpSingle else None
            | [a; b] => if is_name "END" a && is_name "PARALLEL" b then Some OmpEndParallel
                        else if is_name "PARALLEL" a then Some OmpParallel else None
            | [a; b; c] => if is_name "END" a && is_name "SINGLE" b && is_name "NOWAIT" c then Some OmpEndSingle
                           else if is_name "PARALLEL" a then Some OmpParallel else None
            | _ => None
            end)
  end.

(* REAL(8), intent(..), dimension(n) :: x   or dimension(n,n) *)
Fixpoint read_dims (ts : list rtok) : option (list nat * list rtok) :=
  match ts with
  | KNum q :: KRp :: r => option_map (fun n => ([n], r)) (index q)
  | KNum q :: KComma :: r => match index q, read_dims r with Some n, Some (l, r') => Some (n :: l, r') | _, _ => None end
  | _ => None
  end.
Definition declaration := (str * (str * list nat))%type.   (* name, intent, shape *)
Definition read_decl (ts : list rtok) : option declaration :=
  match ts with
  | KName a :: KLp :: KNum _ :: KRp :: KComma :: KName b :: KLp :: KName io :: KRp :: KComma :: KName c :: KLp :: r =>
      if is_name "real" a && is_name "intent" b && is_name "dimension" c then
        match read_dims r with
        | Some (d, [KColon; KColon; KName x]) => Some (x, (io, d))
        | _ => None
        end
      else None
  | _ => None
  end.
(* out(:)=0.0D0 or out(:,:)=0.0D0 *)
Definition read_clear (ts : list rtok) : option str :=
  match ts with
  | [KName x; KLp; KColon; KRp; KEq; KNum q] | [KName x; KLp; KColon; KComma; KColon; KRp; KEq; KNum q] =>
      if Qeq_bool q 0 then Some x else None
  | _ => None
  end.

Record fsource := FSource { f_name : str; f_args : list str; f_decls : list declaration; f_cleared : bool; f_prog : list (item C) }.

(* The executable part: clearing (before anything else), directives,
   assignments to the output, end subroutine. *)
Fixpoint f_body (out : str) (ls : list str) : option (list (item C)) :=
  match ls with
  | [] => None
  | l :: ls' =>
      match omp_line l with
      | Some o => ocons o (f_body out ls')
      | None =>
          match tokens f_src l with
          | Some [] => f_body out ls'
          | Some [KName a; KName b] => if is_name "end" a && is_name "subroutine" b && forallb (fun l => match tokens f_src l with Some [] => true | _ => false end) ls' then Some [] else None
          | Some ts => ocons (read_assign false out ts) (f_body out ls')
          | None => None
          end
      end
  end.
(* Declarations; the array with intent(out) is the result. *)
Fixpoint f_decl_part (ds : list declaration) (ls : list str) : option (list declaration * bool * list (item C)) :=
  let out := match find (fun d => is_name "out" (fst (snd d))) ds with Some (x, _) => x | None => [] end in
  match ls with
  | [] => None
  | l :: ls' =>
      match omp_line l, tokens f_src l with
      | None, Some [] => f_decl_part ds ls'
      | None, Some ts =>
          match read_decl ts with
          | Some d => f_decl_part (ds ++ [d]) ls'
          | None =>
              match read_clear ts with
              | Some x => if eqb x out then option_map (fun p => (ds, true, p)) (f_body out ls') else None
              | None => option_map (fun p => (ds, false, p)) (f_body out ls)
              end
          end
      | _, _ => option_map (fun p => (ds, false, p)) (f_body out ls)
      end
  end.
Fixpoint f_implicit (ls : list str) : option (list declaration * bool * list (item C)) :=
  match ls with
  | [] => None
  | l :: ls' => match tokens f_src l with
                | Some [] => f_implicit ls'
                | Some [KName a; KName b] => if is_name "implicit" a && is_name "none" b then f_decl_part [] ls' else None
                | _ => None
                end
  end.
Fixpoint f_lines (ls : list str) : option fsource :=
  match ls with
  | [] => None
  | l :: ls' =>
      match tokens f_src l with
      | Some [] => f_lines ls'
      | Some (KName w :: KName f :: KLp :: r) =>
          if is_name "subroutine" w then
            match read_args r, f_implicit ls' with
            | Some (args, []), Some (ds, cl, p) => Some (FSource f args ds cl p)
            | _, _ => None
            end
          else None
      | _ => None
      end
  end.
Definition read_fortran (text : str) : option fsource :=
  match logical None (split_char NL text) with Some ls => f_lines ls | None => None end.
End Files.
Arguments source : clear implicits. Arguments Source {C}. Arguments fsource : clear implicits. Arguments FSource {C}.
