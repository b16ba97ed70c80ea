(* A small backtracking regular-expression matcher in the style of Python's
   [re]: the list of ways to match at the current position, in priority
   order; [re.findall] takes the first. *)
From Coq Require Import List Bool Arith Lia Ascii String.
From Verif Require Import Base PyStr.
Import ListNotations.
Open Scope list_scope.

Inductive re :=
| RCls (p : ascii -> bool)      (* one character of a class *)
| RSeq (a b : re)
| RAlt (a b : re)               (* a|b, a preferred *)
| ROpt (p : ascii -> bool)      (* [..]?  greedy *)
| RStar (p : ascii -> bool)     (* [..]*  greedy *)
| RPlus (p : ascii -> bool)     (* [..]+  greedy *)
| RLazy (p : ascii -> bool).    (* [..]*? lazy *)

(* Each function returns the numbers of characters consumed, in the order in
   which Python's engine would try them. *)
Fixpoint star_greedy (p : ascii -> bool) (s : str) : list nat :=
  match s with
  | c :: s' => if p c then map S (star_greedy p s') ++ [0] else [0]
  | [] => [0]
  end.

Fixpoint star_lazy (p : ascii -> bool) (s : str) : list nat :=
  match s with
  | c :: s' => if p c then 0 :: map S (star_lazy p s') else [0]
  | [] => [0]
  end.

Fixpoint rmatch (r : re) (s : str) : list nat :=
  match r with
  | RCls p => match s with c :: _ => if p c then [1] else [] | [] => [] end
  | RSeq a b => flat_map (fun n => map (Nat.add n) (rmatch b (skipn n s))) (rmatch a s)
  | RAlt a b => rmatch a s ++ rmatch b s
  | ROpt p => match s with c :: _ => if p c then [1; 0] else [0] | [] => [0] end
  | RStar p => star_greedy p s
  | RPlus p => match s with
               | c :: s' => if p c then map S (star_greedy p s') else []
               | [] => []
               end
  | RLazy p => star_lazy p s
  end.

(* re.findall(pattern, s): scan for non-overlapping matches from the left;
   [out n s] is the text reported for a match of n characters at s (the
   group, or the whole match).  [skip] counts characters already consumed.
   None of PyBox's patterns can match the empty string. *)
Fixpoint findall_aux (r : re) (out : nat -> str -> str) (skip : nat) (s : str) : list str :=
  match s with
  | [] => []
  | c :: s' =>
      match skip with
      | S k => findall_aux r out k s'
      | 0 => match rmatch r s with
             | n :: _ => out n s :: findall_aux r out (n - 1) s'
             | [] => findall_aux r out 0 s'
             end
      end
  end.

Definition findall (r : re) (out : nat -> str -> str) (s : str) : list str :=
  findall_aux r out 0 s.

(* Report the whole match. *)
Definition whole (n : nat) (s : str) : str := firstn n s.
(* Report group 1 of a pattern  c(...)d  with one-character delimiters. *)
Definition inner (n : nat) (s : str) : str := firstn (n - 2) (skipn 1 s).

Definition lit (c : ascii) : re := RCls (Ascii.eqb c).
Definition not_nl (c : ascii) : bool := negb (Ascii.eqb c NL).

(* r"\{(.*?)\}"  -- Parse_eqn_file.py:88 *)
Definition re_label : re := RSeq (lit "{") (RSeq (RLazy not_nl) (lit "}")).
(* r"\}(.*?)\;"  -- Parse_eqn_file.py:128 *)
Definition re_body : re := RSeq (lit "}") (RSeq (RLazy not_nl) (lit ";")).
(* r"[-+]?\d*\.\d+|\d+|\d+"  -- Parse_eqn_file.py:185, 239 *)
Definition is_sign (c : ascii) : bool := Ascii.eqb c "-" || Ascii.eqb c "+".
Definition re_number : re :=
  RAlt (RSeq (ROpt is_sign) (RSeq (RStar is_digit) (RSeq (lit ".") (RPlus is_digit))))
       (RAlt (RPlus is_digit) (RPlus is_digit)).

Definition findall_labels (s : str) : list str := findall re_label inner s.
Definition findall_bodies (s : str) : list str := findall re_body inner s.
Definition findall_numbers (s : str) : list str := findall re_number whole s.
