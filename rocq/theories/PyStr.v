(* Python strings (ASCII only) as lists of characters, with the string
   methods that PyBox calls. *)
From Coq Require Import List Bool Arith Lia Ascii String ZArith QArith.
From Verif Require Import Base.
Import ListNotations.
Open Scope nat_scope.
Open Scope list_scope.

Definition str := list ascii.
Definition s_ (x : string) : str := list_ascii_of_string x.

#[global] Instance EqB_ascii : EqB ascii :=
  {| eqb := Ascii.eqb; eqb_eq := Ascii.eqb_eq |}.

Fixpoint str_eqb (a b : str) : bool :=
  match a, b with
  | [], [] => true
  | x :: a', y :: b' => Ascii.eqb x y && str_eqb a' b'
  | _, _ => false
  end.

Lemma str_eqb_eq a b : str_eqb a b = true <-> a = b.
Proof.
  revert b; induction a as [|x a IH]; intros [|y b]; simpl; split; intros H;
    try discriminate; try reflexivity.
  - apply andb_true_iff in H as [H1 H2]. apply Ascii.eqb_eq in H1.
    apply IH in H2. congruence.
  - injection H as -> ->. apply andb_true_iff; split;
      [apply Ascii.eqb_refl | apply IH; reflexivity].
Qed.

#[global] Instance EqB_str : EqB str := {| eqb := str_eqb; eqb_eq := str_eqb_eq |}.

(* ------------------------------------------------------------------ *)
(* Character classes. *)

Definition ch (n : nat) : ascii := ascii_of_nat n.
Definition NL : ascii := ch 10.
Definition CR : ascii := ch 13.
Definition TAB : ascii := ch 9.
Definition SP : ascii := ch 32.

(* str.isspace() for ASCII characters: \t \n \v \f \r, \x1c..\x1f, space. *)
Definition is_space (c : ascii) : bool :=
  let n := nat_of_ascii c in
  ((9 <=? n) && (n <=? 13)) || ((28 <=? n) && (n <=? 32)).

Definition is_digit (c : ascii) : bool :=
  let n := nat_of_ascii c in (48 <=? n) && (n <=? 57).

Definition digit_val (c : ascii) : nat := nat_of_ascii c - 48.

(* ------------------------------------------------------------------ *)
(* s.replace(c, '') for a single character c. *)
Definition remove_char (c : ascii) (s : str) : str :=
  filter (fun x => negb (Ascii.eqb x c)) s.

(* s.split(c): all pieces separated by the character c. *)
Fixpoint split_char (c : ascii) (s : str) : list str :=
  match s with
  | [] => [[]]
  | x :: s' =>
      if Ascii.eqb x c then [] :: split_char c s'
      else match split_char c s' with
           | [] => [[x]]
           | p :: ps => (x :: p) :: ps
           end
  end.

(* s.split(c, 1): at most one split. *)
Fixpoint split1 (c : ascii) (s : str) : list str :=
  match s with
  | [] => [[]]
  | x :: s' =>
      if Ascii.eqb x c then [[]; s']
      else match split1 c s' with
           | [] => [[x]]
           | p :: ps => (x :: p) :: ps
           end
  end.

(* s.lstrip / s.strip with a character predicate. *)
Fixpoint lstrip (p : ascii -> bool) (s : str) : str :=
  match s with
  | [] => []
  | x :: s' => if p x then lstrip p s' else s
  end.

Definition strip (p : ascii -> bool) (s : str) : str :=
  rev (lstrip p (rev (lstrip p s))).

(* s.split(): maximal runs of non-whitespace. [cur] is the current run,
   reversed. *)
Fixpoint split_ws_aux (cur : str) (s : str) : list str :=
  match s with
  | [] => match cur with [] => [] | _ => [rev cur] end
  | x :: s' =>
      if is_space x
      then match cur with
           | [] => split_ws_aux [] s'
           | _ => rev cur :: split_ws_aux [] s'
           end
      else split_ws_aux (x :: cur) s'
  end.
Definition split_ws (s : str) : list str := split_ws_aux [] s.

(* s.startswith(p) returning the remainder. *)
Fixpoint prefix_rest (p s : str) : option str :=
  match p, s with
  | [], _ => Some s
  | x :: p', y :: s' => if Ascii.eqb x y then prefix_rest p' s' else None
  | _ :: _, [] => None
  end.

(* s.find(p) as an option (None stands for -1). *)
Fixpoint find_sub (p s : str) : option nat :=
  match prefix_rest p s with
  | Some _ => Some 0
  | None => match s with
            | [] => None
            | _ :: s' => option_map S (find_sub p s')
            end
  end.

(* s.find(p, k). *)
Definition find_from (p s : str) (k : nat) : option nat :=
  if k <=? List.length s
  then option_map (fun i => k + i) (find_sub p (skipn k s))
  else None.

(* s.split(p, 1) for a non-empty string p: text before and after the first
   occurrence, or the whole text. *)
Fixpoint split1_str (p s : str) : list str :=
  match prefix_rest p s with
  | Some r => [[]; r]
  | None => match s with
            | [] => [[]]
            | x :: s' => match split1_str p s' with
                         | [] => [[x]]
                         | q :: qs => (x :: q) :: qs
                         end
            end
  end.

(* s.replace(old, new) for non-empty old: non-overlapping, left to right.
   [skip] counts the characters of a match still to be dropped. *)
Fixpoint replace_aux (old new : str) (skip : nat) (s : str) : str :=
  match s with
  | [] => []
  | x :: s' =>
      match skip with
      | S k => replace_aux old new k s'
      | 0 => match prefix_rest old s with
             | Some _ => new ++ replace_aux old new (List.length old - 1) s'
             | None => x :: replace_aux old new 0 s'
             end
      end
  end.
Definition replace (old new s : str) : str := replace_aux old new 0 s.

(* Setting one character of list(s): text_list[i] = c. *)
Fixpoint set_nth {A} (i : nat) (a : A) (l : list A) : list A :=
  match l, i with
  | [], _ => []
  | _ :: l', 0 => a :: l'
  | x :: l', S j => x :: set_nth j a l'
  end.

(* ------------------------------------------------------------------ *)
(* int(s): surrounding whitespace, optional sign, digits with single
   underscores between digits. *)
Fixpoint digits_val (acc : nat) (s : str) : nat :=
  match s with
  | [] => acc
  | c :: s' => digits_val (10 * acc + digit_val c) s'
  end.

(* [want] = true when a digit is required next. *)
Fixpoint int_digits (want : bool) (acc : Z) (s : str) : option Z :=
  match s with
  | [] => if want then None else Some acc
  | c :: s' =>
      if is_digit c then int_digits false (10 * acc + Z.of_nat (digit_val c))%Z s'
      else if Ascii.eqb c "_"%char then (if want then None else int_digits true acc s')
      else None
  end.

Definition py_int (s : str) : res Z :=
  let t := strip is_space s in
  let r := match t with
           | c :: t' => if Ascii.eqb c "-"%char
                        then option_map Z.opp (int_digits true 0 t')
                        else if Ascii.eqb c "+"%char then int_digits true 0 t'
                        else int_digits true 0 t
           | [] => None
           end in
  match r with Some z => Ok z | None => Err ValueError end.

(* float(s) on a plain decimal literal [sign] digits [. digits]; the exact
   decimal value is kept (binary64 rounding is not modelled). *)
Definition pow10 (n : nat) : positive := Pos.pow 10 (Pos.of_nat n).

Fixpoint dec_digits (acc : Z) (s : str) : option Z :=
  match s with
  | [] => Some acc
  | c :: s' => if is_digit c
               then dec_digits (10 * acc + Z.of_nat (digit_val c))%Z s' else None
  end.

Definition dec_unsigned (s : str) : option Q :=
  match split1 "."%char s with
  | [a] => match a with
           | [] => None
           | _ => option_map (fun z => Qmake z 1) (dec_digits 0 a)
           end
  | [a; b] =>
      match a ++ b with
      | [] => None
      | ds => option_map
                (fun z => Qmake z (match List.length b with 0 => 1%positive | n => pow10 n end))
                (dec_digits 0 ds)
      end
  | _ => None
  end.

Definition py_float (s : str) : res Q :=
  let r := match s with
           | c :: s' => if Ascii.eqb c "-"%char then option_map Qopp (dec_unsigned s')
                        else if Ascii.eqb c "+"%char then dec_unsigned s'
                        else dec_unsigned s
           | [] => None
           end in
  match r with Some q => Ok q | None => Err ValueError end.
