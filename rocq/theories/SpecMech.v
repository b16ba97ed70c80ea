(* What a mechanism is and what a mechanism file says, independently of the
   parser. *)
From Coq Require Import List Bool Arith Lia Ascii String ZArith QArith.
From Verif Require Import Base PyStr.
Import ListNotations.
Open Scope nat_scope.
Open Scope list_scope.

(* A term "c A" of a reaction is a coefficient and a name. *)
Definition term := (Q * str)%type.
Record reaction := Rx { lhs : list term; rhs : list term; rtext : str }.
Definition mech := list reaction.

(* 'hv' stands for light and is not a chemical species. *)
Definition light : str := s_ "hv".

Definition names (ts : list term) : list str :=
  filter (fun n => negb (str_eqb n light)) (map snd ts).

(* Total coefficient of species s in a list of terms. *)
Fixpoint total (s : str) (ts : list term) : Q :=
  match ts with
  | [] => 0
  | (c, n) :: ts' => if str_eqb n s then c + total s ts' else total s ts'
  end%Q.

(* All species of a mechanism in reading order, and each once at its first
   occurrence. *)
Definition reading_order (m : mech) : list str :=
  flat_map (fun r => names (lhs r) ++ names (rhs r)) m.

Fixpoint first_seen_from (seen : list str) (l : list str) : list str :=
  match l with
  | [] => []
  | x :: l' => if inb x seen then first_seen_from seen l'
               else x :: first_seen_from (x :: seen) l'
  end.
Definition first_seen (l : list str) : list str := first_seen_from [] l.

(* Position of a name in a list. *)
Definition position (s : str) (l : list str) (i : nat) : Prop := nth_error l i = Some s.

(* ------------------------------------------------------------------ *)
(* How a mechanism file is divided.  [sections a b s l]: scanning s from the
   left, l lists the texts found between an [a] and the next [b]. *)
Inductive sections (a b : ascii) : str -> list str -> Prop :=
| sec_none s : ~ In a s -> sections a b s []
| sec_open pre s : ~ In a pre -> ~ In b s -> sections a b (pre ++ a :: s) []
| sec_some pre mid post l :
    ~ In a pre -> ~ In b mid -> sections a b post l ->
    sections a b (pre ++ a :: mid ++ b :: post) (mid :: l).

(* Line breaks are not significant. *)
Definition no_breaks (s : str) : str :=
  filter (fun c => negb (Ascii.eqb c NL || Ascii.eqb c CR)) s.

Definition blank (s : str) : Prop := Forall (fun c => is_space c = true) s.

(* Decimal numerals. *)
Inductive digits : str -> Z -> Prop :=
| dig_one c : is_digit c = true -> digits [c] (Z.of_nat (digit_val c))
| dig_more s v c : digits s v -> is_digit c = true ->
    digits (s ++ [c]) (10 * v + Z.of_nat (digit_val c))%Z.

Fixpoint ten_to (n : nat) : positive :=
  match n with 0%nat => 1%positive | S k => (10 * ten_to k)%positive end.

Inductive numeral : str -> Q -> Prop :=
| num_int s v : digits s v -> numeral s (v # 1)
| num_dec a b v : digits (a ++ b) v -> b <> [] ->
    numeral (a ++ "."%char :: b) (v # ten_to (List.length b)).

(* A label {..} that carries the number n:  blanks, digits, blanks, dots. *)
Definition label_number (l : str) (n : nat) : Prop :=
  exists b1 ds b2 dots, l = b1 ++ ds ++ b2 ++ dots /\ blank b1 /\ blank b2 /\
    digits ds (Z.of_nat n) /\ Forall (fun c => c = "."%char) dots.

(* Characters that structure the file. *)
Definition structural (c : ascii) : bool :=
  existsb (Ascii.eqb c) ["+"; "="; ":"; ";"; "{"; "}"]%char.

(* A word: non-empty, no white space, no structural character. *)
Definition word (w : str) : Prop :=
  w <> [] /\ Forall (fun c => is_space c = false /\ structural c = false) w.

(* Characters that may start a species name. *)
Definition name_start (c : ascii) : Prop :=
  is_digit c = false /\ c <> "."%char /\ c <> "-"%char /\ c <> "+"%char.

Definition starts_name (w : str) : Prop :=
  match w with c :: _ => name_start c | [] => False end.

(* The written forms of a term that the parser is able to read: a bare name
   (coefficient 1), or a numeral followed by a name without digits. *)
Inductive term_word : term -> str -> Prop :=
| tw_bare w : word w -> starts_name w -> term_word (1%Q, w) w
| tw_coef num c nm : numeral num c -> word nm -> starts_name nm ->
    Forall (fun x => is_digit x = false) nm -> term_word (c, nm) (num ++ nm).

(* A word with white space around it. *)
Definition term_written (t : term) (s : str) : Prop :=
  exists b1 w b2, s = b1 ++ w ++ b2 /\ blank b1 /\ blank b2 /\ term_word t w.

Inductive side_written : list term -> str -> Prop :=
| side_one t s : term_written t s -> side_written [t] s
| side_more t s1 ts s2 : term_written t s1 -> side_written ts s2 ->
    side_written (t :: ts) (s1 ++ "+"%char :: s2).

(* The right-hand side may be empty. *)
Definition rhs_written (ts : list term) (s : str) : Prop :=
  side_written ts s \/ (ts = [] /\ blank s).

Definition free_of (l : list ascii) (s : str) : Prop :=
  Forall (fun c => existsb (Ascii.eqb c) l = false) s.

Definition rate_written (rt : str) (s : str) : Prop :=
  rt = filter (fun c => negb (is_space c)) s /\ free_of [";"; "{"; "}"]%char s.

Definition reaction_written (r : reaction) (s : str) : Prop :=
  exists l p k, s = l ++ "="%char :: p ++ ":"%char :: k /\
    side_written (lhs r) l /\ rhs_written (rhs r) p /\ rate_written (rtext r) k.

(* "{label} reaction ; other text", repeated. [n] is the number in the last
   label. *)
Inductive records (n : nat) : mech -> str -> Prop :=
| rec_last lab r b junk :
    label_number (no_breaks lab) n -> free_of ["{"; "}"]%char lab ->
    reaction_written r b -> free_of ["{"; "}"]%char junk ->
    records n [r] ("{"%char :: lab ++ "}"%char :: b ++ ";"%char :: junk)
| rec_more lab r b junk rs s :
    free_of ["{"; "}"]%char lab ->
    reaction_written r b -> free_of ["{"; "}"]%char junk ->
    records n rs s ->
    records n (r :: rs) ("{"%char :: lab ++ "}"%char :: b ++ ";"%char :: junk ++ s).

(* [written m text]: text is a mechanism file for m: any introductory text
   without braces, then one record per reaction, the last label carrying the
   number of reactions. *)
Definition written (m : mech) (text : str) : Prop :=
  exists intro s, text = intro ++ s /\ free_of ["{"; "}"]%char intro /\
    records (List.length m) m s.

(* ------------------------------------------------------------------ *)
(* Reading an arbitrary equation body (used to say exactly which files are
   accepted). *)

(* s is the pieces ps joined by c. *)
Inductive pieces (c : ascii) : str -> list str -> Prop :=
| pc_one p : ~ In c p -> pieces c p [p]
| pc_more p s ps : ~ In c p -> pieces c s ps -> pieces c (p ++ c :: s) (p :: ps).

Definition no_tabs (s : str) : str := filter (fun c => negb (Ascii.eqb c TAB)) s.

(* left side, right side and rate of "L = R : K" *)
Definition body_parts (b L R K : str) : Prop :=
  no_tabs b = L ++ "="%char :: R ++ ":"%char :: K /\
  ~ In "="%char L /\ ~ In ":"%char L /\ ~ In ":"%char R.

(* w is the first word of p *)
Definition first_word_of (p w : str) : Prop :=
  exists b rest, p = b ++ w ++ rest /\ blank b /\ w <> [] /\
    Forall (fun c => is_space c = false) w /\
    match rest with [] => True | c :: _ => is_space c = true end.

(* The first words of those pieces that are not blank. *)
Inductive first_words : list str -> list str -> Prop :=
| fw_nil : first_words [] []
| fw_blank p ps ws : blank p -> first_words ps ws -> first_words (p :: ps) ws
| fw_word p ps w ws : first_word_of p w -> first_words ps ws -> first_words (p :: ps) (w :: ws).

Definition body_ok (b : str) : Prop :=
  exists L R K ps, body_parts b L R K /\ pieces "+"%char L ps /\ Forall (fun p => ~ blank p) ps.

(* Left words, right words and rate text of a body. *)
Definition body_reads (b : str) (ls rs : list str) (k : str) : Prop :=
  exists L R K pl pr, body_parts b L R K /\
    pieces "+"%char L pl /\ Forall2 first_word_of pl ls /\
    pieces "+"%char R pr /\ first_words pr rs /\
    k = filter (fun c => negb (is_space c)) K.

(* The number of equations announced by the last {..}. *)
Definition announces (text : str) (n : Z) : Prop :=
  exists labels l, sections "{" "}" (no_breaks text) (labels ++ [l]) /\
    py_int (strip (Ascii.eqb "."%char) l) = Ok n.

Definition file_ok (text : str) : Prop :=
  exists n bodies, announces text n /\
    sections "}" ";" (no_breaks text) bodies /\
    forall i, i < Z.to_nat n -> exists b, nth_error bodies i = Some b /\ body_ok b.

(* ------------------------------------------------------------------ *)
(* What the product table ought to hold for one equation, and the exact
   condition under which PyBox's table does hold it. *)

(* tab s is the entry of species s: its total coefficient if it is a product,
   no entry otherwise. *)
Definition entry_ok (ts : list term) (s : str) (e : option Q) : Prop :=
  match e with
  | Some q => In s (names ts) /\ q == total s ts
  | None => ~ In s (names ts)
  end.

Definition last_reactant (r : reaction) : str := snd (last (lhs r) (1%Q, [])).

(* Products are all different, or the last reactant is one of them, the
   products up to it are different, and later products repeat earlier ones. *)
Definition products_safe (r : reaction) : Prop :=
  let ps := names (rhs r) in
  let l := last_reactant r in
  (~ In l ps /\ NoDup ps) \/
  (exists pre post, ps = pre ++ l :: post /\ NoDup (pre ++ [l]) /\ incl post (pre ++ [l])).

(* The numbered reactants of an equation that are not light. *)
Definition reactant_slots (r : reaction) : list (nat * str) :=
  filter (fun p => negb (str_eqb (snd p) light))
    (combine (seq 0 (List.length (lhs r))) (map snd (lhs r))).
