(** Specification: the grammar of patterns (the covered part of python's [re]) and the
    expression a pattern stands for, written without the parser. *)

From Coq Require Import String.
From Verif Require Import Py SpecOps PyRe SpecRe SpecGrammar.
From Coq Require Import List.
Local Open Scope Z_scope.

(** ** Characters *)

(** hexadecimal digits and their value *)
Inductive hex_value : str -> Z -> Prop :=
| no_digit : hex_value [] 0
| one_digit_more t z c d : hex_value t z -> SpecGrammar.hex_digit c d -> hex_value (t ++ [c]) (16 * z + d).

Definition a_digit (c : Z) : Prop := 48 <= c <= 57.
Definition a_letter (c : Z) : Prop := 65 <= c <= 90 \/ 97 <= c <= 122.

(** An escape that names a character: \a \f \n \r \t \v; \xHH \uHHHH \UHHHHHHHH; a character that is no
    ASCII letter or digit, for itself. *)
Inductive names : str -> Z -> Prop :=
| names_control l c : In (l, c) [(97, 7); (102, 12); (110, 10); (114, 13); (116, 9); (118, 11)] -> names [92; l] c
| names_code l n t z : In (l, n) [(120, 2%nat); (117, 4%nat); (85, 8%nat)] -> length t = n -> hex_value t z -> z <= 0x10FFFF ->
    names (92 :: l :: t) z
| names_itself c : ~ a_digit c -> ~ a_letter c -> names [92; c] c.

(** \d \D \s \S \w \W *)
Definition class_letter (l : Z) (x : citem) : Prop :=
  In (l, x) [(100, CDigit false); (68, CDigit true); (115, CSpace false); (83, CSpace true); (119, CWord false); (87, CWord true)].

(** ** Sets *)

Inductive set_member : str -> citem -> Prop :=
| member_itself c : c <> 92 -> set_member [c] (CRange c c)
| member_named s c : names s c -> set_member s (CRange c c)
| member_backspace : set_member [92; 98] (CRange 8 8)
| member_class l x : class_letter l x -> set_member [92; l] x.

Definition starts (c : Z) (s : str) : Prop := exists t, s = c :: t.

(** The members of a set with the closing bracket; in first place a bracket is a member. *)
Inductive set_items : bool -> str -> list citem -> Prop :=
| items_end : set_items false (txt "]") []
| items_one first s x t l : set_member s x -> first = true \/ s <> txt "]" -> ~ starts 45 t -> set_items false t l ->
    set_items first (s ++ t) (x :: l)
| items_range first s a u b t l : set_member s (CRange a a) -> first = true \/ s <> txt "]" -> set_member u (CRange b b) -> u <> txt "]" ->
    a <= b -> set_items false t l -> set_items first (s ++ txt "-" ++ u ++ t) (CRange a b :: l)
| items_hyphen first s x : set_member s x -> first = true \/ s <> txt "]" -> set_items first (s ++ txt "-]") [x; CRange 45 45].

(** ** Repeats *)

(** decimal digits, at least one, and their value; or none *)
Definition digits_value (d : str) : Z := fold_left (fun z c => 10 * z + (c - 48)) d 0.
Definition decimal (d : str) (n : nat) : Prop := d <> [] /\ Forall a_digit d /\ Z.of_nat n = digits_value d.
Definition decimal_or (default : nat) (d : str) (n : nat) : Prop := (d = [] /\ n = default) \/ decimal d n.

Inductive repeats : str -> nat -> option nat -> Prop :=
| rep_star : repeats (txt "*") 0 None
| rep_plus : repeats (txt "+") 1 None
| rep_optional : repeats (txt "?") 0 (Some 1%nat)
| rep_exact d n : decimal d n -> up_to_1000 n -> repeats (txt "{" ++ d ++ txt "}") n (Some n)
| rep_least d n : decimal_or 0 d n -> up_to_1000 n -> repeats (txt "{" ++ d ++ txt ",}") n None
| rep_between d n e m : decimal_or 0 d n -> decimal e m -> up_to_1000 m -> (n <= m)%nat ->
    repeats (txt "{" ++ d ++ txt "," ++ e ++ txt "}") n (Some m).

(** the text goes on as a count does after its brace *)
Definition begins_count (t : str) : Prop := exists d e u, Forall a_digit d /\ Forall a_digit e /\
  ((d <> [] /\ t = d ++ txt "}" ++ u) \/ t = d ++ txt "," ++ e ++ txt "}" ++ u).

(** ** Patterns *)

Inductive opens : str -> (rx -> rx) -> Prop :=
| opens_group : opens [] (fun r => r)
| opens_plain_group : opens (txt "?:") (fun r => r)
| opens_ahead : opens (txt "?=") (XLook true true)
| opens_not_ahead : opens (txt "?!") (XLook true false)
| opens_behind : opens (txt "?<=") (XLook false true)
| opens_not_behind : opens (txt "?<!") (XLook false false).

Definition lazily (greedy : bool) : str := if greedy then [] else txt "?".

(** [atom s b r]: [s] is one item, [b] tells whether it may be repeated. *)
Inductive atom : str -> bool -> rx -> Prop :=
| atom_char c : ~ In c (txt "[*+?.^$|()") -> c <> 92 -> atom [c] true (xchar c)
| atom_named s c : names s c -> atom s true (xchar c)
| atom_class l x : class_letter l x -> atom [92; l] true (XSet false [x])
| atom_dot : atom (txt ".") true XAny
| atom_caret : atom (txt "^") false XBegin
| atom_dollar : atom (txt "$") false XDollar
| atom_begin : atom (txt "\A") false XBegin
| atom_end : atom (txt "\Z") false XEnd
| atom_boundary : atom (txt "\b") false (XWordB false)
| atom_no_boundary : atom (txt "\B") false (XWordB true)
| atom_set s l : set_items true s l -> ~ starts 94 s -> atom (txt "[" ++ s) true (XSet false l)
| atom_not_set s l : set_items true s l -> atom (txt "[^" ++ s) true (XSet true l)
| atom_group o f s r : opens o f -> alternatives s r -> atom (txt "(" ++ o ++ s ++ txt ")") true (f r)
(** items one after the other; a brace is a character if no count follows *)
with in_a_row : str -> list rx -> Prop :=
| row_end : in_a_row [] []
| row_once s b r t l : atom s b r -> (s = txt "{" -> ~ begins_count t) -> in_a_row t l -> in_a_row (s ++ t) (r :: l)
| row_repeated s r q lo hi greedy t l : atom s true r -> repeats q lo hi -> (s = txt "{" -> ~ begins_count (q ++ lazily greedy ++ t)) ->
    in_a_row t l -> in_a_row (s ++ q ++ lazily greedy ++ t) (XRep lo hi greedy r :: l)
with alternatives : str -> rx -> Prop :=
| only_one s l : in_a_row s l -> alternatives s (xseq l)
| one_or_else s l t r : in_a_row s l -> alternatives t r -> alternatives (s ++ txt "|" ++ t) (XAlt (xseq l) r).

(** what stands in a look-behind has one width *)
Fixpoint behinds_fixed (r : rx) : Prop :=
  match r with
  | XSeq a b | XAlt a b => behinds_fixed a /\ behinds_fixed b
  | XRep _ _ _ a => behinds_fixed a
  | XLook ahead _ a => behinds_fixed a /\ (ahead = false -> one_width a)
  | _ => True
  end.

Definition pattern (p : str) (r : rx) : Prop := alternatives p r /\ behinds_fixed r.
