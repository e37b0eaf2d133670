(** Specification vocabulary: greedy segmentation by a word list. *)

From Verif Require Import Py.

Definition is_prefix (w s : str) : Prop := exists t, s = w ++ t.

Definition nonempty (w : str) : bool := match w with [] => false | _ => true end.

(** The non-empty words are distinct. *)
Definition fresh_words (ws : list str) : Prop := NoDup (filter nonempty ws).

(** [w] is a non-empty word of the list, a prefix of [s], and no other such word is longer
    (resp. shorter). *)
Definition longest_word (ws : list str) (s w : str) : Prop :=
  In w ws /\ w <> [] /\ is_prefix w s /\
  forall w', In w' ws -> w' <> [] -> is_prefix w' s -> length w' <= length w.
Definition shortest_word (ws : list str) (s w : str) : Prop :=
  In w ws /\ w <> [] /\ is_prefix w s /\
  forall w', In w' ws -> w' <> [] -> is_prefix w' s -> length w <= length w'.
Definition best_word (shortest : bool) : list str -> str -> str -> Prop :=
  if shortest then shortest_word else longest_word.

(** No non-empty word of the list is a prefix of [s]. *)
Definition no_word (ws : list str) (s : str) : Prop :=
  forall w, In w ws -> w <> [] -> ~ is_prefix w s.

(** Left to right: take the best word that starts here, else one character.  The flag says
    which of the two happened. *)
Inductive munched (shortest : bool) (ws : list str) : str -> list (str * bool) -> Prop :=
| munch_end : munched shortest ws [] []
| munch_word w rest ps :
    best_word shortest ws (w ++ rest) w -> munched shortest ws rest ps ->
    munched shortest ws (w ++ rest) ((w, true) :: ps)
| munch_char c rest ps :
    no_word ws (c :: rest) -> munched shortest ws rest ps ->
    munched shortest ws (c :: rest) (([c], false) :: ps).
