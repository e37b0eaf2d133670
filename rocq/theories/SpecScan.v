(** Specification vocabulary: what patterns match, and successive matches of a text. *)

From Verif Require Import Py SpecSeg Regex.

(** Character [j] of [s] exists and is in the class. *)
Definition char_in (s : str) (c : Z -> bool) (j : nat) : Prop :=
  exists x, nth_error s j = Some x /\ c x = true.

(** The pattern matches [s] between positions [i] and [e]. *)
Inductive rmatch (s : str) : re -> nat -> nat -> Prop :=
| m_lit l i pre post : s = pre ++ l ++ post -> i = length pre -> rmatch s (RLit l) i (i + length l)
| m_plus c i e : i < e -> (forall j, i <= j < e -> char_in s c j) -> rmatch s (RPlus c) i e
| m_star c i e : i <= e -> e <= length s -> (forall j, i <= j < e -> char_in s c j) ->
    rmatch s (RStar c) i e
| m_seq a b i m e : rmatch s a i m -> rmatch s b m e -> rmatch s (RSeq a b) i e
| m_left a b i e : rmatch s a i e -> rmatch s (RAlt a b) i e
| m_right a b i e : rmatch s b i e -> rmatch s (RAlt a b) i e
| m_behind c i : i <= length s -> ~ (0 < i /\ char_in s c (i - 1)) -> rmatch s (RNotBehind c) i i
| m_ahead c i : i <= length s -> ~ char_in s c i -> rmatch s (RNotAhead c) i i
| m_begin : rmatch s RBegin 0 0
| m_end : rmatch s REnd (length s) (length s).

(** What [pattern.search] is asked for: a match that starts at the given position or
    later. *)
Definition finder : Type := str -> nat -> option (nat * nat).

Definition in_bounds (find : finder) : Prop :=
  forall s p i e, p <= length s -> find s p = Some (i, e) -> p <= i /\ i <= e /\ e <= length s.

(** Starting at [p], successive matches are replaced, each search starting where the last
    match ended. *)
Inductive replaced (find : finder) (newv : str -> str) (s : str) : nat -> list (seg Z) -> Prop :=
| rep_end p : p = length s \/ find s p = None -> replaced find newv s p [(skipn p s, None)]
| rep_match p i e sg : p < length s -> find s p = Some (i, e) -> replaced find newv s e sg ->
    replaced find newv s p
      ((firstn (i - p) (skipn p s), None) ::
       (firstn (e - i) (skipn i s), Some (newv (firstn (e - i) (skipn i s)))) :: sg).

(** The search comes to a place before the end of the text where the match is empty. *)
Inductive stuck (find : finder) (s : str) : nat -> Prop :=
| stuck_here p : p < length s -> find s p = Some (p, p) -> stuck find s p
| stuck_later p i e : p < length s -> find s p = Some (i, e) -> stuck find s e -> stuck find s p.

(** Two replaced pieces follow each other immediately. *)
Fixpoint touching (sg : list (seg Z)) : Prop :=
  match sg with
  | [] => False
  | x :: t => match x, t with
              | (_, Some _), ([], None) :: (_, Some _) :: _ => True
              | _, _ => touching t
              end
  end.

(** Leftmost matches of a pattern, from [p] on: each replaced piece is a match that starts at
    the first position where one starts; after the last one no match starts any more. *)
Inductive covered (r : re) (newv : str -> str) (s : str) : nat -> list (seg Z) -> Prop :=
| cov_end p : p <= length s -> (forall i e, p <= i < length s -> ~ rmatch s r i e) ->
    (p < length s -> forall e, ~ rmatch s r (length s) e) ->
    covered r newv s p [(skipn p s, None)]
| cov_match p i e sg : p <= i -> i <= e -> p < e -> e <= length s -> rmatch s r i e ->
    (forall j e', p <= j < i -> ~ rmatch s r j e') -> covered r newv s e sg ->
    covered r newv s p
      ((firstn (i - p) (skipn p s), None) ::
       (firstn (e - i) (skipn i s), Some (newv (firstn (e - i) (skipn i s)))) :: sg).
