(** Specification: which outputs an operator can give, and which inputs it leaves as they are (C107). *)

From Coq Require Import String.
From Verif Require Import Py Edit SpecRuns SpecWords SpecScan SpecOps Ops SpecReadBack.
From Coq Require Import List ZArith.
Import ListNotations.

(** The outputs of the operator are exactly the values of this form. *)
Definition results (E : env) (o : op) (form : pseq -> Prop) : Prop := forall y, (exists x, turns E o x y) <-> form y.

(** The values that the operator turns into themselves are exactly those of this form. *)
Definition leaves (E : env) (o : op) (form : pseq -> Prop) : Prop := forall y, turns E o y y <-> form y.

(** A text, or list, with the property. *)
Definition a_text (P : str -> Prop) (y : pseq) : Prop := exists s, y = SStr s /\ P s.
Definition a_list (P : list elem -> Prop) (y : pseq) : Prop := exists l, y = SLst l /\ P l.

(** ** Forms of texts *)

(** No character of the class. *)
Definition without (p : Z -> bool) (s : str) : Prop := forall c, In c s -> p c = false.

(** Whitespace is always one blank, between two other characters or at an end. *)
Definition single_blanks (E : env) (s : str) : Prop :=
  forall i c, nth_error s i = Some c -> is_space E c = true ->
  c = 32%Z /\ forall d, nth_error s (S i) = Some d -> is_space E d = false.

(** No whitespace at either end. *)
Definition trimmed (E : env) (s : str) : Prop :=
  (forall c t, s = c :: t -> is_space E c = false) /\ (forall c t, s = t ++ [c] -> is_space E c = false).

(** No maximal run of digits and points is such a number. *)
Definition no_number (E : env) (number : str -> bool) (s : str) : Prop :=
  forall r, In r (class_runs (fun c => point c || digit E c) s) -> number r = false.

(** The word is somewhere in the text. *)
Definition occurs (w s : str) : Prop := exists a b, s = a ++ w ++ b.
Definition without_words (ws : list str) (s : str) : Prop := forall w, In w ws -> ~ occurs w s.

(** Every character of the class has a blank on both sides, which it shares with no other. *)
Definition own_blanks (p : Z -> bool) (s : str) : Prop :=
  forall i c, nth_error s i = Some c -> p c = true ->
  (exists j, i = S j /\ nth_error s j = Some 32%Z) /\ nth_error s (S i) = Some 32%Z /\
  (forall d, nth_error s (S (S i)) = Some d -> p d = false).

(** ** Forms of lists *)

(** What a tokenizer that cuts by such kinds of characters calls a token. *)
Definition one_token (k : Z -> kind) (t : str) : Prop :=
  (t <> [] /\ forall c, In c t -> k c = Word) \/ (exists c, t = [c] /\ k c = Single).
Definition tokens_like (P : str -> Prop) (l : list elem) : Prop := forall e, In e l -> exists t, e = ETok t /\ P t.

(** The operators that replace numbers, and which ones they replace. *)
Definition number_ops (E : env) : list (op * (str -> bool)) :=
  [(IntToken, forallb (digit E)); (IntTokenWithSpace, forallb (digit E)); (NumTokenWithSpace, forallb (digit E));
   (FloatToken, is_decimal (digit E)); (FloatTokenWithSpace, is_decimal (digit E))].

(** The operators that put blanks around characters. *)
Definition spacer_ops (E : env) : list (op * (Z -> bool)) :=
  [(AddWhitespaceAroundCJK, cjk); (AddWhitespaceAroundPunctuation, punctuation E)].

(** The tokenizers that cut by kinds of characters. *)
Definition kind_ops (E : env) : list (op * (Z -> kind)) :=
  [(WhiteSpaceTokenizer, by_space E); (EngTokenizer, by_punct E); (ZhCharTokenizer, by_punct_cjk E)].

(** Indices of a dictionary of this size. *)
Definition indices_below (n : nat) (l : list elem) : Prop :=
  forall e, In e l -> exists i, e = EIdx i /\ (0 <= i < Z.of_nat n)%Z.
