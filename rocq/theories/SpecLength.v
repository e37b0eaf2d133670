(** Specification: the greatest number of elements that an operator or pipe can give (C101). *)

From Verif Require Import Py Edit SpecOps Ops.
From Coq Require Import List ZArith.
Import ListNotations.

(** The greatest length that the operator can give for an input of [n] elements.  A number needs one digit
    (a decimal number three characters), a word needs one character, and both need one character between
    them and the next.  (SpanSubwords: see [letters].) *)
Definition at_most (o : op) (n : nat) : nat :=
  match o with
  | IntToken => n + 4 * ((n + 1) / 2)
  | IntTokenWithSpace | NumTokenWithSpace => n + 6 * ((n + 1) / 2)
  | FloatToken => n + 4 * ((n + 1) / 4)
  | FloatTokenWithSpace => n + 6 * ((n + 1) / 4)
  | AddWhitespaceAroundCJK | AddWhitespaceAroundPunctuation | AddWhitespaceAroundWordnZhChar _ _ => 3 * n
  | ReplaceAwithB _ b => n * (1 + length b)
  | WhiteSpaceTokenizer => (n + 1) / 2
  | Pad m _ => Z.to_nat m
  | AddSosEos _ _ => n + 2
  | AddEndToken _ => n + 1
  | _ => n
  end.

Definition is_subwords (o : op) : Prop := exists v u m, o = SpanSubwords v u m.

(** The operators whose output has this length exactly. *)
Definition fixed_length (o : op) (n : nat) : Prop :=
  match o with
  | Lowercase | PunctuationExceptEndpointToWhitespace | StripAccentToken | CharTokenizer
  | PureNum2Token _ | Pad _ _ | AddEndToken _ | Token2Index _ _ | Token2IndexwithHash _ => True
  | AddSosEos _ _ => n <> 0
  | _ => False
  end.

(** Other operators that reach this length for every [n]. *)
Definition reaching : list op :=
  [MergeWhiteSpaceCharacters; StripWhiteSpaceCharacters; StopwordsToWhitespace;
   IntToken; IntTokenWithSpace; NumTokenWithSpace; FloatToken; FloatTokenWithSpace;
   AddWhitespaceAroundCJK; AddWhitespaceAroundPunctuation; WhiteSpaceTokenizer; EngTokenizer; ZhCharTokenizer].

(** Some classes of characters: 'a' is neither digit nor whitespace, '1' is a digit, '!' punctuation. *)
Definition usual (E : env) : Prop :=
  digit E 97 = false /\ is_space E 97 = false /\ digit E 49 = true /\ punctuation E 33 = true /\ is_space E 33 = false.

(** The characters of the tokens, an empty token counted as one. *)
Definition letters (ts : list str) : nat := list_sum (map (fun t => Nat.max 1 (length t)) ts).

(** The greatest length after some operators. *)
Definition at_most_all (ops : list op) (n : nat) : nat := fold_left (fun k o => at_most o k) ops n.

(** Decomposition and the removal of marks keep the number of whitespace characters. *)
Definition keeps_blanks (E : env) : Prop :=
  forall s, length (filter (is_space E) (stripped E s)) = length (filter (is_space E) s).
