(** Property theorems C101 (the greatest number of elements that operators and pipes can give).
    The concrete cases that meet the hypotheses are in [LengthWitness.v]. *)

From Coq Require Import String.
From Verif Require Import Py Edit SpecEdit SpecRuns SpecOps Ops Json Elements Pipe SpecPipe SpecAccept SpecReadBack SpecLength LengthProofs.
From Coq Require Import List ZArith.
Import ListNotations.
Local Open Scope nat_scope.

(** C101: the greatest number of elements that operators and pipes can give *)
Theorem C101_operator : forall E o x y, python E -> built E o -> ~ is_subwords o -> turns E o x y ->
  pseq_length y <= at_most o (pseq_length x) /\
  (fixed_length o (pseq_length x) -> pseq_length y = at_most o (pseq_length x)).
Proof. exact operator_length. Qed.
Print Assumptions C101_operator.

Theorem C101_reached : forall E o n, python E -> usual E -> In o reaching ->
  exists x y, pseq_length x = n /\ turns E o x y /\ pseq_length y = at_most o n.
Proof. exact length_reached. Qed.
Print Assumptions C101_reached.

Theorem C101_spacers : forall E o cls s y, ord_ok (ord_c E) ->
  In (o, cls) [(AddWhitespaceAroundCJK, cjk); (AddWhitespaceAroundPunctuation, punctuation E)] ->
  turns E o (SStr s) y -> pseq_length y = length s + 2 * length (filter cls s).
Proof. exact spacers_length. Qed.
Print Assumptions C101_spacers.

Theorem C101_pieces : forall E v u m ts y, ord_ok (ord_e E) -> turns E (SpanSubwords v u m) (SLst (map ETok ts)) y ->
  pseq_length y <= letters ts /\ (Forall (fun t => t <> []) ts -> length ts <= pseq_length y).
Proof. exact subwords_length. Qed.
Print Assumptions C101_pieces.

Theorem C101_pipe : forall E p x y als coll, python E -> regexes E -> reachable E p ->
  Forall (fun o => ~ is_subwords (o_op o)) (steps p) ->
  transform_sequence E p x = Ok (y, als, coll) -> pseq_length y <= at_most_all (map o_op (steps p)) (pseq_length x).
Proof. exact pipe_length. Qed.
Print Assumptions C101_pipe.

Theorem C101_word_piece : forall E q s y als coll, python E -> word_piece_pipe E = Ok q ->
  transform_sequence E q (SStr s) = Ok (y, als, coll) -> pseq_length y <= length s.
Proof. exact word_piece_length. Qed.
Print Assumptions C101_word_piece.

Theorem C101_basic : forall E p s y als coll, python E -> basic_pipe E = Ok p ->
  transform_sequence E p (SStr s) = Ok (y, als, coll) -> pseq_length y <= length s.
Proof. exact basic_length. Qed.
Print Assumptions C101_basic.

Theorem C101_full : forall E q s y als coll, python E -> keeps_blanks E -> full_pipe E = Ok q ->
  transform_sequence E q (SStr s) = Ok (y, als, coll) -> pseq_length y <= length s.
Proof. exact full_length. Qed.
Print Assumptions C101_full.
