(** Property theorems C100 (what can be read back from the output).
    The concrete cases that meet the hypotheses are in [ReadBackWitness.v]; for C100_basic_again [ex_plain] in [PipeWitness.v]. *)

From Coq Require Import String.
From Verif Require Import Py Edit SpecEdit SpecRuns SpecHash SpecOps Ops Json Elements Pipe SpecPipe SpecLaws SpecReadBack ReadBackProofs ReadBackWitness.
From Coq Require Import List ZArith.
Import ListNotations.

(** C100: what can be read back from the output *)
Theorem C100_tokens_again : forall E o ops s ts, python E -> In (o, ops) written_as ->
  turns E o (SStr s) (SLst (map ETok ts)) -> turns E o (SStr (joined blank ts)) (SLst (map ETok ts)).
Proof. exact tokens_again. Qed.
Print Assumptions C100_tokens_again.

Theorem C100_text_from_tokens : forall E o ops s ts, python E -> In (o, ops) written_as ->
  turns E o (SStr s) (SLst (map ETok ts)) -> pipe_turns E ops (SStr s) (SStr (joined blank ts)).
Proof. exact text_from_tokens. Qed.
Print Assumptions C100_text_from_tokens.

Theorem C100_same_tokens : forall E o ops s t, python E -> In (o, ops) written_as ->
  (exists y, turns E o (SStr s) y /\ turns E o (SStr t) y) <->
  (exists u, pipe_turns E ops (SStr s) u /\ pipe_turns E ops (SStr t) u).
Proof. exact same_tokens. Qed.
Print Assumptions C100_same_tokens.

Theorem C100_told_apart : forall E ws sh o sos eos eos', python E -> make_custom (Some ws) sh = Ok o ->
  telling E CharTokenizer /\ telling E o /\ telling E AddWhitespaceAroundCJK /\ telling E AddWhitespaceAroundPunctuation /\
  telling E (AddSosEos sos eos) /\ telling E (AddEndToken eos').
Proof. exact told_apart. Qed.
Print Assumptions C100_told_apart.

Theorem C100_padding : forall E maxlen pad l l' y, ord_ok (ord_e E) -> unpadded maxlen pad l -> unpadded maxlen pad l' ->
  turns E (Pad maxlen pad) (SLst l) y -> turns E (Pad maxlen pad) (SLst l') y -> l = l'.
Proof. exact unpadded_told_apart. Qed.
Print Assumptions C100_padding.

Theorem C100_pieces : forall E vocab unk maxlen ts ps, ord_ok (ord_e E) ->
  Forall (fun t => t <> [] /\ ~ continued t) ts -> ~ continued unk ->
  turns E (SpanSubwords vocab (ETok unk) maxlen) (SLst (map ETok ts)) (SLst (map ETok ps)) ->
  Forall2 (read_as vocab unk maxlen) ts (whole_words ps).
Proof. exact pieces_read. Qed.
Print Assumptions C100_pieces.

Theorem C100_indices : forall E d unk o ts y, python E -> is_dict d -> make_token2index d unk = Ok o ->
  turns E o (SLst (map ETok ts)) (SLst y) -> Forall2 (index_reads d unk) ts y.
Proof. exact indices_read. Qed.
Print Assumptions C100_indices.

Theorem C100_hash : forall E d o, python E -> make_hash d = Ok o -> (Z.of_nat (length d) < M)%Z ->
  exists t t' i, t <> t' /\ ~ In t (map fst d) /\ ~ In t' (map fst d) /\
    turns E o (SLst [ETok t]) (SLst [EIdx i]) /\ turns E o (SLst [ETok t']) (SLst [EIdx i]).
Proof. exact hash_collides. Qed.
Print Assumptions C100_hash.

Theorem C100_word_piece : forall E q s ps als coll, python E -> word_piece_pipe E = Ok q ->
  transform_sequence E q (SStr s) = Ok (SLst (map ETok ps), als, coll) ->
  Forall (fun t => ~ continued t) (words (is_space E) s) ->
  Forall2 (read_as (map txt word_piece_vocab) (txt "[UNK]") 200) (words (is_space E) s) (whole_words ps) /\
  (Forall (spelled (map txt word_piece_vocab) 200) (words (is_space E) s) ->
   pipe_turns E [MergeWhiteSpaceCharacters; StripWhiteSpaceCharacters] (SStr s) (SStr (joined blank (whole_words ps)))).
Proof. exact word_piece_read. Qed.
Print Assumptions C100_word_piece.

Theorem C100_full : forall E p q s ts ps als coll als' coll', python E -> basic_pipe E = Ok p -> full_pipe E = Ok q ->
  transform_sequence E p (SStr s) = Ok (SLst (map ETok ts), als, coll) ->
  transform_sequence E q (SStr s) = Ok (SLst (map ETok ps), als', coll') ->
  Forall (fun t => ~ continued t) ts ->
  Forall2 (read_as (map txt full_vocab) (txt "[UNK]") 200) ts (whole_words ps).
Proof. exact full_read. Qed.
Print Assumptions C100_full.

Theorem C100_basic_again : forall E p s ps, python E -> basic_pipe E = Ok p -> cut (by_punct_cjk E) (map lower s) ps ->
  let ts := tokens_of (kept ps) in stripped E (joined blank ts) = joined blank ts ->
  (exists als coll, transform_sequence E p (SStr s) = Ok (SLst (map ETok ts), als, coll)) /\
  (exists als coll, transform_sequence E p (SStr (joined blank ts)) = Ok (SLst (map ETok ts), als, coll)) /\
  Forall (fun t => ~ continued t) ts.
Proof. exact basic_again. Qed.
Print Assumptions C100_basic_again.

Theorem C100_told_apart_refuted : exists E, python E /\ forall o,
  In o [Lowercase; MergeWhiteSpaceCharacters; StripWhiteSpaceCharacters; IntToken; IntTokenWithSpace; FloatToken; FloatTokenWithSpace;
        NumTokenWithSpace; StopwordsToWhitespace; PunctuationExceptEndpointToWhitespace; StripAccentToken; ReplaceAwithB (txt "x") (txt "y");
        WhiteSpaceTokenizer; EngTokenizer; ZhCharTokenizer; PureNum2Token (ETok (txt "N"));
        Token2Index [(txt "a", 0%Z); (txt "U", 1%Z)] (txt "U")] -> ~ telling E o.
Proof. exact told_apart_refuted. Qed.
Print Assumptions C100_told_apart_refuted.

Theorem C100_padding_refuted : exists E maxlen pad l l' y, python E /\ l <> l' /\
  turns E (Pad maxlen pad) (SLst l) y /\ turns E (Pad maxlen pad) (SLst l') y.
Proof. exact padding_refuted. Qed.
Print Assumptions C100_padding_refuted.

Theorem C100_pieces_refuted : exists E vocab unk maxlen ts ts' y, python E /\ ts <> ts' /\
  Forall (spelled vocab maxlen) ts /\ Forall (spelled vocab maxlen) ts' /\
  turns E (SpanSubwords vocab unk maxlen) (SLst (map ETok ts)) y /\
  turns E (SpanSubwords vocab unk maxlen) (SLst (map ETok ts')) y.
Proof. exact pieces_refuted. Qed.
Print Assumptions C100_pieces_refuted.

Theorem C100_basic_again_refuted : exists E p s ts als coll, python E /\ basic_pipe E = Ok p /\
  transform_sequence E p (SStr s) = Ok (SLst (map ETok ts), als, coll) /\
  forall als' coll', transform_sequence E p (SStr (joined blank ts)) <> Ok (SLst (map ETok ts), als', coll').
Proof. exact basic_again_refuted. Qed.
Print Assumptions C100_basic_again_refuted.
