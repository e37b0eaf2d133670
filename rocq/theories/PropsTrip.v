(** Property theorems C77 (labels through the pipes of pipeline/bert and back).  The concrete cases that
    meet the hypotheses are in [TripWitness.v]. *)

From Coq Require Import String.
From Verif Require Import Py Edit Labels SpecEdit SpecLabels SpecSeg SpecRuns SpecWords SpecOps SpecBert Ops Json Elements SpecElements Pipe BertRef SpecTrip TripProofs TripWitness.
From Coq Require Import List.
Local Open Scope Z_scope.

(** C77 *)
Theorem C77_basic : forall E f s p, python E -> letters E -> accents_fit E f s -> basic_pipe E = Ok p ->
  exists ts a als coll, transform_op E ZhCharTokenizer (SStr s) = Ok (SLst (map ETok ts), a) /\
    transform_sequence E p (SStr s) = Ok (SLst (map ETok (map (map (fun c => f (lower c))) ts)), als, coll) /\
    forall l, align_all als l = align a l /\ align_inverse_all E als l = align_inverse E a l.
Proof. exact (fun E f s p PY HL => basic_labels E PY HL f s p). Qed.
Print Assumptions C77_basic.

Theorem C77_full : forall E f s q, python E -> letters E -> accents_fit E f s -> full_pipe E = Ok q ->
  exists ts a outs als coll, transform_op E ZhCharTokenizer (SStr s) = Ok (SLst (map ETok ts), a) /\
    Forall2 (subwords (map txt word_pieces_and_comma) (ETok (txt "[UNK]")) 200) (map (map (fun c => f (lower c))) ts) outs /\
    transform_sequence E q (SStr s) = Ok (SLst (concat outs), als, coll) /\ then_pieces E a outs als.
Proof. exact (fun E f s q PY HL => full_labels E PY HL f s q). Qed.
Print Assumptions C77_full.

Theorem C77_word_piece : forall E s q, python E -> word_piece_pipe E = Ok q ->
  exists ts a outs als coll, transform_op E WhiteSpaceTokenizer (SStr s) = Ok (SLst (map ETok ts), a) /\
    Forall2 (subwords (map txt word_pieces) (ETok (txt "[UNK]")) 200) ts outs /\
    transform_sequence E q (SStr s) = Ok (SLst (concat outs), als, coll) /\ then_pieces E a outs als.
Proof. exact (fun E s q PY => word_piece_labels E PY s q). Qed.
Print Assumptions C77_word_piece.

Theorem C77_what_survives : forall E f s p y als coll, python E -> letters E -> accents_fit E f s ->
  basic_pipe E = Ok p \/ full_pipe E = Ok p -> transform_sequence E p (SStr s) = Ok (y, als, coll) ->
  forall l, survives E als l <-> token_wise (by_punct_cjk E) s l.
Proof. exact (fun E f s p y als coll PY HL => basic_survives E PY HL f s p y als coll). Qed.
Print Assumptions C77_what_survives.

Theorem C77_what_survives_word_piece : forall E s p y als coll, python E -> word_piece_pipe E = Ok p ->
  transform_sequence E p (SStr s) = Ok (y, als, coll) ->
  forall l, survives E als l <-> token_wise (by_space E) s l.
Proof. exact (fun E s p y als coll PY => word_piece_survives E PY s p y als coll). Qed.
Print Assumptions C77_what_survives_word_piece.

Theorem C77_what_survives_tokenizers : forall E o k s y a, python E ->
  In (o, k) [(WhiteSpaceTokenizer, by_space E); (EngTokenizer, by_punct E); (ZhCharTokenizer, by_punct_cjk E)] ->
  transform_op E o (SStr s) = Ok (y, a) -> forall l, survives E [a] l <-> token_wise k s l.
Proof. exact (fun E o k s y a PY => tokenizer_survives E PY o k s y a). Qed.
Print Assumptions C77_what_survives_tokenizers.

Theorem C77_datum : forall E f d p, python E -> letters E -> accents_fit E f (d_utterance d) ->
  basic_pipe E = Ok p \/ full_pipe E = Ok p ->
  is_datum d -> d_utterance d <> [] ->
  Forall (fun e => inside (d_utterance d) e /\ on_tokens (by_punct_cjk E) (d_utterance d) e) (d_entities d) ->
  (forall a b, In a (d_entities d) -> In b (d_entities d) -> e_end a = e_start b -> e_label a <> e_label b) ->
  exists y ints m als coll ls d', transform E p d = Ok (y, ints, m, als, coll) /\
    align_inverse_all E als m = Ok ls /\ pack_to_datum (d_utterance d) ints ls = Ok d' /\
    d_utterance d' = d_utterance d /\ same_set (d_intents d') (d_intents d) /\
    d_entities d' = map bare_entity (d_entities d).
Proof. exact basic_datum. Qed.
Print Assumptions C77_datum.

Theorem C77_datum_word_piece : forall E d p, python E -> word_piece_pipe E = Ok p ->
  is_datum d -> d_utterance d <> [] ->
  Forall (fun e => inside (d_utterance d) e /\ on_tokens (by_space E) (d_utterance d) e) (d_entities d) ->
  (forall a b, In a (d_entities d) -> In b (d_entities d) -> e_end a = e_start b -> e_label a <> e_label b) ->
  exists y ints m als coll ls d', transform E p d = Ok (y, ints, m, als, coll) /\
    align_inverse_all E als m = Ok ls /\ pack_to_datum (d_utterance d) ints ls = Ok d' /\
    d_utterance d' = d_utterance d /\ same_set (d_intents d') (d_intents d) /\
    d_entities d' = map bare_entity (d_entities d).
Proof. exact word_piece_datum. Qed.
Print Assumptions C77_datum_word_piece.

Theorem C77_everyday : forall E R s, unicode E R -> Forall everyday s -> letters E /\ accents_fit E (fun c => c) s.
Proof. exact everyday_fits. Qed.
Print Assumptions C77_everyday.

Theorem C77_two_words_refuted : exists E R p d y ints m als coll ls d', python E /\ unicode E R /\ basic_pipe E = Ok p /\ is_datum d /\
  Forall everyday (d_utterance d) /\ transform E p d = Ok (y, ints, m, als, coll) /\
  align_inverse_all E als m = Ok ls /\ pack_to_datum (d_utterance d) ints ls = Ok d' /\
  d_entities d = [mkEntity 5 (txt "New York") 0 8 []] /\
  d_entities d' = [mkEntity 5 (txt "New") 0 3 []; mkEntity 5 (txt "York") 4 8 []].
Proof. exact two_words_refuted. Qed.
Print Assumptions C77_two_words_refuted.

Theorem C77_parts_of_words_refuted : exists E R p d y ints m als coll ls d', python E /\ unicode E R /\ basic_pipe E = Ok p /\ is_datum d /\
  Forall everyday (d_utterance d) /\ transform E p d = Ok (y, ints, m, als, coll) /\
  align_inverse_all E als m = Ok ls /\ pack_to_datum (d_utterance d) ints ls = Ok d' /\
  d_entities d = [mkEntity 5 (txt "cat") 0 3 []; mkEntity 6 (txt "s") 8 9 []] /\
  d_entities d' = [mkEntity 5 (txt "cats") 0 4 []].
Proof. exact word_parts_refuted. Qed.
Print Assumptions C77_parts_of_words_refuted.
