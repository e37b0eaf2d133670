(** Property theorems C110 (which outputs the operators with word lists and vocabularies can give).
    The concrete cases that meet the hypotheses are in [CutsWitness.v]. *)

From Coq Require Import String ZArith.
From Verif Require Import Py Edit SpecEdit SpecWords SpecOps Ops Elements Pipe SpecPipe SpecBert SpecReadBack SpecOutcome SpecCuts CutsProofs CutsPipe
  CutsWitness.
From Coq Require Import List.
Import ListNotations.
Local Open Scope nat_scope.

(** C110: which outputs the operators with word lists and vocabularies can give *)
Theorem C110_custom_tokenizer : forall E ws sh o x y, ord_ok (ord_c E) -> make_custom (Some ws) sh = Ok o ->
  (turns E o x y <-> exists ts, y = SLst (map ETok ts) /\ x = SStr (concat ts) /\ best_cut sh ws ts).
Proof. exact custom_cuts. Qed.
Print Assumptions C110_custom_tokenizer.

Theorem C110_custom_outputs : forall E ws sh o, ord_ok (ord_c E) -> make_custom (Some ws) sh = Ok o ->
  results E o (a_list (fun l => exists ts, l = map ETok ts /\ best_cut sh ws ts)).
Proof. exact custom_results. Qed.
Print Assumptions C110_custom_outputs.

Theorem C110_word_spacer : forall E ws sh o x y, ord_ok (ord_c E) -> make_wordn (Some ws) sh = Ok o ->
  (turns E o x y <-> exists ts us, y = SStr (concat us) /\ x = SStr (concat ts) /\ best_cut sh ws ts /\
     Forall2 (framed_token ws) ts us).
Proof. exact wordn_cuts. Qed.
Print Assumptions C110_word_spacer.

Theorem C110_word_spacer_outputs : forall E ws sh o, ord_ok (ord_c E) -> make_wordn (Some ws) sh = Ok o ->
  results E o (a_text (fun s => exists ts us, s = concat us /\ best_cut sh ws ts /\ Forall2 (framed_token ws) ts us)).
Proof. exact wordn_results. Qed.
Print Assumptions C110_word_spacer_outputs.

Theorem C110_subwords_outputs : forall E v u m, ord_ok (ord_e E) ->
  results E (SpanSubwords v u m) (a_list (fun l => exists gs, l = concat gs /\ forall g, In g gs -> share v u m g)).
Proof. exact subwords_results. Qed.
Print Assumptions C110_subwords_outputs.

Theorem C110_subwords_in_vocabulary : forall E v u m x l, ord_ok (ord_e E) -> turns E (SpanSubwords v u m) x (SLst l) -> in_vocabulary v u l.
Proof. exact vocabulary_only. Qed.
Print Assumptions C110_subwords_in_vocabulary.

Theorem C110_subwords_all : forall E v u m, ord_ok (ord_e E) -> (forall t, In t v -> (Z.of_nat (length t) <= m)%Z) ->
  results E (SpanSubwords v u m) (a_list (in_vocabulary v u)).
Proof. exact vocabulary_results. Qed.
Print Assumptions C110_subwords_all.

Theorem C110_pieces_pipe : forall E p v u m c l, python E -> map o_op (steps p) = [WhiteSpaceTokenizer; SpanSubwords v u m] ->
  is_space E c = false -> (forall t d, In t v -> In d t -> is_space E d = false) ->
  (forall t, In t v -> (Z.of_nat (length t) <= m)%Z) ->
  ((exists s als coll, transform_sequence E p (SStr s) = Ok (SLst l, als, coll)) <-> in_vocabulary v u l).
Proof. exact pieces_pipe. Qed.
Print Assumptions C110_pieces_pipe.

Theorem C110_word_piece_pipe : forall E p l, python E -> word_piece_pipe E = Ok p ->
  (forall w d, In w word_pieces -> In d (txt w) -> is_space E d = false) ->
  ((exists s als coll, transform_sequence E p (SStr s) = Ok (SLst l, als, coll)) <->
   forall e, In e l -> exists w, In w word_pieces /\ e = ETok (txt w)).
Proof. exact word_piece_outputs. Qed.
Print Assumptions C110_word_piece_pipe.

Theorem C110_within_maxlen_refuted : exists E v u m x l t, python E /\ turns E (SpanSubwords v u m) x (SLst l) /\ In (ETok t) l /\
  ETok t <> u /\ (m < Z.of_nat (length t))%Z.
Proof. exact within_maxlen_refuted. Qed.
Print Assumptions C110_within_maxlen_refuted.

Theorem C110_long_words_refuted : exists E v u m l, python E /\ in_vocabulary v u l /\ ~ exists x, turns E (SpanSubwords v u m) x (SLst l).
Proof. exact long_words_refuted. Qed.
Print Assumptions C110_long_words_refuted.
