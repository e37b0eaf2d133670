(** Property theorems C113 (raw data through a pipe and back).
    The concrete cases that meet the hypotheses are in [RawTripWitness.v]. *)

From Coq Require Import String Sorted Permutation.
From Verif Require Import Py Json SpecOps Ops Elements Pipe SpecPipe SpecElements SpecBert SpecTrip SpecOrdinal SpecSettle SpecRawTrip RawTripProofs RawCorpus RawTripWitness.
From Coq Require Import List.
Import ListNotations.
Local Open Scope Z_scope.

(** C113: raw data through a pipe and back to raw data *)
Theorem C113_legible : forall o u names es d, usual o -> Forall (fun r => i32 (w_start r) /\ i32 (w_end r)) es ->
  machanize o (raw_datum u names es) = Ok d -> (legible d <-> raw_legible u es).
Proof. exact raw_legible_iff. Qed.
Print Assumptions C113_legible.

Theorem C113_returns : forall E p ord o u names es d, reorders ord -> usual o -> Forall (fun r => i32 (w_start r) /\ i32 (w_end r)) es ->
  machanize o (raw_datum u names es) = Ok d -> (raw_returns E p ord o u names es <-> recovered E p d).
Proof. exact raw_trip. Qed.
Print Assumptions C113_returns.

Theorem C113_bert : forall E f ord o u names es d p, python E -> letters E -> accents_fit E f u -> basic_pipe E = Ok p \/ full_pipe E = Ok p ->
  reorders ord -> usual o -> Forall (fun r => i32 (w_start r) /\ i32 (w_end r)) es -> raw_legible u es ->
  machanize o (raw_datum u names es) = Ok d ->
  (raw_returns E p ord o u names es <-> Forall (raw_on_tokens (by_punct_cjk E) u) es).
Proof. exact raw_bert. Qed.
Print Assumptions C113_bert.

Theorem C113_word_piece : forall E ord o u names es d p, python E -> word_piece_pipe E = Ok p ->
  reorders ord -> usual o -> Forall (fun r => i32 (w_start r) /\ i32 (w_end r)) es -> raw_legible u es ->
  machanize o (raw_datum u names es) = Ok d ->
  (raw_returns E p ord o u names es <-> Forall (raw_on_tokens (by_space E) u) es).
Proof. exact raw_word_piece. Qed.
Print Assumptions C113_word_piece.

Theorem C113_nonzero : forall E p ord o u names es r i, reorders ord -> is_ordinal o -> raw_returns E p ord o u names es ->
  In r es -> In (w_name r, i) (entity2index o) -> i <> 0.
Proof. exact raw_nonzero. Qed.
Print Assumptions C113_nonzero.

Theorem C113_other_zero : forall o, is_ordinal o -> ~ In not_entity (map fst (entity2index o)) -> not_entity_index o <> 0 ->
  exists name, In (name, 0) (entity2index o) /\
  forall E p ord u names es r, reorders ord -> In r es -> w_name r = name -> ~ raw_returns E p ord o u names es.
Proof. exact raw_other_zero. Qed.
Print Assumptions C113_other_zero.

Theorem C113_learned : forall xs, sound_data xs -> exists o, from_raw_dictionary (raw_data xs) 0 = Ok o /\ usual o /\
  (forall n, known_name (intent2index o) n <-> exists x, In x xs /\ In n (s_names x)) /\
  (forall n, known_name (entity2index o) n <-> exists x r, In x xs /\ In r (s_entities x) /\ n = w_name r).
Proof. exact data_learned. Qed.
Print Assumptions C113_learned.

Theorem C113_data : forall xs o, sound_data xs -> from_raw_dictionary (raw_data xs) 0 = Ok o ->
  Forall (fun x => exists d, machanize o (raw_sample x) = Ok d /\ legible d) xs.
Proof. exact data_made. Qed.
Print Assumptions C113_data.

Theorem C113_data_bert : forall E f ord xs o x p, python E -> letters E -> accents_fit E f (s_text x) -> basic_pipe E = Ok p \/ full_pipe E = Ok p ->
  reorders ord -> sound_data xs -> from_raw_dictionary (raw_data xs) 0 = Ok o -> In x xs ->
  (raw_returns E p ord o (s_text x) (s_names x) (s_entities x) <-> Forall (raw_on_tokens (by_punct_cjk E) (s_text x)) (s_entities x)).
Proof. exact data_bert. Qed.
Print Assumptions C113_data_bert.

Theorem C113_data_word_piece : forall E ord xs o x p, python E -> word_piece_pipe E = Ok p ->
  reorders ord -> sound_data xs -> from_raw_dictionary (raw_data xs) 0 = Ok o -> In x xs ->
  (raw_returns E p ord o (s_text x) (s_names x) (s_entities x) <-> Forall (raw_on_tokens (by_space E) (s_text x)) (s_entities x)).
Proof. exact data_word_piece. Qed.
Print Assumptions C113_data_word_piece.

Theorem C113_data_accepts : forall xs ne o x, few_names xs -> from_raw_dictionary (raw_data xs) ne = Ok o -> In x xs ->
  Forall (fun r => i32 (w_start r) /\ i32 (w_end r)) (s_entities x) ->
  (StronglySorted raw_apart (s_entities x) /\ exists d, machanize o (raw_sample x) = Ok d) \/
  (~ StronglySorted raw_apart (s_entities x) /\ machanize o (raw_sample x) = Err EntityOverlapErr).
Proof. exact data_accepts. Qed.
Print Assumptions C113_data_accepts.

Theorem C113_data_round : forall ord xs ne o x d, reorders ord -> few_names xs -> from_raw_dictionary (raw_data xs) ne = Ok o -> In x xs ->
  Forall (fun r => i32 (w_start r) /\ i32 (w_end r)) (s_entities x) -> machanize o (raw_sample x) = Ok d ->
  exists names es es', humanize ord o d = Ok (raw_datum (s_text x) names es') /\
    Permutation (s_names x) names /\ stably_sorted w_start (s_entities x) es /\ Forall2 same_raw es es'.
Proof. exact data_round. Qed.
Print Assumptions C113_data_round.

Theorem C113_swapped_refuted : exists E p ord o u names es d, python E /\ word_piece_pipe E = Ok p /\ reorders ord /\ is_ordinal o /\ small o /\
  ~ In not_entity (map fst (entity2index o)) /\ machanize o (raw_datum u names es) = Ok d /\ raw_legible u es /\
  Forall (raw_on_tokens (by_space E) u) es /\ ~ raw_returns E p ord o u names es.
Proof. exact swapped_refuted. Qed.
Print Assumptions C113_swapped_refuted.
