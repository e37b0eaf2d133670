(** Property theorems C95 (raw data of any form).
    The concrete cases that meet the hypotheses are in [RawWitness.v]. *)

From Coq Require Import String Sorted.
From Verif Require Import Py Json SpecOps Elements SpecElements SpecOrdinal SpecRaw RawProofs RawWitness.
From Coq Require Import List.
Import ListNotations.
Local Open Scope Z_scope.

(** C95: raw data of any form *)
Theorem C95_machanize : forall o v, is_ordinal o -> small o -> plain v ->
  (exists u ints ents d, describes o v u ints ents /\ StronglySorted apart ents /\
     machanize o v = Ok d /\ d_utterance d = u /\
     stably_sorted (fun i => i) ints (d_intents d) /\ stably_sorted e_start ents (d_entities d)) \/
  (exists u ints ents, describes o v u ints ents /\ ~ StronglySorted apart ents /\
     machanize o v = Err EntityOverlapErr) \/
  (machanize o v = Err KeyErr /\ missing o v) \/
  (machanize o v = Err TypeErr /\ wrong v) \/
  (machanize o v = Err OverflowErr /\ large v).
Proof. exact machanize_any. Qed.
Print Assumptions C95_machanize.

Theorem C95_described : forall o v u ints ents, describes o v u ints ents -> ~ missing o v /\ ~ wrong v /\ ~ large v.
Proof. exact describes_fine. Qed.
Print Assumptions C95_described.

Theorem C95_from_dict : forall u v, plain_entity v ->
  (exists e, entity_from_dict v u = Ok e /\ entity_dict_of u v e) \/
  (entity_from_dict v u = Err KeyErr /\ dict_missing v) \/
  (entity_from_dict v u = Err TypeErr /\ dict_wrong v) \/
  (entity_from_dict v u = Err OverflowErr /\ dict_large v).
Proof. exact from_dict_any. Qed.
Print Assumptions C95_from_dict.

Theorem C95_from_dict_described : forall u v e, entity_dict_of u v e -> ~ dict_missing v /\ ~ dict_wrong v /\ ~ dict_large v.
Proof. exact from_dict_fine. Qed.
Print Assumptions C95_from_dict_described.

Theorem C95_from_raw_dictionary : forall r ne, plain_corpus r ->
  (exists ints ents, raw_corpus r (map JStr ints) (map JStr ents) /\
     ((exists o, from_raw_dictionary r ne = Ok o /\ is_ordinal o /\ not_entity_index o = ne /\
         map fst (intent2index o) = first_seen [] ints /\
         map snd (intent2index o) = counting None (length (first_seen [] ints)) /\
         map fst (entity2index o) = first_seen [] ents /\
         map snd (entity2index o) = counting (Some ne) (length (first_seen [] ents)) /\
         learns ne ents) \/
      (from_raw_dictionary r ne = Err ValueErr /\ ~ learns ne ents))) \/
  (from_raw_dictionary r ne = Err KeyErr /\ corpus_missing r) \/
  (from_raw_dictionary r ne = Err TypeErr /\ corpus_wrong r).
Proof. exact from_raw_any. Qed.
Print Assumptions C95_from_raw_dictionary.

Theorem C95_corpus : forall r ints ents, raw_corpus r ints ents -> ~ corpus_missing r /\ ~ corpus_wrong r.
Proof. exact corpus_fine. Qed.
Print Assumptions C95_corpus.

Theorem C95_text_for_names_refuted : exists o v i s d, is_ordinal o /\ small o /\ plain v /\ field v "intent" i /\
  field i "names" (JStr s) /\ machanize o v = Ok d /\ length (d_intents d) = length s /\ (1 < length s)%nat.
Proof. exact text_for_names_refuted. Qed.
Print Assumptions C95_text_for_names_refuted.
