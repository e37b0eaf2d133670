(** Property theorems C102 (labels made from values of any form).
    The concrete cases that meet the hypotheses are in [OrdinalAnyWitness.v]. *)

From Coq Require Import String.
From Verif Require Import Py Json SpecJson SpecOps Elements SpecElements Pipe JsonAscii SpecJsonAscii SpecForeign SpecGrammar SpecStored
  OrdinalAny SpecOrdinal SpecRaw SpecOrdinalAny OrdinalAnyProofs OrdinalAnyWitness.
From Coq Require Import List ZArith.
Import ListNotations.
Local Open Scope Z_scope.

(** C102: labels made from values of any form *)
Theorem C102_accepts : forall i e n r, (forall d, e = JDict d -> is_dict d) ->
  ordinal_new i e n = Ok r <->
  exists di de, i = JDict di /\ e = JDict de /\ counted (map snd di) /\ counted (n :: other_values de) /\ r = mkAny i e n.
Proof. exact new_accepts. Qed.
Print Assumptions C102_accepts.

Theorem C102_refuses : forall i e n x, simple i -> simple e -> flat n ->
  ordinal_new i e n = Err x <-> turned_down i e n x.
Proof. exact new_refuses. Qed.
Print Assumptions C102_refuses.

Theorem C102_errors : forall i e n x, ordinal_new i e n = Err x ->
  (x = AttributeErr /\ no_dict i) \/ (x = TypeErr /\ ~ no_dict i) \/ (x = ValueErr /\ ~ no_dict i).
Proof. exact new_errors. Qed.
Print Assumptions C102_errors.

Theorem C102_as_integers : forall di de n mi me z, is_dict de -> as_numbers di mi -> as_numbers de me -> whole n z ->
  (make_ordinal mi me z = Ok (mkOrdinal mi me z) /\
   ordinal_new (JDict di) (JDict de) n = Ok (mkAny (JDict di) (JDict de) n)) \/
  (make_ordinal mi me z = Err ValueErr /\ ordinal_new (JDict di) (JDict de) n = Err ValueErr).
Proof. exact new_as_integers. Qed.
Print Assumptions C102_as_integers.

Theorem C102_numbers : forall di e n r, ordinal_new (JDict di) e n = Ok r -> exists mi, as_numbers di mi /\ indices (map snd mi).
Proof. exact accepted_numbers. Qed.
Print Assumptions C102_numbers.

Theorem C102_ignored : forall di de n m, is_dict de -> is_dict m ->
  (forall k, k <> not_entity -> dict_get de k = dict_get m k) ->
  (exists r, ordinal_new (JDict di) (JDict de) n = Ok r) <-> (exists r, ordinal_new (JDict di) (JDict m) n = Ok r).
Proof. exact ignored_value. Qed.
Print Assumptions C102_ignored.

Theorem C102_humanize : forall ord o di de n mi me z, as_numbers di mi -> as_numbers de me ->
  humanize_any ord (mkAny (JDict di) (JDict de) n) o = humanize ord (mkOrdinal mi me z) o.
Proof. exact humanize_same. Qed.
Print Assumptions C102_humanize.

Theorem C102_machanize : forall raw di de n mi me z, as_numbers di mi -> as_numbers de me ->
  machanize_in (mkAny (JDict di) (JDict de) n) raw = machanize (mkOrdinal mi me z) raw.
Proof. exact machanize_same. Qed.
Print Assumptions C102_machanize.

Theorem C102_reads : forall s v, json_text v s ->
  (no_dict v -> ordinal_load s = Err TypeErr) /\
  (forall d, v = JDict d ->
     (forall k, In k ["intent2index"; "entity2index"; "not_entity_index"]%string -> ~ In (txt k) (map fst d) ->
        ordinal_load s = Err KeyErr) /\
     (forall i e n, In (txt "intent2index", i) d -> In (txt "entity2index", e) d -> In (txt "not_entity_index", n) d ->
        ordinal_load s = ordinal_new i e n)).
Proof. exact load_reads. Qed.
Print Assumptions C102_reads.

Theorem C102_not_json : forall s, no_floats s -> (forall v, ~ json_text v s) -> ordinal_load s = Err ValueErr.
Proof. exact load_not_json. Qed.
Print Assumptions C102_not_json.

Theorem C102_agrees : forall d s i2i e2i ne, json_text (JDict d) s -> is_dict e2i ->
  In (txt "intent2index", positions i2i) d -> In (txt "entity2index", positions e2i) d ->
  In (txt "not_entity_index", JInt ne) d ->
  (ordinal_deserialize s = Ok (mkOrdinal i2i e2i ne) /\
   ordinal_load s = Ok (mkAny (positions i2i) (positions e2i) (JInt ne))) \/
  (ordinal_deserialize s = Err ValueErr /\ ordinal_load s = Err ValueErr).
Proof. exact load_agrees. Qed.
Print Assumptions C102_agrees.

Theorem C102_stored : forall i e n r, ordinal_new i e n = Ok r ->
  all_texts sound i -> all_texts sound e -> no_tuple e -> ordinal_load (serialize_any r) = Ok r.
Proof. exact load_stored. Qed.
Print Assumptions C102_stored.

Theorem C102_any_value_refuted : exists i e n r d, ordinal_new i (JDict e) n = Ok r /\
  In (not_entity, JStr d) e /\ all_texts sound (JDict e) /\ no_tuple (JDict e) /\
  ordinal_load (serialize_any r) = Ok r.
Proof. exact any_value_refuted. Qed.
Print Assumptions C102_any_value_refuted.
