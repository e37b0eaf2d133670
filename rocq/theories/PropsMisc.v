(** Property theorems C60 (stored ordinal labels) and C61 (operator factory).  The concrete
    cases that meet the hypotheses are in [JsonAsciiWitness.v] and at the end of
    [FactoryProofs.v]. *)

From Verif Require Import Py Json SpecJson Elements SpecOrdinal JsonAscii SpecJsonAscii JsonAsciiProofs
  JsonAsciiWitness Factory SpecFactory FactoryProofs.

(** C60 *)
Theorem C60_round_trip : forall o, is_ordinal o -> names_are sound o ->
  ordinal_deserialize (ordinal_serialize o) = Ok o.
Proof. exact serialize_round_trip. Qed.
Print Assumptions C60_round_trip.

Theorem C60_injective : forall o1 o2, is_ordinal o1 -> is_ordinal o2 ->
  names_are sound o1 -> names_are sound o2 -> ordinal_serialize o1 = ordinal_serialize o2 -> o1 = o2.
Proof. exact serialize_injective. Qed.
Print Assumptions C60_injective.

Theorem C60_content : forall o, is_ordinal o -> names_are sound o ->
  loads (ordinal_serialize o) = Ok (stored (intent2index o) (entity2index o) (not_entity_index o)).
Proof. exact serialize_reads. Qed.
Print Assumptions C60_content.

Theorem C60_ascii : forall o, is_ordinal o -> names_are code_points o -> printable_ascii (ordinal_serialize o).
Proof. exact serialize_printable. Qed.
Print Assumptions C60_ascii.

Theorem C60_checked : forall i2i e2i ne, is_dict i2i -> is_dict e2i ->
  Forall sound (map fst i2i) -> Forall sound (map fst e2i) ->
  ordinal_deserialize (dumps_ascii (stored i2i e2i ne)) = make_ordinal i2i e2i ne.
Proof. exact deserialize_stored. Qed.
Print Assumptions C60_checked.

Theorem C60_json : forall v, all_texts sound v -> loads (dumps_ascii v) = Ok (as_json v).
Proof. exact loads_dumps_ascii. Qed.
Print Assumptions C60_json.

Theorem C60_surrogate_pair_refuted : exists o o', is_ordinal o /\ names_are code_points o /\
  ordinal_deserialize (ordinal_serialize o) = Ok o' /\ o' <> o.
Proof. exact pair_changes_refuted. Qed.
Print Assumptions C60_surrogate_pair_refuted.

Theorem C60_readable_refuted : exists o, is_ordinal o /\ names_are code_points o /\
  ordinal_deserialize (ordinal_serialize o) = Err ValueErr.
Proof. exact pair_fails_refuted. Qed.
Print Assumptions C60_readable_refuted.

Theorem C60_injective_refuted : exists o1 o2, is_ordinal o1 /\ is_ordinal o2 /\
  names_are code_points o1 /\ names_are code_points o2 /\ o1 <> o2 /\
  ordinal_serialize o1 = ordinal_serialize o2.
Proof. exact pair_collides_refuted. Qed.
Print Assumptions C60_injective_refuted.

(** C61 *)
Theorem C61_register : forall (C : Type) (EC : Eqb C) (h : list (str * C)) n c,
  (~ In n (map fst h) -> register_outcome h n c = None) /\
  (In n (map fst h) -> register_outcome h n c = Some KeyErr /\
     after_registers (h ++ [(n, c)]) = after_registers h).
Proof. exact (fun C _ => @register_spec C). Qed.
Print Assumptions C61_register.

Theorem C61_lookup : forall (C : Type) (EC : Eqb C) (h : list (str * C)) n,
  (forall c, fget (after_registers h) n = Ok c <-> first_registered h n c) /\
  (fget (after_registers h) n = Err KeyErr <-> ~ In n (map fst h)).
Proof. exact (fun C _ => @lookup_spec C). Qed.
Print Assumptions C61_lookup.

Theorem C61_equality : forall (C : Type) (EC : Eqb C) (h1 h2 : list (str * C)),
  feq (after_registers h1) (after_registers h2) = true <->
  (forall n c, first_registered h1 n c <-> first_registered h2 n c).
Proof. exact @equality_spec. Qed.
Print Assumptions C61_equality.
