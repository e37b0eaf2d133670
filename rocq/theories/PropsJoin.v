(** Property theorems C98 (annotated texts put together).
    The concrete cases that meet the hypotheses are in [JoinWitness.v]. *)

From Coq Require Import QArith.
From Verif Require Import Py Edit Ops Json Elements Pipe SpecEdit SpecOps SpecElements SpecGlue SpecJoin JoinProofs JoinExpand JoinMore JoinWitness.
From Coq Require Import List.
Import ListNotations.
Local Open Scope Z_scope.

(** C98: annotated texts put together *)
Theorem C98_made : forall d1 d2 ints, at_home d1 -> at_home d2 -> Forall i32 ints ->
  Z.of_nat (length (d_utterance d1 ++ d_utterance d2)) < 2 ^ 31 ->
  exists d, make_datum (d_utterance d1 ++ d_utterance d2) (Some ints)
      (Some (join_entities (Z.of_nat (length (d_utterance d1))) (d_entities d1) (d_entities d2))) = Ok d /\
    at_home d /\ joined d1 d2 d /\ same_set (d_intents d) ints.
Proof. exact joined_made. Qed.
Print Assumptions C98_made.

Theorem C98_labels : forall d1 d2 d, at_home d1 -> at_home d2 -> is_datum d -> joined d1 d2 d ->
  exists l1 l2, unpack_datum d1 = Ok (d_utterance d1, d_intents d1, l1) /\
    unpack_datum d2 = Ok (d_utterance d2, d_intents d2, l2) /\
    unpack_datum d = Ok (d_utterance d, d_intents d, l1 ++ l2) /\
    length l1 = length (d_utterance d1) /\ length l2 = length (d_utterance d2).
Proof. exact joined_labels. Qed.
Print Assumptions C98_labels.

Theorem C98_transform : forall E p d1 d2 d y1 i1 m1 als1 coll1 y2 i2 m2 als2 coll2, at_home d1 -> at_home d2 -> is_datum d -> joined d1 d2 d ->
  glued_pipe E p (SStr (d_utterance d1)) (SStr (d_utterance d2)) ->
  transform E p d1 = Ok (y1, i1, m1, als1, coll1) -> transform E p d2 = Ok (y2, i2, m2, als2, coll2) ->
  exists als coll, transform E p d = Ok (glue y1 y2, d_intents d, m1 ++ m2, als, coll) /\
    forall l1 l2, length l1 = pseq_length y1 -> length l2 = pseq_length y2 ->
      align_inverse_all E als (l1 ++ l2) = both (align_inverse_all E als1 l1) (align_inverse_all E als2 l2).
Proof. exact joined_transform. Qed.
Print Assumptions C98_transform.

Theorem C98_pack : forall u1 u2 i1 i2 ints l1 l2 d1 d2, pack_to_datum u1 i1 l1 = Ok d1 -> pack_to_datum u2 i2 l2 = Ok d2 -> Forall i32 ints ->
  Z.of_nat (length (u1 ++ u2)) < 2 ^ 31 ->
  exists d, pack_to_datum (u1 ++ u2) ints (l1 ++ l2) = Ok d /\ at_home d /\ same_set (d_intents d) ints /\
    (joined d1 d2 d <-> ~ across l1 l2).
Proof. exact joined_pack. Qed.
Print Assumptions C98_pack.

Theorem C98_round_trip : forall E p d1 d2 d y1 i1 m1 als1 coll1 y2 i2 m2 als2 coll2 l1 l2 b1 b2 e1 e2, at_home d1 -> at_home d2 -> is_datum d -> joined d1 d2 d ->
  glued_pipe E p (SStr (d_utterance d1)) (SStr (d_utterance d2)) ->
  transform E p d1 = Ok (y1, i1, m1, als1, coll1) -> transform E p d2 = Ok (y2, i2, m2, als2, coll2) ->
  length l1 = pseq_length y1 -> length l2 = pseq_length y2 ->
  align_inverse_all E als1 l1 = Ok b1 -> align_inverse_all E als2 l2 = Ok b2 ->
  pack_to_datum (d_utterance d1) i1 b1 = Ok e1 -> pack_to_datum (d_utterance d2) i2 b2 = Ok e2 ->
  Z.of_nat (length (d_utterance d)) < 2 ^ 31 ->
  exists als coll e, transform E p d = Ok (glue y1 y2, d_intents d, m1 ++ m2, als, coll) /\
    align_inverse_all E als (l1 ++ l2) = Ok (b1 ++ b2) /\
    pack_to_datum (d_utterance d) (d_intents d) (b1 ++ b2) = Ok e /\
    (joined e1 e2 e <-> ~ across b1 b2).
Proof. exact joined_round_trip. Qed.
Print Assumptions C98_round_trip.

Theorem C98_expand : forall d1 d2 d io cs, at_home d1 -> at_home d2 -> is_datum d -> joined d1 d2 d ->
  Forall2 (candidates io) (d_entities d) cs ->
  (forall vs, In vs (choices cs) -> Z.of_nat (length (d_utterance (rebuilt d vs))) < 2 ^ 31) -> n_choices cs <= 2 ^ 31 ->
  exists ds1 ds2 ds, expand_by_entities d1 None io = Ok ds1 /\ expand_by_entities d2 None io = Ok ds2 /\
    expand_by_entities d None io = Ok ds /\
    Forall2 (fun x xs => joined (fst xs) (snd xs) x) ds (pairs ds1 ds2).
Proof. exact joined_expand. Qed.
Print Assumptions C98_expand.

Theorem C98_partition : forall d1 d2 d io, at_home d1 -> at_home d2 -> joined d1 d2 d ->
  parts_joined (partition_by_entities d1 io) (partition_by_entities d2 io) (partition_by_entities d io).
Proof. exact joined_partition. Qed.
Print Assumptions C98_partition.

Theorem C98_ratio : forall fl rate d1 d2 d e1 e2 e, exact fl -> at_home d1 -> at_home d2 -> at_home e1 -> at_home e2 ->
  is_datum d -> is_datum e -> joined d1 d2 d -> joined e1 e2 e ->
  d_utterance d1 = d_utterance e1 -> d_utterance d2 = d_utterance e2 -> d_utterance d1 <> [] -> d_utterance d2 <> [] ->
  exists r1 r2 r, entity_overlapping_ratio fl d1 e1 rate = Ok r1 /\ entity_overlapping_ratio fl d2 e2 rate = Ok r2 /\
    entity_overlapping_ratio fl d e rate = Ok r /\
    (r * inject_Z (Z.of_nat (length (d_utterance d))) ==
       r1 * inject_Z (Z.of_nat (length (d_utterance d1))) + r2 * inject_Z (Z.of_nat (length (d_utterance d2))))%Q.
Proof. exact joined_ratio. Qed.
Print Assumptions C98_ratio.

Theorem C98_pack_parts_refuted : exists u1 u2 l1 l2 d1 d2 d, pack_to_datum u1 [] l1 = Ok d1 /\ pack_to_datum u2 [] l2 = Ok d2 /\
  pack_to_datum (u1 ++ u2) [] (l1 ++ l2) = Ok d /\ across l1 l2 /\ ~ joined d1 d2 d /\
  length (d_entities d1) = 1%nat /\ length (d_entities d2) = 1%nat /\ length (d_entities d) = 1%nat.
Proof. exact pack_parts_refuted. Qed.
Print Assumptions C98_pack_parts_refuted.

Theorem C98_outside_refuted : exists d1 d2 d, is_datum d1 /\ is_datum d2 /\ joined d1 d2 d /\ ~ is_datum d.
Proof. exact joined_outside_refuted. Qed.
Print Assumptions C98_outside_refuted.
