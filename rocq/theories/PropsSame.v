(** Property theorems C103 (equal datums can stand for each other).
    The concrete cases that meet the hypotheses are in [SameWitness.v]. *)

From Coq Require Import String QArith.
From Verif Require Import Py Json SpecOps Edit Ops Pipe Elements SpecElements SpecOrdinal SpecSame SameProofs SameWitness.
From Coq Require Import List Permutation.
Import ListNotations.
Local Open Scope Z_scope.

(** C103: equal datums can stand for each other *)
Theorem C103_constructor : forall u ints ints' es es', same_set ints ints' -> Forall2 equal_entities es es' ->
  agree equal (make_datum u (Some ints) (Some es)) (make_datum u (Some ints') (Some es')).
Proof. exact datum_from_equal. Qed.
Print Assumptions C103_constructor.

Theorem C103_unpack : forall d d', equal d d' ->
  agree (fun '(u, i, l) '(u', i', l') => u = u' /\ same_set i i' /\ l = l') (unpack_datum d) (unpack_datum d').
Proof. exact unpack_equal. Qed.
Print Assumptions C103_unpack.

Theorem C103_transform : forall E p d d', equal d d' ->
  agree (fun '(o, i, l, a, c) '(o', i', l', a', c') => o = o' /\ same_set i i' /\ l = l' /\ a = a' /\ c = c')
    (transform E p d) (transform E p d').
Proof. exact transform_equal. Qed.
Print Assumptions C103_transform.

Theorem C103_pack : forall u i i' l, same_set i i' -> pack_to_datum u i l = pack_to_datum u i' l.
Proof. exact pack_same. Qed.
Print Assumptions C103_pack.

Theorem C103_partition : forall d d' io, is_datum d -> is_datum d' -> equal d d' ->
  partition_by_entities d io = partition_by_entities d' io.
Proof. exact partition_equal. Qed.
Print Assumptions C103_partition.

Theorem C103_expand : forall d d' sample io, is_datum d -> is_datum d' -> equal d d' ->
  agree (Forall2 equal) (expand_by_entities d sample io) (expand_by_entities d' sample io).
Proof. exact expand_equal. Qed.
Print Assumptions C103_expand.

Theorem C103_ratio : forall fl a a' b b' rate, equal a a' -> equal b b' ->
  entity_overlapping_ratio fl a b rate = entity_overlapping_ratio fl a' b' rate.
Proof. exact ratio_equal. Qed.
Print Assumptions C103_ratio.

Theorem C103_unique_entities : forall ord ord' data data', (forall l, Permutation (ord l) l) -> (forall l, Permutation (ord' l) l) ->
  Forall2 equal data data' -> Permutation (get_unique_entities ord data) (get_unique_entities ord' data').
Proof. exact unique_equal. Qed.
Print Assumptions C103_unique_entities.

Theorem C103_to_dict : forall ord ord' e e', reorders ord -> reorders ord' -> is_entity e -> is_entity e' -> equal_entities e e' ->
  same_dict (entity_to_dict ord e) (entity_to_dict ord' e').
Proof. exact to_dict_equal. Qed.
Print Assumptions C103_to_dict.

Theorem C103_humanize : forall ord ord' o d d', reorders ord -> reorders ord' -> equal d d' ->
  agree same_raw_datum (humanize ord o d) (humanize ord' o d').
Proof. exact humanize_equal. Qed.
Print Assumptions C103_humanize.

Theorem C103_machanize : forall o u ns ns' es es', is_ordinal o -> small o ->
  Forall (fun r => i32 (w_start r) /\ i32 (w_end r)) es -> same_set ns ns' -> Forall2 same_raw es es' ->
  agree equal (machanize o (raw_datum u ns es)) (machanize o (raw_datum u ns' es')).
Proof. exact machanize_equal. Qed.
Print Assumptions C103_machanize.

Theorem C103_intents_order_refuted : exists d d' u i l i', is_datum d /\ is_datum d' /\ equal d d' /\ NoDup (d_intents d) /\ NoDup (d_intents d') /\
  unpack_datum d = Ok (u, i, l) /\ unpack_datum d' = Ok (u, i', l) /\ i <> i'.
Proof. exact intents_order_refuted. Qed.
Print Assumptions C103_intents_order_refuted.
