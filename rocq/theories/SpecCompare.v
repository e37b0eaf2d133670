(** What it means that two objects are equal (C99). *)

From Verif Require Import Py Edit Ops Json Elements Pipe GroupObj SpecElements SpecPipe Compare.
From Coq Require Import List ZArith Permutation.
Import ListNotations.
Local Open Scope Z_scope.

Section spec.
  Context {A C : Type}.
  Implicit Types a b : pyobj A C.

  Definition kind_name a : nat :=
    match a with
    | OIntent _ => 0 | OEntity _ => 1 | ODatum _ => 2 | OSpan _ => 3 | OReplacement _ => 4
    | OSpanGroup _ => 5 | OReplacementGroup _ => 6 | OOperator _ => 7 | OPipe _ => 8
    | OFactory _ => 9 | OOther _ => 10
    end.
  Definition same_kind a b : Prop := kind_name a = kind_name b.
  Definition foreign a : Prop := exists n, a = OOther n.

  (** Two configurations are the same arguments. *)
  Definition same_operator (o o' : opobj) : Prop :=
    o_class o = o_class o' /\ same (JDict (o_configs o)) (JDict (o_configs o')).

  (** The two objects are of the same kind and have the same contents. *)
  Inductive alike : pyobj A C -> pyobj A C -> Prop :=
  | alike_intent l : alike (OIntent l) (OIntent l)
  | alike_entity e e' : same_entity e e' -> alike (OEntity e) (OEntity e')
  | alike_datum d d' : same_datum d d' -> alike (ODatum d) (ODatum d')
  | alike_span s e : alike (OSpan (s, e)) (OSpan (s, e))
  | alike_replacement x : alike (OReplacement x) (OReplacement x)
  | alike_spans g h : length (sg_items g) = length (sg_items h) ->
      same_set (sg_items g) (sg_items h) -> alike (OSpanGroup g) (OSpanGroup h)
  | alike_replacements g h : length (rg_items g) = length (rg_items h) ->
      same_set (rg_items g) (rg_items h) -> alike (OReplacementGroup g) (OReplacementGroup h)
  | alike_operator o o' : same_operator o o' -> alike (OOperator o) (OOperator o')
  | alike_pipe p q : Forall2 same_operator (steps p) (steps q) ->
      Permutation (checkpoints p) (checkpoints q) -> alike (OPipe p) (OPipe q)
  | alike_factory f g : Permutation f g -> alike (OFactory f) (OFactory g)
  | alike_other n : alike (OOther n) (OOther n).

  (** What the library makes: operators and pipes through the API, factories with distinct names. *)
  Definition proper (E : env) a : Prop :=
    match a with
    | OOperator o => made E o
    | OPipe p => reachable E p
    | OFactory f => NoDup (map fst f)
    | _ => True
    end.

  (** Everything but a group that is not finished. *)
  Definition readable a : Prop :=
    match a with
    | OSpanGroup g => sg_done g = true
    | OReplacementGroup g => rg_done g = true
    | _ => True
    end.

  (** The objects whose comparison with another kind of object is an exception. *)
  Definition raises_type a : Prop := (exists e, a = OEntity e) \/ (exists d, a = ODatum d).
  Definition raises_attribute a b : Prop :=
    (exists l, a = OIntent l /\ forall e, b <> OEntity e) \/ (exists x, a = OReplacement x) \/ (exists p, a = OPipe p).

  (** The objects that can be an element of a set or the key of a dict. *)
  Definition has_hash (K : nat -> option Z) a : Prop :=
    (exists l, a = OIntent l) \/ (exists s, a = OSpan s) \/ (exists x, a = OReplacement x) \/
    (exists n h, a = OOther n /\ K n = Some h).
End spec.
