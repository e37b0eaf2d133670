(** Specification: pipes that do the same, and what happens to labels on the whole way (C76, C77). *)

From Verif Require Import Py Edit Labels SpecSeg SpecRuns SpecOps Ops Json Elements Pipe.

(** The operators of the pipe, in order. *)
Definition made_of (ops : list op) (p : pipe) : Prop := map o_op (steps p) = ops.

(** Pipes made of these operators turn [x] into the same sequence and treat all labels, even
    unsuitable ones, in the same way. *)
Definition interchangeable (E : env) (ops1 ops2 : list op) (x : pseq) : Prop :=
  forall p q, made_of ops1 p -> made_of ops2 q ->
  exists y als1 coll1 als2 coll2,
    transform_sequence E p x = Ok (y, als1, coll1) /\ transform_sequence E q x = Ok (y, als2, coll2) /\
    forall l, align_all als1 l = align_all als2 l /\
              align_inverse_all E als1 l = align_inverse_all E als2 l.

(** The same sequence, and the same labels on the way forward. *)
Definition same_forward (E : env) (ops1 ops2 : list op) (x : pseq) : Prop :=
  forall p q, made_of ops1 p -> made_of ops2 q ->
  exists y als1 coll1 als2 coll2,
    transform_sequence E p x = Ok (y, als1, coll1) /\ transform_sequence E q x = Ok (y, als2, coll2) /\
    forall l, align_all als1 l = align_all als2 l.

(** Of the ASCII characters only 0 to 9 are digits. *)
Definition ascii_digits (E : env) : Prop :=
  forall c, (0 <= c < 128)%Z -> is_digit E c = ascii_digit c.
