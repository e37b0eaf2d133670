(** Specification: texts that deserialize does not accept (C43, C65). *)

From Coq Require Import String.
From Verif Require Import Py Ops Json Elements Pipe.
From Coq Require Import List.

Definition is_object (v : jval) : Prop := exists d, v = JDict d.

(** The value read from the text is refused with this exception; [known]: the registered names. *)
Inductive refused (known : str -> Prop) : jval -> exn -> Prop :=
| refused_no_object v : ~ is_object v -> refused known v TypeErr
| refused_no_name d : ~ In (lit "op_name") (map fst d) -> refused known (JDict d) KeyErr
| refused_no_arguments d : ~ In (lit "op_kwargs") (map fst d) -> refused known (JDict d) KeyErr
| refused_unknown d n : In (lit "op_name", JStr n) d -> In (lit "op_kwargs") (map fst d) -> ~ known n ->
    refused known (JDict d) KeyErr
| refused_odd_name d v : In (lit "op_name", v) d -> In (lit "op_kwargs") (map fst d) ->
    (forall n, v <> JStr n) -> (forall l, v <> JList l) -> ~ is_object v -> refused known (JDict d) KeyErr
| refused_unhashable_name d v : In (lit "op_name", v) d -> In (lit "op_kwargs") (map fst d) ->
    is_object v \/ (exists l, v = JList l) -> refused known (JDict d) TypeErr
| refused_arguments d n v : In (lit "op_name", JStr n) d -> known n -> In (lit "op_kwargs", v) d -> ~ is_object v ->
    refused known (JDict d) TypeErr.
