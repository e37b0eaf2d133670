(** Specification: stored operators and pipes, as texts written by anybody (C78). *)

From Coq Require Import String.
From Verif Require Import Py Ops Json Elements Pipe SpecGrammar SpecForeign.
From Coq Require Import List.
Local Open Scope Z_scope.

(** A member of ["steps"] and the operator it stands for: an object with at least the
    members ["op_name"] and ["op_kwargs"], in any order, or a string with such an object
    written in it.  The arguments are passed to the constructor by name. *)
Inductive stored_step (E : env) (known : str -> Prop) : jval -> opobj -> Prop :=
| step_object d name kwargs o :
    In (lit "op_name", JStr name) d -> In (lit "op_kwargs", JDict kwargs) d ->
    known name -> construct E name [] kwargs = Ok o -> stored_step E known (JDict d) o
| step_text s d o : json_text (JDict d) s -> stored_step E known (JDict d) o -> stored_step E known (JStr s) o.

(** A member of ["steps"] that stands for no operator. *)
Inductive bad_step (E : env) (known : str -> Prop) : jval -> exn -> Prop :=
| bad_kind v : ~ is_object v -> (forall s, v <> JStr s) -> bad_step E known v TypeErr
| bad_object d e : refused known (JDict d) e -> bad_step E known (JDict d) e
| bad_arguments d name kwargs e :
    In (lit "op_name", JStr name) d -> In (lit "op_kwargs", JDict kwargs) d ->
    known name -> construct E name [] kwargs = Err e -> bad_step E known (JDict d) e
| bad_text s : no_floats s -> (forall v, ~ json_text v s) -> bad_step E known (JStr s) ValueErr
| bad_text_object s d e : json_text (JDict d) s -> bad_step E known (JDict d) e -> bad_step E known (JStr s) e
| bad_text_value s v : json_text v s -> ~ is_object v -> bad_step E known (JStr s) TypeErr.

(** checkpoints: names with positions *)
Definition positions (ck : list (str * Z)) : jval := JDict (map (fun kv => (fst kv, JInt (snd kv))) ck).
