(** What the statements about the base classes in the factory say. *)

From Coq Require Import String.
From Verif Require Import Py Ops SpecOps Json SpecJson Elements Pipe SpecPipe BaseOps.
From Coq Require Import List.
Import ListNotations.
Local Open Scope nat_scope.

(** the four names *)
Definition base_names : list str :=
  map lit ["Operator"; "PatternRecognizer"; "AddWhitespaceAroundCharacter"; "Tokenizer"]%string.

(** An object that can exist: an operator of the library built by its constructor, or an instance
    of one of the three base classes that have instances. *)
Definition f_made (E : env) (o : fobj) : Prop :=
  match o with FLib o => made E o | FBase b => b <> BOperator end.

(** the library operators of a list *)
Definition libs (ops : list fobj) : list opobj :=
  flat_map (fun o => match o with FLib o => [o] | FBase _ => [] end) ops.

(** Pipes that [Pipe()], [add] and the appending of an operator can give. *)
Inductive f_reachable (E : env) : fpipe -> Prop :=
| fr_new : f_reachable E fpipe_new
| fr_add_op p o ck : f_reachable E p -> f_made E o -> f_reachable E (fst (f_add_op p o ck))
| fr_add p reg name kwargs ck :
    f_reachable E p -> value (JDict (match kwargs with Some k => k | None => [] end)) ->
    f_reachable E (fst (f_add E reg p name kwargs ck)).

(** neighbours fit *)
Definition f_chained (ops : list fobj) : Prop :=
  forall k a b, nth_error ops k = Some a -> nth_error ops (S k) = Some b -> f_out a = f_in b.

(** what JSON keeps: a tuple comes back as a list *)
Definition f_as_json (o : fobj) : fobj :=
  match o with FLib o => FLib (as_json_obj o) | FBase b => FBase b end.

(** a pipe of the library seen among these *)
Definition lift_pipe (p : pipe) : fpipe := mkFP (map FLib (steps p)) (checkpoints p).
