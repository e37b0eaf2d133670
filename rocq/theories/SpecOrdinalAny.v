(** Specification vocabulary for labels made from values of any form (C102). *)

From Coq Require Import String.
From Verif Require Import Py Json SpecOps Elements SpecElements SpecOrdinal SpecRaw.
From Coq Require Import List.
Import ListNotations.
Local Open Scope Z_scope.

(** ** Numbers *)

(** the values are the numbers 0, 1, 2, ..., each once; True is 1, False is 0 *)
Definition counted (vs : list jval) : Prop := exists zs, Forall2 whole vs zs /\ indices zs.

(** the values of a dict without the name that stands for text outside of entities *)
Definition other_values (d : list (str * jval)) : list jval :=
  map snd (filter (fun kv => negb (eqb (fst kv) not_entity)) d).

(** the same dict with integers *)
Definition as_numbers (d : list (str * jval)) (m : list (str * Z)) : Prop :=
  Forall2 (fun kv kz => fst kv = fst kz /\ whole (snd kv) (snd kz)) d m.

(** ** Order *)

(** not a list, not a tuple *)
Definition flat (v : jval) : Prop :=
  match v with JList _ | JTuple _ => False | _ => True end.

Definition is_text (v : jval) : Prop := exists s, v = JStr s.
Definition is_number (v : jval) : Prop := exists z, whole v z.

(** python can put the values in order *)
Definition sortable (vs : list jval) : Prop :=
  (length vs <= 1)%nat \/ Forall is_number vs \/ Forall is_text vs.

(** ** Refusals *)

(** why OrdinalLabel(i, e, n) raises: the intents are looked at first *)
Inductive turned_down (i e n : jval) : exn -> Prop :=
| no_intents : no_dict i -> turned_down i e n AttributeErr
| intents_mixed d : i = JDict d -> ~ sortable (map snd d) -> turned_down i e n TypeErr
| intents_wrong d : i = JDict d -> sortable (map snd d) -> ~ counted (map snd d) ->
    turned_down i e n ValueErr
| no_entities d : i = JDict d -> counted (map snd d) -> no_dict e -> turned_down i e n TypeErr
| entities_mixed d de : i = JDict d -> counted (map snd d) -> e = JDict de ->
    ~ sortable (n :: other_values de) -> turned_down i e n TypeErr
| entities_wrong d de : i = JDict d -> counted (map snd d) -> e = JDict de ->
    sortable (n :: other_values de) -> ~ counted (n :: other_values de) ->
    turned_down i e n ValueErr.

(** keys that occur once, and no lists among the values *)
Definition simple (v : jval) : Prop :=
  forall d, v = JDict d -> is_dict d /\ Forall flat (map snd d).
