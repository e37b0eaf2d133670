(** Specification: labels are opaque numbers (C75). *)

From Verif Require Import Py Edit Labels Ops Elements.
Local Open Scope Z_scope.

(** [f] gives the labels of [l] other names: it keeps NOT_ENTITY, does not confuse two of
    them, and does not move labels in or out of the range of a C unsigned int. *)
Definition renaming (f : Z -> Z) (l : list Z) : Prop :=
  f 0 = 0 /\
  (forall x y, In x (0 :: l) -> In y (0 :: l) -> f x = f y -> x = y) /\
  (forall x, In x l -> (0 <= x < 2 ^ 32 <-> 0 <= f x < 2 ^ 32)).

(** the result of a call with the labels renamed; exceptions stay the same *)
Definition renamed (f : Z -> Z) (r : res (list Z)) : res (list Z) :=
  match r with Ok l => Ok (map f l) | Err e => Err e end.

(** A transducer that only compares labels. *)
Definition label_blind (tr : transducer) : Prop :=
  forall f l k, renaming f l -> tr (map f l) k = renamed f (tr l k).

(** ** The same for entities and datums *)

Definition rename_entity (f : Z -> Z) (e : entity) : entity :=
  mkEntity (f (e_label e)) (e_value e) (e_start e) (e_end e) (e_replacements e).
Definition rename_datum (f : Z -> Z) (d : datum) : datum :=
  mkDatum (d_utterance d) (d_intents d) (map (rename_entity f) (d_entities d)).

(** the labels of the entities *)
Definition entity_labels (d : datum) : list Z := map e_label (d_entities d).

(** [f] keeps NOT_ENTITY, does not confuse labels of [l], and keeps them C ints *)
Definition int_renaming (f : Z -> Z) (l : list Z) : Prop :=
  f 0 = 0 /\
  (forall x y, In x (0 :: l) -> In y (0 :: l) -> f x = f y -> x = y) /\
  (forall x, In x l -> - 2 ^ 31 <= x < 2 ^ 31 /\ - 2 ^ 31 <= f x < 2 ^ 31).

Definition renamed_datum (f : Z -> Z) (r : res datum) : res datum :=
  match r with Ok d => Ok (rename_datum f d) | Err e => Err e end.
Definition renamed_datums (f : Z -> Z) (r : res (list datum)) : res (list datum) :=
  match r with Ok l => Ok (map (rename_datum f) l) | Err e => Err e end.

(** ** Operators that are not tokenizers work on any labels *)

(** [f] keeps NOT_ENTITY and does not confuse labels of [l]; any integers *)
Definition free_renaming (f : Z -> Z) (l : list Z) : Prop :=
  f 0 = 0 /\ forall x y, In x (0 :: l) -> In y (0 :: l) -> f x = f y -> x = y.
Definition free_blind (tr : transducer) : Prop :=
  forall f l k, free_renaming f l -> tr (map f l) k = renamed f (tr l k).
