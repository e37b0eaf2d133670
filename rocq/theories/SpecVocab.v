(** Specification vocabulary: which words of a word list or vocabulary matter for an input. *)

From Coq Require Import String.
From Verif Require Import Py Ops SpecOps.
From Coq Require Import List.

Definition occurs_in (w s : str) : Prop := exists a b, s = a ++ w ++ b.

(** Of the non-empty words that occur in [s] both lists have the same. *)
Definition agree_on (s : str) (ws ws' : list str) : Prop :=
  forall w, w <> [] -> occurs_in w s -> (In w ws <-> In w ws').

(** Both vocabularies have the same among the beginnings of [t], and, with ## in front, among
    its other parts. *)
Definition agree_pieces (t : str) (v v' : list str) : Prop :=
  (forall w b, w <> [] -> t = w ++ b -> (In w v <-> In w v')) /\
  (forall a w b, a <> [] -> w <> [] -> t = a ++ w ++ b -> (In (txt "##" ++ w) v <-> In (txt "##" ++ w) v')).

(** The entry of a dict. *)
Definition entry (d : list (str * Z)) (k : str) (i : Z) : Prop := In (k, i) d.
Definition same_entry (d d' : list (str * Z)) (k : str) : Prop := forall i, entry d k i <-> entry d' k i.

(** both calls do the same: the output, and the labels both ways; or the exception *)
Definition same_transform (E : env) (o o' : op) (x : pseq) : Prop := transform_op E o x = transform_op E o' x.
