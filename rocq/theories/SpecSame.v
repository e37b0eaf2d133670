(** Specification vocabulary for the use of equal objects (C103). *)

From Coq Require Import String QArith Sorted.
From Verif Require Import Py Json SpecOps Elements SpecElements SpecOrdinal.
From Coq Require Import List.
Local Open Scope Z_scope.

(** both calls succeed with related results, or both raise the same exception *)
Inductive agree {A} (R : A -> A -> Prop) : res A -> res A -> Prop :=
| agree_ok x y : R x y -> agree R (Ok x) (Ok y)
| agree_err e : agree R (Err e) (Err e).

(** [==] *)
Definition equal (a b : datum) : Prop := datum_eqb a b = true.
Definition equal_entities (a b : entity) : Prop := entity_eqb a b = true.

(** raw data that differ only in the order and number of the names of intents and in the order
    and number of replacements *)
Definition same_raw_datum (v w : jval) : Prop :=
  exists u ns ns' es es', v = raw_datum u ns es /\ w = raw_datum u ns' es' /\
    same_set ns ns' /\ Forall2 same_raw es es'.

(** dicts that differ only in the order of the replacements *)
Definition same_dict (v w : jval) : Prop :=
  v = w \/ exists a b c l m, Permutation l m /\
    v = JDict [(txt "label", a); (txt "start", b); (txt "end", c); (txt "replacements", JList (map JStr l))] /\
    w = JDict [(txt "label", a); (txt "start", b); (txt "end", c); (txt "replacements", JList (map JStr m))].
