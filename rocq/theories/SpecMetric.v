(** Two annotations of one text, character by character (C112). *)

From Coq Require Import QArith.
From Verif Require Import Py.
From Coq Require Import List.
Import ListNotations.
Local Open Scope Z_scope.

(** A label on one side only; two labels that differ. *)
Definition one_sided (a b : Z) : bool := xorb (a =? 0) (b =? 0).
Definition two_labels (a b : Z) : bool := negb (a =? 0) && negb (b =? 0) && negb (a =? b).

(** The number of places where [f] holds. *)
Fixpoint places (f : Z -> Z -> bool) (l m : list Z) : Z :=
  match l, m with
  | a :: l, b :: m => (if f a b then 1 else 0) + places f l m
  | _, _ => 0
  end.
