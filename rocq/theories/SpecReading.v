(** Specification vocabulary: the order in which labels are read. *)

From Verif Require Import Py Elements UserPipe.
From Coq Require Import List.
Import ListNotations.
Local Open Scope nat_scope.

(** Every label of [l'] that is not 0 comes from a place of [l]; later places of [l'] have
    later places of [l], or the same. *)
Definition in_order (l l' : list Z) : Prop :=
  exists from : nat -> nat, (forall i j, i <= j -> from i <= from j) /\
    forall i z, nth_error l' i = Some z -> z <> 0%Z -> nth_error l (from i) = Some z.

(** Every [a] stands before every [b]. *)
Definition all_before (a b : Z) (l : list Z) : Prop :=
  forall i j, nth_error l i = Some a -> nth_error l j = Some b -> i < j.

(** What remains of [l] when elements are left out. *)
Inductive left_out {A} : list A -> list A -> Prop :=
| lo_nil : left_out [] []
| lo_keep x l m : left_out l m -> left_out (x :: l) (x :: m)
| lo_drop x l m : left_out l m -> left_out (x :: l) m.

(** Neighbours that are equal count once. *)
Fixpoint squeeze (l : list Z) : list Z :=
  match l with
  | x :: ((y :: _) as t) => if (x =? y)%Z then squeeze t else x :: squeeze t
  | _ => l
  end.

(** The names of the entities, in the order in which one meets them. *)
Definition reading (l : list Z) : list Z := squeeze (filter (fun x => negb (x =? 0)%Z) l).
Definition names (d : datum) : list Z := reading (map e_label (d_entities d)).

(** The aligner of an operator written by a user does not exchange labels. *)
Definition keeps_order (a : ualigner) : Prop :=
  (forall l l', ualign a l = Ok l' -> in_order l l') /\ (forall l l', ualign_inverse a l = Ok l' -> in_order l l').
