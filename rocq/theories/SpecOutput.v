(** Specification for what is printed by [pack_to_datum] and warned by the groups. *)

From Verif Require Import Py.
From Coq Require Import List Sorted ZArith.
Local Open Scope Z_scope.

(** A run of equal labels begins at [i]. *)
Definition begins_at (ls : list Z) (i : Z) : Prop :=
  exists k, i = Z.of_nat k /\ (k < length ls)%nat /\ (k = O \/ nth_error ls k <> nth_error ls (k - 1)).
(** [l] lists the beginnings of all runs in order. *)
Definition beginnings (ls l : list Z) : Prop :=
  StronglySorted Z.lt l /\ forall i, In i l <-> begins_at ls i.
