(** Specification: which labels of the output, as a model predicts them, are the same after
    they are sent back to the input and forward again (C108). *)

From Coq Require Import String.
From Verif Require Import Py SpecLabels SpecSeg SpecRuns SpecOps Ops Elements Pipe SpecElements SpecTrip SpecSettle.
From Coq Require Import List.
Local Open Scope Z_scope.

(** The labels [m] of the output can be sent back, and what comes back is sent forward to [m]. *)
Definition sticks (E : env) (als : list aligner) (m : list Z) : Prop :=
  exists l, align_inverse_all E als m = Ok l /\ align_all als l = Ok m.

(** Whenever the operator accepts [x]: of the labels of its result exactly those with [P] stick. *)
Definition sticks_when (E : env) (o : op) (x : pseq) (P : list Z -> Prop) : Prop :=
  forall y a, transform_op E o x = Ok (y, a) ->
  forall m, sticks E [a] m <-> length m = pseq_length y /\ P m.

(** The labels of the new value of every replaced piece satisfy [P], given the old value. *)
Definition in_new {A} (sg : list (seg A)) (P : list A -> list Z -> Prop) (m : list Z) : Prop :=
  forall sg1 w v sg2, sg = sg1 ++ (w, Some v) :: sg2 ->
  P w (firstn (length v) (skipn (length (news sg1)) m)).

(** 0 at both ends, and [P] between them. *)
Definition framed (P : list Z -> Prop) (l : list Z) : Prop := exists mid, l = 0 :: mid ++ [0] /\ P mid.

(** The labels of the pieces of every token satisfy [P]. *)
Definition in_pieces (outs : list (list elem)) (P : list Z -> Prop) (m : list Z) : Prop :=
  forall o1 o o2, outs = o1 ++ o :: o2 -> P (firstn (length o) (skipn (length (concat o1)) m)).

(** Operators other than tokenizers that give every element of the result a label of its own. *)
Definition transparent (o : op) : Prop :=
  match o with
  | Lowercase | StripAccentToken | MergeWhiteSpaceCharacters | StripWhiteSpaceCharacters
  | PureNum2Token _ | Token2Index _ _ | Token2IndexwithHash _ => True
  | _ => False
  end.
Definition tokenizer (o : op) : Prop := input_type o = TStr /\ output_type o = TList.

(** ** Pipes *)

(** The place where the list operators put what is at place [i], if they do not cut it off. *)
Fixpoint lands (ops : list op) (i : nat) : option nat :=
  match ops with
  | [] => Some i
  | o :: ops => match moved o i with Some j => lands ops j | None => None end
  end.
(** Place [j] of the result is none of those where the [n] elements are put. *)
Definition added (ops : list op) (n j : nat) : Prop := forall i, (i < n)%nat -> lands ops i <> Some j.
