(** Specification: which calls change which lists, and what the aligners give afterwards (C83). *)

From Verif Require Import Py Ops Elements Pipe SpecOps SeqHeap.
From Coq Require Import List.

(** What exists after the calls [h], and what it is. *)
Definition has_list (E : env) (h : list action) (r : nat) (l : list elem) : Prop :=
  nth_error (w_lists (after_actions E h)) r = Some l.
Definition has_labels (E : env) (h : list action) (r : nat) (l : list Z) : Prop :=
  nth_error (w_labels (after_actions E h)) r = Some l.
Definition reads (E : env) (h : list action) (x : item) (v : pseq) : Prop :=
  match x with AText s => v = SStr s | AList r => exists l, has_list E h r l /\ v = SLst l end.

(** What the call [c] gives after the calls [h]. *)
Definition gives (E : env) (h : list action) (c : action) : res outcome := snd (exec E (after_actions E h) c).

(** The run [k] was the pipe [p] on a sequence that was [v] then. *)
Definition run_of (E : env) (h : list action) (k : nat) (p : pipe) (v : pseq) : Prop :=
  exists h1 x h2 y, h = h1 ++ RunPipe p x :: h2 /\ reads E h1 x v /\ gives E h1 (RunPipe p x) = Ok (Ran y k).

(** The items of the Intermediate of the run [k]. *)
Definition items (E : env) (h : list action) (k : nat) (xs : list item) : Prop :=
  forall j, gives E h (Item k (Z.of_nat j)) =
    match nth_error xs j with Some x => Ok (Seq x) | None => Err IndexErr end.
Definition lists_in (xs : list item) : list nat :=
  flat_map (fun x => match x with AList r => [r] | AText _ => [] end) xs.

(** The operators that leave the labels as they are. *)
Definition keeps_labels (o : op) : bool :=
  match o with
  | Lowercase | PureNum2Token _ | Token2Index _ _ | Token2IndexwithHash _ => true
  | _ => false
  end.

(** The call [c] is given the labels [r] and returns [result]: in the very list it was given if
    all operators leave the labels as they are, otherwise in a new list. *)
Definition answers (E : env) (h : list action) (p : pipe) (c : action) (r : nat) (result : res (list Z)) : Prop :=
  match result with
  | Err e => gives E h c = Err e
  | Ok l => exists r', gives E h c = Ok (Labels r') /\ has_labels E (h ++ [c]) r' l /\
      if forallb (fun o => keeps_labels (o_op o)) (steps p) then r' = r
      else forall l0, ~ has_labels E h r' l0
  end.

(** No list of the run was changed to a shorter one: [xs] are the items, [coll] what they were. *)
Definition none_shorter (E : env) (h : list action) (xs : list item) (coll : list pseq) : Prop :=
  forall j r l, nth_error xs j = Some (AList r) -> nth_error coll j = Some (SLst l) ->
    exists l', has_list E h r l' /\ (length l <= length l')%nat.

(** No SpanSubwords of the run was given two neighbouring empty words. *)
Definition no_touch (p : pipe) (coll : list pseq) : Prop :=
  forall j o v u m ts, nth_error (steps p) j = Some o -> o_op o = SpanSubwords v u m ->
    nth_error coll j = Some (SLst (map ETok ts)) -> ~ two_empty ts.
