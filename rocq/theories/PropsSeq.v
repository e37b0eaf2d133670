(** Property theorems C83 (the sequences and label lists of a run as objects).
    The concrete cases that meet the hypotheses are in [SeqHeapWitness.v]. *)

From Coq Require Import String.
From Verif Require Import Py Json Elements Ops Pipe SpecEdit SpecOps SeqHeap SpecSeqHeap SeqHeapProofs SeqHeapWitness.
From Coq Require Import List.
Local Open Scope nat_scope.

(** C83 *)
Theorem C83_lists_keep : forall E h c r l, has_list E h r l -> (forall l', c <> SetList r l') -> has_list E (h ++ [c]) r l.
Proof. exact lists_kept. Qed.
Print Assumptions C83_lists_keep.

Theorem C83_lists_change : forall E h r l l', has_list E h r l -> gives E h (SetList r l') = Ok Nothing /\ has_list E (h ++ [SetList r l']) r l'.
Proof. exact lists_changed. Qed.
Print Assumptions C83_lists_change.

Theorem C83_labels_keep : forall E h c r l, has_labels E h r l -> (forall l', c <> SetLabels r l') -> has_labels E (h ++ [c]) r l.
Proof. exact labels_kept. Qed.
Print Assumptions C83_labels_keep.

Theorem C83_labels_change : forall E h r l l', has_labels E h r l -> gives E h (SetLabels r l') = Ok Nothing /\ has_labels E (h ++ [SetLabels r l']) r l'.
Proof. exact labels_changed. Qed.
Print Assumptions C83_labels_change.

Theorem C83_run : forall E h p x v, reads E h x v ->
  match run E (steps p) v with
  | Err e => gives E h (RunPipe p x) = Err e
  | Ok (out, als, coll) => exists y k t s,
      let h' := h ++ [RunPipe p x] in
      gives E h (RunPipe p x) = Ok (Ran y k) /\ (forall xs, ~ items E h k xs) /\
      items E h' k (x :: t) /\ x :: t = s ++ [y] /\
      Forall2 (reads E h') (x :: t) coll /\ reads E h' y out /\
      NoDup (lists_in t) /\ (forall r l, In r (lists_in t) -> ~ has_list E h r l)
  end.
Proof. exact run_full. Qed.
Print Assumptions C83_run.

Theorem C83_items_keep : forall E h g k xs, items E h k xs -> items E (h ++ g) k xs.
Proof. exact items_kept. Qed.
Print Assumptions C83_items_keep.

Theorem C83_forward : forall E h k p v out als coll r ls, ord_ok (ord_e E) -> run_of E h k p v -> run E (steps p) v = Ok (out, als, coll) -> has_labels E h r ls ->
  answers E h p (Forward k r) r (align_all als ls).
Proof. exact forward_full. Qed.
Print Assumptions C83_forward.

Theorem C83_back : forall E h k p v out als coll xs r ls, ord_ok (ord_e E) -> run_of E h k p v -> run E (steps p) v = Ok (out, als, coll) -> has_labels E h r ls ->
  items E h k xs -> Forall2 (reads E h) xs coll ->
  answers E h p (Back k r) r (align_inverse_all E als ls).
Proof. exact back_unchanged. Qed.
Print Assumptions C83_back.

Theorem C83_back_not_shorter : forall E h k p v out als coll xs r ls, ord_ok (ord_e E) -> run_of E h k p v -> run E (steps p) v = Ok (out, als, coll) -> has_labels E h r ls ->
  items E h k xs -> no_touch p coll -> none_shorter E h xs coll ->
  answers E h p (Back k r) r (align_inverse_all E als ls).
Proof. exact back_not_shorter. Qed.
Print Assumptions C83_back_not_shorter.

Theorem C83_back_never_wrong : forall E h k p v out als coll r ls, ord_ok (ord_e E) -> run_of E h k p v -> run E (steps p) v = Ok (out, als, coll) -> has_labels E h r ls ->
  no_touch p coll ->
  answers E h p (Back k r) r (align_inverse_all E als ls) \/ gives E h (Back k r) = Err ValueErr.
Proof. exact back_never_wrong. Qed.
Print Assumptions C83_back_never_wrong.

Theorem C83_input_not_needed_refuted : exists E h k r r' j l,
  gives E h (Back k r) = Ok (Labels r') /\ gives E (h ++ [SetList j l]) (Back k r) = Err ValueErr.
Proof. exact input_needed. Qed.
Print Assumptions C83_input_not_needed_refuted.

Theorem C83_labels_independent_refuted : exists E h k r r' l l',
  gives E h (Forward k r) = Ok (Labels r') /\ has_labels E (h ++ [Forward k r]) r' l /\
  has_labels E (h ++ [Forward k r; SetLabels r l']) r' l' /\ l <> l'.
Proof. exact labels_shared. Qed.
Print Assumptions C83_labels_independent_refuted.

Theorem C83_output_independent_refuted : exists E h p x r k l l' r2,
  gives E h (RunPipe p x) = Ok (Ran (AList r) k) /\ gives E (h ++ [RunPipe p x]) (Item k (-1)) = Ok (Seq (AList r2)) /\
  has_list E (h ++ [RunPipe p x]) r2 l /\ has_list E (h ++ [RunPipe p x; SetList r l']) r2 l' /\ l <> l'.
Proof. exact output_shared. Qed.
Print Assumptions C83_output_independent_refuted.
