(** Property theorems C79 and C80 (pipes, operators and Intermediates as objects that share lists and
    dicts).  The concrete cases that meet the hypotheses are in [HeapWitness.v]. *)

From Coq Require Import String.
From Verif Require Import Py Json Elements Ops Pipe SpecPipe Heap SpecHeap HeapProofs HeapOps HeapWitness.
From Coq Require Import List.
Local Open Scope Z_scope.

(** C79 *)
Theorem C79_others : forall E h h2 k p, has_pipe E h k p ->
  Forall (fun c => ~ changes_pipe k c /\ ~ changes_cell c) h2 -> has_pipe E (h ++ h2) k p.
Proof. exact others_unchanged_all. Qed.
Print Assumptions C79_others.

Theorem C79_operators : forall E h c i o, has_op E h i o -> ~ changes_cell c -> has_op E (h ++ [c]) i o.
Proof. exact ops_unchanged. Qed.
Print Assumptions C79_operators.

Theorem C79_new : forall E h, exists n, new_pipe_only E h NewPipe n /\ has_pipe E (h ++ [NewPipe]) n pipe_new.
Proof. exact pipe_fresh. Qed.
Print Assumptions C79_new.

Theorem C79_add_op : forall E h k o ck p x, has_pipe E h k p -> has_op E h o x ->
  has_pipe E (h ++ [AddOp k o ck]) k (fst (add_op p x ck)) /\
  gives E h (AddOp k o ck) = match snd (add_op p x ck) with None => Ok Nothing | Some e => Err e end.
Proof. exact add_op_shared. Qed.
Print Assumptions C79_add_op.

Theorem C79_iadd : forall E h k q p r, has_pipe E h k p -> has_pipe E h q r ->
  has_pipe E (h ++ [IAdd k q]) k (fst (iadd p r)) /\
  gives E h (IAdd k q) = match snd (iadd p r) with None => Ok Nothing | Some e => Err e end.
Proof. exact iadd_shared. Qed.
Print Assumptions C79_iadd.

Theorem C79_plus : forall E h k q p r, has_pipe E h k p -> has_pipe E h q r ->
  match concat_pipes p r with
  | Ok s => exists n, new_pipe_only E h (Plus k q) n /\ has_pipe E (h ++ [Plus k q]) n s
  | Err e => gives E h (Plus k q) = Err e
  end.
Proof. exact plus_fresh. Qed.
Print Assumptions C79_plus.

Theorem C79_copy : forall E h k p, has_pipe E h k p ->
  exists n, new_pipe_only E h (Copy k) n /\ has_pipe E (h ++ [Copy k]) n p.
Proof. exact copy_fresh. Qed.
Print Assumptions C79_copy.

Theorem C79_slice : forall E h k p sl, has_pipe E h k p ->
  match getitem_slice p sl with
  | Ok s => exists n, new_pipe_only E h (Slice k sl) n /\ has_pipe E (h ++ [Slice k sl]) n s
  | Err e => gives E h (Slice k sl) = Err e
  end.
Proof. exact slice_fresh. Qed.
Print Assumptions C79_slice.

Theorem C79_run : forall E h k p x, has_pipe E h k p ->
  match transform_sequence E p x with
  | Ok (y, als, coll) => exists i, gives E h (Run k x) = Ok (Ran y als i)
  | Err e => gives E h (Run k x) = Err e
  end.
Proof. exact run_shared. Qed.
Print Assumptions C79_run.

Theorem C79_intermediate_follows : forall E h k p x y als coll i h2 p2 name, has_pipe E h k p ->
  transform_sequence E p x = Ok (y, als, coll) -> gives E h (Run k x) = Ok (Ran y als i) ->
  has_pipe E (h ++ Run k x :: h2) k p2 ->
  gives E (h ++ Run k x :: h2) (Get i name) = (z <- get_from_checkpoint (checkpoints p2) coll name ;; Ok (Item z)).
Proof. exact intermediate_follows. Qed.
Print Assumptions C79_intermediate_follows.

Theorem C79_intermediate_keeps : forall E h k p x y als coll i h2, has_pipe E h k p ->
  transform_sequence E p x = Ok (y, als, coll) -> gives E h (Run k x) = Ok (Ran y als i) ->
  ((forall d, ~ In (SetChecks k d) h2) -> forall name j, In (name, j) (checkpoints p) ->
     gives E (h ++ Run k x :: h2) (Get i name) = (z <- get_item coll j ;; Ok (Item z))) /\
  (forall name, ~ In name (map fst (checkpoints p)) -> forall p2, has_pipe E (h ++ Run k x :: h2) k p2 ->
     (~ In name (map fst (checkpoints p2)) -> gives E (h ++ Run k x :: h2) (Get i name) = Err KeyErr) /\
     ((forall c, In c (h ++ h2) -> ~ direct c) -> In name (map fst (checkpoints p2)) ->
      gives E (h ++ Run k x :: h2) (Get i name) = Err IndexErr)).
Proof. exact intermediate_keeps. Qed.
Print Assumptions C79_intermediate_keeps.

Theorem C79_intermediate_snapshot_refuted : exists E h i name c, (forall x j, c <> Run x j) /\
  gives E h (Get i name) = Err KeyErr /\ gives E (h ++ [c]) (Get i name) = Err IndexErr.
Proof. exact intermediate_changes. Qed.
Print Assumptions C79_intermediate_snapshot_refuted.

Theorem C79_set_steps : forall E h k p l xs, has_pipe E h k p -> Forall2 (has_op E h) l xs ->
  gives E h (SetSteps k l) = Ok Nothing /\ has_pipe E (h ++ [SetSteps k l]) k (mkPipe xs (checkpoints p)).
Proof. exact set_steps_does. Qed.
Print Assumptions C79_set_steps.

Theorem C79_set_checkpoints : forall E h k p d, has_pipe E h k p -> NoDup (map fst d) ->
  gives E h (SetChecks k d) = Ok Nothing /\ has_pipe E (h ++ [SetChecks k d]) k (mkPipe (steps p) d).
Proof. exact set_checks_does. Qed.
Print Assumptions C79_set_checkpoints.

Theorem C79_types : forall E h k p, (forall c, In c h -> ~ direct c /\ plain_slice c) -> has_pipe E h k p -> chained (steps p).
Proof. exact history_chained. Qed.
Print Assumptions C79_types.

Theorem C79_types_direct_refuted : exists E h k o p x, gives E h (AddOp k o None) = Err TypeErr /\
  (forall c, In c h -> ~ direct c) /\
  has_pipe E (h ++ [SetSteps k [0%nat; o]]) k p /\ ~ chained (steps p) /\ transform_sequence E p x = Err TypeErr.
Proof. exact direct_unchained. Qed.
Print Assumptions C79_types_direct_refuted.

Theorem C79_intermediate_direct_refuted : exists E h i name c z, direct c /\
  gives E h (Get i name) = Ok (Item z) /\ gives E (h ++ [c]) (Get i name) = Err KeyErr.
Proof. exact intermediate_loses. Qed.
Print Assumptions C79_intermediate_direct_refuted.

Theorem C79_late_name_refuted : exists E h k x h2 i name p z,
  has_pipe E h k p /\ ~ In name (map fst (checkpoints p)) /\
  gives E (h ++ [Run k x]) (Get i name) = Err KeyErr /\
  gives E (h ++ Run k x :: h2) (Get i name) = Ok (Item z) /\ (forall k' d, ~ In (SetChecks k' d) h2).
Proof. exact late_name_answers. Qed.
Print Assumptions C79_late_name_refuted.

(** C80 *)
Theorem C80_made : forall E h name args kwargs vargs vkwargs,
  Forall2 (arg_is E h) args vargs ->
  Forall2 (fun a v => fst a = fst v /\ arg_is E h (snd a) (snd v)) kwargs vkwargs ->
  match construct E name vargs vkwargs with
  | Ok o => exists i, gives E h (NewOp name args kwargs) = Ok (New i) /\ (forall o', ~ has_op E h i o') /\
      has_op E (h ++ [NewOp name args kwargs]) i o
  | Err e => gives E h (NewOp name args kwargs) = Err e
  end.
Proof. exact op_made. Qed.
Print Assumptions C80_made.

Theorem C80_not_given : forall E h1 name args kwargs i o h2, gives E h1 (NewOp name args kwargs) = Ok (New i) ->
  has_op E (h1 ++ [NewOp name args kwargs]) i o ->
  (forall j y, In (SetCell j y) h2 -> not_given j args kwargs) ->
  has_op E (h1 ++ NewOp name args kwargs :: h2) i o.
Proof. exact op_unchanged_all. Qed.
Print Assumptions C80_not_given.

Theorem C80_configs : forall E h1 name args kwargs i h2 x c n par a v, gives E h1 (NewOp name args kwargs) = Ok (New i) ->
  has_op E (h1 ++ NewOp name args kwargs :: h2) i x ->
  dict_get classes name = Some c -> nth_error (map fst (c_params c)) n = Some par ->
  NoDup (map fst kwargs) -> given n par args kwargs a -> arg_is E (h1 ++ NewOp name args kwargs :: h2) a v ->
  dict_get (o_configs x) par = Some v.
Proof. exact configs_follow. Qed.
Print Assumptions C80_configs.

Theorem C80_token2index : forall E h1 args kwargs i h2 o o2 j d, gives E h1 (NewOp (lit "Token2Index") args kwargs) = Ok (New i) ->
  has_op E (h1 ++ [NewOp (lit "Token2Index") args kwargs]) i o ->
  has_op E (h1 ++ NewOp (lit "Token2Index") args kwargs :: h2) i o2 -> NoDup (map fst kwargs) ->
  given 0 (lit "token2index") args kwargs (Ref j) ->
  has_cell E (h1 ++ NewOp (lit "Token2Index") args kwargs :: h2) j (Numbers d) ->
  exists d0 u, o_op o = Token2Index d0 u /\ o_op o2 = Token2Index d u.
Proof. exact index_follows. Qed.
Print Assumptions C80_token2index.

Theorem C80_token2index_hash : forall E h1 args kwargs i h2 o o2 j d, gives E h1 (NewOp (lit "Token2IndexwithHash") args kwargs) = Ok (New i) ->
  has_op E (h1 ++ [NewOp (lit "Token2IndexwithHash") args kwargs]) i o ->
  has_op E (h1 ++ NewOp (lit "Token2IndexwithHash") args kwargs :: h2) i o2 -> NoDup (map fst kwargs) ->
  given 0 (lit "token2index") args kwargs (Ref j) ->
  has_cell E (h1 ++ NewOp (lit "Token2IndexwithHash") args kwargs :: h2) j (Numbers d) ->
  exists d0, o_op o = Token2IndexwithHash d0 /\ o_op o2 = Token2IndexwithHash d.
Proof. exact hash_follows. Qed.
Print Assumptions C80_token2index_hash.

Theorem C80_subwords : forall E h1 args kwargs i h2 o o2 j x, gives E h1 (NewOp (lit "SpanSubwords") args kwargs) = Ok (New i) ->
  has_op E (h1 ++ [NewOp (lit "SpanSubwords") args kwargs]) i o ->
  has_op E (h1 ++ NewOp (lit "SpanSubwords") args kwargs :: h2) i o2 -> NoDup (map fst kwargs) ->
  given 0 (lit "vocab") args kwargs (Ref j) ->
  has_cell E (h1 ++ NewOp (lit "SpanSubwords") args kwargs :: h2) j x ->
  exists v0 u n, o_op o = SpanSubwords v0 u n /\
    o_op o2 = SpanSubwords (match x with Words l => l | Numbers d => map fst d end) u n.
Proof. exact subwords_follow. Qed.
Print Assumptions C80_subwords.

Theorem C80_others : forall E h1 name args kwargs i h2 o o2, gives E h1 (NewOp name args kwargs) = Ok (New i) ->
  has_op E (h1 ++ [NewOp name args kwargs]) i o ->
  has_op E (h1 ++ NewOp name args kwargs :: h2) i o2 -> NoDup (map fst kwargs) ->
  ~ In name [lit "Token2Index"; lit "Token2IndexwithHash"; lit "SpanSubwords"] ->
  (forall j, ~ given 1 (lit "shortest") args kwargs (Ref j)) ->
  o_op o2 = o_op o.
Proof. exact others_keep. Qed.
Print Assumptions C80_others.

Theorem C80_in_pipes : forall E h k o ck p h2 p2 x2, has_pipe E h k p -> gives E h (AddOp k o ck) = Ok Nothing ->
  (forall l, ~ In (SetSteps k l) h2) -> has_pipe E (h ++ AddOp k o ck :: h2) k p2 -> has_op E (h ++ AddOp k o ck :: h2) o x2 ->
  nth_error (steps p2) (length (steps p)) = Some x2.
Proof. exact in_pipes. Qed.
Print Assumptions C80_in_pipes.

Theorem C80_stored_same_refuted : exists E h i o c j o2 x o3, has_op E h i o /\ has_op E (h ++ [SetCell j c]) i o2 /\
  op_deserialize E (map fst classes) (op_serialize o2) = Ok o3 /\
  exists y y', out_of (transform_op E (o_op o2) x) = Ok y /\ out_of (transform_op E (o_op o3) x) = Ok y' /\ y <> y'.
Proof. exact changed_stored_differs. Qed.
Print Assumptions C80_stored_same_refuted.

Theorem C80_readable_refuted : exists E h i o c j, has_op E h i o /\
  op_deserialize E (map fst classes) (op_serialize o) = Ok o /\
  exists o2, has_op E (h ++ [SetCell j c]) i o2 /\ op_deserialize E (map fst classes) (op_serialize o2) = Err ValueErr.
Proof. exact changed_not_readable. Qed.
Print Assumptions C80_readable_refuted.

Theorem C80_equal_same_refuted : exists E h i j a b x, has_op E h i a /\ has_op E h j b /\ op_eqb a b = true /\
  exists y y', out_of (transform_op E (o_op a) x) = Ok y /\ out_of (transform_op E (o_op b) x) = Ok y' /\ y <> y'.
Proof. exact equal_differ. Qed.
Print Assumptions C80_equal_same_refuted.
