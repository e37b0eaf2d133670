(** Property theorems C37-C44, C53, C55 (pipes).  The concrete cases that meet the hypotheses
    are in [PipeWitness.v]. *)

From Coq Require Import String Ascii.
From Verif Require Import Py Edit Labels Ops SpecEdit SpecLabels SpecSeg SpecRuns SpecScan SpecOps
  ClosureProofs Json SpecJson Elements Pipe SpecPipe PipeProofs ObjProofs EqProofs PipeAlign BertProofs
  PipeLaws PipeWitness SpecSlice SliceProofs SliceWitness SpecForeign ForeignProofs.
From Coq Require Import List.
Local Open Scope nat_scope.

(** C37 *)
Theorem C37_operators_in_order : forall E p x y als coll,
  transform_sequence E p x = Ok (y, als, coll) <-> stepwise E (steps p) x y als coll.
Proof. exact (fun E p => run_stepwise E (steps p)). Qed.
Print Assumptions C37_operators_in_order.

Theorem C37_first_failure : forall E p x e,
  transform_sequence E p x = Err e <->
  exists k o u al co, nth_error (steps p) k = Some o /\
    transform_sequence E (mkPipe (firstn k (steps p)) []) x = Ok (u, al, co) /\
    transform_op E (o_op o) u = Err e.
Proof. exact (fun E p => run_error E (steps p)). Qed.
Print Assumptions C37_first_failure.

Theorem C37_labels_in_order : forall als l l', align_all als l = Ok l' <-> labels_forward als l l'.
Proof. exact align_all_forward. Qed.
Print Assumptions C37_labels_in_order.

Theorem C37_labels_in_reverse_order : forall E als l l',
  align_inverse_all E als l = Ok l' <-> labels_backward E als l l'.
Proof. exact align_all_backward. Qed.
Print Assumptions C37_labels_in_reverse_order.

Theorem C37_labels_first_failure : forall als l e,
  align_all als l = Err e <->
  exists k a u, nth_error als k = Some a /\ labels_forward (firstn k als) l u /\ align a u = Err e.
Proof. exact align_all_error. Qed.
Print Assumptions C37_labels_first_failure.

Theorem C37_labels_reverse_first_failure : forall E als l e,
  align_inverse_all E als l = Err e <->
  exists k a u, nth_error als k = Some a /\ labels_backward E (skipn (S k) als) l u /\
    align_inverse E a u = Err e.
Proof. exact align_inverse_all_error. Qed.
Print Assumptions C37_labels_reverse_first_failure.

Theorem C37_datum : forall E p d y is l als coll,
  transform E p d = Ok (y, is, l, als, coll) <->
  exists u l0, unpack_datum d = Ok (u, is, l0) /\ stepwise E (steps p) (SStr u) y als coll /\
    labels_forward als l0 l.
Proof. exact transform_ok. Qed.
Print Assumptions C37_datum.

(** C38 *)
Theorem C38_checkpoint : forall E h k o name x y als coll,
  all_succeed pipe_new h -> nth_error h k = Some (o, Some name) ->
  transform_sequence E (after pipe_new h) x = Ok (y, als, coll) ->
  exists v, transform_sequence E (mkPipe (map fst (firstn (S k) h)) []) x
              = Ok (v, firstn (S k) als, firstn (S (S k)) coll) /\
    get_from_checkpoint (checkpoints (after pipe_new h)) coll name = Ok v.
Proof. exact checkpoint_meaning. Qed.
Print Assumptions C38_checkpoint.

Theorem C38_unknown_name : forall E h name x y als coll,
  (forall o, ~ In (o, Some name) h) -> transform_sequence E (after pipe_new h) x = Ok (y, als, coll) ->
  get_from_checkpoint (checkpoints (after pipe_new h)) coll name = Err KeyErr.
Proof. exact checkpoint_unknown. Qed.
Print Assumptions C38_unknown_name.

Theorem C38_later_calls_keep_it : forall p h coll name v,
  get_from_checkpoint (checkpoints p) coll name = Ok v ->
  get_from_checkpoint (checkpoints (after p h)) coll name = Ok v.
Proof. exact checkpoint_stable. Qed.
Print Assumptions C38_later_calls_keep_it.

Theorem C38_added_later : forall E p o name x y als coll,
  transform_sequence E p x = Ok (y, als, coll) -> snd (add_op p o (Some name)) = None ->
  get_from_checkpoint (checkpoints p) coll name = Err KeyErr /\
  get_from_checkpoint (checkpoints (fst (add_op p o (Some name)))) coll name = Err IndexErr.
Proof. exact checkpoint_late. Qed.
Print Assumptions C38_added_later.

Theorem C38_results_are_independent_refuted : exists E p o name x y als coll,
  reachable E p /\ transform_sequence E p x = Ok (y, als, coll) /\
  get_from_checkpoint (checkpoints p) coll name = Err KeyErr /\
  get_from_checkpoint (checkpoints (fst (add_op p o (Some name)))) coll name <> Err KeyErr.
Proof. exact alias_refuted. Qed.
Print Assumptions C38_results_are_independent_refuted.

(** C39 *)
Theorem C39_adjacent_types_match : forall E p, reachable E p -> chained (steps p).
Proof. exact reachable_chained. Qed.
Print Assumptions C39_adjacent_types_match.

Theorem C39_inputs_have_the_right_type : forall E p x o k u al co, reachable E p ->
  (forall o0, nth_error (steps p) 0 = Some o0 -> type_of x = in_type o0) ->
  nth_error (steps p) k = Some o ->
  transform_sequence E (mkPipe (firstn k (steps p)) []) x = Ok (u, al, co) ->
  type_of u = in_type o.
Proof. exact (fun E p x o k u al co R => types_match E (steps p) x o k u al co (reachable_chained E p R)). Qed.
Print Assumptions C39_inputs_have_the_right_type.

Theorem C39_add_op : forall p o ck,
  let mismatch := exists l, last_opt (steps p) = Some l /\ out_type l <> in_type o in
  (mismatch -> add_op p o ck = (p, Some TypeErr)) /\
  (~ mismatch -> ck = None -> add_op p o ck = (mkPipe (steps p ++ [o]) (checkpoints p), None)) /\
  (~ mismatch -> forall name, ck = Some name -> ~ In name (map fst (checkpoints p)) ->
     add_op p o ck = (mkPipe (steps p ++ [o])
                        (checkpoints p ++ [(name, Z.of_nat (length (steps p) + 1))]), None)) /\
  (~ mismatch -> forall name, ck = Some name -> In name (map fst (checkpoints p)) ->
     add_op p o ck = (mkPipe (steps p ++ [o]) (checkpoints p), Some KeyErr)).
Proof. exact add_op_effect. Qed.
Print Assumptions C39_add_op.

Theorem C39_failed_call_changes_nothing_refuted : exists E p o name,
  reachable E p /\ made E o /\ snd (add_op p o (Some name)) = Some KeyErr /\
  fst (add_op p o (Some name)) <> p.
Proof. exact failed_call_refuted. Qed.
Print Assumptions C39_failed_call_changes_nothing_refuted.

Theorem C39_no_type_error_refuted : exists E p s,
  reachable E p /\ chained (steps p) /\ transform_sequence E p (SStr s) = Err TypeErr.
Proof. exact element_types_refuted. Qed.
Print Assumptions C39_no_type_error_refuted.

Theorem C39_step_slices_refuted : exists E p q x,
  reachable E p /\ getitem_slice p (Some (-1)%Z, None, Some (-1)%Z) = Ok q /\ ~ chained (steps q) /\
  transform_sequence E q x = Err TypeErr.
Proof. exact step_slice_refuted. Qed.
Print Assumptions C39_step_slices_refuted.

Theorem C39_add : forall E reg p name kwargs ck, let k := match kwargs with Some k => k | None => [] end in
  (~ In name reg -> add E reg p name kwargs ck = (p, Some KeyErr)) /\
  (In name reg -> forall e, construct E name [] k = Err e -> add E reg p name kwargs ck = (p, Some e)) /\
  (In name reg -> forall o, construct E name [] k = Ok o -> add E reg p name kwargs ck = add_op p o ck).
Proof. exact add_is. Qed.
Print Assumptions C39_add.

(** C40 *)
Theorem C40_succeeds_iff : forall p q,
  (exists r, concat_pipes p q = Ok r) <-> joinable p q /\ disjoint_names p q.
Proof. exact concat_succeeds. Qed.
Print Assumptions C40_succeeds_iff.

Theorem C40_errors : forall p q,
  (steps p = [] \/ steps q = [] -> concat_pipes p q = Err IndexErr) /\
  (steps p <> [] -> steps q <> [] -> ~ joinable p q -> concat_pipes p q = Err TypeErr) /\
  (joinable p q -> ~ disjoint_names p q -> concat_pipes p q = Err KeyErr).
Proof. exact concat_errors. Qed.
Print Assumptions C40_errors.

Theorem C40_one_after_the_other : forall E p q r x,
  concat_pipes p q = Ok r ->
  transform_sequence E r x =
  ('(y, al, co) <- transform_sequence E p x ;;
   '(z, al', co') <- transform_sequence E q y ;; Ok (z, al ++ al', co ++ tl co')).
Proof. exact concat_runs. Qed.
Print Assumptions C40_one_after_the_other.

Theorem C40_labels : forall E als als' l,
  align_all (als ++ als') l = (m <- align_all als l ;; align_all als' m) /\
  align_inverse_all E (als ++ als') l = (m <- align_inverse_all E als' l ;; align_inverse_all E als m).
Proof. exact (fun E als als' l => conj (align_all_app als als' l) (align_inverse_all_app E als als' l)). Qed.
Print Assumptions C40_labels.

Theorem C40_in_place : forall p q,
  (steps p = [] \/ steps q = [] -> iadd p q = (p, Some IndexErr)) /\
  (steps p <> [] -> steps q <> [] -> ~ joinable p q -> iadd p q = (p, Some TypeErr)) /\
  (joinable p q -> ~ disjoint_names p q -> iadd p q = (p, Some KeyErr)) /\
  (joinable p q -> disjoint_names p q ->
     snd (iadd p q) = None /\ steps (fst (iadd p q)) = steps p ++ steps q).
Proof. exact iadd_cases. Qed.
Print Assumptions C40_in_place.

Theorem C40_in_place_is_concatenation : forall p q r, concat_pipes p q = Ok r <-> iadd p q = (r, None).
Proof. exact concat_iadd. Qed.
Print Assumptions C40_in_place_is_concatenation.

Theorem C40_steps_are_associative : forall p q r pq qr a b,
  concat_pipes p q = Ok pq -> concat_pipes q r = Ok qr ->
  concat_pipes pq r = Ok a -> concat_pipes p qr = Ok b -> steps a = steps b.
Proof. exact concat_steps_assoc. Qed.
Print Assumptions C40_steps_are_associative.

Theorem C40_checkpoints : forall E p q r x y als coll name,
  in_range p -> in_range q -> concat_pipes p q = Ok r ->
  transform_sequence E r x = Ok (y, als, coll) ->
  (In name (map fst (checkpoints p)) ->
     exists v y' al' co', transform_sequence E p x = Ok (y', al', co') /\
       get_from_checkpoint (checkpoints p) co' name = Ok v /\
       get_from_checkpoint (checkpoints r) coll name = Ok v) /\
  (In name (map fst (checkpoints q)) -> get_from_checkpoint (checkpoints r) coll name = Err IndexErr).
Proof. exact concat_checkpoints. Qed.
Print Assumptions C40_checkpoints.

Theorem C40_checkpoints_of_added_pipes : forall h, in_range (after pipe_new h).
Proof. exact after_in_range. Qed.
Print Assumptions C40_checkpoints_of_added_pipes.

Theorem C40_right_checkpoints_refuted : exists E p q r x y als coll m als1 coll1 y2 als2 coll2 name,
  reachable E p /\ reachable E q /\ concat_pipes p q = Ok r /\
  transform_sequence E r x = Ok (y, als, coll) /\
  transform_sequence E p x = Ok (m, als1, coll1) /\
  transform_sequence E q m = Ok (y2, als2, coll2) /\
  get_from_checkpoint (checkpoints q) coll2 name = Ok y2 /\
  get_from_checkpoint (checkpoints r) coll name = Err IndexErr.
Proof. exact right_checkpoints_refuted. Qed.
Print Assumptions C40_right_checkpoints_refuted.

Theorem C40_associative_refuted : exists E p q r pq qr a b,
  reachable E p /\ reachable E q /\ reachable E r /\
  concat_pipes p q = Ok pq /\ concat_pipes pq r = Ok a /\
  concat_pipes q r = Ok qr /\ concat_pipes p qr = Ok b /\ pipe_eqb a b = false.
Proof. exact not_associative_refuted. Qed.
Print Assumptions C40_associative_refuted.

Theorem C40_empty_pipe_is_neutral_refuted : exists E p, reachable E p /\
  concat_pipes pipe_new p = Err IndexErr /\ concat_pipes p pipe_new = Err IndexErr.
Proof. exact neutral_refuted. Qed.
Print Assumptions C40_empty_pipe_is_neutral_refuted.

(** C41 *)
Theorem C41_steps : forall p a b q,
  a <= b -> getitem_slice p (Some (Z.of_nat a), Some (Z.of_nat b), None) = Ok q ->
  steps q = firstn (b - a) (skipn a (steps p)).
Proof. exact slice_ok. Qed.
Print Assumptions C41_steps.

Theorem C41_item : forall p i, let n := Z.of_nat (length (steps p)) in
  ((0 <= i < n)%Z -> exists o, nth_error (steps p) (Z.to_nat i) = Some o /\ getitem p i = Ok o) /\
  ((- n <= i < 0)%Z -> exists o, nth_error (steps p) (Z.to_nat (n + i)) = Some o /\ getitem p i = Ok o) /\
  ((i < - n \/ n <= i)%Z -> getitem p i = Err IndexErr).
Proof. exact item_spec. Qed.
Print Assumptions C41_item.

Theorem C41_with_start_and_stop_succeeds : forall p a b,
  exists q, getitem_slice p (Some a, Some b, None) = Ok q.
Proof. exact slice_total. Qed.
Print Assumptions C41_with_start_and_stop_succeeds.

Theorem C41_runs_and_checkpoints : forall E p a b q x y als coll name i,
  in_range p -> a <= b <= length (steps p) ->
  getitem_slice p (Some (Z.of_nat a), Some (Z.of_nat b), None) = Ok q ->
  transform_sequence E p x = Ok (y, als, coll) ->
  dict_get (checkpoints p) name = Some (Z.of_nat i) ->
  exists x' y', nth_error coll a = Some x' /\ nth_error coll b = Some y' /\
    let coll' := firstn (S (b - a)) (skipn a coll) in
    transform_sequence E q x' = Ok (y', firstn (b - a) (skipn a als), coll') /\
    (a < i <= b -> get_from_checkpoint (checkpoints q) coll' name =
                   get_from_checkpoint (checkpoints p) coll name) /\
    (i <= a -> get_from_checkpoint (checkpoints q) coll' name = Err KeyErr) /\
    (b < i -> get_from_checkpoint (checkpoints q) coll' name = Err IndexErr).
Proof. exact slice_checkpoints. Qed.
Print Assumptions C41_runs_and_checkpoints.

Theorem C41_without_start : forall p stop step,
  (step = None \/ step = Some 1%Z) ->
  (checkpoints p <> [] -> getitem_slice p (None, stop, step) = Err TypeErr) /\
  (checkpoints p = [] -> exists q, getitem_slice p (None, stop, step) = Ok q /\ checkpoints q = []).
Proof. exact slice_without_start. Qed.
Print Assumptions C41_without_start.

Theorem C41_any_slice : forall p start stop step q, getitem_slice p (start, stop, step) = Ok q ->
  let k := match step with Some k => k | None => 1%Z end in
  exists xs, (forall x, In x xs <-> sliced (Z.of_nat (length (steps p))) start stop k x) /\ in_slice_order k xs /\
    Forall2 (fun x o => nth_error (steps p) (Z.to_nat x) = Some o) xs (steps q).
Proof. exact slice_any. Qed.
Print Assumptions C41_any_slice.

Theorem C41_errors : forall p start stop step e, getitem_slice p (start, stop, step) = Err e <->
  (step = Some 0%Z /\ e = ValueErr) \/
  (step <> Some 0%Z /\ start = None /\ checkpoints p <> [] /\ e = TypeErr).
Proof. exact slice_error. Qed.
Print Assumptions C41_errors.

Theorem C41_checkpoints : forall p start stop step q, getitem_slice p (start, stop, step) = Ok q ->
  match start with
  | None => checkpoints p = [] /\ checkpoints q = []
  | Some s => forall name i, In (name, i) (checkpoints q) <-> (0 < i)%Z /\ In (name, (i + s)%Z) (checkpoints p)
  end.
Proof. exact slice_keeps. Qed.
Print Assumptions C41_checkpoints.

Theorem C41_checkpoints_denote_the_same_refuted : exists E p q x y als coll name,
  reachable E p /\ getitem_slice p (Some 0%Z, Some 2%Z, None) = Ok q /\
  In name (map fst (checkpoints q)) /\
  transform_sequence E q x = Ok (y, als, coll) /\
  get_from_checkpoint (checkpoints q) coll name = Err IndexErr.
Proof. exact slice_checkpoint_refuted. Qed.
Print Assumptions C41_checkpoints_denote_the_same_refuted.

Theorem C41_negative_start_refuted : exists E p q x y als coll name v y2 als2 coll2 w,
  reachable E p /\ getitem_slice p (Some (-3)%Z, None, None) = Ok q /\ steps q = steps p /\
  transform_sequence E p x = Ok (y, als, coll) /\
  get_from_checkpoint (checkpoints p) coll name = Ok v /\
  transform_sequence E q x = Ok (y2, als2, coll2) /\
  get_from_checkpoint (checkpoints q) coll2 name = w /\ w <> Ok v.
Proof. exact negative_start_refuted. Qed.
Print Assumptions C41_negative_start_refuted.

Theorem C41_without_start_refuted : exists E p, reachable E p /\ getitem_slice p (None, None, None) = Err TypeErr.
Proof. exact no_start_refuted. Qed.
Print Assumptions C41_without_start_refuted.

(** C42 *)
Theorem C42_round_trip : forall E reg p, reachable E p -> Forall text (map fst (checkpoints p)) ->
  (forall o, In o (steps p) -> In (o_class o) reg) ->
  exists q, pipe_deserialize E reg (pipe_serialize p) = Ok q /\
    (forall x, transform_sequence E q x = transform_sequence E p x) /\
    checkpoints q = checkpoints p /\
    (pipe_eqb p q = true <-> forall o, In o (steps p) -> no_tuple (JDict (o_configs o))) /\
    ((forall o, In o (steps p) -> no_tuple (JDict (o_configs o))) -> q = p).
Proof. exact pipe_serial. Qed.
Print Assumptions C42_round_trip.

Theorem C42_unregistered_class : forall E reg p, reachable E p -> Forall text (map fst (checkpoints p)) ->
  (exists o, In o (steps p) /\ ~ In (o_class o) reg) ->
  pipe_deserialize E reg (pipe_serialize p) = Err KeyErr.
Proof. exact pipe_serial_unknown. Qed.
Print Assumptions C42_unregistered_class.

Theorem C42_fresh_process_refuted : exists E p, reachable E p /\
  pipe_deserialize E imported (pipe_serialize p) = Err KeyErr.
Proof. exact end_token_refuted. Qed.
Print Assumptions C42_fresh_process_refuted.

Theorem C42_mismatching_steps : forall E reg p,
  Forall (made E) (steps p) -> NoDup (map fst (checkpoints p)) -> Forall text (map fst (checkpoints p)) ->
  ~ chained (steps p) -> (forall o, In o (steps p) -> In (o_class o) reg) ->
  pipe_deserialize E reg (pipe_serialize p) = Err TypeErr.
Proof. exact (fun E reg p a b c => proj2 (pipe_read_fails E reg p a b c)). Qed.
Print Assumptions C42_mismatching_steps.

(** C43 *)
Theorem C43_recorded_configuration : forall E name args kwargs o c,
  value (JDict kwargs) -> construct E name args kwargs = Ok o -> dict_get classes name = Some c ->
  o_class o = name /\ Permutation (map fst (o_configs o)) (map fst (c_params c)) /\
  forall k p d, nth_error (c_params c) k = Some (p, d) ->
    exists v, dict_get (o_configs o) p = Some v /\ given (c_params c) args kwargs k p v.
Proof. exact configs_bind. Qed.
Print Assumptions C43_recorded_configuration.

Theorem C43_equal_iff : forall E a b, made E a -> made E b ->
  op_eqb a b = true <-> o_class a = o_class b /\ same (JDict (o_configs a)) (JDict (o_configs b)).
Proof. exact op_eqb_spec. Qed.
Print Assumptions C43_equal_iff.

Theorem C43_equal_operators_behave_alike : forall E a b, made E a -> made E b -> op_eqb a b = true ->
  equivalent (o_op a) (o_op b).
Proof. exact equal_behave. Qed.
Print Assumptions C43_equal_operators_behave_alike.

Theorem C43_round_trip : forall E reg o, made E o -> In (o_class o) reg ->
  op_deserialize E reg (op_serialize o) = Ok (as_json_obj o) /\
  (op_eqb o (as_json_obj o) = true <-> no_tuple (JDict (o_configs o))) /\
  (no_tuple (JDict (o_configs o)) -> as_json_obj o = o).
Proof. exact op_serial. Qed.
Print Assumptions C43_round_trip.

Theorem C43_foreign_text : forall E reg v e, value v -> no_tuple v -> refused (fun n => In n reg) v e ->
  op_deserialize E reg (dumps 0 v) = Err e.
Proof. exact op_refused. Qed.
Print Assumptions C43_foreign_text.

Theorem C43_unregistered_class : forall E reg o, made E o -> ~ In (o_class o) reg ->
  op_deserialize E reg (op_serialize o) = Err KeyErr.
Proof. exact op_unknown. Qed.
Print Assumptions C43_unregistered_class.

Theorem C43_equal_pipes_iff : forall E p q, reachable E p -> reachable E q ->
  pipe_eqb p q = true <->
  Forall2 (fun a b => o_class a = o_class b /\ same (JDict (o_configs a)) (JDict (o_configs b)))
    (steps p) (steps q) /\
  Permutation (checkpoints p) (checkpoints q).
Proof. exact pipe_eq. Qed.
Print Assumptions C43_equal_pipes_iff.

Theorem C43_equal_pipes_behave_alike : forall E p q x, reachable E p -> reachable E q -> pipe_eqb p q = true ->
  transform_sequence E p x = transform_sequence E q x /\
  forall d, transform E p d = transform E q d.
Proof. exact pipe_eq_run. Qed.
Print Assumptions C43_equal_pipes_behave_alike.

Theorem C43_tuple_round_trip_refuted : exists E o,
  made E o /\ In (o_class o) imported /\ exists o',
  op_deserialize E imported (op_serialize o) = Ok o' /\ op_eqb o o' = false.
Proof. exact tuple_refuted. Qed.
Print Assumptions C43_tuple_round_trip_refuted.

Theorem C43_same_behaviour_is_equal_refuted : exists E a b,
  made E a /\ made E b /\ equivalent (o_op a) (o_op b) /\ op_eqb a b = false.
Proof. exact default_refuted. Qed.
Print Assumptions C43_same_behaviour_is_equal_refuted.

(** C44 *)
Theorem C44_labels : forall E, python E -> regexes E -> forall p x y als coll,
  reachable E p -> transform_sequence E p x = Ok (y, als, coll) ->
  let twice := exists k o u, nth_error (steps p) k = Some o /\ nth_error coll k = Some u /\ deletes_twice E (o_op o) u in
  (forall l, length l = pseq_length x ->
     exists l', align_all als l = Ok l' /\ length l' = pseq_length y) /\
  (forall l, length l = pseq_length y ->
     (forall o, In o (steps p) -> in_type o = out_type o) \/ u32_labels l ->
     (twice -> align_inverse_all E als l = Err AssertionErr) /\
     (~ twice -> exists l', align_inverse_all E als l = Ok l' /\ length l' = pseq_length x) /\
     (forall e, align_inverse_all E als l = Err e -> twice)) /\
  (steps p <> [] -> forall l, length l <> pseq_length x -> align_all als l = Err ValueErr) /\
  (steps p <> [] -> forall l, length l <> pseq_length y -> align_inverse_all E als l = Err ValueErr).
Proof. exact whole_pipe. Qed.
Print Assumptions C44_labels.

Theorem C44_inverse_never_raises_refuted : exists E p x y als coll l,
  python E /\ regexes E /\ reachable E p /\ transform_sequence E p x = Ok (y, als, coll) /\
  length l = pseq_length y /\ u32_labels l /\ align_inverse_all E als l = Err AssertionErr.
Proof. exact whole_pipe_refuted. Qed.
Print Assumptions C44_inverse_never_raises_refuted.

(** C53 *)
Theorem C53_tokens : forall E p s ps qs, python E -> basic_pipe E = Ok p ->
  cut (by_punct_cjk E) (map lower s) ps ->
  let u := joined blank (tokens_of (kept ps)) in
  cut (by_space E) (stripped E u) qs ->
  (length (stripped E u) = length u ->
   exists als coll, transform_sequence E p (SStr s) = Ok (SLst (map ETok (tokens_of (kept qs))), als, coll)) /\
  (length (stripped E u) <> length u -> transform_sequence E p (SStr s) = Err AssertionErr).
Proof. exact basic_tokens. Qed.
Print Assumptions C53_tokens.

Theorem C53_no_whitespace : forall E p s y als coll, python E -> basic_pipe E = Ok p ->
  transform_sequence E p (SStr s) = Ok (y, als, coll) ->
  exists ts, y = SLst (map ETok ts) /\
    forall t, In t ts -> t <> [] /\ (forall c, In c t -> is_space E c = false).
Proof. exact basic_clean. Qed.
Print Assumptions C53_no_whitespace.

Theorem C53_without_accents : forall E p s ps, python E -> basic_pipe E = Ok p ->
  cut (by_punct_cjk E) (map lower s) ps ->
  let ts := tokens_of (kept ps) in
  stripped E (joined blank ts) = joined blank ts ->
  (exists als coll, transform_sequence E p (SStr s) = Ok (SLst (map ETok ts), als, coll)) /\
  forall t c, In t ts -> In c t ->
    ascii_capital c = false /\ (punctuation E c || cjk c = true -> t = [c]).
Proof. exact basic_plain. Qed.
Print Assumptions C53_without_accents.

Theorem C53_full : forall E p q s ts als coll, python E -> basic_pipe E = Ok p -> full_pipe E = Ok q ->
  transform_sequence E p (SStr s) = Ok (SLst (map ETok ts), als, coll) ->
  exists outs als' coll', Forall2 (subwords (map txt full_vocab) (ETok (txt "[UNK]")) 200) ts outs /\
    transform_sequence E q (SStr s) = Ok (SLst (concat outs), als', coll').
Proof. exact full_tokens. Qed.
Print Assumptions C53_full.

Theorem C53_word_piece : forall E q s ps, python E -> word_piece_pipe E = Ok q ->
  cut (by_space E) s ps ->
  exists outs als coll,
    Forall2 (subwords (map txt word_piece_vocab) (ETok (txt "[UNK]")) 200) (tokens_of (kept ps)) outs /\
    transform_sequence E q (SStr s) = Ok (SLst (concat outs), als, coll).
Proof. exact word_piece_tokens. Qed.
Print Assumptions C53_word_piece.

Theorem C53_pipes_exist : forall E, exists p q r,
  basic_pipe E = Ok p /\ full_pipe E = Ok q /\ word_piece_pipe E = Ok r /\
  reachable E p /\ reachable E q /\ reachable E r.
Proof. exact bert_exists. Qed.
Print Assumptions C53_pipes_exist.

Theorem C53_vocabulary : forall E q v, full_pipe E = Ok q /\ v = full_vocab \/ word_piece_pipe E = Ok q /\ v = word_piece_vocab ->
  exists before o d, steps q = before ++ [o] /\ o_class o = txt "SpanSubwords" /\
    o_configs o = [(txt "vocab", JDict d); (txt "unk_token", JStr (txt "[UNK]")); (txt "maxlen_per_token", JInt 200)] /\
    forall t j, In (t, j) d <-> exists i, j = JInt (Z.of_nat i) /\ nth_error (map txt v) i = Some t.
Proof. exact bert_vocabulary. Qed.
Print Assumptions C53_vocabulary.

Theorem C53_no_capitals_refuted : exists E p s t als coll, python E /\ basic_pipe E = Ok p /\
  transform_sequence E p (SStr s) = Ok (SLst [ETok t], als, coll) /\
  exists c, In c t /\ ascii_capital c = true.
Proof. exact capital_refuted. Qed.
Print Assumptions C53_no_capitals_refuted.

Theorem C53_punctuation_alone_refuted : exists E p s t als coll, python E /\ basic_pipe E = Ok p /\
  transform_sequence E p (SStr s) = Ok (SLst [ETok t], als, coll) /\
  exists c, In c t /\ punctuation E c = true /\ t <> [c].
Proof. exact glued_refuted. Qed.
Print Assumptions C53_punctuation_alone_refuted.

(** C55 *)
Theorem C55_operator : forall E o x y a, transform_op E o x = Ok (y, a) ->
  (forall l l', align a l = Ok l' -> forall z, In z l' -> z = 0%Z \/ In z l) /\
  (forall l l', align_inverse E a l = Ok l' -> forall z, In z l' -> z = 0%Z \/ In z l).
Proof. exact no_label_invented. Qed.
Print Assumptions C55_operator.

Theorem C55_pipe : forall E p x y als coll, transform_sequence E p x = Ok (y, als, coll) ->
  (forall l l', align_all als l = Ok l' -> forall z, In z l' -> z = 0%Z \/ In z l) /\
  (forall l l', align_inverse_all E als l = Ok l' -> forall z, In z l' -> z = 0%Z \/ In z l).
Proof. exact pipe_labels. Qed.
Print Assumptions C55_pipe.
