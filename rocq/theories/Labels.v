(** Model of /repo/uttut/pipeline/edit/label_propagation.pyx and
    /repo/uttut/pipeline/ops/label_transducer.py. *)

From Verif Require Export Edit.
Local Open Scope Z_scope.

(** uttut/__init__.py:12-14 ENTITY_LABEL['NOT_ENTITY'] *)
Definition NOT_ENTITY : Z := 0.

(** [collections.Counter(labels)]: counts in order of first occurrence; also the
    hand-written dict of label_propagation.pyx:84-91. *)
Fixpoint counter_add (c : list (Z * Z)) (x : Z) : list (Z * Z) :=
  match c with
  | [] => [(x, 1)]
  | (k, n) :: c => if x =? k then (k, n + 1) :: c else (k, n) :: counter_add c x
  end.

Definition counter (l : list Z) : list (Z * Z) := fold_left counter_add l [].

(** A transducer gets the labels of the replaced interval and the size wanted; python code
    of a transducer may raise. *)
Definition transducer : Type := list Z -> nat -> res (list Z).

(** label_transducer.py:8-11 [get_most_common].  [Counter.most_common()] is
    [sorted(items, key=count, reverse=True)], which is stable. *)
Definition get_most_common : transducer := fun labels size =>
  match sort_by (fun kv => - snd kv) (counter labels) with
  | [] => Err IndexErr
  | (k, _) :: _ => Ok (repeat k size)
  end.

(** label_transducer.py:21-22 [get_not_entity] *)
Definition get_not_entity : transducer := fun _ size => Ok (repeat NOT_ENTITY size).

(** label_transducer.py:14-18 [get_most_common_except_not_entity] *)
Definition get_most_common_except_not_entity : transducer := fun labels size =>
  let meaningful := filter (fun l => negb (l =? NOT_ENTITY)) labels in
  match meaningful with
  | [] => get_not_entity labels size
  | _ => get_most_common meaningful size
  end.

(** label_propagation.pyx:93-98: the scan for the maximal count. *)
Fixpoint max_scan (c : list (Z * Z)) (max_key max_value : Z) : Z :=
  match c with
  | [] => max_key
  | (k, n) :: c => if max_value <? n then max_scan c k n else max_scan c max_key max_value
  end.

(** label_propagation.pyx:78-100 [_count_and_get_most_common].  The loop variable is an
    [unsigned int]; converting a label outside the range raises OverflowError, which is
    swallowed ([cdef unsigned int] without [except]): the call returns 0. *)
Definition count_and_get_most_common (ints : list Z) : Z :=
  if forallb u32b ints then max_scan (counter ints) 0 0 else 0.

(** label_propagation.pyx:62-75 [_get_most_common_label] *)
Definition get_most_common_label : transducer := fun labels size =>
  let l := match labels with [] => NOT_ENTITY | _ => count_and_get_most_common labels end in
  Ok (repeat l size).

(** label_propagation.pyx:103-115 [_compute_output_length], with [unsigned int]
    wrap-around. *)
Definition compute_output_length {A} (len_iters : nat) (g : list (repl A)) : nat :=
  let offset := fold_left
    (fun off r =>
       let after := Z.of_nat (length (r_new r)) mod two32 in
       let before := (Z.of_nat (r_end r) - Z.of_nat (r_start r)) mod two32 in
       (off + (after - before)) mod two32) g 0 in
  Z.to_nat ((Z.of_nat len_iters + offset) mod two32).

(** label_propagation.pyx:41-59, the loop of [propagate_by_replacement_group].
    ([fixed_len] is an unsigned subtraction that does not wrap on a finished group.) *)
Fixpoint propagate_loop {A} (labels : list Z) (g : list (repl A)) (f : transducer)
  (i_start o_start : nat) (out : list Z) : res (list Z) :=
  match g with
  | [] => Ok (firstn o_start out ++ skipn i_start labels)   (* output_labels[o_start:] = .. *)
  | r :: g =>
      let fixed_len := (r_start r - i_start)%nat in
      let out1 := setslice out o_start (o_start + fixed_len) (slice labels i_start (r_start r)) in
      let o1 := (o_start + fixed_len)%nat in
      let expand_size := length (r_new r) in
      new <- f (slice labels (r_start r) (r_end r)) expand_size ;;
      let out2 := setslice out1 o1 (o1 + expand_size) new in
      propagate_loop labels g f (r_end r) (o1 + expand_size) out2
  end.

(** label_propagation.pyx:8-59 [propagate_by_replacement_group] *)
Definition propagate {A} (labels : list Z) (g : list (repl A)) (f : transducer)
  : res (list Z) :=
  propagate_loop labels g f 0 0
    (repeat NOT_ENTITY (compute_output_length (length labels) g)).

(** label_propagation.pyx:142-143, the loop of [reduce_by_span_group] *)
Fixpoint reduce_loop (labels : list Z) (g : list span) (f : transducer) (i : nat)
  (out : list Z) : res (list Z) :=
  match g with
  | [] => Ok out
  | sp :: g =>
      v <- f (slice labels (fst sp) (snd sp)) 1%nat ;;
      reduce_loop labels g f (S i) (setslice out i (S i) v)
  end.

(** label_propagation.pyx:118-145 [reduce_by_span_group] *)
Definition reduce_by_span_group (labels : list Z) (g : list span) (f : transducer)
  : res (list Z) :=
  if ((length g =? 0) && (length labels =? 0))%nat then Ok labels
  else match last_opt g with
       | None => Err IndexErr
       | Some sp =>
           _ <- guard (length labels =? snd sp)%nat ValueErr ;;
           reduce_loop labels g f 0 (repeat NOT_ENTITY (length g))
       end.

(** label_propagation.pyx:165-167, the loop of [expand_by_span_group]; [label] is an
    [unsigned int], and here the OverflowError does propagate ([def] function). *)
Fixpoint expand_loop (g : list span) (labels : list Z) (out : list Z) : res (list Z) :=
  match g, labels with
  | sp :: g, l :: labels =>
      _ <- guard (u32b l) OverflowErr ;;
      expand_loop g labels
        (setslice out (fst sp) (snd sp) (repeat l (snd sp - fst sp)))
  | _, _ => Ok out
  end.

(** label_propagation.pyx:148-169 [expand_by_span_group] *)
Definition expand_by_span_group (labels : list Z) (g : list span) : res (list Z) :=
  _ <- guard (length g =? length labels)%nat ValueErr ;;
  match last_opt g with
  | None => Ok labels
  | Some sp => expand_loop g labels (repeat NOT_ENTITY (snd sp))
  end.
