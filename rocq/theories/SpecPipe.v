(** Specification vocabulary for operator objects and pipes. *)

From Verif Require Import Py Edit Labels SpecLabels SpecOps SpecScan Ops Json SpecJson Elements Pipe.
Local Open Scope Z_scope.

(** ** Running step by step *)

(** [coll] are the sequences before, between and after the operators. *)
Definition stepwise (E : env) (ops : list opobj) (x y : pseq) (als : list aligner)
  (coll : list pseq) : Prop :=
  length als = length ops /\ length coll = S (length ops) /\
  nth_error coll 0 = Some x /\ nth_error coll (length ops) = Some y /\
  forall k o, nth_error ops k = Some o ->
    exists u v a, nth_error coll k = Some u /\ nth_error coll (S k) = Some v /\
      nth_error als k = Some a /\ transform_op E (o_op o) u = Ok (v, a).

(** The labels before, between and after the aligners, front to back. *)
Definition labels_forward (als : list aligner) (l l' : list Z) : Prop :=
  exists t, length t = S (length als) /\
    nth_error t 0 = Some l /\ nth_error t (length als) = Some l' /\
    forall k a, nth_error als k = Some a ->
      exists u v, nth_error t k = Some u /\ nth_error t (S k) = Some v /\ align a u = Ok v.

(** The same from the last aligner to the first. *)
Definition labels_backward (E : env) (als : list aligner) (l l' : list Z) : Prop :=
  exists t, length t = S (length als) /\
    nth_error t 0 = Some l' /\ nth_error t (length als) = Some l /\
    forall k a, nth_error als k = Some a ->
      exists u v, nth_error t k = Some u /\ nth_error t (S k) = Some v /\
        align_inverse E a v = Ok u.

(** ** Histories of calls *)

(** A call of [add_op]: the operator and the checkpoint name. *)
Definition call : Type := (opobj * option str)%type.

(** What the calls leave behind, exceptions ignored. *)
Definition after (p : pipe) (h : list call) : pipe :=
  fold_left (fun p c => fst (add_op p (fst c) (snd c))) h p.

(** No call raised. *)
Fixpoint all_succeed (p : pipe) (h : list call) : Prop :=
  match h with
  | [] => True
  | c :: h => snd (add_op p (fst c) (snd c)) = None /\
              all_succeed (fst (add_op p (fst c) (snd c))) h
  end.

(** ** Types *)

(** The output type of every operator is the input type of the next one. *)
Definition chained (ops : list opobj) : Prop :=
  forall k a b, nth_error ops k = Some a -> nth_error ops (S k) = Some b -> out_type a = in_type b.

(** ** Pipes obtained with the public methods *)

(** An operator made by its constructor; dict arguments have distinct keys. *)
Definition made (E : env) (o : opobj) : Prop :=
  exists name args kwargs,
    Forall value args /\ value (JDict kwargs) /\ construct E name args kwargs = Ok o.

Inductive reachable (E : env) : pipe -> Prop :=
| r_new : reachable E pipe_new
| r_add_op p o ck : reachable E p -> made E o -> reachable E (fst (add_op p o ck))
| r_add p reg name kwargs ck :
    reachable E p -> value (JDict (match kwargs with Some k => k | None => [] end)) ->
    reachable E (fst (add E reg p name kwargs ck))
| r_iadd p q : reachable E p -> reachable E q -> reachable E (fst (iadd p q))
| r_concat p q r : reachable E p -> reachable E q -> concat_pipes p q = Ok r -> reachable E r
| r_copy p : reachable E p -> reachable E (copy p)
| r_slice p start stop q :
    reachable E p -> getitem_slice p (start, stop, None) = Ok q -> reachable E q
| r_slice1 p start stop q :
    reachable E p -> getitem_slice p (start, stop, Some 1) = Ok q -> reachable E q.

(** ** Arguments *)

(** The value a parameter gets: by position, by keyword, or the default. *)
Definition given (ps : list (str * option jval)) (args : list jval) (kwargs : list (str * jval))
  (k : nat) (name : str) (v : jval) : Prop :=
  exists default, nth_error ps k = Some (name, default) /\
    ((nth_error args k = Some v) \/
     (nth_error args k = None /\ In (name, v) kwargs) \/
     (nth_error args k = None /\ ~ In name (map fst kwargs) /\ default = Some v)).

(** Python's equality of values. *)
Inductive same : jval -> jval -> Prop :=
| same_none : same JNone JNone
| same_bool b : same (JBool b) (JBool b)
| same_int z : same (JInt z) (JInt z)
| same_bool_int (b : bool) : same (JBool b) (JInt (if b then 1 else 0))
| same_int_bool (b : bool) : same (JInt (if b then 1 else 0)) (JBool b)
| same_str s : same (JStr s) (JStr s)
| same_list l m : Forall2 same l m -> same (JList l) (JList m)
| same_tuple l m : Forall2 same l m -> same (JTuple l) (JTuple m)
| same_dict (d e e' : list (str * jval)) :
    Permutation e e' -> Forall2 (fun x y : str * jval => fst x = fst y /\ same (snd x) (snd y)) d e' ->
    same (JDict d) (JDict e).

(** Every search result of a compiled pattern lies inside the text. *)
Definition regexes (E : env) : Prop :=
  forall a find, re_compile E a = Some find -> in_bounds find.

(** ** Checkpoints and concatenation *)

(** Names are distinct and denote steps of the pipe. *)
Definition in_range (p : pipe) : Prop :=
  NoDup (map fst (checkpoints p)) /\
  Forall (fun kv => (1 <= snd kv <= Z.of_nat (length (steps p)))%Z) (checkpoints p).

(** The second pipe can follow the first. *)
Definition joinable (p q : pipe) : Prop :=
  exists a b, last_opt (steps p) = Some a /\ nth_error (steps q) 0 = Some b /\ out_type a = in_type b.

(** No checkpoint name in common. *)
Definition disjoint_names (p q : pipe) : Prop :=
  forall name, In name (map fst (checkpoints p)) -> ~ In name (map fst (checkpoints q)).

(** ** Round trips *)

(** What becomes of configurations, objects and pipes: tuples are lists afterwards, the
    operators are the same. *)
Definition json_dict (d : list (str * jval)) : list (str * jval) :=
  map (fun kv => (fst kv, as_json (snd kv))) d.
Definition as_json_obj (o : opobj) : opobj := mkObj (o_class o) (json_dict (o_configs o)) (o_op o).
Definition as_json_pipe (p : pipe) : pipe := mkPipe (map as_json_obj (steps p)) (checkpoints p).

(** Two operators that no call can tell apart. *)
Definition equivalent (a b : op) : Prop :=
  input_type a = input_type b /\ output_type a = output_type b /\
  forall E x, transform_op E a x = transform_op E b x.
