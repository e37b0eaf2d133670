(** Specification: which calls change which objects (C79, C80). *)

From Coq Require Import String.
From Verif Require Import Py Json Elements Ops Pipe Heap.
From Coq Require Import List.

(** The calls that change the pipe [k]: [k.add_op(..)] and [k += ..]. *)
Inductive changes_pipe (k : nat) : command -> Prop :=
| c_add_op o ck : changes_pipe k (AddOp k o ck)
| c_iadd q : changes_pipe k (IAdd k q)
| c_steps l : changes_pipe k (SetSteps k l)
| c_checks d : changes_pipe k (SetChecks k d).

(** Changes of a list of steps or a dict of checkpoints that bypass the methods. *)
Definition direct (c : command) : Prop := (exists k l, c = SetSteps k l) \/ (exists k d, c = SetChecks k d).

(** Slices without a step, or with step 1. *)
Definition plain_slice (c : command) : Prop :=
  forall k start stop step, c = Slice k (start, stop, step) -> step = None \/ step = Some 1%Z.

(** The user changes a list or dict of their own. *)
Definition changes_cell (c : command) : Prop := exists i x, c = SetCell i x.

(** What exists after the calls [h]. *)
Definition has_pipe (E : env) (h : list command) (k : nat) (p : pipe) : Prop :=
  pipe_at (after_commands E empty_memory h) k = Some p.
Definition has_op (E : env) (h : list command) (i : nat) (o : opobj) : Prop :=
  op_at (after_commands E empty_memory h) i = Some o.
Definition has_cell (E : env) (h : list command) (i : nat) (c : cell) : Prop :=
  nth_error (h_cells (after_commands E empty_memory h)) i = Some c.

(** What the call [c] gives after the calls [h]. *)
Definition gives (E : env) (h : list command) (c : command) : res answer :=
  snd (exec E (after_commands E empty_memory h) c).

(** The value of an argument after [h]. *)
Inductive arg_is (E : env) (h : list command) : arg -> jval -> Prop :=
| own_is v : arg_is E h (Own v) v
| ref_is i c : has_cell E h i c -> arg_is E h (Ref i) (contents c).

(** Exactly one object is new: [n] and nothing else. *)
Definition new_pipe_only (E : env) (h : list command) (c : command) (n : nat) : Prop :=
  gives E h c = Ok (New n) /\ (forall p, ~ has_pipe E h n p) /\
  forall k p, has_pipe E h k p -> has_pipe E (h ++ [c]) k p.

(** No argument refers to the list or dict [i]. *)
Definition not_given (i : nat) (args : list arg) (kwargs : list (str * arg)) : Prop :=
  ~ In (Ref i) args /\ ~ In (Ref i) (map snd kwargs).

(** [a] is the argument for the parameter [par], the [n]-th one (from 0). *)
Definition given (n : nat) (par : str) (args : list arg) (kwargs : list (str * arg)) (a : arg) : Prop :=
  nth_error args n = Some a \/ (length args <= n /\ In (par, a) kwargs).
