(** Specification vocabulary for pipes of operators written by users. *)

From Verif Require Import Py Ops Elements Pipe UserPipe.

(** Every aligner gives out labels of the length that the next one takes. *)
Definition fitting (als : list ualigner) : Prop :=
  forall k a b, nth_error als k = Some a -> nth_error als (S k) = Some b -> ua_out a = ua_in b.

(** The functions of an aligner return lists of the right length, and do not raise. *)
Definition total_forward (a : ualigner) : Prop :=
  forall l, length l = ua_in a -> exists l', ua_fwd a l = Ok l' /\ length l' = ua_out a.
Definition total_backward (a : ualigner) : Prop :=
  forall l, length l = ua_out a -> exists l', ua_bwd a l = Ok l' /\ length l' = ua_in a.
(** Going back undoes going forward. *)
Definition undoes (a : ualigner) : Prop :=
  forall l l', ua_fwd a l = Ok l' -> ua_bwd a l' = Ok l.

Section user.
  Context {V T : Type} `{Eqb T} (isinstance : V -> T -> bool).

  (** [coll] are the values before, between and after the operators. *)
  Definition user_stepwise (ops : list (uop V T)) (x y : V) (als : list ualigner) (coll : list V) : Prop :=
    length als = length ops /\ length coll = S (length ops) /\
    nth_error coll 0 = Some x /\ nth_error coll (length ops) = Some y /\
    forall k o, nth_error ops k = Some o ->
      exists u v a, nth_error coll k = Some u /\ nth_error coll (S k) = Some v /\ nth_error als k = Some a /\
        u_run o u = Ok (v, a) /\ isinstance u (u_in o) = true /\ isinstance v (u_out o) = true.

  Definition user_chained (ops : list (uop V T)) : Prop :=
    forall k a b, nth_error ops k = Some a -> nth_error ops (S k) = Some b -> u_out a = u_in b.

  (** The pipe after calls of [add_op], exceptions caught; whether they all succeeded. *)
  Definition after_adds (p : upipe V T) (h : list (uop V T * option str)) : upipe V T :=
    fold_left (fun p c => fst (uadd_op p (fst c) (snd c))) h p.
  Fixpoint adds_succeed (p : upipe V T) (h : list (uop V T * option str)) : Prop :=
    match h with
    | [] => True
    | c :: h => snd (uadd_op p (fst c) (snd c)) = None /\ adds_succeed (fst (uadd_op p (fst c) (snd c))) h
    end.

  (** The operator tells its aligner the lengths of its input and of its output. *)
  Definition honest (len : V -> nat) (o : uop V T) : Prop :=
    forall x y a, u_run o x = Ok (y, a) -> ua_in a = len x /\ ua_out a = len y.
End user.

(** ** The operators of the library, seen as user operators *)

Definition view_aligner (E : env) (a : aligner) : ualigner :=
  mkUA (input_length a) (output_length a) (align_raw a) (align_inverse_raw E a).
Definition view_op (E : env) (o : opobj) : uop pseq seqtype :=
  mkUO (in_type o) (out_type o)
    (fun x => match (match x with SStr s => transform_str E (o_op o) s | SLst l => transform_lst E (o_op o) l end) with
              | Ok (y, a) => Ok (y, view_aligner E a)
              | Err e => Err e
              end).
Definition has_type (x : pseq) (t : seqtype) : bool := seqtype_eqb (type_of x) t.
Definition view_pipe (E : env) (p : pipe) : upipe pseq seqtype :=
  mkUP (map (view_op E) (steps p)) (checkpoints p).
Lemma seqtype_eqb_spec a b : reflect (a = b) (seqtype_eqb a b).
Proof. destruct a, b; constructor; congruence. Qed.
#[export] Instance Eqb_seqtype : Eqb seqtype := { eqb := seqtype_eqb; eqb_spec := seqtype_eqb_spec }.
