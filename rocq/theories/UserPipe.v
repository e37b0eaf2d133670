(** Model of [Operator.transform], [LabelAligner] (base.py:113-136, 164-247) and of pipes
    (pipe.py, intermediate.py) over operators written by users: any values, any types, any
    [_transform] and any label aligners. *)

From Verif Require Import Py Elements.

(** An aligner: the two lengths of base.py:177-179, [_transform] and [_inverse_transform].  Labels
    are integers; nothing is assumed about the two functions. *)
Record ualigner := mkUA {
  ua_in : nat;
  ua_out : nat;
  ua_fwd : list Z -> res (list Z);
  ua_bwd : list Z -> res (list Z)
}.

(** base.py:184-200 *)
Definition ualign (a : ualigner) (labels : list Z) : res (list Z) :=
  _ <- guard (length labels =? ua_in a) ValueErr ;;
  out <- ua_fwd a labels ;;
  _ <- guard (length out =? ua_out a) ValueErr ;;
  Ok out.

(** base.py:202-218 *)
Definition ualign_inverse (a : ualigner) (labels : list Z) : res (list Z) :=
  _ <- guard (length labels =? ua_out a) ValueErr ;;
  out <- ua_bwd a labels ;;
  _ <- guard (length out =? ua_in a) ValueErr ;;
  Ok out.

(** base.py:237-243 NullLabelAligner *)
Definition unull (n m : nat) : ualigner := mkUA n m (fun l => Ok l) (fun l => Ok l).

(** pipe.py:271-284, 286-298 *)
Definition ualign_all (als : list ualigner) (labels : list Z) : res (list Z) :=
  foldM (fun l a => ualign a l) als labels.
Definition ualign_inverse_all (als : list ualigner) (labels : list Z) : res (list Z) :=
  foldM (fun l a => ualign_inverse a l) (rev als) labels.

Section user.
  Context {V T : Type} `{Eqb T}.
  (** [isinstance(v, t)] *)
  Context (isinstance : V -> T -> bool).

  (** An operator: [_input_type], [_output_type], [_transform]. *)
  Record uop := mkUO {
    u_in : T;
    u_out : T;
    u_run : V -> res (V * ualigner)
  }.

  (** base.py:113-136 *)
  Definition utransform (o : uop) (x : V) : res (V * ualigner) :=
    _ <- guard (isinstance x (u_in o)) TypeErr ;;
    r <- u_run o x ;;
    _ <- guard (isinstance (fst r) (u_out o)) TypeErr ;;
    Ok r.

  (** pipe.py:213-224: output, aligners and collection of the Intermediate *)
  Fixpoint urun (ops : list uop) (x : V) : res (V * list ualigner * list V) :=
    match ops with
    | [] => Ok (x, [], [x])
    | o :: ops =>
        '(y, a) <- utransform o x ;;
        '(z, aligners, collection) <- urun ops y ;;
        Ok (z, a :: aligners, x :: collection)
    end.

  Record upipe := mkUP {
    u_steps : list uop;
    u_checkpoints : list (str * Z)
  }.
  (** pipe.py:23-25 *)
  Definition upipe_new : upipe := mkUP [] [].

  (** pipe.py:52-77: the pipe afterwards and the exception *)
  Definition uadd_op (p : upipe) (o : uop) (checkpoint : option str) : upipe * option exn :=
    let mismatch := match last_opt (u_steps p) with
                    | Some l => negb (eqb (u_in o) (u_out l))
                    | None => false
                    end in
    if mismatch then (p, Some TypeErr)
    else
      let steps := u_steps p ++ [o] in
      match checkpoint with
      | None => (mkUP steps (u_checkpoints p), None)
      | Some name =>
          if dict_mem (u_checkpoints p) name
          then (mkUP steps (u_checkpoints p), Some KeyErr)
          else (mkUP steps (dict_set (u_checkpoints p) name (Z.of_nat (length steps))), None)
      end.

  (** pipe.py:87-102 *)
  Definition uiadd (p q : upipe) : upipe * option exn :=
    match last_opt (u_steps p), u_steps q with
    | None, _ | _, [] => (p, Some IndexErr)
    | Some a, b :: _ =>
        if negb (eqb (u_out a) (u_in b)) then (p, Some TypeErr)
        else if existsb (fun kv => dict_mem (u_checkpoints q) (fst kv)) (u_checkpoints p)
             then (p, Some KeyErr)
             else
               let steps := u_steps p ++ u_steps q in
               (mkUP steps
                  (dict_update (u_checkpoints p)
                     (map (fun kv => (fst kv, (snd kv + Z.of_nat (length steps))%Z)) (u_checkpoints q))),
                None)
    end.

  (** intermediate.py:29-44 *)
  Definition uget (ck : list (str * Z)) (collection : list V) (name : str) : res V :=
    match dict_get ck name with
    | None => Err KeyErr
    | Some i => get_item collection i
    end.
End user.
Arguments uop : clear implicits.
Arguments upipe : clear implicits.
