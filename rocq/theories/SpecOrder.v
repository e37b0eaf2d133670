(** What the iteration order of sets may change (C96).  Python iterates over a set in an order that
    depends on the hash values of its elements; the hashes of texts change from process to process
    (PYTHONHASHSEED).  [reseed E oc oe] is the same python in a process with other orders. *)

From Verif Require Import Py Edit Ops Elements Pipe.

Definition reseed (E : env) (oc : list (repl Z) -> list (repl Z))
  (oe : list (repl elem) -> list (repl elem)) : env :=
  mkEnv oc oe (is_space E) (is_digit E) (is_pcat E) (is_mn E) (nfd E) (re_compile E).

(** [AddSosEos] with two different tokens and an empty list *)
Definition undecided (o : op) (x : pseq) : Prop :=
  exists sos eos, o = AddSosEos sos eos /\ x = SLst [] /\ sos <> eos.

(** No step of the pipe meets that case. *)
Definition decided (E : env) (ops : list opobj) (x : pseq) : Prop :=
  forall before o after y als coll,
    ops = before ++ o :: after -> Pipe.run E before x = Ok (y, als, coll) -> ~ undecided (o_op o) y.
