(** uttut/pipeline/ops/factory.py as a mutable object: a dict from names to classes.  A
    class is an element of any type [C] with decidable identity. *)

From Verif Require Import Py.

Section factory.
  Context {C : Type} `{Eqb C}.

  (** factory.py:3-4 *)
  Definition fnew : list (str * C) := [].

  (** factory.py:6-20; the factory afterwards and the exception, if any *)
  Definition fregister (f : list (str * C)) (name : str) (c : C) : list (str * C) * option exn :=
    match dict_get f name with
    | None => (dict_set f name c, None)
    | Some _ => (f, Some KeyErr)
    end.

  (** factory.py:22-25 *)
  Definition fget (f : list (str * C)) (name : str) : res C :=
    match dict_get f name with Some c => Ok c | None => Err KeyErr end.

  (** factory.py:27-30: equality of two dicts *)
  Definition feq (f g : list (str * C)) : bool :=
    (length f =? length g)%nat &&
    forallb (fun kv => match dict_get g (fst kv) with Some c => eqb (snd kv) c | None => false end) f.
End factory.
