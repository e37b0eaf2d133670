(** Specification vocabulary for the operator factory: histories of [register]. *)

From Verif Require Import Py Factory.

Section histories.
  Context {C : Type} `{Eqb C}.

  (** The factory after calls [register(name, c)], exceptions caught. *)
  Definition after_registers (h : list (str * C)) : list (str * C) :=
    fold_left (fun f nc => fst (fregister f (fst nc) (snd nc))) h fnew.
  Definition register_outcome (h : list (str * C)) (name : str) (c : C) : option exn :=
    snd (fregister (after_registers h) name c).

  (** [c] belongs to the first call with this name. *)
  Definition first_registered (h : list (str * C)) (name : str) (c : C) : Prop :=
    exists h1 h2, h = h1 ++ (name, c) :: h2 /\ ~ In name (map fst h1).
End histories.
