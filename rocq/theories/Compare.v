(** Model of python's [==], [!=] and [hash] between any two objects of the library, also of
    different kinds, and between an object of the library and anything else (None, a number,
    a text, …). *)

From Verif Require Import Py Edit Ops Json Elements Pipe Factory GroupObj.
From Coq Require Import List ZArith.
Import ListNotations.
Local Open Scope Z_scope.

(** The kinds of objects that have an equality of their own.  [A]: the elements of the new
    value of a replacement, [C]: the classes in a factory.  [OOther n] is an object whose own
    equality does not know the library's objects (it answers NotImplemented) and that has none
    of the attributes label, start, steps; [n] tells which value it is. *)
Inductive pyobj (A C : Type) : Type :=
| OIntent (label : Z)                        (* elements.pyx:93-107 *)
| OEntity (e : entity)                       (* elements.pyx:17-90 *)
| ODatum (d : datum)                         (* elements.pyx:110- *)
| OSpan (s : span)                           (* span.pyx:8-36 *)
| OReplacement (x : item A)                  (* replacement.pyx:10-71 *)
| OSpanGroup (g : sgroup)                    (* span.pyx:39-119 *)
| OReplacementGroup (g : rgroup A)           (* replacement.pyx:73-169 *)
| OOperator (o : opobj)                      (* ops/base.py *)
| OPipe (p : pipe)                           (* pipe.py *)
| OFactory (f : list (str * C))              (* factory.py *)
| OOther (n : nat).
Arguments OIntent {A C}. Arguments OEntity {A C}. Arguments ODatum {A C}. Arguments OSpan {A C}.
Arguments OReplacement {A C}. Arguments OSpanGroup {A C}. Arguments OReplacementGroup {A C}.
Arguments OOperator {A C}. Arguments OPipe {A C}. Arguments OFactory {A C}. Arguments OOther {A C}.

Section compare.
  Context {A C : Type} `{Eqb A} `{Eqb C}.

  (** [a.__eq__(b)]; [None] is NotImplemented. *)
  Definition slot_eq (a b : pyobj A C) : option (res bool) :=
    match a with
    | OIntent l => Some                      (* elements.pyx:106-107: [other.label] *)
        match b with
        | OIntent m => Ok (l =? m)
        | OEntity e => Ok (l =? e_label e)
        | _ => Err AttributeErr
        end
    | OEntity e => Some                      (* elements.pyx:43-52 *)
        match b with OEntity e' => Ok (entity_eqb e e') | _ => Err TypeErr end
    | ODatum d => Some                       (* elements.pyx:138-149 *)
        match b with ODatum d' => Ok (datum_eqb d d') | _ => Err TypeErr end
    | OSpan s => Some                        (* span.pyx:22-27 *)
        match b with
        | OSpan t => Ok ((fst t =? fst s)%nat && (snd t =? snd s)%nat)
        | _ => Ok false
        end
    | OReplacement x => Some                 (* replacement.pyx:52-56: [other.start], …, [other.new_value] *)
        match b with OReplacement y => Ok (item_eqb x y) | _ => Err AttributeErr end
    | OSpanGroup g => Some                   (* span.pyx:97-103 *)
        match b with OSpanGroup h => sg_eq g h | _ => Ok false end
    | OReplacementGroup g => Some            (* replacement.pyx:145-151 *)
        match b with OReplacementGroup h => rg_eq g h | _ => Ok false end
    | OOperator o => Some                    (* ops/base.py:143-144 *)
        match b with OOperator o' => Ok (op_eqb o o') | _ => Ok false end
    | OPipe p => Some                        (* pipe.py:79-80: [other.steps] *)
        match b with OPipe q => Ok (pipe_eqb p q) | _ => Err AttributeErr end
    | OFactory f => Some                     (* factory.py:27-30 *)
        match b with OFactory g => Ok (feq f g) | _ => Ok false end
    | OOther n =>
        match b with OOther m => Some (Ok (n =? m)%nat) | _ => None end
    end.

  (** Python's [a == b]: the left operand, then the right one, then identity. *)
  Definition py_eq (a b : pyobj A C) : res bool :=
    match slot_eq a b with
    | Some r => r
    | None => match slot_eq b a with Some r => r | None => Ok false end
    end.

  (** [a != b]: no class defines [__ne__]; Cython and python derive it from [__eq__]. *)
  Definition py_ne (a b : pyobj A C) : res bool :=
    r <- py_eq a b ;; Ok (negb r).

  (** replacement.pyx:69-71: a hash stored into a C int; the slot never returns -1 *)
  Definition int_hash (h : Z) : Z :=
    let t := (h + 2 ^ 31) mod 2 ^ 32 - 2 ^ 31 in
    if t =? -1 then -2 else t.

  (** [hash(a)]: [H] is the hash of a tuple of two numbers, [K] the hash of an object that is
      not of the library, if it has one.  A class with [__eq__] and without [__hash__] is not
      hashable.  (elements.pyx:103-104, span.pyx:35-36, replacement.pyx:69-71) *)
  Definition py_hash (H : nat -> nat -> Z) (K : nat -> option Z) (a : pyobj A C) : res Z :=
    match a with
    | OIntent l => Ok (intent_hash l)
    | OSpan (s, e) => Ok (H s e)
    | OReplacement x => Ok (int_hash (H (i_start x) (i_end x)))
    | OOther n => match K n with Some h => Ok h | None => Err TypeErr end
    | _ => Err TypeErr
    end.
End compare.
