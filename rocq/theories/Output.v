(** What the library writes to the standard output and what it gives to [warnings.warn].  The only
    other calls of [print] in the repository are those of [Pipe.summary] (TextForms.v).  Which
    warnings are shown depends on the filters of the caller and is not modelled. *)

From Coq Require Import String.
From Verif Require Import Py Edit GroupObj Json JsonAscii Ops Elements Pipe TextForms.
From Coq Require Import List.
Local Open Scope Z_scope.

Inductive output :=
| Prints (line : str)
| Warns (category message : str).

(** ** pipeline/utils.py *)

(** [str] of a list of ints *)
Definition list_text (l : list Z) : str := lit "[" ++ commas (map dump_int l) ++ lit "]".

(** pipeline/utils.py:61-69: [labels[0]] of an empty list raises before the [print] of line 68 *)
Definition start_indices_output (labels : list Z) : list output :=
  match get_start_indices labels with Ok l => [Prints (list_text l)] | Err _ => [] end.

(** pipeline/utils.py:25-48: nothing is printed before line 35; the calls of lines 35 and 36 print
    unless one of them raises.  (The intents are made in line 31 and may be refused as C ints.) *)
Definition pack_output (utterance : str) (intent_labels entity_labels : list Z) : list output :=
  if Nat.eqb (length utterance) (length entity_labels) then
    match mapM make_intent (sort_by (fun x => x) (dedup intent_labels)), get_meaningful_start_indices entity_labels with
    | Ok _, Ok _ => start_indices_output entity_labels ++ start_indices_output (rev entity_labels)
    | Ok _, Err _ => start_indices_output entity_labels
    | Err _, _ => []
    end
  else [].

(** ** ReplacementGroup and SpanGroup *)

(** what can be read of a group without changing it: [len(g)] (also [bool(g)]), [g.is_empty()],
    [g[i]], [repr(g)], [g == h] for a group and for something else *)
Inductive reading (G : Type) :=
| ReadLen | ReadEmpty | ReadItem (i : Z) | ReadRepr | ReadEq (h : G) | ReadEqOther.
Arguments ReadLen {G}. Arguments ReadEmpty {G}. Arguments ReadItem {G}. Arguments ReadRepr {G}.
Arguments ReadEq {G}. Arguments ReadEqOther {G}.

(** replacement.pyx:162-164 *)
Definition rg_warn {A} (g : rgroup A) : list output :=
  if rg_done g then []
  else [Warns (lit "UserWarning") (lit "ReplacementGroup needs validation, please call `done`.")].
(** replacement.pyx:142-169; [len(other)] of line 149 warns for the other group *)
Definition rg_output {A} (g : rgroup A) (r : reading (rgroup A)) : list output :=
  match r with
  | ReadLen => rg_warn g
  | ReadEq h => rg_warn g ++ rg_warn h
  | ReadEqOther => rg_warn g
  | ReadEmpty | ReadItem _ | ReadRepr => []
  end.

(** span.pyx:114-116 *)
Definition sg_warn (g : sgroup) : list output :=
  if sg_done g then []
  else [Warns (lit "UserWarning") (lit "SpanGroup needs validation, please call `done`.")].
(** span.pyx:94-119; line 101 as above *)
Definition sg_output (g : sgroup) (r : reading sgroup) : list output :=
  match r with
  | ReadLen => sg_warn g
  | ReadEq h => sg_warn g ++ sg_warn h
  | ReadEqOther => sg_warn g
  | ReadEmpty | ReadItem _ | ReadRepr => []
  end.

(** ** Pipe *)

(** calls that change a pipe: [add] by name and [add_op] *)
Inductive building :=
| ByName (name : str) (kwargs : option (list (str * jval))) (checkpoint : option str)
| ByOp (o : opobj) (checkpoint : option str).
(** pipe.py:26-50 and 52-77; line 45 is before anything that may raise *)
Definition build (E : env) (reg : list str) (p : pipe) (c : building) : effect * list output :=
  match c with
  | ByName name kwargs checkpoint =>
      (Pipe.add E reg p name kwargs checkpoint,
       [Warns (lit "DeprecationWarning") (lit "This method will be deprecated, please use `add_op`.")])
  | ByOp o checkpoint => (add_op p o checkpoint, [])
  end.
(** the pipe and the warnings of several calls; exceptions are caught by the caller *)
Fixpoint build_all (E : env) (reg : list str) (p : pipe) (h : list building) : pipe * list output :=
  match h with
  | [] => (p, [])
  | c :: h =>
      let '(e, w) := build E reg p c in
      let '(p, w') := build_all E reg (fst e) h in (p, w ++ w')
  end.
