(** Model of [Datum.__repr__] with what it uses of python's [pprint], and of the texts with which
    exceptions are raised ([str(e)], for KeyErrors [e.args[0]]). *)

From Coq Require Import String.
From Verif Require Import Py Edit Ops Json JsonAscii Elements Pipe TextForms.
From Coq Require Import List.
Local Open Scope Z_scope.

(** ** [pprint.pformat] of a list of objects that show themselves by a [__repr__] of their own *)

(** pprint._safe_repr of a list *)
Definition safe_repr (reps : list str) : str := lit "[" ++ commas reps ++ lit "]".

(** PrettyPrinter._format_items: every object after the separator; objects whose [__repr__] is
    not known to pprint are written as they are, whatever their length *)
Fixpoint format_items (indent : nat) (delim : str) (reps : list str) : str :=
  match reps with
  | [] => []
  | r :: reps => delim ++ r ++ format_items indent (lit "," ++ [10] ++ repeat 32 indent) reps
  end.

(** PrettyPrinter._format of a list at [indent] with [allowance] characters to come behind it, and
    _pprint_list; indent_per_level = 1 *)
Definition format_list (width indent allowance : nat) (reps : list str) : str :=
  let rep := safe_repr reps in
  if (width - indent - allowance <? length rep)%nat then lit "[" ++ format_items (indent + 1) [] reps ++ lit "]" else rep.

(** [pprint.pformat(l)]: width = 80 *)
Definition pformat (reps : list str) : str := format_list 80 0 0 reps.

(** elements.pyx:151-155 *)
Definition datum_repr (d : datum) : str :=
  let intent_str := pformat (map intent_repr (d_intents d)) in
  let entity_str := pformat (map entity_repr (d_entities d)) in
  lit "<Datum " ++ d_utterance d ++ [10] ++ lit " with intents: " ++ intent_str ++ [10] ++ lit " with entities:" ++ [10] ++
  entity_str ++ lit ">".
