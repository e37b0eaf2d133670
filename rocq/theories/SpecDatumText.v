(** Specification vocabulary for the text of a Datum. *)

From Coq Require Import String.
From Verif Require Import Py Elements Pipe TextForms.
From Coq Require Import List.
Local Open Scope Z_scope.

(** The items with [sep] between each two. *)
Fixpoint joined (sep : str) (items : list str) : str :=
  match items with
  | [] => []
  | [x] => x
  | x :: rest => x ++ sep ++ joined sep rest
  end.
(** In brackets on one line, and with one item per line. *)
Definition on_one_line (items : list str) : str := lit "[" ++ joined (lit ", ") items ++ lit "]".
Definition line_by_line (items : list str) : str := lit "[" ++ joined (lit "," ++ [10; 32]) items ++ lit "]".
(** [t] shows the items: on one line if that line has up to 80 characters. *)
Definition lists_items (items : list str) (t : str) : Prop :=
  ((length (on_one_line items) <= 80)%nat /\ t = on_one_line items) \/
  ((80 < length (on_one_line items))%nat /\ t = line_by_line items).

(** Entities whose value has no comma and whose replacements are not empty and have no commas and no [>]. *)
Definition plain_entity (e : entity) : Prop :=
  ~ In 44 (e_value e) /\ Forall (fun r => r <> [] /\ ~ In 44 r /\ ~ In 62 r) (e_replacements e).
(** The utterance is one line and the entities are plain. *)
Definition plain_datum (d : datum) : Prop := ~ In 10 (d_utterance d) /\ Forall plain_entity (d_entities d).
