(** Specification vocabulary for the texts that objects show. *)

From Coq Require Import String.
From Verif Require Import Py Edit Ops Json Elements Pipe TextForms.
From Coq Require Import List.
Local Open Scope Z_scope.

(** ** Reading a summary *)

(** [l] without [p] at its front *)
Fixpoint after_prefix (p l : str) : option str :=
  match p, l with
  | [], _ => Some l
  | a :: p, b :: l => if a =? b then after_prefix p l else None
  | _ :: _, [] => None
  end.

(** The texts on the operator lines. *)
Definition operators_shown (lines : list str) : list str :=
  flat_map (fun l => match after_prefix (lit " |    ") l with Some x => [x] | None => [] end) lines.

(** What stands on a line of one kind, with the number of operator lines above it. *)
Fixpoint shown_at (what : str -> option str) (n : Z) (lines : list str) : list (Z * str) :=
  match lines with
  | [] => []
  | l :: lines =>
      match what l with Some x => [(n, x)] | None => [] end ++
      shown_at what (match after_prefix (lit " |    ") l with Some _ => n + 1 | None => n end) lines
  end.
Definition checkpoints_shown : list str -> list (Z * str) := shown_at (after_prefix (lit " @--> checkpoint: ")) 0.
Definition types_shown : list str -> list (Z * str) :=
  shown_at (fun l => if (eqb l (lit "str") || eqb l (lit "list"))%bool then Some l else None) 0.

(** [name] is the last checkpoint with this number. *)
Definition last_with (ck : list (str * Z)) (i : Z) (name : str) : Prop :=
  exists before after, ck = before ++ (name, i) :: after /\ ~ In i (map snd after).

Definition one_line (s : str) : Prop := ~ In 10 s.

(** ** Texts of operators *)

Definition code_points (s : str) : Prop := Forall (fun c => 0 <= c < 1114112) s.

(** Characters that repr shows as they are, whatever else is in the text: printable ASCII
    but apostrophes and backslashes. *)
Definition clear_char (c : Z) : Prop := 32 <= c < 127 /\ c <> 39 /\ c <> 92.

(** Values that [str] of an operator shows in full: None, bools, numbers of up to 40 characters and
    texts whose [repr] has up to 30. *)
Definition shown_whole (printable : Z -> bool) (v : jval) : Prop :=
  match v with
  | JNone | JBool _ => True
  | JInt z => (length (dump_int z) <= 40)%nat
  | JStr s => code_points s /\ (length (repr_str printable s) <= 30)%nat
  | _ => False
  end.

(** The types as python names them. *)
Definition type_word (t : seqtype) : str := match t with TStr => lit "str" | TList => lit "list" end.
