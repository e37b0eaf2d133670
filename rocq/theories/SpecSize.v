(** Specification: how long the results of operators and pipes can be (C91). *)

From Verif Require Import Py Ops Elements Pipe.
From Coq Require Import List.
Local Open Scope Z_scope.

(** Characters of a text; for a list the characters of its tokens, where empty tokens and
    indices count as one. *)
Definition elem_size (x : elem) : Z := match x with ETok t => Z.max 1 (Z.of_nat (length t)) | EIdx _ => 1 end.
Fixpoint total (l : list elem) : Z := match l with [] => 0 | x :: l => elem_size x + total l end.
Definition size (x : pseq) : Z := match x with SStr s => Z.of_nat (length s) | SLst l => total l end.

(** A result is at most [growth] times as large as the input, plus [extra]. *)
Definition growth (o : op) : Z :=
  match o with
  | IntToken => 5                                   (* 7 for _int_ *)
  | IntTokenWithSpace | NumTokenWithSpace => 7      (* 7 with a space on both sides *)
  | FloatToken | FloatTokenWithSpace => 3           (* 1.5 becomes _float_, with spaces *)
  | AddWhitespaceAroundCJK | AddWhitespaceAroundPunctuation | AddWhitespaceAroundWordnZhChar _ _ => 3
  | ReplaceAwithB _ b => 1 + Z.of_nat (length b)
  | PureNum2Token t => elem_size t
  | SpanSubwords _ u _ => Z.max 3 (elem_size u)     (* ## in front of one character *)
  | _ => 1
  end.
Definition extra (o : op) : Z :=
  match o with
  | Pad m t => Z.max 0 m * elem_size t
  | AddSosEos a b => elem_size a + elem_size b
  | AddEndToken t => elem_size (ETok t)
  | _ => 0
  end.

(** The same for several operators, one after the other. *)
Fixpoint bound (ops : list op) (n : Z) : Z :=
  match ops with [] => n | o :: ops => bound ops (growth o * n + extra o) end.
