(** Property theorem C88 (standard output and warnings).
    The concrete cases that meet the hypotheses are in [OutputWitness.v]. *)

From Coq Require Import String.
From Verif Require Import Py Edit GroupObj SpecGroup Json Ops Elements SpecElements Pipe TextForms Output SpecOutput OutputProofs OutputWitness.
From Coq Require Import List.
Local Open Scope Z_scope.

(** C88: standard output and warnings *)
Theorem C88_pack_prints : forall u ints ls, length u = length ls -> u <> [] -> Forall i32 ints ->
  exists l r, beginnings ls l /\ beginnings (rev ls) r /\ pack_output u ints ls = [Prints (list_text l); Prints (list_text r)].
Proof. exact pack_prints. Qed.
Print Assumptions C88_pack_prints.

Theorem C88_pack_silent : forall u ints ls, length u <> length ls \/ u = [] \/ ~ Forall i32 ints -> pack_output u ints ls = [].
Proof. exact pack_silent. Qed.
Print Assumptions C88_pack_silent.

Theorem C88_lines_read : forall l, loads (list_text l) = Ok (JList (map JInt l)).
Proof. exact line_read. Qed.
Print Assumptions C88_lines_read.

Theorem C88_beginnings_unique : forall ls l l', beginnings ls l -> beginnings ls l' -> l = l'.
Proof. exact beginnings_unique. Qed.
Print Assumptions C88_beginnings_unique.

Theorem C88_only_if_packed_refuted : exists u ints ls e, pack_to_datum u ints ls = Err e /\ pack_output u ints ls <> [].
Proof. exact prints_only_if_packed_refuted. Qed.
Print Assumptions C88_only_if_packed_refuted.

Theorem C88_replacement_group : forall {A} `{Eqb A} (h : list (rcall A)), Forall rcall_ok h ->
  (finished h -> rg_output (after_calls h) ReadLen = [] /\ rg_output (after_calls h) ReadEqOther = []) /\
  (~ finished h -> exists w, w = Warns (lit "UserWarning") (lit "ReplacementGroup needs validation, please call `done`.") /\
     rg_output (after_calls h) ReadLen = [w] /\ rg_output (after_calls h) ReadEqOther = [w]) /\
  (forall g, rg_output (after_calls h) (ReadEq g) = rg_output (after_calls h) ReadLen ++ rg_output g ReadLen) /\
  (forall i, rg_output (after_calls h) (ReadItem i) = []) /\ rg_output (after_calls h) ReadEmpty = [] /\ rg_output (after_calls h) ReadRepr = [].
Proof. exact @group_warns. Qed.
Print Assumptions C88_replacement_group.

Theorem C88_span_group : forall hs, (sfinished hs -> sg_output (after_scalls hs) ReadLen = [] /\ sg_output (after_scalls hs) ReadEqOther = []) /\
  (~ sfinished hs -> exists w, w = Warns (lit "UserWarning") (lit "SpanGroup needs validation, please call `done`.") /\
     sg_output (after_scalls hs) ReadLen = [w] /\ sg_output (after_scalls hs) ReadEqOther = [w]) /\
  (forall g, sg_output (after_scalls hs) (ReadEq g) = sg_output (after_scalls hs) ReadLen ++ sg_output g ReadLen) /\
  (forall i, sg_output (after_scalls hs) (ReadItem i) = []) /\ sg_output (after_scalls hs) ReadEmpty = [] /\ sg_output (after_scalls hs) ReadRepr = [].
Proof. exact span_group_warns. Qed.
Print Assumptions C88_span_group.

Theorem C88_silent_is_valid_refuted : exists h : list (rcall Z), Forall rcall_ok h /\ (forall ord, ~ In (CDone ord true) h) /\
  rg_output (after_calls h) ReadLen = [] /\ overlapping h.
Proof. exact silent_is_valid_refuted. Qed.
Print Assumptions C88_silent_is_valid_refuted.

Theorem C88_pipe_add : forall E reg p h, snd (build_all E reg p h) =
    repeat (Warns (lit "DeprecationWarning") (lit "This method will be deprecated, please use `add_op`.")) (length (filter (fun c => match c with ByName _ _ _ => true | ByOp _ _ => false end) h)).
Proof. exact add_warns. Qed.
Print Assumptions C88_pipe_add.
