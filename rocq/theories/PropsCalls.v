(** Property theorems C64 (calls of constructors).  The concrete cases that meet the hypotheses
    are in [CallWitness.v]. *)

From Coq Require Import String.
From Verif Require Import Py Ops SpecOps Json SpecJson Elements Pipe SpecPipe SpecCalls CallProofs CallWitness.
From Coq Require Import List.

(** C64 *)
Theorem C64_names : forall name, In name (map fst classes) <-> In name (map fst signatures).
Proof. exact class_names. Qed.
Print Assumptions C64_names.

Theorem C64_unbound_arguments : forall E name ps args kwargs, In (name, ps) signatures ->
  (forall vals, ~ call_binds ps args kwargs vals) -> construct E name args kwargs = Err TypeErr.
Proof. exact unbound_refused. Qed.
Print Assumptions C64_unbound_arguments.

Theorem C64_passing_style : forall E name ps args kwargs args' kwargs' vals, In (name, ps) signatures ->
  Forall value args -> value (JDict kwargs) -> Forall value args' -> value (JDict kwargs') ->
  call_binds ps args kwargs vals -> call_binds ps args' kwargs' vals ->
  (forall e, construct E name args kwargs = Err e -> construct E name args' kwargs' = Err e) /\
  (forall o, construct E name args kwargs = Ok o -> exists o', construct E name args' kwargs' = Ok o' /\
     op_eqb o o' = true /\ o_op o' = o_op o).
Proof. exact passing_style. Qed.
Print Assumptions C64_passing_style.

Theorem C64_without_arguments : forall E name o args kwargs, In (name, o) without_arguments ->
  (args = [] /\ kwargs = [] -> construct E name args kwargs = Ok (mkObj name [] o)) /\
  (~ (args = [] /\ kwargs = []) -> construct E name args kwargs = Err TypeErr).
Proof. exact no_arguments. Qed.
Print Assumptions C64_without_arguments.

Theorem C64_Pad : forall E args kwargs n v t, token_value v t -> call_binds pad_sig args kwargs [JInt n; v] ->
  makes E "Pad" args kwargs (Pad n t).
Proof. exact pad_made. Qed.
Print Assumptions C64_Pad.

Theorem C64_AddSosEos : forall E args kwargs a b s e, token_value a s -> token_value b e ->
  call_binds soseos_sig args kwargs [a; b] -> makes E "AddSosEos" args kwargs (AddSosEos s e).
Proof. exact soseos_made. Qed.
Print Assumptions C64_AddSosEos.

Theorem C64_PureNum2Token : forall E args kwargs,
  (call_binds purenum_sig args kwargs [JNone] ->
     makes E "PureNum2Token" args kwargs (PureNum2Token (ETok (lit "_num_")))) /\
  (forall v t, token_value v t -> call_binds purenum_sig args kwargs [v] ->
     makes E "PureNum2Token" args kwargs (PureNum2Token t)).
Proof. exact purenum_made. Qed.
Print Assumptions C64_PureNum2Token.

Theorem C64_AddEndToken : forall E args kwargs,
  (call_binds end_sig args kwargs [JNone] -> refuses E "AddEndToken" args kwargs ValueErr) /\
  (call_binds end_sig args kwargs [JStr []] -> refuses E "AddEndToken" args kwargs ValueErr) /\
  (forall t, t <> [] -> call_binds end_sig args kwargs [JStr t] ->
     makes E "AddEndToken" args kwargs (AddEndToken t)).
Proof. exact end_made. Qed.
Print Assumptions C64_AddEndToken.

Theorem C64_SpanSubwords : forall E args kwargs v words u t n,
  (v = JList (map JStr words) \/ v = JTuple (map JStr words) \/ exists d, v = JDict d /\ words = map fst d) ->
  token_value u t -> call_binds subwords_sig args kwargs [v; u; JInt n] ->
  makes E "SpanSubwords" args kwargs (SpanSubwords words t n).
Proof. exact subwords_made. Qed.
Print Assumptions C64_SpanSubwords.

Theorem C64_ReplaceAwithB : forall E args kwargs a b, call_binds replace_sig args kwargs [JStr a; JStr b] ->
  (re_compile E a <> None -> makes E "ReplaceAwithB" args kwargs (ReplaceAwithB a b)) /\
  (re_compile E a = None -> refuses E "ReplaceAwithB" args kwargs ReErr).
Proof. exact replace_made. Qed.
Print Assumptions C64_ReplaceAwithB.

Theorem C64_Token2Index : forall E args kwargs d unk, call_binds index_sig args kwargs [index_table d; JStr unk] ->
  (continuous d /\ In unk (map fst d) -> makes E "Token2Index" args kwargs (Token2Index d unk)) /\
  (d <> [] /\ continuous d /\ ~ In unk (map fst d) -> refuses E "Token2Index" args kwargs KeyErr) /\
  (~ (d <> [] /\ continuous d) -> refuses E "Token2Index" args kwargs ValueErr).
Proof. exact index_made. Qed.
Print Assumptions C64_Token2Index.

Theorem C64_Token2IndexwithHash : forall E args kwargs d, call_binds hash_sig args kwargs [index_table d] ->
  (d <> [] /\ continuous d -> makes E "Token2IndexwithHash" args kwargs (Token2IndexwithHash d)) /\
  (~ (d <> [] /\ continuous d) -> refuses E "Token2IndexwithHash" args kwargs ValueErr).
Proof. exact hash_made. Qed.
Print Assumptions C64_Token2IndexwithHash.

Theorem C64_words : forall E args kwargs l ws v sh, l = JList (map JStr ws) \/ l = JTuple (map JStr ws) ->
  call_binds words_sig args kwargs [l; v] -> (sh = false <-> false_value v) ->
  (forall o, make_custom (Some ws) sh = Ok o -> makes E "CustomWordTokenizer" args kwargs o) /\
  (forall e, make_custom (Some ws) sh = Err e -> refuses E "CustomWordTokenizer" args kwargs e) /\
  (forall o, make_wordn (Some ws) sh = Ok o -> makes E "AddWhitespaceAroundWordnZhChar" args kwargs o) /\
  (forall e, make_wordn (Some ws) sh = Err e -> refuses E "AddWhitespaceAroundWordnZhChar" args kwargs e).
Proof. exact words_made. Qed.
Print Assumptions C64_words.

Theorem C64_no_words : forall E args kwargs v, call_binds words_sig args kwargs [JNone; v] ->
  refuses E "CustomWordTokenizer" args kwargs ValueErr /\
  refuses E "AddWhitespaceAroundWordnZhChar" args kwargs ValueErr.
Proof. exact no_words_refused. Qed.
Print Assumptions C64_no_words.
