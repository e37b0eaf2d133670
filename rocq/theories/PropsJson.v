(** Property theorems C78 (which texts the deserialize methods read, and as what).  The concrete cases
    that meet the hypotheses are in [GrammarWitness.v]. *)

From Coq Require Import String.
From Verif Require Import Py Json SpecJson Elements Ops Pipe SpecPipe
  SpecOrdinal JsonAscii SpecJsonAscii
  Factory Custom SpecForeign SpecGrammar GrammarProofs SpecStored StoredProofs GrammarWitness.
From Coq Require Import List.
Local Open Scope Z_scope.

(** C78 *)
Theorem C78_reads : forall s v, loads s = Ok v <-> json_text v s.
Proof. exact loads_iff. Qed.
Print Assumptions C78_reads.

Theorem C78_unique : forall s v v', json_text v s -> json_text v' s -> v = v'.
Proof. exact json_text_unique. Qed.
Print Assumptions C78_unique.

Theorem C78_written : forall ind v, value v -> json_text (as_json v) (dumps ind v).
Proof. exact dumps_json. Qed.
Print Assumptions C78_written.

Theorem C78_written_ascii : forall v, all_texts sound v -> json_text (as_json v) (dumps_ascii v).
Proof. exact dumps_ascii_json. Qed.
Print Assumptions C78_written_ascii.

Theorem C78_operator_text : forall E o, made E o ->
  json_text (JDict [(lit "op_name", JStr (o_class o)); (lit "op_kwargs", as_json (JDict (o_configs o)))]) (op_serialize o).
Proof. exact op_serialized. Qed.
Print Assumptions C78_operator_text.

Theorem C78_pipe_text : forall E p, reachable E p -> Forall text (map fst (checkpoints p)) ->
  json_text (JDict [(lit "steps", JList (map (fun o => JStr (op_serialize o)) (steps p)));
                    (lit "checkpoints", positions (checkpoints p))]) (pipe_serialize p).
Proof. exact pipe_serialized. Qed.
Print Assumptions C78_pipe_text.

Theorem C78_label_text : forall o, is_ordinal o -> names_are sound o ->
  json_text (JDict [(lit "intent2index", positions (intent2index o)); (lit "entity2index", positions (entity2index o));
                    (lit "not_entity_index", JInt (not_entity_index o))]) (ordinal_serialize o).
Proof. exact ordinal_serialized. Qed.
Print Assumptions C78_label_text.

Theorem C78_operator : forall E reg d name kwargs s, json_text (JDict d) s ->
  In (lit "op_name", JStr name) d -> In (lit "op_kwargs", JDict kwargs) d -> In name reg ->
  op_deserialize E reg s = construct E name [] kwargs.
Proof. exact op_written. Qed.
Print Assumptions C78_operator.

Theorem C78_operator_refused : forall E reg v e s, json_text v s -> refused (fun n => In n reg) v e ->
  op_deserialize E reg s = Err e.
Proof. exact op_text_refused. Qed.
Print Assumptions C78_operator_refused.

Theorem C78_pipe : forall E reg d infos ops ck s, json_text (JDict d) s ->
  In (lit "steps", JList infos) d -> In (lit "checkpoints", positions ck) d ->
  Forall2 (stored_step E (fun n => In n reg)) infos ops ->
  (chained ops -> pipe_deserialize E reg s = Ok (mkPipe ops ck)) /\
  (~ chained ops -> pipe_deserialize E reg s = Err TypeErr).
Proof. exact pipe_written. Qed.
Print Assumptions C78_pipe.

Theorem C78_pipe_refused : forall E reg v s, json_text v s ->
  (~ is_object v -> pipe_deserialize E reg s = Err TypeErr) /\
  (forall d, v = JDict d ->
     (~ In (lit "steps") (map fst d) -> pipe_deserialize E reg s = Err KeyErr) /\
     (forall good ops bad e rest, In (lit "steps", JList (good ++ bad :: rest)) d ->
        Forall2 (stored_step E (fun n => In n reg)) good ops -> chained ops ->
        bad_step E (fun n => In n reg) bad e -> pipe_deserialize E reg s = Err e) /\
     (forall infos ops, In (lit "steps", JList infos) d ->
        Forall2 (stored_step E (fun n => In n reg)) infos ops -> chained ops ->
        ~ In (lit "checkpoints") (map fst d) -> pipe_deserialize E reg s = Err KeyErr)).
Proof. exact pipe_refused. Qed.
Print Assumptions C78_pipe_refused.

Theorem C78_label : forall d i2i e2i ne s, json_text (JDict d) s ->
  In (lit "intent2index", positions i2i) d -> In (lit "entity2index", positions e2i) d ->
  In (lit "not_entity_index", JInt ne) d -> ordinal_deserialize s = make_ordinal i2i e2i ne.
Proof. exact ordinal_written. Qed.
Print Assumptions C78_label.

Theorem C78_user_operator : forall T B (f : list (str * pyclass T B)) d name kwargs s, json_text (JDict d) s ->
  In (lit "op_name", JStr name) d -> In (lit "op_kwargs", JDict kwargs) d ->
  obj_deserialize f s = from_dict f name kwargs.
Proof. exact obj_written. Qed.
Print Assumptions C78_user_operator.

Theorem C78_user_operator_refused : forall T B (f : list (str * pyclass T B)) v e s, json_text v s ->
  refused (fun n => exists c, fget f n = Ok c) v e -> obj_deserialize f s = Err e.
Proof. exact obj_text_refused. Qed.
Print Assumptions C78_user_operator_refused.

Theorem C78_not_json : forall E reg T B (f : list (str * pyclass T B)) s, no_floats s -> (forall v, ~ json_text v s) ->
  op_deserialize E reg s = Err ValueErr /\ pipe_deserialize E reg s = Err ValueErr /\
  ordinal_deserialize s = Err ValueErr /\ obj_deserialize f s = Err ValueErr.
Proof. exact not_json. Qed.
Print Assumptions C78_not_json.
