(** Concrete calls meeting the hypotheses of C64. *)

From Coq Require Import String Lia.
From Verif Require Import Py Ops Json SpecJson Elements Pipe SpecPipe OpsWitness SpecCalls CallProofs ObjProofs.
From Coq Require Import List.

Ltac binds := split; [cbn; lia|]; split; [reflexivity|]; split;
  [cbn; intros n H;
   repeat (destruct H as [<-|H];
     [first [exists 0; eexists; split; [reflexivity|cbn; lia] | exists 1; eexists; split; [reflexivity|cbn; lia]
            | exists 2; eexists; split; [reflexivity|cbn; lia]]|]); destruct H
  |intros [|[|[|[|k]]]] n d H; cbn in H; try discriminate H; injection H as <- <-; vm_compute; reflexivity].

(** [Pad(5)], [Pad(maxlen=5)], [Pad(5, pad_token="<pad>")] are the same call *)
Definition five := [JInt 5; text_of "<pad>"].
Example pad_by_position : call_binds pad_sig [JInt 5] [] five. Proof. binds. Qed.
Example pad_by_keyword : call_binds pad_sig [] [(lit "maxlen", JInt 5)] five. Proof. binds. Qed.
Example pad_all : call_binds pad_sig [JInt 5] [(lit "pad_token", text_of "<pad>")] five. Proof. binds. Qed.
Example pad_runs E : makes E "Pad" [JInt 5] [] (Pad 5 (ETok (lit "<pad>"))).
Proof. apply (pad_made E _ _ 5 (text_of "<pad>")); [constructor|apply pad_by_position]. Qed.
(** [AddSosEos(end_token="E")] *)
Example soseos_by_keyword : call_binds soseos_sig [] [(lit "end_token", text_of "E")] [text_of "<sos>"; text_of "E"].
Proof. binds. Qed.
(** [SpanSubwords({"a": 0}, maxlen_per_token=7)] *)
Example subwords_mixed : call_binds subwords_sig [JDict [(lit "a", JInt 0)]] [(lit "maxlen_per_token", JInt 7)]
  [JDict [(lit "a", JInt 0)]; text_of "<unk>"; JInt 7].
Proof. binds. Qed.
(** [Pad()], [Pad(5, maxlen=5)] and [Pad(5, size=3)] bind nothing *)
Example pad_nothing vals : ~ call_binds pad_sig [] [] vals.
Proof. intros (_ & L & _ & H). specialize (H 0 _ _ eq_refl). cbn in H. destruct vals; discriminate. Qed.
Example pad_twice vals : ~ call_binds pad_sig [JInt 5] [(lit "maxlen", JInt 5)] vals.
Proof.
  intros (_ & _ & H & _). destruct (H (lit "maxlen")) as ([|[|[|k]]] & d & E & L); try discriminate E; [now left|cbn in L; lia].
Qed.
Example pad_unknown vals : ~ call_binds pad_sig [JInt 5] [(lit "size", JInt 3)] vals.
Proof.
  intros (_ & _ & H & _). destruct (H (lit "size")) as ([|[|[|k]]] & d & E & L); try discriminate E. now left.
Qed.
(** a table [Token2Index] accepts, one it refuses for the unknown token, one with a gap *)
Example index_accepts : call_binds index_sig [index_table [(lit "<unk>", 0%Z); (lit "a", 1%Z)]] []
  [index_table [(lit "<unk>", 0%Z); (lit "a", 1%Z)]; text_of "<unk>"].
Proof. binds. Qed.
Example words_bind : call_binds words_sig [JList [text_of "ab"]] [(lit "shortest", JBool true)]
  [JList (map JStr [lit "ab"]); JBool true].
Proof. binds. Qed.
Example words_bind_none : call_binds words_sig [JList [text_of "ab"]; JNone] [] [JList (map JStr [lit "ab"]); JNone] /\
  (false = false <-> false_value JNone) /\ (true = false <-> false_value (JInt 2)).
Proof.
  split; [binds|]. unfold false_value. split; split; intros H; try reflexivity; try discriminate H; [now left|].
  cbn in H. repeat (destruct H as [H|H]; [discriminate H|]). destruct H.
Qed.
