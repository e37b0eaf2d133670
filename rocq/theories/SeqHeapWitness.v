(** Concrete histories for C83. *)

From Coq Require Import String.
From Verif Require Import Py PyFacts Json Elements Ops Pipe SpecEdit SpecOps SeqHeap SpecSeqHeap SeqHeapProofs Concrete OpsWitness.
From Coq Require Import List.
Local Open Scope Z_scope.

Definition tok (s : string) : elem := ETok (lit s).
Definition env0_ord : ord_ok (ord_e env0) := proj1 (proj2 env0_python).

(** Pipes. *)
Definition pad2_obj : opobj :=
  mkObj (lit "Pad") [(lit "maxlen", JInt 2); (lit "pad_token", JStr PAD_TOKEN)] (Pad 2 (ETok PAD_TOKEN)).
Definition sos_obj : opobj :=
  mkObj (lit "AddSosEos") [(lit "end_token", JStr END_TOKEN); (lit "start_token", JStr START_TOKEN)]
    (AddSosEos (ETok START_TOKEN) (ETok END_TOKEN)).
Definition num_obj : opobj := mkObj (lit "PureNum2Token") [(lit "token", JNone)] (PureNum2Token (ETok NUM_TOKEN)).
Definition char_obj : opobj := mkObj (lit "CharTokenizer") [] CharTokenizer.
Example pad2_made : construct env0 (lit "Pad") [JInt 2] [] = Ok pad2_obj.
Proof. reflexivity. Qed.
Example sos_made : construct env0 (lit "AddSosEos") [] [] = Ok sos_obj.
Proof. reflexivity. Qed.
Example num_made : construct env0 (lit "PureNum2Token") [] [] = Ok num_obj.
Proof. reflexivity. Qed.
Definition pad2 : pipe := mkPipe [pad2_obj] [].
Definition numbers : pipe := mkPipe [num_obj] [].
Definition mixed : pipe := mkPipe [char_obj; sos_obj; num_obj; pad2_obj] [].

(** ** A run on a list, its input emptied *)

Definition cut_run : list action := [NewList [tok "a"; tok "b"; tok "c"]; RunPipe pad2 (AList 0); NewLabels [5; 6]].

Example cut_items : items env0 cut_run 0 [AList 0; AList 1] /\
  reads env0 cut_run (AList 1) (SLst [tok "a"; tok "b"]).
Proof.
  split; [|exists [tok "a"; tok "b"]; split; vm_compute; reflexivity].
  apply items_iff. eexists. split; vm_compute; reflexivity.
Qed.

Example cut_back : gives env0 cut_run (Back 0 0) = Ok (Labels 1) /\
  has_labels env0 (cut_run ++ [Back 0 0]) 1 [5; 6; 0] /\ has_labels env0 (cut_run ++ [Back 0 0]) 0 [5; 6].
Proof. repeat split; vm_compute; reflexivity. Qed.

Lemma input_needed : exists E h k r r' j l,
  gives E h (Back k r) = Ok (Labels r') /\ gives E (h ++ [SetList j l]) (Back k r) = Err ValueErr.
Proof. exists env0, cut_run, 0%nat, 0%nat, 1%nat, 0%nat, []. split; vm_compute; reflexivity. Qed.

(** the other changes of the input make no difference *)
Example longer_input : gives env0 (cut_run ++ [SetList 0 [tok "x"; tok "y"; tok "z"; tok "w"]]) (Back 0 0) = Ok (Labels 1) /\
  has_labels env0 (cut_run ++ [SetList 0 [tok "x"; tok "y"; tok "z"; tok "w"]; Back 0 0]) 1 [5; 6; 0].
Proof. split; vm_compute; reflexivity. Qed.

(** the hypotheses of [back_not_shorter] *)
Example cut_meets : let h := cut_run ++ [SetList 0 [tok "x"; tok "y"; tok "z"; tok "w"]] in
  run_of env0 h 0 pad2 (SLst [tok "a"; tok "b"; tok "c"]) /\ has_labels env0 h 0 [5; 6] /\
  items env0 h 0 [AList 0; AList 1] /\
  exists als coll, run env0 (steps pad2) (SLst [tok "a"; tok "b"; tok "c"]) = Ok (SLst [tok "a"; tok "b"], als, coll) /\
    no_touch pad2 coll /\ none_shorter env0 h [AList 0; AList 1] coll.
Proof.
  split; [|split; [|split]].
  - exists [NewList [tok "a"; tok "b"; tok "c"]], (AList 0), [NewLabels [5; 6]; SetList 0 [tok "x"; tok "y"; tok "z"; tok "w"]], (AList 1).
    split; [reflexivity|]. split; [|vm_compute; reflexivity].
    exists [tok "a"; tok "b"; tok "c"]. split; vm_compute; reflexivity.
  - vm_compute. reflexivity.
  - apply items_iff. eexists. split; vm_compute; reflexivity.
  - assert (R : exists als, run env0 (steps pad2) (SLst [tok "a"; tok "b"; tok "c"]) =
      Ok (SLst [tok "a"; tok "b"], als, [SLst [tok "a"; tok "b"; tok "c"]; SLst [tok "a"; tok "b"]])).
    { eexists. vm_compute. reflexivity. }
    destruct R as (als & R). exists als, [SLst [tok "a"; tok "b"; tok "c"]; SLst [tok "a"; tok "b"]].
    split; [exact R|]. split.
    + intros [|[|j]] o v u m ts Q1 Q2 _; try discriminate. injection Q1 as <-. discriminate Q2.
    + intros [|[|[|j]]] r l Q1 Q2; try discriminate; injection Q1 as <-; injection Q2 as <-.
      * exists [tok "x"; tok "y"; tok "z"; tok "w"]. split; [vm_compute; reflexivity|cbn; auto].
      * exists [tok "a"; tok "b"]. split; [vm_compute; reflexivity|cbn; auto].
Qed.

(** ** The labels of a pipe that leaves them alone *)

Definition num_run : list action := [NewList [tok "a"; tok "12"]; RunPipe numbers (AList 0); NewLabels [0; 7]].

Example num_same : gives env0 num_run (Forward 0 0) = Ok (Labels 0) /\ gives env0 num_run (Back 0 0) = Ok (Labels 0) /\
  reads env0 num_run (AList 1) (SLst [tok "a"; ETok NUM_TOKEN]).
Proof.
  split; [|split]; [vm_compute; reflexivity|vm_compute; reflexivity|].
  exists [tok "a"; ETok NUM_TOKEN]. split; vm_compute; reflexivity.
Qed.

Lemma labels_shared : exists E h k r r' l l',
  gives E h (Forward k r) = Ok (Labels r') /\ has_labels E (h ++ [Forward k r]) r' l /\
  has_labels E (h ++ [Forward k r; SetLabels r l']) r' l' /\ l <> l'.
Proof.
  exists env0, num_run, 0%nat, 0%nat, 0%nat, [0; 7], [1; 1].
  repeat split; try (vm_compute; reflexivity). discriminate.
Qed.

(** ** The output is the last item *)

Lemma output_shared : exists E h p x r k l l' r2,
  gives E h (RunPipe p x) = Ok (Ran (AList r) k) /\ gives E (h ++ [RunPipe p x]) (Item k (-1)) = Ok (Seq (AList r2)) /\
  has_list E (h ++ [RunPipe p x]) r2 l /\ has_list E (h ++ [RunPipe p x; SetList r l']) r2 l' /\ l <> l'.
Proof.
  exists env0, [NewList [tok "a"; tok "b"; tok "c"]], pad2, (AList 0), 1%nat, 0%nat, [tok "a"; tok "b"], [], 1%nat.
  repeat split; try (vm_compute; reflexivity). discriminate.
Qed.

(** ** A longer pipe on a text *)

Definition mixed_run : list action := [RunPipe mixed (AText (lit "7b")); NewLabels [3; 0]].

Example mixed_items : items env0 mixed_run 0 [AText (lit "7b"); AList 0; AList 1; AList 2; AList 3].
Proof. apply items_iff. eexists. split; vm_compute; reflexivity. Qed.
Example mixed_forward : gives env0 mixed_run (Forward 0 0) = Ok (Labels 3) /\
  has_labels env0 (mixed_run ++ [Forward 0 0]) 3 [0; 3].
Proof. split; vm_compute; reflexivity. Qed.
