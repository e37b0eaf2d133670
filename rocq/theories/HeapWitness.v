(** Concrete histories for C79 and C80. *)

From Coq Require Import String.
From Verif Require Import Py PyFacts Json Elements Ops Pipe SpecPipe Heap SpecHeap HeapProofs HeapOps Concrete.
From Coq Require Import List.
Local Open Scope Z_scope.

Definition out_of (r : res (pseq * aligner)) : res pseq := match r with Ok (y, _) => Ok y | Err e => Err e end.

(** ** Pipes *)

(** two pipes with checkpoints of their own, their sum, a copy and a slice *)
Definition pipes : list command :=
  [NewPipe; NewPipe; NewOp (lit "Lowercase") [] []; NewOp (lit "CharTokenizer") [] []; NewOp (lit "AddSosEos") [] [];
   AddOp 0 0 (Some (lit "low")); AddOp 0 1 None; AddOp 1 2 (Some (lit "sos")); Plus 0 1; Copy 0; Slice 2 (Some 1, None, None)].

Definition shape (p : pipe) : list str * list (str * Z) := (map o_class (steps p), checkpoints p).
Definition shapes (h : list command) : list (option (list str * list (str * Z))) :=
  map (fun k => option_map shape (pipe_at (after_commands env0 empty_memory h) k)) (seq 0 6).

Example pipes_shapes : shapes pipes =
  [Some ([lit "Lowercase"; lit "CharTokenizer"], [(lit "low", 1)]);
   Some ([lit "AddSosEos"], [(lit "sos", 1)]);
   Some ([lit "Lowercase"; lit "CharTokenizer"; lit "AddSosEos"], [(lit "low", 1); (lit "sos", 4)]);
   Some ([lit "Lowercase"; lit "CharTokenizer"], [(lit "low", 1)]);
   Some ([lit "CharTokenizer"; lit "AddSosEos"], [(lit "sos", 3)]);
   None].
Proof. vm_compute. reflexivity. Qed.

(** the copy grows, the others do not *)
Example copy_grows : shapes (pipes ++ [AddOp 3 2 (Some (lit "end"))]) =
  [Some ([lit "Lowercase"; lit "CharTokenizer"], [(lit "low", 1)]);
   Some ([lit "AddSosEos"], [(lit "sos", 1)]);
   Some ([lit "Lowercase"; lit "CharTokenizer"; lit "AddSosEos"], [(lit "low", 1); (lit "sos", 4)]);
   Some ([lit "Lowercase"; lit "CharTokenizer"; lit "AddSosEos"], [(lit "low", 1); (lit "end", 3)]);
   Some ([lit "CharTokenizer"; lit "AddSosEos"], [(lit "sos", 3)]);
   None].
Proof. vm_compute. reflexivity. Qed.

(** a pipe added to itself *)
Example twice : shapes [NewPipe; NewOp (lit "Lowercase") [] []; AddOp 0 0 None; IAdd 0 0] =
  [Some ([lit "Lowercase"; lit "Lowercase"], []); None; None; None; None; None].
Proof. vm_compute. reflexivity. Qed.

(** ** Intermediates *)

Definition before_run : list command :=
  [NewPipe; NewOp (lit "Lowercase") [] []; NewOp (lit "CharTokenizer") [] []; AddOp 0 0 (Some (lit "low"))].
Definition the_run : command := Run 0 (SStr (lit "Ab")).

Example runs : exists p y als coll, has_pipe env0 before_run 0 p /\
  transform_sequence env0 p (SStr (lit "Ab")) = Ok (y, als, coll) /\ gives env0 before_run the_run = Ok (Ran y als 0) /\
  checkpoints p = [(lit "low", 1)].
Proof.
  destruct (pipe_at (after_commands env0 empty_memory before_run) 0) as [p|] eqn:P; [|vm_compute in P; discriminate].
  assert (C : checkpoints p = [(lit "low", 1)] /\ steps p = [mkObj (lit "Lowercase") [] Lowercase])
    by (vm_compute in P; injection P as <-; split; reflexivity).
  destruct C as [C S]. exists p.
  pose proof (run_does _ 0 p (SStr (lit "Ab")) env0 P) as R.
  destruct (transform_sequence env0 p (SStr (lit "Ab"))) as [[[y als] coll]|e] eqn:T.
  - destruct R as (i & R & _). exists y, als, coll. split; [exact P|]. split; [reflexivity|]. split; [|exact C].
    assert (I : match snd (exec env0 (after_commands env0 empty_memory before_run) the_run) with Ok (Ran _ _ i) => i | _ => 1%nat end = 0%nat)
      by (vm_compute; reflexivity).
    unfold the_run in *. rewrite R in I. unfold gives. now rewrite R, I.
  - exfalso. assert (X : match transform_sequence env0 p (SStr (lit "Ab")) with Ok _ => true | Err _ => false end = true).
    { unfold transform_sequence. rewrite S. vm_compute. reflexivity. }
    rewrite T in X. discriminate.
Qed.

Example low_stays : gives env0 (before_run ++ the_run :: [AddOp 0 1 (Some (lit "late"))]) (Get 0 (lit "low")) =
  Ok (Item (SStr (lit "ab"))).
Proof. vm_compute. reflexivity. Qed.

(** an Intermediate is not a snapshot: its answers change when the pipe changes *)
Theorem intermediate_changes : exists E h i name c,
  (forall x j, c <> Run x j) /\ gives E h (Get i name) = Err KeyErr /\ gives E (h ++ [c]) (Get i name) = Err IndexErr.
Proof.
  exists env0, (before_run ++ [the_run]), 0%nat, (lit "late"), (AddOp 0 1 (Some (lit "late"))).
  split; [discriminate|]. split; vm_compute; reflexivity.
Qed.

(** ** Direct changes *)

Definition before_direct : list command :=
  [NewPipe; NewOp (lit "CharTokenizer") [] []; NewOp (lit "Lowercase") [] []; AddOp 0 0 (Some (lit "chars"))].

(** [add_op] refuses the second operator, [steps.append] does not *)
Theorem direct_unchained : exists E h k o p x, gives E h (AddOp k o None) = Err TypeErr /\
  (forall c, In c h -> ~ direct c) /\
  has_pipe E (h ++ [SetSteps k [0%nat; o]]) k p /\ ~ chained (steps p) /\ transform_sequence E p x = Err TypeErr.
Proof.
  exists env0, before_direct, 0%nat, 1%nat.
  destruct (pipe_at (after_commands env0 empty_memory (before_direct ++ [SetSteps 0 [0; 1]%nat])) 0) as [p|] eqn:P; [|vm_compute in P; discriminate].
  exists p, (SStr (lit "Ab")). split; [vm_compute; reflexivity|].
  split; [intros c [<-|[<-|[<-|[<-|[]]]]] [(? & ? & ?)|(? & ? & ?)]; discriminate|]. split; [exact P|].
  assert (S : steps p = [mkObj (lit "CharTokenizer") [] CharTokenizer; mkObj (lit "Lowercase") [] Lowercase])
    by (vm_compute in P; injection P as <-; reflexivity).
  split.
  - intros C. specialize (C 0%nat). rewrite S in C. specialize (C _ _ eq_refl eq_refl). discriminate.
  - unfold transform_sequence. rewrite S. vm_compute. reflexivity.
Qed.

(** an Intermediate loses a name that it had *)
Theorem intermediate_loses : exists E h i name c z, direct c /\
  gives E h (Get i name) = Ok (Item z) /\ gives E (h ++ [c]) (Get i name) = Err KeyErr.
Proof.
  exists env0, (before_run ++ [the_run]), 0%nat, (lit "low"), (SetChecks 0 []), (SStr (lit "ab")).
  split; [right; eauto|]. split; vm_compute; reflexivity.
Qed.

(** a checkpoint made after the run answers with a sequence of the run *)
Theorem late_name_answers : exists E h k x h2 i name p z,
  has_pipe E h k p /\ ~ In name (map fst (checkpoints p)) /\
  gives E (h ++ [Run k x]) (Get i name) = Err KeyErr /\
  gives E (h ++ Run k x :: h2) (Get i name) = Ok (Item z) /\ (forall k' d, ~ In (SetChecks k' d) h2).
Proof.
  destruct (pipe_at (after_commands env0 empty_memory before_run) 0) as [p|] eqn:P; [|vm_compute in P; discriminate].
  exists env0, before_run, 0%nat, (SStr (lit "Ab")), [SetSteps 0 []; AddOp 0 0 (Some (lit "late"))], 0%nat, (lit "late"), p, (SStr (lit "ab")).
  split; [exact P|]. split.
  { assert (C : checkpoints p = [(lit "low", 1)]) by (vm_compute in P; injection P as <-; reflexivity).
    rewrite C. intros [H|[]]. discriminate. }
  split; [vm_compute; reflexivity|]. split; [vm_compute; reflexivity|].
  intros k' d [H|[H|[]]]; discriminate.
Qed.

Example direct_shapes : shapes (pipes ++ [SetSteps 0 [1; 0; 2]%nat; SetChecks 1 [(lit "x", -5); (lit "sos", 0)]; Copy 1]) =
  [Some ([lit "CharTokenizer"; lit "Lowercase"; lit "AddSosEos"], [(lit "low", 1)]);
   Some ([lit "AddSosEos"], [(lit "x", -5); (lit "sos", 0)]);
   Some ([lit "Lowercase"; lit "CharTokenizer"; lit "AddSosEos"], [(lit "low", 1); (lit "sos", 4)]);
   Some ([lit "Lowercase"; lit "CharTokenizer"], [(lit "low", 1)]);
   Some ([lit "CharTokenizer"; lit "AddSosEos"], [(lit "sos", 3)]);
   Some ([lit "AddSosEos"], [(lit "x", -5); (lit "sos", 0)])].
Proof. vm_compute. reflexivity. Qed.

Example pipes_plain : forall c, In c pipes -> ~ direct c /\ plain_slice c.
Proof.
  intros c H. cbn in H. repeat destruct H as [<-|H]; try contradiction;
    (split; [intros [(? & ? & ?)|(? & ? & ?)]; discriminate|intros ? ? ? ? E; try discriminate; injection E as <- <- <- <-; now left]).
Qed.

(** ** Operators that look into the dict later *)

Definition numbers : cell := Numbers [(lit "a", 0); (lit "<unk>", 1)].
Definition numbers2 : cell := Numbers [(lit "a", 0); (lit "<unk>", 1); (lit "b", 7)].
Definition indexing : list command := [NewCell numbers; NewCell (Words [lit "x"]); NewOp (lit "Token2Index") [Ref 0] [(lit "unk_token", Own (JStr (lit "<unk>")))]].
Definition at_op (h : list command) (i : nat) : opobj := the_op (after_commands env0 empty_memory h) i.

Example index_before : out_of (transform_op env0 (o_op (at_op indexing 0)) (SLst [ETok (lit "b"); ETok (lit "a")])) = Ok (SLst [EIdx 1; EIdx 0]).
Proof. vm_compute. reflexivity. Qed.
Example index_after : out_of (transform_op env0 (o_op (at_op (indexing ++ [SetCell 0 numbers2]) 0)) (SLst [ETok (lit "b"); ETok (lit "a")])) =
  Ok (SLst [EIdx 7; EIdx 0]).
Proof. vm_compute. reflexivity. Qed.
Example index_other : at_op (indexing ++ [SetCell 1 (Words [])]) 0 = at_op indexing 0.
Proof. vm_compute. reflexivity. Qed.

(** what it writes cannot be read: the dict is no longer continuous *)
Theorem changed_not_readable : exists E h i o c j, has_op E h i o /\
  op_deserialize E (map fst classes) (op_serialize o) = Ok o /\
  exists o2, has_op E (h ++ [SetCell j c]) i o2 /\ op_deserialize E (map fst classes) (op_serialize o2) = Err ValueErr.
Proof.
  exists env0, indexing, 0%nat, (at_op indexing 0), numbers2, 0%nat.
  split; [vm_compute; reflexivity|]. split; [vm_compute; reflexivity|].
  exists (at_op (indexing ++ [SetCell 0 numbers2]) 0). split; vm_compute; reflexivity.
Qed.

(** ** Operators that keep their own words *)

Definition words : cell := Words [lit "ab"].
Definition words2 : cell := Words [lit "bc"].
Definition tokenizing : list command := [NewCell words; NewOp (lit "CustomWordTokenizer") [Ref 0] []].

Theorem changed_stored_differs : exists E h i o c j o2 x o3, has_op E h i o /\ has_op E (h ++ [SetCell j c]) i o2 /\
  op_deserialize E (map fst classes) (op_serialize o2) = Ok o3 /\
  exists y y', out_of (transform_op E (o_op o2) x) = Ok y /\ out_of (transform_op E (o_op o3) x) = Ok y' /\ y <> y'.
Proof.
  exists env0, tokenizing, 0%nat, (at_op tokenizing 0), words2, 0%nat, (at_op (tokenizing ++ [SetCell 0 words2]) 0), (SStr (lit "abc")).
  destruct (op_deserialize env0 (map fst classes) (op_serialize (at_op (tokenizing ++ [SetCell 0 words2]) 0))) as [o3|] eqn:D;
    [|vm_compute in D; discriminate].
  exists o3. split; [vm_compute; reflexivity|]. split; [vm_compute; reflexivity|]. split; [reflexivity|].
  exists (SLst [ETok (lit "ab"); ETok (lit "c")]), (SLst [ETok (lit "a"); ETok (lit "bc")]).
  vm_compute in D. injection D as <-.
  split; [vm_compute; reflexivity|]. split; [vm_compute; reflexivity|discriminate].
Qed.

Theorem equal_differ : exists E h i j a b x, has_op E h i a /\ has_op E h j b /\ op_eqb a b = true /\
  exists y y', out_of (transform_op E (o_op a) x) = Ok y /\ out_of (transform_op E (o_op b) x) = Ok y' /\ y <> y'.
Proof.
  exists env0, (tokenizing ++ [SetCell 0 words2; NewOp (lit "CustomWordTokenizer") [Ref 0] []]), 0%nat, 1%nat.
  exists (at_op (tokenizing ++ [SetCell 0 words2; NewOp (lit "CustomWordTokenizer") [Ref 0] []]) 0),
         (at_op (tokenizing ++ [SetCell 0 words2; NewOp (lit "CustomWordTokenizer") [Ref 0] []]) 1), (SStr (lit "abc")).
  split; [vm_compute; reflexivity|]. split; [vm_compute; reflexivity|]. split; [vm_compute; reflexivity|].
  exists (SLst [ETok (lit "ab"); ETok (lit "c")]), (SLst [ETok (lit "a"); ETok (lit "bc")]).
  split; [vm_compute; reflexivity|]. split; [vm_compute; reflexivity|discriminate].
Qed.

(** in a pipe *)
Definition in_a_pipe : list command := indexing ++ [NewPipe; AddOp 0 0 None].
Example pipe_follows : option_map (fun p => x <- transform_sequence env0 p (SLst [ETok (lit "b")]) ;; Ok (fst (fst x)))
    (pipe_at (after_commands env0 empty_memory (in_a_pipe ++ [SetCell 0 numbers2])) 0) = Some (Ok (SLst [EIdx 7])).
Proof. vm_compute. reflexivity. Qed.
