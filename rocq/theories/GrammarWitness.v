(** Concrete texts for C78. *)

From Coq Require Import String.
From Verif Require Import Py PyFacts Json Elements Ops Pipe SpecPipe SpecGrammar GrammarProofs SpecForeign SpecStored StoredProofs
  Concrete OpsWitness JsonAscii.
From Coq Require Import List.
Local Open Scope Z_scope.
Local Open Scope string_scope.

(** a quote inside a Coq string is written twice *)
Definition step_one : string := "{""op_kwargs"":{}, ""op_name"":""Lowercase"", ""comment"": [1, -20, null, true]}".
Definition step_two : string := "{ \""op_name\"": \""CharTokenizer\"",\n\""op_kwargs\"": { } }".
Definition pipe_file : string :=
  " {""steps"": [" ++ step_one ++ " , """ ++ step_two ++ """], ""checkpoints"": {""a"": 7, ""lower"" :1, ""a"":2 } } ".

Definition pipe_value : jval := JDict
  [(lit "steps", JList [JDict [(lit "op_kwargs", JDict []); (lit "op_name", JStr (lit "Lowercase"));
                               (lit "comment", JList [JInt 1; JInt (-20); JNone; JBool true])];
                        JStr (lit "{ ""op_name"": ""CharTokenizer""," ++ 10 :: lit """op_kwargs"": { } }")%list]);
   (lit "checkpoints", positions [(lit "a", 2); (lit "lower", 1)])].

Example pipe_file_says : json_text pipe_value (lit pipe_file).
Proof. apply loads_iff. vm_compute. reflexivity. Qed.

(** built with the rules of the grammar: a pair of escapes, a lone one, upper case digits *)
Definition esc (s : string) : str := 92 :: lit ("u" ++ s).
Example string_says : says (JStr [128512; 55357; 74]) (34 :: (esc "d83d" ++ esc "DE00" ++ esc "d83d" ++ esc "004a" ++ []) ++ [34])%list.
Proof.
  constructor. eexists. split; [reflexivity|].
  assert (H : forall c d, unhex c = Some d -> hex_digit c d) by (intros c d; apply unhex_digit).
  change 128512 with (0x10000 + (55357 - 0xD800) * 1024 + (56832 - 0xDC00)).
  apply quotes_pair; [| |unfold high_surrogate; lia|unfold low_surrogate; lia|].
  - apply (a_unit 100 56 51 100 13 8 3 13); apply H; reflexivity.
  - apply (a_unit 68 69 48 48 13 14 0 0); apply H; reflexivity.
  - apply quotes_unit.
    + apply (a_unit 100 56 51 100 13 8 3 13); apply H; reflexivity.
    + apply quotes_unit; [apply (a_unit 48 48 52 97 0 0 4 10); apply H; reflexivity|constructor|].
      intros [X _]. lia.
    + intros _ v k t' V L E. destruct V as [a b c d p q r s A B C D]. cbn in E. injection E as <- <- <- <- <-.
      apply hex_digit_range in C, D. unfold low_surrogate in L.
      apply unhex_digit in A, B. cbn in A, B. injection A as <-. injection B as <-. lia.
Qed.

(** what the hand-written file gives *)
Example pipe_file_read : exists a b, made env0 a /\ made env0 b /\
  Forall2 (stored_step env0 (fun n => In n imported))
    [JDict [(lit "op_kwargs", JDict []); (lit "op_name", JStr (lit "Lowercase"));
            (lit "comment", JList [JInt 1; JInt (-20); JNone; JBool true])];
     JStr (lit "{ ""op_name"": ""CharTokenizer""," ++ 10 :: lit """op_kwargs"": { } }")%list] [a; b] /\
  chained [a; b] /\
  pipe_deserialize env0 imported (lit pipe_file) = Ok (mkPipe [a; b] [(lit "a", 2); (lit "lower", 1)]).
Proof.
  exists (mkObj (lit "Lowercase") [] Lowercase), (mkObj (lit "CharTokenizer") [] CharTokenizer).
  assert (M : forall n o, construct env0 n [] [] = Ok o -> made env0 o).
  { intros n o H. exists n, [], []. split; [constructor|]. split; [|exact H]. split; [constructor|exact I]. }
  split; [now apply (M (lit "Lowercase"))|]. split; [now apply (M (lit "CharTokenizer"))|].
  assert (F : Forall2 (stored_step env0 (fun n => In n imported))
    [JDict [(lit "op_kwargs", JDict []); (lit "op_name", JStr (lit "Lowercase"));
            (lit "comment", JList [JInt 1; JInt (-20); JNone; JBool true])];
     JStr (lit "{ ""op_name"": ""CharTokenizer""," ++ 10 :: lit """op_kwargs"": { } }")%list]
    [mkObj (lit "Lowercase") [] Lowercase; mkObj (lit "CharTokenizer") [] CharTokenizer]).
  { constructor; [|constructor; [|constructor]].
    - apply (step_object _ _ _ (lit "Lowercase") []); [right; now left|now left|vm_compute; tauto|reflexivity].
    - apply (step_text _ _ _ [(lit "op_name", JStr (lit "CharTokenizer")); (lit "op_kwargs", JDict [])]).
      + apply loads_iff. vm_compute. reflexivity.
      + apply (step_object _ _ _ (lit "CharTokenizer") []); [now left|right; now left|vm_compute; tauto|reflexivity]. }
  assert (C : chained [mkObj (lit "Lowercase") [] Lowercase; mkObj (lit "CharTokenizer") [] CharTokenizer]).
  { intros [|[|k]] x y Hx Hy; try discriminate; try (destruct k; discriminate).
    injection Hx as <-. injection Hy as <-. reflexivity. }
  split; [exact F|]. split; [exact C|].
  refine (proj1 (pipe_written env0 imported _ _ _ _ _ pipe_file_says _ _ F) C); [now left|right; now left].
Qed.

Local Close Scope string_scope.

(** texts that are not JSON *)
Fixpoint floatless (s : str) : bool :=
  match s with
  | [] => true
  | d :: t =>
      negb (d =? 78) && negb (d =? 73) &&
      match t with
      | c :: _ => negb ((48 <=? d) && (d <=? 57) && ((c =? 46) || (c =? 101) || (c =? 69)))
      | [] => true
      end && floatless t
  end.
Lemma floatless_ok s : floatless s = true -> no_floats s.
Proof.
  induction s as [|d t IH]; intros H.
  { split; [intros []|]. split; [intros []|]. intros [|x a] y c b E; discriminate. }
  cbn [floatless] in H. rewrite !andb_true_iff, !negb_true_iff, !Z.eqb_neq in H. destruct H as [[[H1 H2] H3] H4].
  destruct (IH H4) as (I1 & I2 & I3). split; [intros [->|X]; auto|]. split; [intros [->|X]; auto|].
  intros [|x a] y c b E Y X; injection E as -> E; [|exact (I3 a y c b E Y X)]. subst t.
  rewrite negb_true_iff, <- not_true_iff_false in H3. apply H3.
  rewrite !andb_true_iff, !orb_true_iff, !Z.eqb_eq, !Z.leb_le. cbn in X. intuition auto.
Qed.

Local Open Scope string_scope.
Example not_texts : Forall (fun s => no_floats s /\ forall v, ~ json_text v s)
  [lit "{""op_name"": ""Lowercase"",}"; lit "[1, 2"; lit "01"; lit "'a'"; lit "nul"; lit "{} {}"; lit ""; lit """\x41""";
   (lit """a" ++ 10 :: lit """")%list; lit "{""op_kwargs"": {} ""op_name"": ""Lowercase""}"].
Proof.
  assert (N : forall s, floatless s = true -> loads s = Err ValueErr -> no_floats s /\ forall v, ~ json_text v s).
  { intros s F H. split; [now apply floatless_ok|]. intros v J. apply loads_iff in J. congruence. }
  repeat (constructor; [apply N; reflexivity|]). constructor.
Qed.

(** a text that stops a pipe: the second step is an unknown operator *)
Example bad_file : exists good ops bad rest,
  json_text (JDict [(lit "steps", JList (good ++ bad :: rest)%list); (lit "checkpoints", JDict [])])
    (lit "{""steps"": [{""op_name"": ""Lowercase"", ""op_kwargs"": {}}, {""op_name"": ""Lower"", ""op_kwargs"": {}}, 5], ""checkpoints"": {}}") /\
  Forall2 (stored_step env0 (fun n => In n imported)) good ops /\ chained ops /\
  bad_step env0 (fun n => In n imported) bad KeyErr.
Proof.
  exists [JDict [(lit "op_name", JStr (lit "Lowercase")); (lit "op_kwargs", JDict [])]],
    [mkObj (lit "Lowercase") [] Lowercase], (JDict [(lit "op_name", JStr (lit "Lower")); (lit "op_kwargs", JDict [])]), [JInt 5].
  split; [apply loads_iff; vm_compute; reflexivity|]. split; [|split].
  - constructor; [|constructor].
    apply (step_object _ _ _ (lit "Lowercase") []); [now left|right; now left|vm_compute; tauto|reflexivity].
  - intros [|k] x y Hx Hy; [discriminate|destruct k; discriminate].
  - apply bad_object. eapply refused_unknown; [now left|right; now left|].
    intros H. apply memb_In in H. vm_compute in H. discriminate.
Qed.

(** labels written by hand: other order, an unknown member, escapes *)
Example label_file : json_text
    (JDict [(lit "note", JStr (lit "v2")); (lit "not_entity_index", JInt 0);
            (lit "entity2index", positions [(lit "city", 1)]); (lit "intent2index", positions [(lit "book", 0)])])
    (lit "{""note"":""v2"",""not_entity_index"":0,""entity2index"":{""" ++ esc "0063" ++ lit "ity"":1},""intent2index"":{""book"":0}}")%list /\
  ordinal_deserialize
    (lit "{""note"":""v2"",""not_entity_index"":0,""entity2index"":{""" ++ esc "0063" ++ lit "ity"":1},""intent2index"":{""book"":0}}")%list
  = make_ordinal [(lit "book", 0)] [(lit "city", 1)] 0.
Proof. split; [apply loads_iff; vm_compute; reflexivity|vm_compute; reflexivity]. Qed.
