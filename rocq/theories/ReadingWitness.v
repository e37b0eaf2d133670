(** Concrete cases for C106, and the claims that are false. *)

From Coq Require Import String ZArith Lia.
From Verif Require Import Py PyFacts Edit Labels SpecEdit SpecLabels Ops SpecOps Json Concrete OpsWitness Elements SpecElements ElementsWitness
  Pipe SpecPipe PipeWitness SpecSeg OpProofs SpecScan UserPipe SpecUserPipe UserOps SpecUserOps SpecReading ReadingProofs ReadingPipe ReadingUser.
From Coq Require Import List.
Import ListNotations.
Local Open Scope nat_scope.

Definition forth (o : op) (x : pseq) (l : list Z) : res (list Z) := '(_, a) <- transform_op env0 o x ;; align a l.
Definition back (o : op) (x : pseq) (l : list Z) : res (list Z) := '(_, a) <- transform_op env0 o x ;; align_inverse env0 a l.
Lemma forth_by o x l l' : forth o x l = Ok l' -> exists y a, transform_op env0 o x = Ok (y, a) /\ align a l = Ok l'.
Proof. unfold forth. destruct (transform_op env0 o x) as [[y a]|]; [|discriminate]. intros H. exists y, a. auto. Qed.

(** "a12 b": 1 before 2 before 3, and the number takes the label of its first digit *)
Example forth_case : forth IntToken (SStr (txt "a12b")) [1; 2; 3; 3]%Z = Ok [1; 2; 2; 2; 2; 2; 3]%Z /\
  all_before 1 2 [1; 2; 3; 3]%Z /\ all_before 2 3 [1; 2; 3; 3]%Z /\
  reading [1; 2; 3; 3]%Z = [1; 2; 3]%Z /\ reading [0; 1; 1; 0; 1; 2; 0; 1]%Z = [1; 2; 1]%Z.
Proof.
  split; [vm_compute; reflexivity|].
  split; [intros [|[|[|[|i]]]] [|[|[|[|j]]]]; cbn; try discriminate; try lia; destruct i; discriminate|].
  split; [intros [|[|[|[|i]]]] [|[|[|[|j]]]]; cbn; try discriminate; try lia; destruct i; discriminate|].
  split; reflexivity.
Qed.
Example back_case : back WhiteSpaceTokenizer (SStr (txt "ab cd e")) [3; 1; 2]%Z = Ok [3; 3; 0; 1; 1; 0; 2]%Z.
Proof. vm_compute. reflexivity. Qed.

Example propagate_case : (forall ls k new, except_ne ls k = Ok new -> in_order ls new) /\ sized except_ne /\
  group_in 0 4 [mkR 1 3 [7; 7; 7]%Z] /\
  propagate [1; 2; 0; 3]%Z [mkR 1 3 [7; 7; 7]%Z] except_ne = Ok [1; 2; 2; 2; 3]%Z.
Proof.
  split; [exact order_except|]. split; [exact LabelProofs.sized_except|]. split; [cbn; lia|]. vm_compute. reflexivity.
Qed.

(** What [in_order] excludes. *)
Example swapped_case : ~ in_order [1; 2]%Z [2; 1]%Z /\ ~ in_order [1; 2]%Z [1; 2; 1]%Z /\ ~ in_order [1; 2]%Z [3]%Z /\
  ~ left_out [1; 2]%Z [2; 1]%Z.
Proof.
  assert (N : forall l, (l = [2; 1] \/ l = [1; 2; 1])%Z -> ~ in_order [1; 2]%Z l).
  { intros l HL (f & F1 & F2). destruct HL as [-> | ->].
    - pose proof (F2 0 2%Z eq_refl ltac:(discriminate)) as A. pose proof (F2 1 1%Z eq_refl ltac:(discriminate)) as B.
      specialize (F1 0 1 ltac:(lia)). destruct (f 0) as [|[|[|n]]], (f 1) as [|[|[|m]]]; try discriminate; lia.
    - pose proof (F2 1 2%Z eq_refl ltac:(discriminate)) as A. pose proof (F2 2 1%Z eq_refl ltac:(discriminate)) as B.
      specialize (F1 1 2 ltac:(lia)). destruct (f 1) as [|[|[|n]]], (f 2) as [|[|[|m]]]; try discriminate; lia. }
  split; [auto|]. split; [auto|]. split.
  - intros (f & _ & F2). specialize (F2 0 3%Z eq_refl ltac:(discriminate)). destruct (f 0) as [|[|[|n]]]; discriminate.
  - intros H. inversion H; subst. match goal with H : left_out [2%Z] _ |- _ => inversion H; subst end.
    + match goal with H : left_out [] [1%Z] |- _ => inversion H end.
    + match goal with H : left_out [] _ |- _ => inversion H end.
Qed.

(** The pipe of [PipeWitness.p1] on a datum with two entities. *)
Example datum_case : python env0 /\ regexes env0 /\ reachable env0 p1 /\ is_datum d0 /\
  Forall (inside (d_utterance d0)) (d_entities d0) /\ names d0 = [1; 2]%Z /\
  exists y ints ls als coll, transform env0 p1 d0 = Ok (y, ints, ls, als, coll) /\ reading ls = [1; 2]%Z.
Proof.
  split; [exact env0_python|]. split; [exact env0_regexes|]. split; [exact p1_reachable|]. split; [exact d0_is|].
  split; [exact d0_inside|]. split; [reflexivity|].
  assert (Q : match transform env0 p1 d0 with Ok (_, _, ls, _, _) => reading ls = [1; 2]%Z | Err _ => False end) by (vm_compute; reflexivity).
  destruct (transform env0 p1 d0) as [[[[[y ints] ls] als] coll]|]; [|destruct Q]. exists y, ints, ls, als, coll. auto.
Qed.

Example back_datum_case : exists y als coll l', transform_sequence env0 p1 (SStr (txt "A  b")) = Ok (y, als, coll) /\
  align_inverse_all env0 als [2; 0; 1]%Z = Ok l' /\ l' = [2; 0; 0; 1]%Z /\
  (forall s t z, SpecElements.run l' s t z -> i32 t /\ i32 z) /\
  exists d, pack_to_datum (txt "A  b") [3]%Z l' = Ok d /\ names d = [2; 1]%Z.
Proof.
  assert (Q : match transform_sequence env0 p1 (SStr (txt "A  b")) with
    Ok (_, als, _) => align_inverse_all env0 als [2; 0; 1]%Z = Ok [2; 0; 0; 1]%Z | Err _ => False end) by (vm_compute; reflexivity).
  destruct (transform_sequence env0 p1 (SStr (txt "A  b"))) as [[[y als] coll]|]; [|destruct Q].
  exists y, als, coll, [2; 0; 0; 1]%Z. split; [reflexivity|]. split; [exact Q|]. split; [reflexivity|]. split.
  - intros s t z (H1 & H2 & H3 & H4 & _). cbn [length] in H2. specialize (H4 s ltac:(lia)). unfold i32.
    assert (B : (s = 0 \/ s = 1 \/ s = 2 \/ s = 3)%Z) by lia. destruct B as [-> |[-> |[-> | ->]]]; vm_compute in H4; subst z; change (2 ^ 31)%Z with 2147483648%Z; lia.
  - eexists. split; [vm_compute; reflexivity|reflexivity].
Qed.

(** ** Claims that are false *)

(** no name is lost *)
Theorem all_names_refuted : exists E o x y a l l', python E /\ built E o /\ transform_op E o x = Ok (y, a) /\
  align a l = Ok l' /\ reading l = [1; 2]%Z /\ reading l' = [1]%Z.
Proof.
  destruct (forth_by IntToken (SStr (txt "12")) [1; 2]%Z [1; 1; 1; 1; 1]%Z) as (y & a & H1 & H2); [vm_compute; reflexivity|].
  exists env0, IntToken, (SStr (txt "12")), y, a, [1; 2]%Z, [1; 1; 1; 1; 1]%Z.
  split; [exact env0_python|]. split; [constructor; cbn; tauto|]. auto.
Qed.

(** an entity stays in one piece *)
Theorem one_piece_refuted : exists E o x y a l l', python E /\ built E o /\ transform_op E o x = Ok (y, a) /\
  align a l = Ok l' /\ l = [1; 1; 1]%Z /\ l' = [1; 0; 1]%Z.
Proof.
  destruct (forth_by PunctuationExceptEndpointToWhitespace (SStr (txt "a-b")) [1; 1; 1]%Z [1; 0; 1]%Z) as (y & a & H1 & H2); [vm_compute; reflexivity|].
  exists env0, PunctuationExceptEndpointToWhitespace, (SStr (txt "a-b")), y, a, [1; 1; 1]%Z, [1; 0; 1]%Z.
  split; [exact env0_python|]. split; [constructor; cbn; tauto|]. auto.
Qed.

(** names that were apart stay apart *)
Theorem apart_refuted : exists E o x y a l l', python E /\ built E o /\ transform_op E o x = Ok (y, a) /\
  align a l = Ok l' /\ reading l = [1; 2; 3]%Z /\ reading l' = [1; 3]%Z.
Proof.
  destruct (forth_by WhiteSpaceTokenizer (SStr (txt "a b")) [1; 2; 3]%Z [1; 3]%Z) as (y & a & H1 & H2); [vm_compute; reflexivity|].
  exists env0, WhiteSpaceTokenizer, (SStr (txt "a b")), y, a, [1; 2; 3]%Z, [1; 3]%Z.
  split; [exact env0_python|]. split; [constructor; cbn; tauto|]. auto.
Qed.

(** the order also holds between entities and characters outside entities *)
Theorem zero_before_refuted : exists E o x y a l l', python E /\ built E o /\ transform_op E o x = Ok (y, a) /\
  align a l = Ok l' /\ all_before 1 0 l /\ ~ all_before 1 0 l'.
Proof.
  destruct (forth_by (AddSosEos (ETok (txt "<sos>")) (ETok (txt "<eos>"))) (SLst [ETok (txt "a")]) [1]%Z [0; 1; 0]%Z) as (y & a & H1 & H2); [vm_compute; reflexivity|].
  exists env0, (AddSosEos (ETok (txt "<sos>")) (ETok (txt "<eos>"))), (SLst [ETok (txt "a")]), y, a, [1]%Z, [0; 1; 0]%Z.
  split; [exact env0_python|]. split; [apply built_soseos|]. split; [exact H1|]. split; [exact H2|]. split.
  - intros [|i] [|j]; cbn; try discriminate; destruct j; discriminate.
  - intros H. specialize (H 1 0 eq_refl eq_refl). lia.
Qed.

(** the names of a datum are met in the order of its entities, also with negative positions *)
Theorem outside_refuted : exists E p d y ints ls als coll, python E /\ regexes E /\ reachable E p /\ is_datum d /\
  transform E p d = Ok (y, ints, ls, als, coll) /\ names d = [1; 2]%Z /\ reading ls = [2; 1]%Z.
Proof.
  set (d := mkDatum (txt "ab") [] [ent 1 "" (-1) 0 []; ent 2 "a" 0 1 []]).
  assert (Q : match transform env0 p1 d with Ok (_, _, ls, _, _) => reading ls = [2; 1]%Z | Err _ => False end) by (vm_compute; reflexivity).
  assert (D : is_datum d) by (apply (datum_by (txt "ab") [] [ent 1 "" (-1) 0 []; ent 2 "a" 0 1 []]); vm_compute; reflexivity).
  assert (N : names d = [1; 2]%Z) by reflexivity. clearbody d.
  destruct (transform env0 p1 d) as [[[[[y ints] ls] als] coll]|] eqn:HT; [|destruct Q]. exists env0, p1, d, y, ints, ls, als, coll.
  split; [exact env0_python|]. split; [exact env0_regexes|]. split; [exact p1_reachable|]. auto.
Qed.

(** ** Operators written by users *)

(** everything from the first place on is one match *)
Definition rest_of (s : str) (p : nat) : option (nat * nat) := if p <? length s then Some (p, length s) else None.
Lemma rest_in_bounds : in_bounds rest_of.
Proof. intros s p i e L H. unfold rest_of in H. destruct (Nat.ltb_spec p (length s)); [injection H as <- <-; lia|discriminate]. Qed.
Definition backwards : transducer := fun ls k => Ok (firstn k (rev ls ++ repeat 0%Z k)).
Lemma backwards_sized : sized backwards.
Proof.
  intros ls k out [= <-]. rewrite firstn_length, app_length, repeat_length. lia.
Qed.
Definition user_forth (o : uop pseq seqtype) (s : str) (l : list Z) : res (list Z) :=
  '(_, a) <- utransform has_type o (SStr s) ;; ualign a l.

Example user_case : in_bounds rest_of /\ (forall ls k new, except_ne ls k = Ok new -> in_order ls new) /\ sized except_ne /\
  user_forth (recognizer env0 rest_of (txt "xyz") except_ne except_ne) (txt "ab") [0; 1]%Z = Ok [1; 1; 1]%Z.
Proof. split; [exact rest_in_bounds|]. split; [exact order_except|]. split; [exact LabelProofs.sized_except|]. vm_compute. reflexivity. Qed.
Example user_tokenizer_case : found [txt "ab"; txt "d"] (txt "abcd") [(txt "ab", true); (txt "c", false); (txt "d", true)] /\
  drops except_ne except_ne by_zero [(txt "ab", true); (txt "c", false); (txt "d", true)] /\
  user_forth (tokenizer env0 (fun _ => Ok [txt "ab"; txt "d"]) except_ne except_ne) (txt "abcd") [1; 1; 2; 3]%Z = Ok [1; 3]%Z.
Proof.
  split.
  - apply (found_next (txt "ab") [txt "d"] [] (txt "cd") [(txt "c", false); (txt "d", true)]); [intros; cbn; lia|].
    apply (found_next (txt "d") [] (txt "c") [] []); [|apply (found_end [])].
    intros [|c g] r H; [discriminate H|cbn; lia].
  - split; [|vm_compute; reflexivity]. intros gap HI. split; [|split].
    + intros ls L. unfold except_ne. rewrite SegProofs.except_by_entity_mode. reflexivity.
    + unfold except_ne. rewrite SegProofs.except_by_entity_mode. reflexivity.
    + unfold by_zero. apply repeat_length.
Qed.

(** recognisers written by users keep the order, whatever their transducers are *)
Theorem user_refuted : exists E find token fwd bwd s y a l l', ord_ok (ord_c E) /\ in_bounds find /\ sized fwd /\ sized bwd /\
  gives (recognizer E find token fwd bwd) s y a /\ ualign a l = Ok l' /\ reading l = [1; 2]%Z /\ reading l' = [2; 1]%Z.
Proof.
  assert (Q : user_forth (recognizer env0 rest_of (txt "xy") backwards backwards) (txt "ab") [1; 2]%Z = Ok [2; 1]%Z) by (vm_compute; reflexivity).
  unfold user_forth in Q.
  destruct (utransform has_type (recognizer env0 rest_of (txt "xy") backwards backwards) (SStr (txt "ab"))) as [[y a]|] eqn:HT; [|discriminate].
  exists env0, rest_of, (txt "xy"), backwards, backwards, (txt "ab"), y, a, [1; 2]%Z, [2; 1]%Z.
  split; [exact (proj1 env0_python)|]. split; [exact rest_in_bounds|]. split; [exact backwards_sized|]. split; [exact backwards_sized|].
  split; [exact HT|]. auto.
Qed.
