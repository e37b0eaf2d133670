(** Concrete labels that meet the hypotheses of the theorems about the stored form, and
    the witnesses of the refuted claims. *)

From Coq Require Import String.
From Verif Require Import Py PyFacts Json SpecOps Elements SpecElements SpecOrdinal Pipe
  JsonAscii SpecJsonAscii JsonAsciiProofs.
From Coq Require Import List.
Local Open Scope Z_scope.

Ltac ordinal :=
  match goal with |- is_ordinal ?o =>
    exists (intent2index o), (entity2index o), (not_entity_index o);
    split; [|split; [|vm_compute; reflexivity]]; repeat constructor; cbn; intuition discriminate
  end.

(** a name with a quote and a line feed, a Chinese one, one outside of the 16 bit range
    and a lone surrogate before such a character *)
Definition o0 : ordinal :=
  mkOrdinal [([34; 10], 1); ([29256], 0)] [([128512], 0); ([55357; 128512; 127], 2)] 1.
Example o0_ok : is_ordinal o0 /\ names_are sound o0.
Proof.
  split.
  - ordinal.
  - assert (forall s, code_points s ->
      (forall n, (n < length s)%nat -> ~ (55296 <= nth n s 0 <= 56319 /\ 56320 <= nth (S n) s 0 <= 57343)) ->
      sound s) as S.
    { intros s C H. split; [exact C|]. intros l a b r -> P. apply (H (length l)).
      - rewrite app_length. cbn. lia.
      - rewrite !app_nth2 by lia. replace (length l - length l)%nat with O by lia.
        replace (S (length l) - length l)%nat with 1%nat by lia. exact P. }
    split; cbn [map fst intent2index entity2index o0]; repeat apply Forall_cons; try apply Forall_nil;
      (apply S; [repeat constructor; lia|]); intros [|[|[|n]]] Hn; cbn in Hn |- *; lia.
Qed.
Example o0_text : ordinal_serialize o0 =
  txt "{""intent2index"": {""\""\n"": 1, ""\u7248"": 0}, ""entity2index"": {""\ud83d\ude00"": 0, ""\ud83d\ud83d\ude00\u007f"": 2}, ""not_entity_index"": 1}".
Proof. vm_compute. reflexivity. Qed.
Example o0_back : ordinal_deserialize (ordinal_serialize o0) = Ok o0.
Proof. vm_compute. reflexivity. Qed.

(** A mapping with a gap is rejected when it is read. *)
Example gap_rejected :
  ordinal_deserialize (dumps_ascii (stored [([97], 0); ([98], 2)] [] 0)) = Err ValueErr /\
  ordinal_deserialize (dumps_ascii (stored [([97], 0)] [([98], 0)] 0)) = Err ValueErr.
Proof. vm_compute. split; reflexivity. Qed.

(** The two halves of a surrogate pair as separate characters. *)
Definition o_pair : ordinal := mkOrdinal [([55357; 56832], 0)] [] 0.
Definition o_clash : ordinal := mkOrdinal [([55357; 56832], 0); ([128512], 1)] [] 0.

Lemma pair_changes_refuted : exists o o', is_ordinal o /\ names_are code_points o /\
  ordinal_deserialize (ordinal_serialize o) = Ok o' /\ o' <> o.
Proof.
  exists o_pair, (mkOrdinal [([128512], 0)] [] 0). split; [|split; [|split]].
  - ordinal.
  - split; repeat constructor; cbn; lia.
  - vm_compute. reflexivity.
  - discriminate.
Qed.

Lemma pair_fails_refuted : exists o, is_ordinal o /\ names_are code_points o /\
  ordinal_deserialize (ordinal_serialize o) = Err ValueErr.
Proof.
  exists o_clash. split; [|split].
  - ordinal.
  - split; repeat constructor; cbn; lia.
  - vm_compute. reflexivity.
Qed.

Lemma pair_collides_refuted : exists o1 o2, is_ordinal o1 /\ is_ordinal o2 /\
  names_are code_points o1 /\ names_are code_points o2 /\ o1 <> o2 /\
  ordinal_serialize o1 = ordinal_serialize o2.
Proof.
  exists o_pair, (mkOrdinal [([128512], 0)] [] 0). repeat match goal with |- _ /\ _ => split end.
  - ordinal.
  - ordinal.
  - split; repeat constructor; cbn; lia.
  - split; repeat constructor; cbn; lia.
  - discriminate.
  - vm_compute. reflexivity.
Qed.
