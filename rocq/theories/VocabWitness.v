(** Concrete cases for C105, and the claims that are false. *)

From Coq Require Import String.
From Verif Require Import Py PyFacts Edit SpecEdit Trie SpecWords Ops SpecOps Json Concrete OpsWitness Elements Pipe SpecPipe PipeWitness SpecVocab VocabProofs.
From Coq Require Import List ZArith Lia Permutation.
Import ListNotations.
Local Open Scope nat_scope.

Definition out_of (r : res (pseq * aligner)) : res pseq :=
  match r with Ok (y, _) => Ok y | Err e => Err e end.
Definition tokens (l : list string) : pseq := SLst (map ETok (map txt l)).

(** "cab" does not occur in "abcd", so it does not matter *)
Example agree_case : agree_on (txt "abcd") (map txt ["ab"]%string) (map txt ["cab"; "ab"; "dx"]%string) /\
  (exists o o', make_custom (Some (map txt ["ab"]%string)) false = Ok o /\
     make_custom (Some (map txt ["cab"; "ab"; "dx"]%string)) false = Ok o' /\ o <> o' /\
     out_of (transform_op env0 o (SStr (txt "abcd"))) = Ok (tokens ["ab"; "c"; "d"]%string) /\
     out_of (transform_op env0 o' (SStr (txt "abcd"))) = Ok (tokens ["ab"; "c"; "d"]%string)).
Proof.
  split.
  - intros w N (a & b & Q).
    assert (X : ~ In w (map txt ["cab"; "dx"]%string)).
    { change (txt "abcd") with [97; 98; 99; 100]%Z in Q. change (map txt ["cab"; "dx"]%string) with [[99; 97; 98]; [100; 120]]%Z.
      intros [<-|[<-|[]]]; do 5 (destruct a as [|? a]; [discriminate Q|try discriminate Q; cbn [app] in Q; injection Q as _ Q]). }
    cbn [map In] in *. tauto.
  - eexists. eexists. split; [vm_compute; reflexivity|]. split; [vm_compute; reflexivity|]. split; [discriminate|].
    split; vm_compute; reflexivity.
Qed.

Example pieces_case : agree_pieces (txt "abc") (map txt ["a"; "##bc"]%string) (map txt ["a"; "##bc"; "bc"; "##a"]%string) /\
  out_of (transform_op env0 (SpanSubwords (map txt ["a"; "##bc"; "bc"; "##a"]%string) (ETok (txt "[UNK]")) 100) (tokens ["abc"]%string)) =
    Ok (tokens ["a"; "##bc"]%string).
Proof.
  split; [|vm_compute; reflexivity]. split.
  - intros w b N Q. cbn [map In].
    assert (X : w <> txt "bc" /\ w <> txt "##a") by (split; intros ->; discriminate). intuition congruence.
  - intros a w b NA N Q. cbn [map In].
    assert (X : txt "##" ++ w <> txt "bc" /\ txt "##" ++ w <> txt "##a").
    { split; [discriminate|]. intros X. apply (app_inv_head (txt "##") w (txt "a")) in X. subst w.
      change (txt "abc") with [97; 98; 99]%Z in Q. change (txt "a") with [97]%Z in Q.
      destruct a as [|? a]; [congruence|]. cbn [app] in Q. injection Q as _ Q.
      do 3 (destruct a as [|? a]; [discriminate Q|try discriminate Q; cbn [app] in Q; injection Q as _ Q]). }
    intuition congruence.
Qed.

Definition small_dict : list (str * Z) := combine (map txt ["unk"; "a"]%string) [0; 1]%Z.
Definition big_dict : list (str * Z) := combine (map txt ["unk"; "a"; "b"]%string) [0; 1; 2]%Z.

Example dict_case : NoDup (map fst small_dict) /\ NoDup (map fst big_dict) /\ incl small_dict big_dict /\
  same_entry small_dict big_dict (txt "a") /\ ~ same_entry small_dict big_dict (txt "b") /\
  make_token2index small_dict (txt "unk") = Ok (Token2Index small_dict (txt "unk")) /\
  make_token2index big_dict (txt "unk") = Ok (Token2Index big_dict (txt "unk")) /\
  out_of (transform_op env0 (Token2Index big_dict (txt "unk")) (tokens ["a"; "c"]%string)) = Ok (SLst [EIdx 1; EIdx 0]) /\
  out_of (transform_op env0 (Token2Index small_dict (txt "unk")) (tokens ["b"]%string)) = Ok (SLst [EIdx 0]) /\
  out_of (transform_op env0 (Token2Index big_dict (txt "unk")) (tokens ["b"]%string)) = Ok (SLst [EIdx 2]).
Proof.
  split; [apply (NoDup_nth _ []); cbn; intros i j Hi Hj; repeat (destruct i as [|i]; [|try lia]); repeat (destruct j as [|j]; [|try lia]); (discriminate || reflexivity)|].
  split; [apply (NoDup_nth _ []); cbn; intros i j Hi Hj; repeat (destruct i as [|i]; [|try lia]); repeat (destruct j as [|j]; [|try lia]); (discriminate || reflexivity)|].
  split; [intros x [<-|[<-|[]]]; cbn; tauto|].
  split; [intros i; unfold entry; vm_compute; split; intros H; intuition (discriminate || congruence)|].
  split.
  - intros H. specialize (H 2%Z). unfold entry in H. vm_compute in H. destruct H as [_ H]. destruct H as [H|[H|[]]]; [auto|discriminate|discriminate].
  - repeat split; vm_compute; reflexivity.
Qed.

(** ** Claims that are false *)

(** one more word never gives more tokens *)
Theorem fewer_tokens_refuted : exists E ws w o o' s l l' a a', ord_ok (ord_c E) /\
  make_custom (Some ws) false = Ok o /\ make_custom (Some (ws ++ [w])) false = Ok o' /\
  transform_op E o (SStr s) = Ok (SLst l, a) /\ transform_op E o' (SStr s) = Ok (SLst l', a') /\
  length l < length l'.
Proof.
  exists env0, [txt "bcd"], (txt "ab"). do 2 eexists. exists (txt "abcd"). do 4 eexists.
  split; [exact (proj1 env0_python)|]. split; [vm_compute; reflexivity|]. split; [vm_compute; reflexivity|].
  split; [vm_compute; reflexivity|]. split; [vm_compute; reflexivity|]. cbn. lia.
Qed.

(** one more word never makes the first token shorter, also with return_shortest *)
Theorem shortest_refuted : exists E ws w o o' s v v' l l' a a', ord_ok (ord_c E) /\
  make_custom (Some ws) true = Ok o /\ make_custom (Some (ws ++ [w])) true = Ok o' /\
  transform_op E o (SStr s) = Ok (SLst (ETok v :: l), a) /\
  transform_op E o' (SStr s) = Ok (SLst (ETok v' :: l'), a') /\ length v' < length v.
Proof.
  exists env0, [txt "abc"], (txt "ab"). do 2 eexists. exists (txt "abc"). do 6 eexists.
  split; [exact (proj1 env0_python)|]. split; [vm_compute; reflexivity|]. split; [vm_compute; reflexivity|].
  split; [vm_compute; reflexivity|]. split; [vm_compute; reflexivity|]. cbn. lia.
Qed.

(** a word that is spelled with the vocabulary is still spelled after one more token joins it *)
Theorem still_spelled_refuted : exists E v w t unk m a a' l, ord_ok (ord_e E) /\ ~ In unk l /\
  transform_op E (SpanSubwords v unk m) (SLst [ETok t]) = Ok (SLst l, a) /\
  transform_op E (SpanSubwords (v ++ [w]) unk m) (SLst [ETok t]) = Ok (SLst [unk], a').
Proof.
  exists env0, (map txt ["a"; "##bc"]%string), (txt "ab"), (txt "abc"), (ETok (txt "[UNK]")), 100%Z. do 2 eexists.
  exists (map ETok (map txt ["a"; "##bc"]%string)).
  split; [exact (proj1 (proj2 env0_python))|]. split; [cbn; intuition discriminate|]. split; vm_compute; reflexivity.
Qed.

(** with Token2IndexwithHash one more token never changes the index of the others *)
Theorem hash_kept_refuted : exists E d e t i i' a a', ord_ok (ord_e E) /\ NoDup (map fst (d ++ [e])) /\ fst e <> t /\
  make_hash d = Ok (Token2IndexwithHash d) /\ make_hash (d ++ [e]) = Ok (Token2IndexwithHash (d ++ [e])) /\
  transform_op E (Token2IndexwithHash d) (SLst [ETok t]) = Ok (SLst [EIdx i], a) /\
  transform_op E (Token2IndexwithHash (d ++ [e])) (SLst [ETok t]) = Ok (SLst [EIdx i'], a') /\ i <> i'.
Proof.
  exists env0, small_dict, (txt "b", 2%Z), (txt "c"). do 4 eexists.
  split; [exact (proj1 (proj2 env0_python))|].
  split; [apply dict_case|]. split; [discriminate|]. split; [vm_compute; reflexivity|]. split; [vm_compute; reflexivity|].
  split; [vm_compute; reflexivity|]. split; [vm_compute; reflexivity|]. discriminate.
Qed.
