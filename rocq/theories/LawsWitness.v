(** Concrete pipes that do the same, and some that do not (C76). *)

From Coq Require Import String.
From Verif Require Import Py Edit Labels SpecSeg SpecRuns SpecWords SpecOps SpecBert Ops Json Elements Pipe SpecLaws LawsProofs LawsText LawsCommute LawsMaps LawsList Concrete OpsWitness BertWitness.
From Coq Require Import List Lia.
Local Open Scope Z_scope.

Definition pipe_of (ops : list op) : pipe := mkPipe (map (fun o => mkObj [] [] o) ops) [].
Lemma pipe_of_made ops : made_of ops (pipe_of ops).
Proof. unfold made_of, pipe_of. cbn [steps]. rewrite map_map. apply map_id. Qed.

(** What comes out, with labels for the way there or the way back. *)
Definition there (ops : list op) (x : pseq) (l : list Z) : res (pseq * res (list Z)) :=
  match transform_sequence env0 (pipe_of ops) x with Ok (y, als, _) => Ok (y, align_all als l) | Err e => Err e end.
Definition back (ops : list op) (x : pseq) (l : list Z) : res (pseq * res (list Z)) :=
  match transform_sequence env0 (pipe_of ops) x with Ok (y, als, _) => Ok (y, align_inverse_all env0 als l) | Err e => Err e end.

Lemma differ_there ops1 ops2 x l : there ops1 x l <> there ops2 x l -> ~ interchangeable env0 ops1 ops2 x.
Proof.
  intros N H. destruct (H _ _ (pipe_of_made ops1) (pipe_of_made ops2)) as (y & a1 & c1 & a2 & c2 & T1 & T2 & Q).
  apply N. unfold there. rewrite T1, T2. now rewrite (proj1 (Q l)).
Qed.
Lemma differ_back ops1 ops2 x l : back ops1 x l <> back ops2 x l -> ~ interchangeable env0 ops1 ops2 x.
Proof.
  intros N H. destruct (H _ _ (pipe_of_made ops1) (pipe_of_made ops2)) as (y & a1 & c1 & a2 & c2 & T1 & T2 & Q).
  apply N. unfold back. rewrite T1, T2. now rewrite (proj2 (Q l)).
Qed.

Lemma env0_ascii_digits : ascii_digits env0.
Proof.
  assert (H : forallb (fun n => Bool.eqb (is_digit env0 (Z.of_nat n)) (ascii_digit (Z.of_nat n))) (seq 0 128) = true) by (vm_compute; reflexivity).
  intros c HC. rewrite forallb_forall in H. specialize (H (Z.to_nat c)).
  rewrite Z2Nat.id in H by lia. apply Bool.eqb_prop, H. apply in_seq. lia.
Qed.
Lemma env0_blank : is_pcat env0 32 = false.
Proof. reflexivity. Qed.

(** The hypotheses of the laws hold together. *)
Example ex_hypotheses : python env0 /\ letters env0 /\ ascii_digits env0 /\ is_pcat env0 32 = false.
Proof. split; [exact env0_python|]. split; [exact env0_letters|]. split; [exact env0_ascii_digits|exact env0_blank]. Qed.

Definition mixed : str := lit "  Ab, " ++ [20013] ++ lit " 12 3.5 ".

Example ex_whitespace : forall o, In o [WhiteSpaceTokenizer; EngTokenizer; ZhCharTokenizer] ->
  there [MergeWhiteSpaceCharacters; StripWhiteSpaceCharacters; o] (SStr mixed) [0;0;1;1;2;0;3;0;4;4;0;5;5;5;6] =
  there [o] (SStr mixed) [0;0;1;1;2;0;3;0;4;4;0;5;5;5;6].
Proof. intros o [<-|[<-|[<-|[]]]]; vm_compute; reflexivity. Qed.
Example ex_spacing :
  there [AddWhitespaceAroundCJK; AddWhitespaceAroundPunctuation; WhiteSpaceTokenizer] (SStr mixed) [0;0;1;1;2;0;3;0;4;4;0;5;5;5;6] =
  Ok (SLst (map ETok [lit "Ab"; lit ","; [20013]; lit "12"; lit "3"; lit "."; lit "5"]), Ok [1; 2; 3; 4; 5; 5; 5]) /\
  back [AddWhitespaceAroundCJK; AddWhitespaceAroundPunctuation; WhiteSpaceTokenizer] (SStr mixed) [1; 2; 3; 4; 5; 6; 7] =
  back [ZhCharTokenizer] (SStr mixed) [1; 2; 3; 4; 5; 6; 7].
Proof. split; vm_compute; reflexivity. Qed.
Example ex_numbers :
  there [FloatToken; IntToken] (SStr mixed) [0;0;1;1;2;0;3;0;4;4;0;5;5;5;6] =
  Ok (SStr (lit "  Ab, " ++ [20013] ++ lit " _int_ _float_ "), Ok [0;0;1;1;2;0;3;0;4;4;4;4;4;0;5;5;5;5;5;5;5;6]) /\
  there [IntToken; FloatToken] (SStr mixed) [0;0;1;1;2;0;3;0;4;4;0;5;5;5;6] =
  there [FloatToken; IntToken] (SStr mixed) [0;0;1;1;2;0;3;0;4;4;0;5;5;5;6].
Proof. split; vm_compute; reflexivity. Qed.
Example ex_merge_strip :
  there [StripWhiteSpaceCharacters; MergeWhiteSpaceCharacters] (SStr (lit "  a   b ")) [1;2;3;4;5;5;6;7] = Ok (SStr (lit "a b"), Ok [3; 5; 6]) /\
  back [StripWhiteSpaceCharacters; MergeWhiteSpaceCharacters] (SStr (lit "  a   b ")) [1;2;3] = Ok (SStr (lit "a b"), Ok [0;0;1;2;2;2;3;0]).
Proof. split; vm_compute; reflexivity. Qed.
Example ex_lower : In FloatToken lower_friends /\ In StripWhiteSpaceCharacters lower_friends /\
  there [Lowercase; FloatToken] (SStr mixed) [0;0;1;1;2;0;3;0;4;4;0;5;5;5;6] =
  Ok (SStr (lit "  ab, " ++ [20013] ++ lit " 12 _float_ "), Ok [0;0;1;1;2;0;3;0;4;4;0;5;5;5;5;5;5;5;6]).
Proof. split; [cbn; tauto|]. split; [cbn; tauto|]. vm_compute. reflexivity. Qed.

Definition small_dict : list (str * Z) := [(lit "unk", 0); (lit "pad", 1); (lit "a", 2)].
Example ex_dict : is_dict small_dict /\ In (lit "unk") (map fst small_dict) /\
  index_of small_dict (lit "unk") (ETok (lit "pad")) (EIdx 1) /\ index_of small_dict (lit "unk") (ETok (lit "zz")) (EIdx 0) /\
  there [Pad 3 (ETok (lit "pad")); Token2Index small_dict (lit "unk")] (SLst [ETok (lit "a"); ETok (lit "b")]) [5; 6] =
  Ok (SLst [EIdx 2; EIdx 0; EIdx 1], Ok [5; 6; 0]).
Proof.
  split; [|split; [now left|split; [|split]]].
  - unfold is_dict. cbn. repeat constructor; cbn; intuition discriminate.
  - exists 1. split; [reflexivity|]. left. right. now left.
  - exists 0. split; [reflexivity|]. right. split; [|now left]. cbn. intuition discriminate.
  - vm_compute. reflexivity.
Qed.

Definition words2 : list str := [lit "ab"; lit "c"].
Lemma lit_ab_absent (a b : str) : lit "bac" <> a ++ lit "ab" ++ b.
Proof. intros H. destruct a as [|x [|y [|z a]]]; cbn in H; try discriminate. destruct a; discriminate. Qed.
Example ex_custom : (exists o, make_custom (Some words2) false = Ok o) /\
  (forall w a b, In w words2 -> lit "bac" = a ++ w ++ b -> (length w <= 1)%nat).
Proof.
  split.
  - unfold make_custom. pose proof (TokProofs.make_trie_spec (Some words2)) as H. cbn [words2] in H. fold words2 in H.
    destruct H as [(_ & t & -> & _)|(N & _)]; [eexists; reflexivity|]. exfalso. apply N.
    vm_compute. repeat constructor; cbn; intuition discriminate.
  - intros w a b [<-|[<-|[]]] H; [|cbn; lia]. now apply lit_ab_absent in H.
Qed.

(** ** What does not hold *)

(** Merging before or after spaces are put around characters makes a difference. *)
Theorem spacer_merge_refuted : exists E s, python E /\
  ~ interchangeable E [AddWhitespaceAroundCJK; MergeWhiteSpaceCharacters] [MergeWhiteSpaceCharacters; AddWhitespaceAroundCJK] (SStr s).
Proof.
  exists env0, (lit " " ++ [20013]). split; [exact env0_python|]. apply (differ_there _ _ _ [0; 0]). vm_compute. discriminate.
Qed.

(** The two operators for whole numbers: the first one wins. *)
Theorem numbers_order_refuted : exists E s, python E /\ ascii_digits E /\
  ~ interchangeable E [IntTokenWithSpace; NumTokenWithSpace] [NumTokenWithSpace; IntTokenWithSpace] (SStr s).
Proof.
  exists env0, (lit "1"). split; [exact env0_python|]. split; [exact env0_ascii_digits|]. apply (differ_there _ _ _ [0]). vm_compute. discriminate.
Qed.

(** Putting spaces around a character twice puts two spaces around it. *)
Theorem spacer_twice_refuted : exists E s, python E /\
  ~ interchangeable E [AddWhitespaceAroundCJK; AddWhitespaceAroundCJK] [AddWhitespaceAroundCJK] (SStr s).
Proof.
  exists env0, [20013]. split; [exact env0_python|]. apply (differ_there _ _ _ [0]). vm_compute. discriminate.
Qed.

(** Padding to a larger length after padding to a smaller one loses tokens. *)
Theorem pad_pad_refuted : exists E l t, python E /\ ~ interchangeable E [Pad 1 t; Pad 2 t] [Pad 2 t] (SLst l).
Proof.
  exists env0, [ETok (lit "a"); ETok (lit "b")], (ETok (lit "p")). split; [exact env0_python|].
  apply (differ_there _ _ _ [0; 0]). vm_compute. discriminate.
Qed.

(** On the way back the operator for words drops the labels of the two spaces, the other one
    looks for an entity among the three labels. *)
Theorem wordn_back_refuted : exists E o s, python E /\ make_wordn (Some [[20013]]) false = Ok o /\
  same_forward E [o] [AddWhitespaceAroundCJK] (SStr s) /\ ~ interchangeable E [o] [AddWhitespaceAroundCJK] (SStr s).
Proof.
  destruct (make_wordn (Some [[20013]]) false) as [o|e] eqn:M; [|vm_compute in M; discriminate].
  exists env0, o, [20013]. split; [exact env0_python|]. split; [reflexivity|]. split.
  - apply (wordn_is_cjk env0 [[20013]] false o _ env0_python M). intros w a b [<-|[]] _. exists 20013. split; reflexivity.
  - vm_compute in M. injection M as <-. apply (differ_back _ _ _ [1; 0; 0]). vm_compute. discriminate.
Qed.
