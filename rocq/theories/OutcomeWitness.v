(** Concrete cases for C107, and the claims that are false. *)

From Coq Require Import String ZArith Lia.
From Verif Require Import Py PyFacts Edit Labels SpecEdit SpecLabels SpecSeg SpecRuns SpecWords SpecScan Ops SpecOps Json Concrete OpsWitness Elements
  Pipe SpecPipe PipeWitness OpProofs ListOpProofs WordProofs TrieProofs TokProofs SpecReadBack ReadBackProofs SpecSettle SpecOutcome OutcomeProofs OutcomeList.
From Coq Require Import List.
Import ListNotations.
Local Open Scope nat_scope.

Definition gives_out (o : op) (x : pseq) : res pseq := '(y, _) <- transform_op env0 o x ;; Ok y.
Lemma turns_by o x y : gives_out o x = Ok y -> turns env0 o x y.
Proof. unfold gives_out. destruct (transform_op env0 o x) as [[z a]|] eqn:Q; [|discriminate]. intros [= <-]. now exists a. Qed.

(** Outputs and what they come from: "1.5 a" has a number that [IntToken] leaves, "12" has none. *)
Example number_case : turns env0 IntToken (SStr (txt "1.5 12")) (SStr (txt "1.5 _int_")) /\
  no_number env0 (forallb (digit env0)) (txt "1.5 _int_") /\ ~ no_number env0 (forallb (digit env0)) (txt "a 12").
Proof.
  split; [apply turns_by; vm_compute; reflexivity|]. split.
  - intros r Hr. change (class_runs (fun c => point c || digit env0 c)%bool (txt "1.5 _int_")) with [txt "1.5"] in Hr. destruct Hr as [<-|[]]. reflexivity.
  - intros H. discriminate (H (txt "12")). left. reflexivity.
Qed.
Example letters_case : token_letters env0.
Proof. intros c H. cbn in H. repeat (destruct H as [<-|H]; [reflexivity|]). destruct H. Qed.

Example merge_case : single_blanks env0 (txt " a b") /\ ~ single_blanks env0 (txt "a  b") /\ ~ single_blanks env0 [97; 9]%Z.
Proof.
  split; [|split].
  - change (txt " a b") with [32; 97; 32; 98]%Z. intros [|[|[|[|i]]]] c; cbn [nth_error]; intros N C; [| | | |destruct i; discriminate]; injection N as <-;
      try discriminate C; (split; [reflexivity|intros d [= <-]; reflexivity]).
  - intros H. destruct (H 1 32%Z eq_refl eq_refl) as (_ & N). discriminate (N 32%Z eq_refl).
  - intros H. destruct (H 1 9%Z eq_refl eq_refl) as (N & _). discriminate.
Qed.
Example stopword_case : exists w, In w stopword_set /\ ~ without_words stopword_set (txt "a" ++ w) /\ without_words stopword_set (txt "abc").
Proof.
  exists (hd [] stopword_set). assert (I : In (hd [] stopword_set) stopword_set) by (left; reflexivity). split; [exact I|]. split.
  - intros H. apply (H _ I). exists (txt "a"), []. now rewrite app_nil_r.
  - intros w Hw (a & b & Q). destruct (stopwords_plain w Hw) as [N _].
    assert (F : forallb (fun w => match w with [] => true | c :: _ => negb ((97 <=? c) && (c <=? 99)) end)%Z stopword_set = true) by (vm_compute; reflexivity).
    rewrite forallb_forall in F. specialize (F w Hw). destruct w as [|c w]; [congruence|].
    assert (K : In c (txt "abc")) by (rewrite Q; apply in_or_app; right; now left).
    cbn in K. repeat (destruct K as [<-|K]; [discriminate F|]). destruct K.
Qed.
Example token_case : one_token (by_punct env0) (txt "ab") /\ one_token (by_punct env0) (txt "!") /\ ~ one_token (by_punct env0) (txt "a!") /\ ~ one_token (by_punct env0) [] /\
  In (EngTokenizer, by_punct env0) (kind_ops env0).
Proof.
  split; [left; split; [discriminate|intros c H; cbn in H; repeat (destruct H as [<-|H]; [reflexivity|]); destruct H]|].
  split; [right; eexists; split; reflexivity|]. split.
  - intros [(_ & H)|(c & Q & _)]; [|discriminate]. discriminate (H 33%Z). right. now left.
  - split; [|right; now left]. intros [(N & _)|(c & Q & _)]; [congruence|discriminate].
Qed.
Example index_case : exists d unk o, is_dict d /\ make_token2index d unk = Ok o /\ d <> [] /\
  turns env0 o (SLst [ETok (txt "b"); ETok (txt "c")]) (SLst [EIdx 0; EIdx 1]).
Proof.
  exists [(txt "a", 1%Z); (txt "b", 0%Z)], (txt "a"). eexists.
  split; [repeat constructor; cbn; intuition discriminate|]. split; [vm_compute; reflexivity|]. split; [discriminate|].
  apply turns_by. vm_compute. reflexivity.
Qed.

(** "中中" with blanks; one blank between two of them would be shared. *)
Example spacer_case : own_blanks cjk [32; 20013; 32; 32; 20013; 32]%Z /\ ~ own_blanks cjk [32; 20013; 32; 20013; 32]%Z /\ ~ own_blanks cjk [20013; 32]%Z /\
  turns env0 AddWhitespaceAroundCJK (SStr [20013; 20013]%Z) (SStr [32; 20013; 32; 32; 20013; 32]%Z) /\ is_pcat env0 32 = false.
Proof.
  split; [|split; [|split; [|split; [apply turns_by; vm_compute; reflexivity|reflexivity]]]].
  - intros [|[|[|[|[|[|i]]]]]] c; cbn [nth_error]; intros N C; [| | | | | |destruct i; discriminate]; injection N as <-; try discriminate C;
      (split; [eexists; split; [reflexivity|reflexivity]|]); (split; [reflexivity|]); intros d; [intros [= <-]; reflexivity|discriminate].
  - intros H. destruct (H 1 20013%Z eq_refl eq_refl) as (_ & _ & N). discriminate (N 20013%Z eq_refl).
  - intros H. destruct (H 0 20013%Z eq_refl eq_refl) as ((j & J & _) & _). discriminate.
Qed.

(** ** Claims that are false *)

(** Replaced numbers do not mean that the output has no digits. *)
Lemma no_digits_refuted : exists E s c, python E /\ token_letters E /\ (exists x, turns E IntToken x (SStr s)) /\ In c s /\ digit E c = true.
Proof.
  exists env0, (txt "1.5"), 49%Z. split; [exact env0_python|]. split; [exact letters_case|].
  split; [exists (SStr (txt "1.5")); apply turns_by; vm_compute; reflexivity|]. split; [now left|reflexivity].
Qed.

(** Not every list of listed words and single characters is an output of [CustomWordTokenizer]. *)
Lemma listed_refuted : exists E ws o, python E /\ make_custom (Some ws) false = Ok o /\ In (txt "ab") ws /\
  ~ exists x, turns E o x (SLst [ETok (txt "a"); ETok (txt "b")]).
Proof.
  exists env0, [txt "ab"]. eexists. split; [exact env0_python|]. split; [vm_compute; reflexivity|]. split; [now left|].
  intros (x & X). match type of X with turns _ ?o _ _ => assert (M : make_custom (Some [txt "ab"]) false = Ok o) by (vm_compute; reflexivity) end.
  assert (exists s, x = SStr s) as (s & ->) by (eapply turns_str; [|exact X]; reflexivity). destruct (munched_exists false [txt "ab"] s) as (ps & HP).
  destruct (custom_tokenizes env0 _ _ _ s ps (proj1 env0_python) M HP) as (TX & a & T & _).
  pose proof (turns_fun _ _ _ _ _ X (ex_intro _ a T)) as Q.
  assert (TS : tokens_of (all_kept (map fst ps)) = map fst ps).
  { clear. induction ps as [|p ps IH]; [reflexivity|]. cbn. unfold tokens_of, all_kept in IH. now rewrite IH. }
  rewrite TS in Q. change [ETok (txt "a"); ETok (txt "b")] with (map ETok [txt "a"; txt "b"]) in Q. injection Q as Q. apply (etok_inj [txt "a"; txt "b"]) in Q.
  rewrite <- Q in TX. change (text_of (all_kept [txt "a"; txt "b"])) with (txt "ab") in TX. subst s. clear T TS M.
  inversion HP as [|w rest ps' B HP' Q1 Q2|c rest ps' N HP' Q1 Q2]; subst.
  - destruct B as (HI & _). injection Q as Q _. rewrite Q1 in HI. rewrite <- Q in HI. destruct HI as [HI|[]]. vm_compute in HI. discriminate HI.
  - apply (N (txt "ab")); [now left|discriminate|]. now exists [].
Qed.

(** A text where every CJK character already has a blank on both sides gets more of them. *)
Lemma spaced_already_refuted : exists E s, python E /\ ~ turns E AddWhitespaceAroundCJK (SStr s) (SStr s) /\
  forall i c, nth_error s i = Some c -> cjk c = true -> nth_error s (S i) = Some 32%Z /\ exists j, i = S j /\ nth_error s j = Some 32%Z.
Proof.
  exists env0, [32; 20013; 32]%Z. split; [exact env0_python|]. split.
  - intros T. assert (T2 : turns env0 AddWhitespaceAroundCJK (SStr [32; 20013; 32]%Z) (SStr [32; 32; 20013; 32; 32]%Z)) by (apply turns_by; vm_compute; reflexivity).
    discriminate (turns_fun _ _ _ _ _ T T2).
  - intros [|[|[|i]]] c; cbn [nth_error]; intros N C; [injection N as <-; discriminate C|split; [reflexivity|now exists 0]|injection N as <-; discriminate C|destruct i; discriminate].
Qed.

(** A token of numbers that is itself a number stays in the output. *)
Lemma numbers_left_refuted : exists E tok x y t, python E /\ turns E (PureNum2Token tok) x (SLst y) /\ In (ETok t) y /\ pure_number E t = true.
Proof.
  exists env0, (ETok (txt "0")), (SLst [ETok (txt "12")]), [ETok (txt "0")], (txt "0"). split; [exact env0_python|].
  split; [apply turns_by; vm_compute; reflexivity|]. split; [now left|reflexivity].
Qed.

(** [AddSosEos] can give a list that does not begin with the first token or end with the second. *)
Lemma framed_refuted : exists E sos eos y, python E /\ sos <> eos /\ (exists x, turns E (AddSosEos sos eos) x (SLst y)) /\ forall l, y <> sos :: l ++ [eos].
Proof.
  exists env1, (ETok (txt "s")), (ETok (txt "e")). eexists. split; [exact env1_python|]. split; [discriminate|].
  split; [exists (SLst []); eexists; vm_compute; reflexivity|]. intros l. discriminate.
Qed.

(** What is replaced can be in the output, once more. *)
Lemma replaced_refuted : exists E p b find s, python E /\ re_compile E p = Some find /\ (exists x, turns E (ReplaceAwithB p b) x (SStr s)) /\ find s 0 <> None.
Proof.
  exists env0, (txt "x"), (txt "xx"). eexists. exists (txt "axx"). split; [exact env0_python|]. split; [reflexivity|].
  split; [exists (SStr (txt "ax")); apply turns_by; vm_compute; reflexivity|]. vm_compute. discriminate.
Qed.
