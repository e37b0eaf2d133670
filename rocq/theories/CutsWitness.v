(** Concrete outputs of the operators with word lists and vocabularies (C110). *)

From Coq Require Import String.
From Verif Require Import Py Edit SpecEdit SpecWords SpecOps Regex Trie Ops Json Elements Pipe SpecPipe SpecBert SpecReadBack SpecOutcome
  Concrete OpsWitness ElementsWitness PipeWitness PipeAlign BertProofs ReadBackProofs CutsProofs CutsPipe.
From Coq Require Import List ZArith Lia.
Import ListNotations.
Import SpecWords SpecCuts.

(** ** Word lists *)

Definition some_words : list str := map txt ["ab"; "abc"; "b"]%string.
Definition ok_or (r : res op) : op := match r with Ok o => o | Err _ => Lowercase end.
Definition some_custom : op := ok_or (make_custom (Some some_words) false).
Definition some_wordn : op := ok_or (make_wordn (Some some_words) true).
Example some_made : make_custom (Some some_words) false = Ok some_custom /\ make_wordn (Some some_words) true = Ok some_wordn.
Proof. split; reflexivity. Qed.

Definition output (o : op) (x : pseq) : res pseq := '(y, _) <- transform_op env0 o x ;; Ok y.
Lemma output_turns o x y : output o x = Ok y -> turns env0 o x y.
Proof. unfold output. destruct (transform_op env0 o x) as [[z a]|] eqn:T; [|discriminate]. intros [= <-]. now exists a. Qed.

Example custom_outputs : turns env0 some_custom (SStr (txt "xabcab")) (SLst (map ETok (map txt ["x"; "abc"; "ab"]%string))).
Proof. apply output_turns. vm_compute. reflexivity. Qed.
(** so these tokens are well cut *)
Example custom_cut : best_cut false some_words (map txt ["x"; "abc"; "ab"]%string).
Proof.
  destruct (proj1 (custom_cuts env0 some_words false some_custom _ _ (proj1 env0_python) (proj1 some_made)) custom_outputs)
    as (ts & Q & _ & C).
  assert (map ETok (map txt ["x"; "abc"; "ab"]%string) = map ETok ts) as QQ by congruence.
  apply etok_inj in QQ. rewrite QQ. exact C.
Qed.
(** and no text gives the tokens ab, c: a longer word begins there *)
Example custom_never : ~ exists x, turns env0 some_custom x (SLst (map ETok (map txt ["ab"; "c"]%string))).
Proof.
  intros (x & X). apply (custom_cuts env0 some_words false some_custom _ _ (proj1 env0_python) (proj1 some_made)) in X.
  destruct X as (ts & Q & _ & C). assert (map ETok (map txt ["ab"; "c"]%string) = map ETok ts) as QQ by congruence.
  apply etok_inj in QQ. subst ts.
  destruct (C [] (txt "ab") [txt "c"] eq_refl) as [(_ & _ & _ & B)|[L _]]; [|discriminate].
  specialize (B (txt "abc")). assert (length (txt "abc") <= length (txt "ab")) as F; [|cbn in F; lia].
  apply B; [right; left; reflexivity|discriminate|]. exists []. reflexivity.
Qed.

Example wordn_outputs : turns env0 some_wordn (SStr (txt "xabc")) (SStr (txt "x ab c")).
Proof. apply output_turns. vm_compute. reflexivity. Qed.

(** ** Vocabularies *)

Definition some_vocab : list str := map txt ["a"; "##bc"; "abc"; "##c"]%string.
Definition unknown : elem := ETok (txt "?").
Example pieces_outputs : turns env0 (SpanSubwords some_vocab unknown 4) (SLst (map ETok (map txt ["abcc"; "b"; "a"; "##c"]%string)))
  (SLst (map ETok (map txt ["abc"; "##c"; "?"; "a"; "##c"]%string))).
Proof. apply output_turns. vm_compute. reflexivity. Qed.
Example some_vocab_fits : forall t, In t some_vocab -> (Z.of_nat (length t) <= 4)%Z.
Proof. intros t I. cbn in I. repeat (destruct I as [<-|I]; [cbn; lia|]). destruct I. Qed.

(** the pipe of bert/word_piece.py with the concrete environment *)
Example word_piece_hypotheses : exists p, word_piece_pipe env0 = Ok p /\ python env0 /\
  forall w d, In w word_pieces -> In d (txt w) -> is_space env0 d = false.
Proof.
  eexists. split; [apply word_piece_is|]. split; [exact env0_python|]. intros w d I D.
  assert (F : forallb (fun w => forallb (fun d => negb (is_space env0 d)) (txt w)) word_pieces = true) by (vm_compute; reflexivity).
  rewrite forallb_forall in F. specialize (F w I). rewrite forallb_forall in F. specialize (F d D).
  destruct (is_space env0 d); [discriminate|reflexivity].
Qed.

(** ** What is not true *)

(** An element of the output can be longer than maxlen. *)
Theorem within_maxlen_refuted : exists E v u m x l t, python E /\ turns E (SpanSubwords v u m) x (SLst l) /\ In (ETok t) l /\
  ETok t <> u /\ (m < Z.of_nat (length t))%Z.
Proof.
  exists env0, (map txt ["a"; "##bc"]%string), unknown, 3%Z, (SLst [ETok (txt "abc")]), (map ETok (map txt ["a"; "##bc"]%string)), (txt "##bc").
  split; [exact env0_python|]. split; [apply output_turns; vm_compute; reflexivity|]. split; [right; left; reflexivity|].
  split; [discriminate|]. cbn. lia.
Qed.

(** A list of words of the vocabulary need not be an output if some are longer than maxlen. *)
Theorem long_words_refuted : exists E v u m l, python E /\ in_vocabulary v u l /\ ~ exists x, turns E (SpanSubwords v u m) x (SLst l).
Proof.
  exists env0, [txt "abcd"], unknown, 3%Z, [ETok (txt "abcd")]. split; [exact env0_python|]. split.
  - intros e [<-|[]]. right. exists (txt "abcd"). split; [reflexivity|]. split; [now left|discriminate].
  - intros X. apply (subwords_results env0 _ _ _ (proj1 (proj2 env0_python))) in X.
    destruct X as (l & [= <-] & gs & Q & H).
    assert (Hg : exists g, In g gs /\ In (ETok (txt "abcd")) g).
    { assert (I : In (ETok (txt "abcd")) (concat gs)) by (rewrite <- Q; now left). apply in_concat in I. exact I. }
    destruct Hg as (g & Ig & Ie). destruct (H g Ig) as [-> |(ws & L & S & ->)].
    + destruct Ie as [Ie|[]]. discriminate.
    + apply in_map_iff in Ie. destruct Ie as (t & Et & It). injection Et as Et.
      destruct ws as [|w ws]; [destruct It|]. destruct (S [] w ws eq_refl) as (_ & [I|[]] & _). cbn [begins marked] in I.
      cbn [concat] in L. rewrite app_length, <- I in L. cbn in L. lia.
Qed.
