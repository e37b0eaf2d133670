(** Which outputs pipes with a vocabulary can give (C110): proofs. *)

From Coq Require Import String.
From Verif Require Import Py PyFacts Edit Labels SpecEdit SpecLabels SpecSeg SpecRuns SpecWords SpecScan SpecHash SpecOps Ops Json SpecJson Elements Pipe SpecPipe SpecLaws
  RunsProofs SegProofs OpProofs StrOpProofs ListOpProofs HashProofs TokProofs OpLaws AlignProofs LawsTok LawsProofs LawsText PipeProofs BertProofs
  SpecReadBack ReadBackProofs SpecOutcome OutcomeProofs OutcomeList SpecBert SpecCuts CutsProofs.
From Coq Require Import List ZArith Lia.
Import ListNotations.
Import SpecWords SpecCuts.

(** a token for every element *)
Lemma token_for E v u m c l : is_space E c = false -> (forall t d, In t v -> In d t -> is_space E d = false) ->
  (forall t, In t v -> (Z.of_nat (length t) <= m)%Z) -> in_vocabulary v u l ->
  exists ts, Forall2 (subwords v u m) ts (map (fun e => [e]) l) /\ tokens_like (one_token (by_space E)) (map ETok ts).
Proof.
  intros C V L. induction l as [|e l IH]; intros H.
  - exists []. split; [constructor|]. intros e [].
  - destruct IH as (ts & F & T); [intros e' I; apply H; now right|].
    assert (exists t, subwords v u m t [e] /\ one_token (by_space E) t) as (t & A & B).
    { destruct (H e (or_introl eq_refl)) as [-> |(t & -> & I & N)].
      - exists (repeat c (S (Z.to_nat m))). split.
        + right. split; [left|reflexivity]. rewrite repeat_length. lia.
        + left. split; [discriminate|]. intros d D. apply repeat_spec in D. subst. unfold by_space. now rewrite C.
      - exists t. split.
        + left. split; [now apply L|]. exists [t]. split; [|reflexivity]. apply splits_longest. exists [t].
          cbn [concat with_marks map]. rewrite app_nil_r. split; [reflexivity|]. split; [reflexivity|]. now apply one_part.
        + left. split; [exact N|]. intros d D. unfold by_space. now rewrite (V t d I D). }
    exists (t :: ts). split; [now constructor|]. intros e' [<-|I]; [now exists t|exact (T e' I)].
Qed.

Theorem pieces_pipe E p v u m c l : python E -> map o_op (steps p) = [WhiteSpaceTokenizer; SpanSubwords v u m] ->
  is_space E c = false -> (forall t d, In t v -> In d t -> is_space E d = false) ->
  (forall t, In t v -> (Z.of_nat (length t) <= m)%Z) ->
  ((exists s als coll, transform_sequence E p (SStr s) = Ok (SLst l, als, coll)) <-> in_vocabulary v u l).
Proof.
  intros PY HP C V L. pose proof (proj1 (proj2 PY)) as OE.
  destruct p as [[|a [|b [|]]] ck]; try discriminate. cbn [steps map] in HP. injection HP as HA HB.
  unfold transform_sequence. cbn [steps Pipe.run]. rewrite HA, HB. split.
  - intros (s & als & coll & R). destruct (transform_op E WhiteSpaceTokenizer (SStr s)) as [[y al]|]; [|discriminate].
    cbn [bind] in R. destruct (transform_op E (SpanSubwords v u m) y) as [[z bl]|] eqn:T; [|discriminate]. cbn in R.
    injection R as -> _ _. exact (vocabulary_only E v u m y l OE (ex_intro _ bl T)).
  - intros H. destruct (token_for E v u m c l C V L H) as (ts & F & T).
    destruct (proj2 (tokenizer_forms E WhiteSpaceTokenizer (by_space E) PY (or_introl eq_refl) (SLst (map ETok ts)))) as (x & X).
    { exists (map ETok ts). split; [reflexivity|exact T]. }
    destruct (turns_str E WhiteSpaceTokenizer _ _ eq_refl X) as (s & ->). destruct X as (al & X).
    destruct (subwords_run E v u m ts OE) as (outs & bl & F' & T').
    assert (concat outs = l) as Q.
    { transitivity (concat (map (fun e : elem => [e]) l)).
      - f_equal. clear -F F'. remember (map (fun e : elem => [e]) l) as gs eqn:G. clear G. revert outs F'.
        induction F as [|t g ts gs S _ IH]; intros outs F'.
        + now inversion F'.
        + inversion F' as [|? g' ? gs2 S' F2]; subst. rewrite (subwords_det _ _ _ _ _ _ S S'). f_equal. auto.
      - clear. induction l as [|e l IH]; [reflexivity|]. cbn. now rewrite IH. }
    exists s. rewrite X. cbn [bind]. rewrite T'. cbn [bind]. rewrite Q. eauto.
Qed.

(** the pipe of bert/word_piece.py *)
Theorem word_piece_outputs E p l : python E -> word_piece_pipe E = Ok p ->
  (forall w d, In w word_pieces -> In d (txt w) -> is_space E d = false) ->
  ((exists s als coll, transform_sequence E p (SStr s) = Ok (SLst l, als, coll)) <->
   forall e, In e l -> exists w, In w word_pieces /\ e = ETok (txt w)).
Proof.
  intros PY HP V. rewrite word_piece_is in HP. injection HP as <-.
  assert (VV : forall t d, In t (map txt word_pieces) -> In d t -> is_space E d = false).
  { intros t d I D. apply in_map_iff in I. destruct I as (w & <- & I). exact (V w d I D). }
  assert (LL : forall t, In t (map txt word_pieces) -> (Z.of_nat (length t) <= 200)%Z).
  { intros t I. cbn in I. repeat (destruct I as [<-|I]; [cbn; lia|]). destruct I. }
  assert (CC : is_space E 91 = false).
  { apply (V "[UNK]"%string); [left; reflexivity|left; reflexivity]. }
  match goal with |- (exists s als coll, transform_sequence E ?q _ = _) <-> _ =>
    assert (HQ : map o_op (steps q) = [WhiteSpaceTokenizer; SpanSubwords (map txt word_pieces) (ETok (txt "[UNK]")) 200])
      by reflexivity end.
  rewrite (pieces_pipe E _ (map txt word_pieces) (ETok (txt "[UNK]")) 200 91 l PY HQ CC VV LL).
  split.
  - intros H e I. destruct (H e I) as [-> |(t & -> & T & _)].
    + exists "[UNK]"%string. split; [left; reflexivity|reflexivity].
    + apply in_map_iff in T. destruct T as (w & <- & T). eauto.
  - intros H e I. destruct (H e I) as (w & W & ->). right. exists (txt w). split; [reflexivity|]. split; [now apply in_map|].
    cbn in W. repeat (destruct W as [<-|W]; [discriminate|]). destruct W.
Qed.
