(** Concrete cases for C100: hypotheses that hold, and refutations. *)

From Coq Require Import String.
From Verif Require Import Py Edit SpecRuns SpecHash SpecOps Ops Json Concrete OpsWitness Elements Pipe SpecPipe TokProofs BertProofs PipeWitness SpecLaws SpecReadBack.
From Coq Require Import List ZArith Lia.
Import ListNotations.

Definition out_of (E : env) (o : op) (x : pseq) : option pseq :=
  match transform_op E o x with Ok (y, _) => Some y | Err _ => None end.

Lemma out_turns E o x y : out_of E o x = Some y -> turns E o x y.
Proof. unfold out_of, turns. destruct (transform_op E o x) as [[z a]|]; [|discriminate]. intros [= ->]. now exists a. Qed.

Ltac turn := apply out_turns; vm_compute; reflexivity.

Definition toks_ (l : list string) : pseq := SLst (map (fun t => ETok (txt t)) l).
Definition text_ (s : string) : pseq := SStr (txt s).

(** tokens of texts with punctuation and repeated blanks *)
Example ex_tokens : turns env0 EngTokenizer (text_ " I'm  (not) here ") (toks_ ["I"; "'"; "m"; "("; "not"; ")"; "here"]%string) /\
  turns env0 EngTokenizer (text_ "I ' m ( not ) here") (toks_ ["I"; "'"; "m"; "("; "not"; ")"; "here"]%string) /\
  turns env0 WhiteSpaceTokenizer (text_ " I'm  (not) here ") (toks_ ["I'm"; "(not)"; "here"]%string) /\
  turns env0 WhiteSpaceTokenizer (text_ "I'm (not) here") (toks_ ["I'm"; "(not)"; "here"]%string).
Proof. repeat split; turn. Qed.

(** padding that can be read back, and that cannot *)
Example ex_unpadded : unpadded 4 (ETok (txt "_")) [ETok (txt "_"); ETok (txt "a")].
Proof.
  split; [cbn; lia|]. intros l' H. apply (f_equal (@rev elem)) in H. rewrite rev_app_distr in H. discriminate H.
Qed.

Theorem padding_refuted : exists E maxlen pad l l' y, python E /\ l <> l' /\
  turns E (Pad maxlen pad) (SLst l) y /\ turns E (Pad maxlen pad) (SLst l') y.
Proof.
  exists env0, 3%Z, (ETok (txt "_")), [ETok (txt "a")], [ETok (txt "a"); ETok (txt "_")], (toks_ ["a"; "_"; "_"]%string).
  split; [exact env0_python|]. split; [discriminate|]. split; turn.
Qed.

(** word pieces, with an unknown word in between *)
Definition voc : list str := map txt ["un"; "##do"; "##ne"; "it"]%string.

Example ex_pieces : turns env0 (SpanSubwords voc (ETok (txt "[UNK]")) 9) (toks_ ["undone"; "by"; "it"; "undo"]%string)
    (toks_ ["un"; "##do"; "##ne"; "[UNK]"; "it"; "un"; "##do"]%string) /\
  whole_words (map txt ["un"; "##do"; "##ne"; "[UNK]"; "it"; "un"; "##do"]%string) = map txt ["undone"; "[UNK]"; "it"; "undo"]%string /\
  Forall (fun t => t <> [] /\ ~ continued t) (map txt ["undone"; "by"; "it"; "undo"]%string).
Proof.
  split; [turn|]. split; [reflexivity|].
  repeat (constructor; [split; [discriminate|intros (r & X); discriminate X]|]). constructor.
Qed.

Lemma split_undo : splits voc true (txt "undo") (map txt ["un"; "##do"]%string).
Proof.
  apply (split_step voc true (txt "un") (txt "do") [txt "##do"]); [discriminate|now left| |].
  - intros w' r' H I. cbn in I. destruct I as [<-|[<-|[<-|[<-|[]]]]]; cbn; try lia; discriminate H.
  - apply (split_step voc false (txt "do") [] []); [discriminate|right; now left| |constructor].
    intros w' r' H _. apply (f_equal (@length Z)) in H. rewrite !app_length in H. cbn in H. cbn. lia.
Qed.

Lemma split_self t : In t voc -> t <> [] -> splits voc true t [t].
Proof.
  intros I N. rewrite <- (app_nil_r t) at 1. apply (split_step voc true t [] []); [exact N|exact I| |constructor].
  intros w' r' H _. apply (f_equal (@length Z)) in H. rewrite !app_length in H. cbn in H. lia.
Qed.

Theorem pieces_refuted : exists E vocab unk maxlen ts ts' y, python E /\ ts <> ts' /\
  Forall (spelled vocab maxlen) ts /\ Forall (spelled vocab maxlen) ts' /\
  turns E (SpanSubwords vocab unk maxlen) (SLst (map ETok ts)) y /\
  turns E (SpanSubwords vocab unk maxlen) (SLst (map ETok ts')) y.
Proof.
  exists env0, voc, (ETok (txt "[UNK]")), 9%Z, [txt "undo"], (map txt ["un"; "##do"]%string), (toks_ ["un"; "##do"]%string).
  split; [exact env0_python|]. split; [discriminate|]. split; [|split; [|split; turn]].
  - constructor; [|constructor]. split; [vm_compute; discriminate|]. eexists. exact split_undo.
  - constructor; [|constructor; [|constructor]]; (split; [vm_compute; discriminate|]); eexists; apply split_self; try discriminate; cbn; auto.
Qed.

(** the whole pipes *)
Definition pipe_out (p : res pipe) (s : str) : option pseq :=
  match p with Ok p => match transform_sequence env0 p (SStr s) with Ok (y, _, _) => Some y | Err _ => None end | Err _ => None end.

Lemma pipe_turns_out p s y : pipe_out (Ok p) s = Some y -> exists als coll, transform_sequence env0 p (SStr s) = Ok (y, als, coll).
Proof. unfold pipe_out. destruct (transform_sequence env0 p (SStr s)) as [[[z als] coll]|]; [|discriminate]. intros [= ->]. eauto. Qed.

Definition said : str := txt "  unwanted  running ".

Ltac longest := let H := fresh in let I := fresh in intros ? ? H I; cbn in I;
  repeat (destruct I as [<-|I]; [first [cbn; lia|discriminate H]|]); destruct I.

Example ex_word_piece : exists q als coll, word_piece_pipe env0 = Ok q /\
  transform_sequence env0 q (SStr said) = Ok (SLst (map ETok (map txt ["un"; "##want"; "##ed"; "runn"; "##ing"]%string)), als, coll) /\
  words (is_space env0) said = map txt ["unwanted"; "running"]%string /\
  Forall (fun t => ~ continued t) (words (is_space env0) said).
Proof.
  eexists. destruct (pipe_turns_out (mkPipe [bare "WhiteSpaceTokenizer" WhiteSpaceTokenizer; subwords_obj word_piece_vocab] []) said
    (SLst (map ETok (map txt ["un"; "##want"; "##ed"; "runn"; "##ing"]%string)))) as (als & coll & T); [vm_compute; reflexivity|].
  exists als, coll. split; [apply word_piece_is|]. split; [exact T|]. split; [vm_compute; reflexivity|].
  change (words (is_space env0) said) with (map txt ["unwanted"; "running"]%string).
  repeat (constructor; [intros (r & X); discriminate X|]). constructor.
Qed.

Example ex_spelled : Forall (spelled (map txt word_piece_vocab) 200) (map txt ["unwanted"; "running"]%string).
Proof.
  constructor; [|constructor; [|constructor]]; (split; [vm_compute; discriminate|]).
  - exists (map txt ["un"; "##want"; "##ed"]%string).
    apply (split_step _ true (txt "un") (txt "wanted") (map txt ["##want"; "##ed"]%string)); [discriminate|cbn; tauto|longest|].
    apply (split_step _ false (txt "want") (txt "ed") (map txt ["##ed"]%string)); [discriminate|cbn; tauto| |].
    { intros w' r' H I. change (marked false w') with (35%Z :: 35%Z :: w') in I. cbn in I.
      repeat (destruct I as [I|I]; [first [discriminate I|injection I as <-; cbn; first [lia|discriminate H]]|]). destruct I. }
    apply (split_step _ false (txt "ed") [] []); [discriminate|cbn; tauto| |constructor].
    intros w' r' H _. apply (f_equal (@length Z)) in H. rewrite !app_length in H. cbn in H. cbn. lia.
  - exists (map txt ["runn"; "##ing"]%string).
    apply (split_step _ true (txt "runn") (txt "ing") (map txt ["##ing"]%string)); [discriminate|cbn; tauto|longest|].
    apply (split_step _ false (txt "ing") [] []); [discriminate|cbn; tauto| |constructor].
    intros w' r' H _. apply (f_equal (@length Z)) in H. rewrite !app_length in H. cbn in H. cbn. lia.
Qed.

(** a second run of the basic pipe *)
Theorem basic_again_refuted : exists E p s ts als coll, python E /\ basic_pipe E = Ok p /\
  transform_sequence E p (SStr s) = Ok (SLst (map ETok ts), als, coll) /\
  forall als' coll', transform_sequence E p (SStr (joined blank ts)) <> Ok (SLst (map ETok ts), als', coll').
Proof.
  exists env0, (mkPipe basic_steps []), [E_acute], [txt "E"].
  destruct (pipe_turns_out (mkPipe basic_steps []) [E_acute] (SLst [ETok (txt "E")])) as (als & coll & T); [vm_compute; reflexivity|].
  exists als, coll. split; [exact env0_python|]. split; [apply basic_is|]. split; [exact T|].
  intros als' coll' X.
  destruct (pipe_turns_out (mkPipe basic_steps []) (txt "E") (SLst [ETok (txt "e")])) as (a & c & T'); [vm_compute; reflexivity|].
  change (joined blank [txt "E"]) with (txt "E") in X. rewrite T' in X. discriminate X.
Qed.

(** operators that do not tell *)
Definition losses : list (op * (pseq * pseq)) :=
  [(Lowercase, (text_ "A", text_ "a")); (MergeWhiteSpaceCharacters, (text_ "a  b", text_ "a b"));
   (StripWhiteSpaceCharacters, (text_ " a", text_ "a")); (IntToken, (text_ "12", text_ "3"));
   (IntTokenWithSpace, (text_ "12", text_ "3")); (FloatToken, (text_ "1.2", text_ "3.0"));
   (FloatTokenWithSpace, (text_ "1.2", text_ "3.0")); (NumTokenWithSpace, (text_ "12", text_ "3"));
   (StopwordsToWhitespace, (SStr [21543%Z], text_ " ")); (PunctuationExceptEndpointToWhitespace, (text_ "a!", text_ "a?"));
   (StripAccentToken, (SStr [E_acute], text_ "E")); (ReplaceAwithB (txt "x") (txt "y"), (text_ "x", text_ "y"));
   (WhiteSpaceTokenizer, (text_ " a", text_ "a")); (EngTokenizer, (text_ "a!", text_ "a !")); (ZhCharTokenizer, (text_ "a!", text_ "a !"));
   (PureNum2Token (ETok (txt "N")), (toks_ ["12"]%string, toks_ ["3"]%string));
   (Token2Index [(txt "a", 0%Z); (txt "U", 1%Z)] (txt "U"), (toks_ ["b"]%string, toks_ ["U"]%string))].

Theorem told_apart_refuted : exists E, python E /\ forall o,
  In o [Lowercase; MergeWhiteSpaceCharacters; StripWhiteSpaceCharacters; IntToken; IntTokenWithSpace; FloatToken; FloatTokenWithSpace;
        NumTokenWithSpace; StopwordsToWhitespace; PunctuationExceptEndpointToWhitespace; StripAccentToken; ReplaceAwithB (txt "x") (txt "y");
        WhiteSpaceTokenizer; EngTokenizer; ZhCharTokenizer; PureNum2Token (ETok (txt "N"));
        Token2Index [(txt "a", 0%Z); (txt "U", 1%Z)] (txt "U")] -> ~ telling E o.
Proof.
  exists env0. split; [exact env0_python|]. intros o HO. change (In o (map fst losses)) in HO.
  apply in_map_iff in HO. destruct HO as ((o' & x & x') & <- & HI). cbn [fst].
  assert (D : x <> x' /\ exists y, out_of env0 o' x = Some y /\ out_of env0 o' x' = Some y).
  { repeat (destruct HI as [[= <- <- <-]|HI]; [split; [discriminate|]; eexists; split; vm_compute; reflexivity|]). destruct HI. }
  destruct D as (N & y & A & B). intros T. apply N. exact (T _ _ y (out_turns _ _ _ _ A) (out_turns _ _ _ _ B)).
Qed.

(** a dictionary for the indices, and two unknown tokens with the same hash *)
Definition idx : list (str * Z) := [(txt "U", 1%Z); (txt "a", 0%Z)].

Example ex_indices : turns env0 (Token2Index idx (txt "U")) (toks_ ["a"; "b"]%string) (SLst [EIdx 0; EIdx 1]) /\
  make_token2index idx (txt "U") = Ok (Token2Index idx (txt "U")) /\ make_hash idx = Ok (Token2IndexwithHash idx) /\ is_dict idx.
Proof.
  split; [turn|]. split; [reflexivity|]. split; [reflexivity|].
  constructor; [intros [X|[]]; discriminate X|]. constructor; [intros []|]. constructor.
Qed.

Example ex_full : exists p q als coll als' coll', basic_pipe env0 = Ok p /\ full_pipe env0 = Ok q /\
  transform_sequence env0 p (text_ " Unwanted,you") = Ok (toks_ ["unwanted"; ","; "you"]%string, als, coll) /\
  transform_sequence env0 q (text_ " Unwanted,you") = Ok (toks_ ["un"; "##want"; "##ed"; ","; "[UNK]"]%string, als', coll') /\
  whole_words (map txt ["un"; "##want"; "##ed"; ","; "[UNK]"]%string) = map txt ["unwanted"; ","; "[UNK]"]%string.
Proof.
  destruct (pipe_turns_out (mkPipe basic_steps []) (txt " Unwanted,you") (toks_ ["unwanted"; ","; "you"]%string)) as (a & c & T); [vm_compute; reflexivity|].
  destruct (pipe_turns_out (mkPipe (basic_steps ++ [subwords_obj full_vocab]) []) (txt " Unwanted,you")
    (toks_ ["un"; "##want"; "##ed"; ","; "[UNK]"]%string)) as (a' & c' & T'); [vm_compute; reflexivity|].
  do 2 eexists. exists a, c, a', c'. split; [apply basic_is|]. split; [apply full_is|]. split; [exact T|]. split; [exact T'|reflexivity].
Qed.
