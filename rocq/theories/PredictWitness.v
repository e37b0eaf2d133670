(** Concrete labels of the output that stick, or not (C108). *)

From Coq Require Import String.
From Verif Require Import Py SpecLabels SpecSeg SpecScan SpecRuns SpecOps SpecWords Regex Trie Ops Json Elements Pipe SpecPipe SpecElements SpecBert SpecTrip
  Concrete OpsWitness ElementsWitness PipeWitness PipeAlign WordProofs BertProofs BertWitness TripWitness
  SpecAccept AcceptWitness SpecSettle SettleSurvive SettlePipe SettleNumbers SettleWitness SpecPredict PredictProofs PredictPipe.
From Coq Require Import List Lia.
Local Open Scope Z_scope.

(** The labels of the output after the way back and forth. *)
Definition forth (E : env) (p : pipe) (x : pseq) (m : list Z) : res (list Z) :=
  '(_, als, _) <- transform_sequence E p x ;; l <- align_inverse_all E als m ;; align_all als l.
Lemma forth_by E p x m m' : forth E p x m = Ok m' -> exists y als coll,
  transform_sequence E p x = Ok (y, als, coll) /\ (sticks E als m <-> m' = m).
Proof.
  unfold forth. destruct (transform_sequence E p x) as [[[y als] coll]|]; cbn [bind]; [|discriminate].
  destruct (align_inverse_all E als m) as [l|] eqn:A; cbn [bind]; [|discriminate]. intros B.
  exists y, als, coll. split; [reflexivity|]. unfold sticks. split.
  - intros (l' & Q1 & Q2). congruence.
  - intros ->. eauto.
Qed.

Definition forth1 (E : env) (o : op) (x : pseq) (m : list Z) : res (list Z) :=
  '(_, a) <- transform_op E o x ;; l <- align_inverse E a m ;; align a l.

(** ** Operators *)

Example ex_int_sticks :
  forth1 env0 IntToken (SStr (txt "a12")) [1; 2; 2; 2; 2; 2] = Ok [1; 2; 2; 2; 2; 2] /\
  forth1 env0 IntToken (SStr (txt "a12")) [1; 2; 2; 2; 2; 3] = Ok [1; 2; 2; 2; 2; 2] /\
  forth1 env0 IntTokenWithSpace (SStr (txt "a12")) [1; 0; 2; 2; 2; 2; 2; 0] = Ok [1; 0; 2; 2; 2; 2; 2; 0] /\
  forth1 env0 IntTokenWithSpace (SStr (txt "a12")) [1; 2; 2; 2; 2; 2; 2; 2] = Ok [1; 0; 2; 2; 2; 2; 2; 0] /\
  forth1 env0 NumTokenWithSpace (SStr (txt "a12")) [1; 0; 2; 2; 2; 2; 2; 0] = Ok [1; 0; 2; 2; 2; 2; 2; 0] /\
  forth1 env0 FloatToken (SStr (txt "1.5x")) [2; 2; 2; 2; 2; 2; 2; 9] = Ok [2; 2; 2; 2; 2; 2; 2; 9] /\
  forth1 env0 FloatTokenWithSpace (SStr (txt "1.5x")) [0; 2; 2; 2; 2; 2; 2; 2; 4; 9] = Ok [0; 2; 2; 2; 2; 2; 2; 2; 0; 9].
Proof.
  split; [vm_compute; reflexivity|]. split; [vm_compute; reflexivity|]. split; [vm_compute; reflexivity|].
  split; [vm_compute; reflexivity|]. split; [vm_compute; reflexivity|]. split; vm_compute; reflexivity.
Qed.
Definition two_cjk : str := [97; 20013]. (* "a" and U+4E2D *)
Example ex_spacers_stick :
  forth1 env0 AddWhitespaceAroundPunctuation (SStr (txt "a,")) [1; 0; 7; 0] = Ok [1; 0; 7; 0] /\
  forth1 env0 AddWhitespaceAroundPunctuation (SStr (txt "a,")) [1; 7; 7; 0] = Ok [1; 0; 7; 0] /\
  forth1 env0 AddWhitespaceAroundCJK (SStr two_cjk) [1; 0; 7; 0] = Ok [1; 0; 7; 0].
Proof. split; [vm_compute; reflexivity|]. split; vm_compute; reflexivity. Qed.
Example ex_wordn_sticks : exists o ps, make_wordn (Some ab_words) false = Ok o /\ munched false ab_words (txt "abx") ps /\
  forth1 env0 o (SStr (txt "abx")) [0; 7; 8; 0; 9] = Ok [0; 7; 8; 0; 9] /\
  forth1 env0 o (SStr (txt "abx")) [5; 7; 8; 0; 9] = Ok [0; 7; 8; 0; 9].
Proof.
  eexists. destruct (munched_exists false ab_words (txt "abx")) as (ps & H). exists ps. split; [vm_compute; reflexivity|].
  split; [exact H|]. split; vm_compute; reflexivity.
Qed.
Example ex_stop_sticks : exists ps, munched false stopword_set [ah; 97] ps /\
  forth1 env0 StopwordsToWhitespace (SStr [ah; 97]) [0; 1] = Ok [0; 1] /\
  forth1 env0 StopwordsToWhitespace (SStr [ah; 97]) [2; 1] = Ok [0; 1].
Proof.
  destruct (munched_exists false stopword_set [ah; 97]) as (ps & H). exists ps. split; [exact H|].
  split; vm_compute; reflexivity.
Qed.
Example ex_endpoint_sticks :
  forth1 env0 PunctuationExceptEndpointToWhitespace (SStr (txt "a,b.")) [1; 0; 2; 3] = Ok [1; 0; 2; 3] /\
  forth1 env0 PunctuationExceptEndpointToWhitespace (SStr (txt "a,b.")) [1; 9; 2; 3] = Ok [1; 0; 2; 3].
Proof. split; vm_compute; reflexivity. Qed.
(** Empty matches put in text of their own, whose labels are lost. *)
Example ex_replace_sticks : exists find,
  re_compile env0 (txt "x") = Some find /\ in_bounds find /\
  replaced find (fun _ => txt "yy") (txt "axx") 0 [(txt "a", None); (txt "x", Some (txt "yy")); ([], None); (txt "x", Some (txt "yy")); ([], None)] /\
  forth1 env0 (ReplaceAwithB (txt "x") (txt "yy")) (SStr (txt "axx")) [1; 2; 2; 3; 3] = Ok [1; 2; 2; 3; 3] /\
  forth1 env0 (ReplaceAwithB (txt "x") (txt "yy")) (SStr (txt "axx")) [1; 2; 3; 3; 3] = Ok [1; 2; 2; 3; 3].
Proof.
  destruct ex_replace as (find & H1 & H2 & H3 & _). exists find. split; [exact H1|]. split; [exact H2|]. split; [exact H3|].
  split; vm_compute; reflexivity.
Qed.
Example ex_list_sticks :
  forth1 env0 (Pad 3 (tk "p")) (SLst [tk "a"; tk "b"]) [1; 2; 0] = Ok [1; 2; 0] /\
  forth1 env0 (Pad 3 (tk "p")) (SLst [tk "a"; tk "b"]) [1; 2; 3] = Ok [1; 2; 0] /\
  forth1 env0 (Pad 1 (tk "p")) (SLst [tk "a"; tk "b"]) [-4] = Ok [-4] /\
  forth1 env0 (AddSosEos (tk "s") (tk "e")) (SLst [tk "a"]) [0; 5; 0] = Ok [0; 5; 0] /\
  forth1 env0 (AddSosEos (tk "s") (tk "e")) (SLst [tk "a"]) [5; 5; 5] = Ok [0; 5; 0] /\
  forth1 env0 (AddSosEos (tk "s") (tk "e")) (SLst []) [5; 5] = Ok [0; 0] /\
  forth1 env0 (AddEndToken (txt "e")) (SLst [tk "a"]) [5; 6] = Ok [5; 0].
Proof.
  split; [vm_compute; reflexivity|]. split; [vm_compute; reflexivity|]. split; [vm_compute; reflexivity|].
  split; [vm_compute; reflexivity|]. split; [vm_compute; reflexivity|]. split; vm_compute; reflexivity.
Qed.
Example ex_subwords_stick : exists outs, Forall2 (subwords [txt "un"; txt "##do"] (tk "U") 9) [txt "undo"; txt "un"] outs /\
  ~ (0 <= 9 /\ two_empty [txt "undo"; txt "un"]) /\
  forth1 env0 (SpanSubwords [txt "un"; txt "##do"] (tk "U") 9) (SLst [tk "undo"; tk "un"]) [1; 1; 2] = Ok [1; 1; 2] /\
  forth1 env0 (SpanSubwords [txt "un"; txt "##do"] (tk "U") 9) (SLst [tk "undo"; tk "un"]) [0; 1; 2] = Ok [1; 1; 2] /\
  two_empty [txt "undo"; []; []] /\
  forth1 env0 (SpanSubwords [txt "un"; txt "##do"] (tk "U") 9) (SLst [tk "undo"; tk ""; tk ""]) [1; 1] = Err AssertionErr.
Proof.
  assert (N : ~ two_empty [txt "undo"; txt "un"]) by (cbn; intros Q; repeat (destruct Q as [Q|Q]; [destruct Q; discriminate|]); exact Q).
  destruct (ListOpProofs.subwords_maps env0 [txt "un"; txt "##do"] (tk "U") 9 [txt "undo"; txt "un"]) as (outs & H & _).
  - apply env0_python.
  - exact N.
  - exists outs. split; [exact H|]. split; [tauto|]. split; [vm_compute; reflexivity|]. split; [vm_compute; reflexivity|].
    split; [right; left; split; reflexivity|]. vm_compute; reflexivity.
Qed.
Example ex_tokens_stick :
  forth1 env0 MergeWhiteSpaceCharacters (SStr (txt "a  b")) [1; 2; 3] = Ok [1; 2; 3] /\
  forth1 env0 EngTokenizer (SStr (txt "ab c")) [1; 2] = Ok [1; 2] /\
  forth1 env0 EngTokenizer (SStr (txt "ab c")) [1; -2] = Err OverflowErr.
Proof. split; [vm_compute; reflexivity|]. split; vm_compute; reflexivity. Qed.

(** ** Pipes *)

Example ex_list_pipe : let p := after pipe_new [(obj "AddSosEos" [], None); (obj "Pad" [JInt 5], None)] in
  Forall list_step (map o_op (steps p)) /\
  forth env0 p (SLst [tk "a"; tk "b"]) [0; 1; -2; 0; 0] = Ok [0; 1; -2; 0; 0] /\
  forth env0 p (SLst [tk "a"; tk "b"]) [3; 1; -2; 4; 5] = Ok [0; 1; -2; 0; 0].
Proof. split; [repeat constructor|]. split; vm_compute; reflexivity. Qed.

(** Lower case, white space, tokens, start and end, five places. *)
Definition p_predict : pipe := after pipe_new
  [(obj "Lowercase" [], None); (obj "MergeWhiteSpaceCharacters" [], None); (obj "EngTokenizer" [], None);
   (obj "AddSosEos" [], None); (obj "Pad" [JInt 5], None)].
Example ex_token_pipe : reachable env0 p_predict /\ exists sos pad,
  map o_op (steps p_predict) = [Lowercase; MergeWhiteSpaceCharacters] ++ EngTokenizer :: [sos; pad] /\
  Forall transparent [Lowercase; MergeWhiteSpaceCharacters] /\ tokenizer EngTokenizer /\ Forall list_step [sos; pad] /\
  match transform_sequence env0 p_predict (SStr (txt "Ab  c")) with Ok (_, _, coll) => nth_error coll 3 = Some (SLst [tk "ab"; tk "c"]) | _ => False end /\
  forth env0 p_predict (SStr (txt "Ab  c")) [0; 1; 2; 0; 0] = Ok [0; 1; 2; 0; 0] /\
  forth env0 p_predict (SStr (txt "Ab  c")) [0; 1; 2; 2; 0] = Ok [0; 1; 2; 0; 0].
Proof.
  split; [apply after_reachable; [|apply r_new];
    repeat constructor; cbn [fst]; apply obj_made; try reflexivity; eexists; reflexivity|].
  eexists (AddSosEos _ _), (Pad _ _). split; [reflexivity|]. split; [repeat constructor|]. split; [now split|].
  split; [repeat constructor|]. split; [vm_compute; reflexivity|]. split; vm_compute; reflexivity.
Qed.

Example ex_basic_pipe : letters env0 /\ accents_fit env0 (fun c => c) (txt "I,ok") /\ basic_pipe env0 = Ok the_basic /\
  forth env0 the_basic (SStr (txt "I,ok")) [7; 8; 9] = Ok [7; 8; 9].
Proof.
  destruct (everyday_fits env0 runtime0 (txt "I,ok") unicode0) as (H1 & H2); [now apply everyday_by|].
  split; [exact H1|]. split; [exact H2|]. split; [apply basic_is|]. vm_compute; reflexivity.
Qed.
Example ex_word_pieces : exists p, word_piece_pipe env0 = Ok p /\
  forth env0 p (SStr (txt "unwanted want")) [7; 7; 7; 8] = Ok [7; 7; 7; 8] /\
  forth env0 p (SStr (txt "unwanted want")) [7; 0; 6; 8] = Ok [7; 7; 7; 8].
Proof. eexists. split; [apply word_piece_is|]. split; vm_compute; reflexivity. Qed.

Example ex_full_pipe : letters env0 /\ accents_fit env0 (fun c => c) (txt "Unwanted,") /\ exists p, full_pipe env0 = Ok p /\
  forth env0 p (SStr (txt "Unwanted,")) [7; 7; 7; 8] = Ok [7; 7; 7; 8] /\
  forth env0 p (SStr (txt "Unwanted,")) [7; 6; 6; 8] = Ok [6; 6; 6; 8].
Proof.
  destruct (everyday_fits env0 runtime0 (txt "Unwanted,") unicode0) as (H1 & H2); [now apply everyday_by|].
  split; [exact H1|]. split; [exact H2|]. eexists. split; [apply full_is|]. split; vm_compute; reflexivity.
Qed.

(** A model labels both tokens of "ab c": the datum made from that gives the same labels again. *)
Example ex_predicted : exists y als coll l d,
  transform_sequence env0 p_predict (SStr (txt "Ab  c")) = Ok (y, als, coll) /\
  align_inverse_all env0 als [0; 1; 2; 0; 0] = Ok l /\ pack_to_datum (txt "Ab  c") [3] l = Ok d /\
  d_entities d = [mkEntity 1 (txt "Ab") 0 2 []; mkEntity 2 (txt "c") 4 5 []].
Proof.
  do 5 eexists. split; [vm_compute; reflexivity|]. split; [vm_compute; reflexivity|]. split; vm_compute; reflexivity.
Qed.

(** "a12" becomes "a", "_", "int", "_": the three tokens of the number need one label. *)
Example ex_numbered_pipe : reachable env0 p_numbers /\ token_letters env0 /\ numbered (map o_op (steps p_numbers)) /\
  forth env0 p_numbers (SStr (txt "a12")) [1; 2; 2; 2] = Ok [1; 2; 2; 2] /\
  forth env0 p_numbers (SStr (txt "a12")) [1; 2; 0; 0] = Ok [1; 2; 2; 2].
Proof.
  split; [apply ex_numbers|]. split; [exact env0_token_letters|]. split; [apply ex_numbers|]. split; vm_compute; reflexivity.
Qed.

(** ** Not all labels stick *)

(** A model that labels the token for the start gives a datum without that label. *)
Theorem every_label_refuted : exists E p u y als coll m l ints d ints' m', python E /\ regexes E /\ reachable E p /\
  transform_sequence E p (SStr u) = Ok (y, als, coll) /\ length m = pseq_length y /\ u32_labels m /\
  align_inverse_all E als m = Ok l /\ pack_to_datum u ints l = Ok d /\
  transform E p d = Ok (y, ints', m', als, coll) /\ m' <> m.
Proof.
  exists env0, p_predict, (txt "ab c"). do 3 eexists. exists [7; 1; 2; 0; 0]. eexists. exists [3]. do 3 eexists.
  split; [exact env0_python|]. split; [exact env0_regexes|]. split; [apply ex_token_pipe|].
  split; [vm_compute; reflexivity|]. split; [reflexivity|]. split; [repeat constructor; lia|].
  split; [vm_compute; reflexivity|]. split; [vm_compute; reflexivity|]. split; [vm_compute; reflexivity|]. discriminate.
Qed.

(** Labels that come from the input need not stick either: the pipe of [again_refuted]. *)
Theorem forward_refuted : exists E p x y als coll l m, python E /\ regexes E /\ reachable E p /\
  transform_sequence E p x = Ok (y, als, coll) /\ align_all als l = Ok m /\ ~ sticks E als m.
Proof.
  destruct again_refuted as (E & p & x & y & als & coll & l & m & l' & m' & l'' & PY & RX & RP & T & A & B & C & _ & N & _).
  exists E, p, x, y, als, coll, l, m. split; [exact PY|]. split; [exact RX|]. split; [exact RP|]. split; [exact T|]. split; [exact A|].
  intros (q & Q1 & Q2). rewrite B in Q1. injection Q1 as <-. congruence.
Qed.
