(** Concrete labels that come back, or not, through operators (C92) and pipes (C93). *)

From Coq Require Import String.
From Verif Require Import Py SpecLabels SpecSeg SpecScan SpecRuns SpecOps SpecWords Regex Trie Ops Json Elements Pipe SpecPipe SpecElements SpecTrip
  Concrete OpsWitness PyRe SpecRe ReProofs ReParse ReReplace ReWitness ElementsWitness PipeWitness PipeAlign WordProofs
  SpecAccept AcceptWitness SpecSettle SettleSurvive SettlePipe SettleNumbers SettleCells.
From Coq Require Import List Lia.
Local Open Scope Z_scope.

(** The labels that come back. *)
Definition back (E : env) (o : op) (x : pseq) (l : list Z) : res (list Z) :=
  '(_, a) <- transform_op E o x ;; m <- align a l ;; align_inverse E a m.

Lemma back_survives E o x l : back E o x l = Ok l -> exists y a, transform_op E o x = Ok (y, a) /\ survives E [a] l.
Proof.
  unfold back. destruct (transform_op E o x) as [[y a]|]; cbn [bind]; [|discriminate].
  destruct (align a l) as [m|] eqn:A; cbn [bind]; [|discriminate]. intros B. exists y, a. split; [reflexivity|].
  apply survives_one. exists m. auto.
Qed.

(** ** C92 *)

Example ex_merge :
  back env0 MergeWhiteSpaceCharacters (SStr (txt "a  b")) [1; 2; 2; 3] = Ok [1; 2; 2; 3] /\
  back env0 MergeWhiteSpaceCharacters (SStr (txt "a  b")) [1; 2; 0; 3] = Ok [1; 2; 2; 3].
Proof. split; vm_compute; reflexivity. Qed.
Example ex_int :
  back env0 IntTokenWithSpace (SStr (txt "a12")) [1; 2; 2] = Ok [1; 2; 2] /\
  back env0 IntTokenWithSpace (SStr (txt "a12")) [1; 2; 3] = Ok [1; 2; 2] /\
  back env0 FloatToken (SStr (txt "1.5x")) [2; 2; 2; 0] = Ok [2; 2; 2; 0].
Proof. repeat split; vm_compute; reflexivity. Qed.
Definition ah : Z := 21834.      (* U+554A, a stopword *)
Example ex_stop : exists ps, munched false stopword_set [ah; 97] ps /\
  back env0 StopwordsToWhitespace (SStr [ah; 97]) [0; 1] = Ok [0; 1] /\
  back env0 StopwordsToWhitespace (SStr [ah; 97]) [2; 1] = Ok [0; 1].
Proof.
  destruct (munched_exists false stopword_set [ah; 97]) as (ps & H). exists ps. split; [exact H|].
  split; vm_compute; reflexivity.
Qed.
Example ex_strip :
  back env0 StripWhiteSpaceCharacters (SStr (txt " a ")) [0; 7; 0] = Ok [0; 7; 0] /\
  back env0 StripWhiteSpaceCharacters (SStr (txt " a ")) [1; 7; 0] = Ok [0; 7; 0].
Proof. split; vm_compute; reflexivity. Qed.
Example ex_endpoint :
  back env0 PunctuationExceptEndpointToWhitespace (SStr (txt "a,b.")) [1; 0; 2; 3] = Ok [1; 0; 2; 3] /\
  back env0 PunctuationExceptEndpointToWhitespace (SStr (txt "a,b.")) [1; 9; 2; 3] = Ok [1; 0; 2; 3].
Proof. split; vm_compute; reflexivity. Qed.
Example ex_replace : exists find,
  re_compile env0 (txt "x") = Some find /\ in_bounds find /\
  replaced find (fun _ => txt "yy") (txt "axx") 0 [(txt "a", None); (txt "x", Some (txt "yy")); ([], None); (txt "x", Some (txt "yy")); ([], None)] /\
  back env0 (ReplaceAwithB (txt "x") (txt "yy")) (SStr (txt "axx")) [1; 2; 3] = Ok [1; 2; 3] /\
  back env0 (ReplaceAwithB (txt "x") []) (SStr (txt "axa")) [1; 2; 3] = Ok [1; 0; 3].
Proof.
  eexists. split; [reflexivity|]. split; [apply ScanProofs.search_in_bounds|]. split.
  - apply (rep_match (search (RLit (txt "x"))) (fun _ => txt "yy") (txt "axx") 0 1 2 _); [cbn; lia|reflexivity|].
    apply (rep_match (search (RLit (txt "x"))) (fun _ => txt "yy") (txt "axx") 2 2 3 _); [cbn; lia|reflexivity|].
    apply (rep_end (search (RLit (txt "x"))) (fun _ => txt "yy") (txt "axx") 3). now left.
  - split; vm_compute; reflexivity.
Qed.
Example ex_pad :
  back env0 (Pad 2 (tk "p")) (SLst [tk "a"; tk "b"; tk "c"]) [1; 2; 0] = Ok [1; 2; 0] /\
  back env0 (Pad 2 (tk "p")) (SLst [tk "a"; tk "b"; tk "c"]) [1; 2; 3] = Ok [1; 2; 0].
Proof. split; vm_compute; reflexivity. Qed.

Definition ab_words : list str := [txt "ab"; txt "c"].
Example ex_custom : exists o ps, make_custom (Some ab_words) false = Ok o /\ munched false ab_words (txt "abc") ps /\
  back env0 o (SStr (txt "abc")) [4; 4; 5] = Ok [4; 4; 5] /\ back env0 o (SStr (txt "abc")) [4; 5; 5] = Ok [4; 4; 5].
Proof.
  eexists. destruct (munched_exists false ab_words (txt "abc")) as (ps & H). exists ps. split; [vm_compute; reflexivity|].
  split; [exact H|]. split; vm_compute; reflexivity.
Qed.
Example ex_char :
  back env0 CharTokenizer (SStr (txt "ab")) [1; 2] = Ok [1; 2] /\ ~ u32_labels [1; -2] /\
  back env0 CharTokenizer (SStr (txt "ab")) [1; -2] = Ok [1; 0].
Proof.
  split; [vm_compute; reflexivity|]. split; [|vm_compute; reflexivity].
  intros H. inversion H as [|? ? _ Q]; subst. inversion Q as [|? ? Q' _]; subst. lia.
Qed.

(** An empty token has no pieces: its label is lost. *)
Example ex_subwords : exists outs, Forall2 (subwords [txt "un"; txt "##do"] (tk "U") 9) [txt "undo"; []] outs /\
  ~ two_empty [txt "undo"; []] /\
  back env0 (SpanSubwords [txt "un"; txt "##do"] (tk "U") 9) (SLst [tk "undo"; tk ""]) [1; 0] = Ok [1; 0] /\
  back env0 (SpanSubwords [txt "un"; txt "##do"] (tk "U") 9) (SLst [tk "undo"; tk ""]) [1; 2] = Ok [1; 0] /\
  two_empty [txt "undo"; []; []] /\
  back env0 (SpanSubwords [txt "un"; txt "##do"] (tk "U") 9) (SLst [tk "undo"; tk ""; tk ""]) [1; 0; 0] = Err AssertionErr /\
  back env0 (SpanSubwords [txt "un"; txt "##do"] (tk "U") (-1)) (SLst [tk "undo"; tk ""; tk ""]) [1; 2; 3] = Ok [1; 2; 3].
Proof.
  assert (N : ~ two_empty [txt "undo"; []]).
  { intros [(Q & _)|[(_ & Q)|[]]]; discriminate Q. }
  destruct (ListOpProofs.subwords_maps env0 [txt "un"; txt "##do"] (tk "U") 9 [txt "undo"; []]) as (outs & H & _).
  - apply env0_python.
  - exact N.
  - exists outs. split; [exact H|]. split; [exact N|]. split; [vm_compute; reflexivity|]. split; [vm_compute; reflexivity|].
    split; [right; left; split; reflexivity|]. split; vm_compute; reflexivity.
Qed.
Example ex_harmless : harmless (Pad 3 (tk "p")) (SLst [tk "a"]) /\
  back env0 (Pad 3 (tk "p")) (SLst [tk "a"]) [-5] = Ok [-5] /\
  back env0 AddWhitespaceAroundPunctuation (SStr (txt "a,b")) [1; 2; 3] = Ok [1; 2; 3].
Proof. split; [cbn; lia|]. split; vm_compute; reflexivity. Qed.

(** ** C93 *)

(** The labels of the result, those that come back, and those of the result of the second trip. *)
Definition trips (E : env) (p : pipe) (x : pseq) (l : list Z) : res (list Z * list Z * list Z) :=
  '(_, als, _) <- transform_sequence E p x ;; m <- align_all als l ;; l' <- align_inverse_all E als m ;;
  m' <- align_all als l' ;; Ok (m, l', m').
Lemma trips_by E p x l m l' m' : trips E p x l = Ok (m, l', m') -> exists y als coll,
  transform_sequence E p x = Ok (y, als, coll) /\
  align_all als l = Ok m /\ align_inverse_all E als m = Ok l' /\ align_all als l' = Ok m'.
Proof.
  unfold trips. destruct (transform_sequence E p x) as [[[y als] coll]|]; cbn [bind]; [|discriminate].
  destruct (align_all als l) as [m0|] eqn:A; cbn [bind]; [|discriminate].
  destruct (align_inverse_all E als m0) as [l0|] eqn:B; cbn [bind]; [|discriminate].
  destruct (align_all als l0) as [m1|] eqn:C; cbn [bind]; [|discriminate]. intros [= <- <- <-].
  exists y, als, coll. auto.
Qed.

Definition h_orderly : list call :=
  [(obj "Lowercase" [], None); (obj "MergeWhiteSpaceCharacters" [], None); (obj "CharTokenizer" [], None);
   (obj "AddSosEos" [], None); (obj "Pad" [JInt 4], None)].
Definition p_orderly : pipe := after pipe_new h_orderly.
Example ex_orderly : reachable env0 p_orderly /\ orderly (map o_op (steps p_orderly)) /\
  trips env0 p_orderly (SStr (txt "A  bc")) [1; 2; 3; 4; 5] = Ok ([0; 1; 2; 4], [1; 2; 2; 4; 0], [0; 1; 2; 4]).
Proof.
  split; [apply after_reachable; [|apply r_new];
    repeat constructor; cbn [fst]; apply obj_made; try reflexivity; eexists; reflexivity|].
  split; [|vm_compute; reflexivity].
  exists [Lowercase; MergeWhiteSpaceCharacters], [CharTokenizer].
  eexists [AddSosEos _ _; Pad _ _]. split; [reflexivity|].
  split; [repeat constructor|]. split; [cbn; lia|repeat constructor].
Qed.

Definition h_middle : list call :=
  [(obj "Lowercase" [], None); (obj "IntTokenWithSpace" [], None); (obj "StripWhiteSpaceCharacters" [], None)].
Definition p_middle : pipe := after pipe_new h_middle.
Example ex_middle : reachable env0 p_middle /\ orderly (map o_op (steps p_middle)) /\
  trips env0 p_middle (SStr (txt "A12")) [1; 2; 3] = Ok ([1; 0; 2; 2; 2; 2; 2], [1; 2; 2], [1; 0; 2; 2; 2; 2; 2]).
Proof.
  split; [apply after_reachable; [|apply r_new];
    repeat constructor; cbn [fst]; apply obj_made; try reflexivity; eexists; reflexivity|].
  split; [|vm_compute; reflexivity].
  exists [Lowercase], [IntTokenWithSpace], [StripWhiteSpaceCharacters]. split; [reflexivity|].
  split; [repeat constructor|]. split; [cbn; lia|repeat constructor].
Qed.

Definition h_returns : list call :=
  [(obj "StripWhiteSpaceCharacters" [], None); (obj "EngTokenizer" [], None); (obj "PureNum2Token" [], None)].
Definition p_returns : pipe := after pipe_new h_returns.
Example ex_returns : reachable env0 p_returns /\ Forall reversible (map o_op (steps p_returns)) /\
  trips env0 p_returns (SStr (txt " ab 1")) [0; 1; 1; 0; 2] = Ok ([1; 2], [0; 1; 1; 0; 2], [1; 2]).
Proof.
  split; [apply after_reachable; [|apply r_new];
    repeat constructor; cbn [fst]; apply obj_made; try reflexivity; eexists; reflexivity|].
  split; [repeat constructor|vm_compute; reflexivity].
Qed.

Lemma re_env_regexes : regexes re_env.
Proof.
  intros a find HC. assert (HC' := HC). cbn [re_compile re_env] in HC'. unfold compile in HC'.
  destruct (parse a) as [r| | |] eqn:HP; try discriminate HC'.
  destruct (read_compiles re_env word0 a r (re_env_re a) HP) as (f & HF & B & _).
  rewrite HC in HF. injection HF as ->. exact B.
Qed.

(** Two operators in a row that both spread labels: the second trip changes labels again. *)
Definition again_calls : list (str * list (str * jval) * option str) :=
  [(lit "ReplaceAwithB", [(lit "a", JStr (txt "a")); (lit "b", JStr (txt "yx"))], None);
   (lit "ReplaceAwithB", [(lit "a", JStr (txt "xy")); (lit "b", JStr (txt "w"))], None)].
Theorem again_refuted : exists E p x y als coll l m l' m' l'', python E /\ regexes E /\ reachable E p /\
  transform_sequence E p x = Ok (y, als, coll) /\
  align_all als l = Ok m /\ align_inverse_all E als m = Ok l' /\
  align_all als l' = Ok m' /\ align_inverse_all E als m' = Ok l'' /\ m' <> m /\ l'' <> l'.
Proof.
  exists re_env. eexists. exists (SStr (txt "aaa")). do 3 eexists. exists [1; 2; 3]. do 4 eexists.
  split; [exact re_env_python|]. split; [exact re_env_regexes|].
  split; [apply (add_calls_reachable re_env imported again_calls pipe_new);
    [apply Forall_forall; intros c HC; apply PipeLaws.valueb_ok; revert c HC; apply forallb_forall; vm_compute; reflexivity
    |apply r_new|vm_compute; reflexivity]|].
  split; [vm_compute; reflexivity|].
  split; [vm_compute; reflexivity|]. split; [vm_compute; reflexivity|]. split; [vm_compute; reflexivity|].
  split; [vm_compute; reflexivity|]. split; discriminate.
Qed.

(** ** Pipes that replace numbers *)

Theorem readme_settles E p x y als coll : python E -> regexes E -> token_letters E ->
  add_calls E imported pipe_new readme_calls = (p, None) ->
  transform_sequence E p x = Ok (y, als, coll) -> settles E als.
Proof.
  intros PY RX TL HA. apply (numbers_settle E PY RX); [exact TL|exact (add_calls_reachable E imported _ _ _ readme_values (r_new E) HA)|].
  rewrite (readme_ops E p HA). exists [], [IntTokenWithSpace; FloatTokenWithSpace], [MergeWhiteSpaceCharacters; StripWhiteSpaceCharacters], EngTokenizer.
  eexists [AddSosEos _ _; Pad _ _; Token2Index _ _]. split; [reflexivity|]. split; [constructor|].
  split; [repeat constructor; cbn; tauto|]. split; [repeat constructor; cbn; tauto|]. split; [cbn; tauto|repeat constructor].
Qed.

Lemma env0_token_letters : token_letters env0.
Proof. intros c H. cbn [txt map] in H. repeat (destruct H as [<-|H]; [vm_compute; reflexivity|]). destruct H. Qed.

Definition h_numbers : list call :=
  [(obj "FloatTokenWithSpace" [], None); (obj "IntTokenWithSpace" [], None); (obj "MergeWhiteSpaceCharacters" [], None); (obj "EngTokenizer" [], None)].
Definition p_numbers : pipe := after pipe_new h_numbers.
Example ex_numbers : reachable env0 p_numbers /\ numbered (map o_op (steps p_numbers)) /\
  map o_op (steps p_numbers) = [FloatTokenWithSpace; IntTokenWithSpace] ++ [MergeWhiteSpaceCharacters] ++ [EngTokenizer] /\
  trips env0 p_numbers (SStr (txt "ab1.5 23")) [1; 2; 3; 3; 0; 4; 5; 6] = Ok ([1; 3; 3; 3; 5; 5; 5], [1; 1; 3; 3; 3; 0; 5; 5], [1; 3; 3; 3; 5; 5; 5]) /\
  trips env0 p_numbers (SStr (txt "ab1.5 23")) [1; 1; 3; 3; 3; 0; 5; 5] = Ok ([1; 3; 3; 3; 5; 5; 5], [1; 1; 3; 3; 3; 0; 5; 5], [1; 3; 3; 3; 5; 5; 5]).
Proof.
  split; [apply after_reachable; [|apply r_new];
    repeat constructor; cbn [fst]; apply obj_made; try reflexivity; eexists; reflexivity|].
  split; [|split; [reflexivity|split; vm_compute; reflexivity]].
  exists [], [FloatTokenWithSpace; IntTokenWithSpace], [MergeWhiteSpaceCharacters], EngTokenizer, [].
  split; [reflexivity|]. split; [constructor|].
  split; [repeat constructor; cbn; tauto|]. split; [repeat constructor; cbn; tauto|]. split; [cbn; tauto|constructor].
Qed.

(** The labels of "ab" are those of a word, and the two numbers have one label each. *)
Example ex_number_wise : number_wise env0 [FloatTokenWithSpace; IntTokenWithSpace] (by_punct env0) (txt "ab1.5 23") [1; 1; 3; 3; 3; 0; 5; 5] /\
  blanked env0 [FloatTokenWithSpace; IntTokenWithSpace] (txt "ab1.5 23") =
    [(txt "ab", None); (txt "1.5", Some (txt "   ")); (txt " ", None); (txt "23", Some (txt "  "))] /\ is_space env0 95 = false.
Proof.
  split; [|split; vm_compute; reflexivity].
  destruct ex_numbers as (_ & _ & O & _ & T). destruct (trips_by _ _ _ _ _ _ _ T) as (y & als & coll & R & A & B & _).
  apply (numbers_survive env0 p_numbers (txt "ab1.5 23") y als coll [FloatTokenWithSpace; IntTokenWithSpace] [MergeWhiteSpaceCharacters] EngTokenizer (by_punct env0) env0_python env0_token_letters
    eq_refl ltac:(repeat constructor; cbn; tauto) ltac:(repeat constructor; cbn; tauto) ltac:(right; now left) O R).
  eexists. split; [exact A|exact B].
Qed.
