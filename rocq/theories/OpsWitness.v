(** Concrete cases for the operator theorems: hypotheses that hold, and refutations. *)

From Coq Require Import String Ascii.
From Verif Require Import Py Edit Labels SpecEdit SpecLabels SpecSeg SpecRuns SpecWords SpecScan
  Regex Trie Murmur Ops SpecOps SpecHash EditWitness Concrete SegProofs TrieProofs OpLaws.
From Coq Require Import List.
Local Open Scope Z_scope.

(** ** Runtimes *)

Lemma env0_python : python env0.
Proof. split; [exact ord_id_ok|]. split; [exact ord_id_ok|reflexivity]. Qed.
Lemma env1_python : python env1.
Proof. split; [exact ord_rev_ok|]. split; [exact ord_rev_ok|reflexivity]. Qed.
Lemma env0_blank : is_pcat env0 32 = false /\
  (forall c, In c (txt " _int_ _num_ _float_ ") -> point c || digit env0 c = false).
Proof.
  split; [reflexivity|]. assert (F : forallb (fun c => negb (point c || digit env0 c))
    (txt " _int_ _num_ _float_ ") = true) by reflexivity.
  rewrite forallb_forall in F. intros c Hc. apply F in Hc. now destruct (_ || _).
Qed.

(** ** C14 *)

Lemma touching_refuted :
  (exists E o s y a l, python E /\ built E o /\ transform_op E o (SStr s) = Ok (y, a) /\
     length l = pseq_length y /\ align_inverse E a l = Err AssertionErr) /\
  (exists E o ts y a l, python E /\ built E o /\
     transform_op E o (SLst (map ETok ts)) = Ok (y, a) /\
     length l = pseq_length y /\ align_inverse E a l = Err AssertionErr).
Proof.
  split.
  - exists env0, (ReplaceAwithB (txt "x") []), (txt "xx"). eexists. eexists. exists [].
    split; [exact env0_python|]. split; [apply (built_replace env0 (txt "x") [] (search (RLit (txt "x"))));
      [reflexivity|apply ScanProofs.search_in_bounds]|].
    split; [reflexivity|]. split; reflexivity.
  - exists env0, (SpanSubwords [] (ETok (txt "[UNK]")) 200), [[]; []]. eexists. eexists. exists [].
    split; [exact env0_python|]. split; [apply built_subwords|]. split; [reflexivity|]. split; reflexivity.
Qed.

Example ex_built : built env0 (Pad 4 (ETok (txt "p"))) /\ exists a,
  transform_op env0 (Pad 4 (ETok (txt "p"))) (SLst [ETok (txt "a")]) =
  Ok (SLst [ETok (txt "a"); ETok (txt "p"); ETok (txt "p"); ETok (txt "p")], a).
Proof. split; [apply built_pad|eexists; reflexivity]. Qed.

(** ** str -> str *)

Example ex_merge : exists a,
  transform_op env0 MergeWhiteSpaceCharacters (SStr (txt " a  b ")) = Ok (SStr (txt " a b "), a) /\
  align a [1; 2; 3; 4; 5; 6] = Ok [1; 2; 3; 5; 6] /\
  align_inverse env0 a [1; 2; 3; 5; 6] = Ok [1; 2; 3; 3; 5; 6].
Proof. eexists. split; [reflexivity|]. split; reflexivity. Qed.

Example ex_strip : exists a,
  transform_op env0 StripWhiteSpaceCharacters (SStr (txt " ab ")) = Ok (SStr (txt "ab"), a) /\
  align a [9; 2; 3; 9] = Ok [2; 3] /\ align_inverse env0 a [2; 3] = Ok [0; 2; 3; 0].
Proof. eexists. split; [reflexivity|]. split; reflexivity. Qed.

Example ex_int : exists a,
  transform_op env0 IntToken (SStr (txt "a12 1.5 7")) = Ok (SStr (txt "a_int_ 1.5 _int_"), a).
Proof. eexists. reflexivity. Qed.
Example ex_int_like : int_like env0 (txt "_int_") (txt "a12 1.5 7") =
  [(txt "a", None); (txt "12", Some (txt "_int_")); (txt " ", None); (txt "1.5", None);
   (txt " ", None); (txt "7", Some (txt "_int_"))].
Proof. reflexivity. Qed.
Example ex_float : exists a,
  transform_op env0 FloatToken (SStr (txt "a1.5 1.2.3 7")) = Ok (SStr (txt "a_float_ 1.2.3 7"), a).
Proof. eexists. reflexivity. Qed.
Example ex_float_like : float_like env0 (txt "_float_") (txt "a1.5 1.2.3") =
  [(txt "a", None); (txt "1.5", Some (txt "_float_")); (txt " ", None); (txt "1.2.3", None)].
Proof. reflexivity. Qed.

Example ex_replace_hyps :
  re_compile env0 (txt "x") = Some (search (RLit (txt "x"))) /\
  replaced (search (RLit (txt "x"))) (fun _ => txt "yy") (txt "axb") 0
    [(txt "a", None); (txt "x", Some (txt "yy")); (txt "b", None)].
Proof.
  split; [reflexivity|].
  apply (rep_match (search (RLit (txt "x"))) (fun _ => txt "yy") (txt "axb") 0 1 2 [(txt "b", None)]);
    [cbn; lia|reflexivity|].
  apply (rep_end _ _ (txt "axb") 2). right. reflexivity.
Qed.
Example ex_replace_total : forall q i e,
  search (RLit (txt "x")) (txt "axb") q = Some (i, e) -> (i < e)%nat.
Proof.
  intros q i e H. destruct q as [|[|[|[|q]]]]; vm_compute in H; try discriminate; injection H as <- <-; lia.
Qed.

Lemma divergence_witness : exists E a s find,
  python E /\ re_compile E a = Some find /\ in_bounds find /\ stuck find s 0.
Proof.
  exists env0, (txt "x*"), (txt "ab"), (search (RStar (Z.eqb 120))).
  split; [exact env0_python|]. split; [reflexivity|]. split; [apply ScanProofs.search_in_bounds|].
  apply stuck_here; [cbn; lia|reflexivity].
Qed.

Lemma replace_terminates_refuted : exists E a b s,
  python E /\ make_replace E a b = Ok (ReplaceAwithB a b) /\
  forall y, transform_op E (ReplaceAwithB a b) (SStr s) <> Ok y.
Proof.
  exists env0, (txt "x*"), (txt "y"), (txt "ab"). split; [exact env0_python|].
  split; [reflexivity|]. intros y. vm_compute. discriminate.
Qed.

Example ex_spaced : exists a,
  transform_op env0 AddWhitespaceAroundPunctuation (SStr (txt "a,b")) = Ok (SStr (txt "a , b"), a) /\
  align a [1; 2; 3] = Ok [1; 0; 2; 0; 3].
Proof. eexists. split; reflexivity. Qed.
Example ex_spaced_cjk : exists a,
  transform_op env0 AddWhitespaceAroundCJK (SStr (97 :: 22855 :: txt "b")) =
  Ok (SStr (txt "a " ++ 22855 :: txt " b"), a).
Proof. eexists. reflexivity. Qed.
Example ex_endpoint : exists a,
  transform_op env0 PunctuationExceptEndpointToWhitespace (SStr (txt "a,b.")) =
  Ok (SStr (txt "a b."), a) /\ align a [1; 2; 3; 4] = Ok [1; 0; 3; 4].
Proof. eexists. split; reflexivity. Qed.

(** words: [ab] and [abc] are user words *)
Example ex_munched : munched false [txt "ab"; txt "abc"] (txt "abcab")
  [(txt "abc", true); (txt "ab", true)] /\
  munched true [txt "ab"; txt "abc"] (txt "abc") [(txt "ab", true); (txt "c", false)].
Proof.
  split.
  - apply (munch_word false _ (txt "abc") (txt "ab")).
    + split; [cbn; auto|]. split; [discriminate|]. split; [now exists (txt "ab")|].
      intros w [<-|[<-|[]]] _ _; cbn; lia.
    + apply (munch_word false _ (txt "ab") []); [|constructor].
      split; [cbn; auto|]. split; [discriminate|]. split; [now exists []|].
      intros w [<-|[<-|[]]] _ [t Ht]; [cbn; lia|discriminate].
  - apply (munch_word true _ (txt "ab") (txt "c")).
    + split; [cbn; auto|]. split; [discriminate|]. split; [now exists (txt "c")|].
      intros w [<-|[<-|[]]] _ _; cbn; lia.
    + apply (munch_char true _ 99 []); [|constructor].
      intros w [<-|[<-|[]]] _ [t Ht]; discriminate.
Qed.
Example ex_wordn : exists o a, make_wordn (Some [txt "ab"; txt "abc"]) false = Ok o /\
  transform_op env0 o (SStr (txt "xabcy")) = Ok (SStr (txt "x abc y"), a) /\
  align a [9; 1; 2; 3; 8] = Ok [9; 0; 1; 2; 3; 0; 8].
Proof. eexists. eexists. split; [reflexivity|]. split; reflexivity. Qed.
Example ex_custom : exists o a, make_custom (Some [txt "ab"; txt "abc"]) false = Ok o /\
  transform_op env0 o (SStr (txt "xabcy")) = Ok (SLst [ETok (txt "x"); ETok (txt "abc"); ETok (txt "y")], a).
Proof. eexists. eexists. split; reflexivity. Qed.
Example ex_not_fresh : make_custom (Some [txt "ab"; txt "ab"]) false = Err AttributeErr.
Proof. reflexivity. Qed.
Example ex_stop : exists a,
  transform_op env0 StopwordsToWhitespace (SStr [20320; 21543; 22112; 22909; 21543]) =
  Ok (SStr [20320; 32; 22909; 32], a).
Proof. eexists. reflexivity. Qed.
Example ex_accent : exists a,
  transform_op env0 StripAccentToken (SStr [233; 97]) = Ok (SStr (txt "ea"), a) /\
  transform_op env0 StripAccentToken (SStr [101; 769]) = Err AssertionErr.
Proof. eexists. split; reflexivity. Qed.

(** ** Tokenizers *)

Example ex_cut : cut (by_punct env0) (txt "ab, c!?")
  [(txt "ab", Word); (txt ",", Single); (txt " ", Gap); (txt "c", Word);
   (txt "!", Single); (txt "?", Single)].
Proof.
  split; [reflexivity|]. split; [|cbn; tauto].
  repeat constructor; try discriminate; cbn;
    intros c Hc; repeat destruct Hc as [<-|Hc]; try reflexivity; destruct Hc.
Qed.
Example ex_eng : exists a,
  transform_op env0 EngTokenizer (SStr (txt "ab, c!?")) =
  Ok (SLst (map ETok [txt "ab"; txt ","; txt "c"; txt "!"; txt "?"]), a) /\
  align a [1; 1; 2; 9; 3; 4; 5] = Ok [1; 2; 3; 4; 5] /\
  align_inverse env0 a [1; 2; 3; 4; 5] = Ok [1; 1; 2; 0; 3; 4; 5] /\
  align_inverse env0 a [1; 2; 3; 4; -5] = Err OverflowErr /\
  align a [1; -1; 2; 9; 3; 4; 5] = Ok [0; 2; 3; 4; 5].
Proof. eexists. split; [reflexivity|]. split; [reflexivity|]. split; [reflexivity|]. split; reflexivity. Qed.
Example ex_zh : exists a,
  transform_op env0 ZhCharTokenizer (SStr (txt "ab" ++ [22855; 21033])) =
  Ok (SLst (map ETok [txt "ab"; [22855]; [21033]]), a).
Proof. eexists. reflexivity. Qed.
Example ex_char_space : exists a,
  transform_op env0 CharTokenizer (SStr (txt "a b")) =
  Ok (SLst (map ETok [txt "a"; txt " "; txt "b"]), a).
Proof. eexists. reflexivity. Qed.

(** ** lists *)

Example ex_soseos : exists a,
  transform_op env0 (AddSosEos (ETok (txt "s")) (ETok (txt "e"))) (SLst [ETok (txt "a")]) =
  Ok (SLst [ETok (txt "s"); ETok (txt "a"); ETok (txt "e")], a) /\
  align a [7] = Ok [0; 7; 0] /\ align_inverse env0 a [0; 7; 0] = Ok [7].
Proof. eexists. split; [reflexivity|]. split; reflexivity. Qed.
Lemma soseos_empty_order_refuted : exists E1 E2 sos eos y1 a1 y2 a2,
  python E1 /\ python E2 /\
  transform_op E1 (AddSosEos sos eos) (SLst []) = Ok (y1, a1) /\
  transform_op E2 (AddSosEos sos eos) (SLst []) = Ok (y2, a2) /\ y1 <> y2.
Proof.
  exists env0, env1, (ETok (txt "s")), (ETok (txt "e")). do 4 eexists.
  split; [exact env0_python|]. split; [exact env1_python|].
  split; [reflexivity|]. split; [reflexivity|]. discriminate.
Qed.
Lemma soseos_same_token_refuted : exists E t a,
  python E /\ transform_op E (AddSosEos t t) (SLst []) = Ok (SLst [t], a).
Proof. exists env0, (ETok (txt "s")). eexists. split; [exact env0_python|reflexivity]. Qed.

Example ex_pad : exists a b,
  transform_op env0 (Pad 3 (ETok (txt "p"))) (SLst [ETok (txt "a")]) =
  Ok (SLst [ETok (txt "a"); ETok (txt "p"); ETok (txt "p")], a) /\
  align a [7] = Ok [7; 0; 0] /\ align_inverse env0 a [7; 8; 9] = Ok [7] /\
  transform_op env0 (Pad 1 (ETok (txt "p"))) (SLst [ETok (txt "a"); ETok (txt "b")]) =
  Ok (SLst [ETok (txt "a")], b) /\
  align b [7; 8] = Ok [7] /\ align_inverse env0 b [7] = Ok [7; 0].
Proof. eexists. eexists. split; [reflexivity|]. split; [reflexivity|]. split; [reflexivity|].
  split; [reflexivity|]. split; reflexivity. Qed.

Definition ex_dict : list (str * Z) := [(txt "a", 1); (txt "u", 0); (txt "b", 2)].
Example ex_continuous : continuous ex_dict /\ is_dict ex_dict /\ ex_dict <> [] /\
  In (txt "u") (map fst ex_dict).
Proof.
  split; [apply perm_swap|]. split; [|split; [discriminate|cbn; auto]].
  repeat constructor; cbn; intros H; repeat destruct H as [H|H]; try discriminate; exact H.
Qed.
Example ex_not_continuous : ~ continuous [(txt "a", 1); (txt "u", 3)].
Proof.
  intros P. assert (I : In 3 (map Z.of_nat (seq 0 2))).
  { eapply Permutation_in; [exact P|]. cbn. auto. }
  cbn in I. repeat destruct I as [I|I]; try discriminate; exact I.
Qed.
Example ex_index : exists a,
  transform_op env0 (Token2Index ex_dict (txt "u")) (SLst (map ETok [txt "b"; txt "zz"; txt "a"])) =
  Ok (SLst [EIdx 2; EIdx 0; EIdx 1], a).
Proof. eexists. reflexivity. Qed.
Example ex_hash : exists a,
  transform_op env0 (Token2IndexwithHash ex_dict) (SLst (map ETok [txt "b"; txt "zz"; [55296]])) =
  Ok (SLst [EIdx 2; EIdx (murmur (txt "zz") 0 mod 3); EIdx 0], a).
Proof. eexists. vm_compute. reflexivity. Qed.
Example ex_hash_hyps : forall t, In t [txt "b"; txt "zz"; [55296]] ->
  Forall code_point t /\ Z.of_nat (length t) < 2 ^ 29.
Proof.
  intros t [<-|[<-|[<-|[]]]]; (split; [repeat constructor; unfold code_point; lia|reflexivity]).
Qed.

Definition ex_vocab : list str := map txt ["un"; "##want"; "##ed"; "runn"; "##ing"]%string.
Example ex_splits : splits ex_vocab true (txt "unwanted") [txt "un"; txt "##want"; txt "##ed"].
Proof.
  assert (H : forall (f : bool) w rest (n : nat), length w = n ->
     (forall k, (n < k <= length (w ++ rest))%nat ->
        existsb (eqb (marked f (firstn k (w ++ rest)))) ex_vocab = false) ->
     forall w' rest', w ++ rest = w' ++ rest' -> In (marked f w') ex_vocab -> (length w' <= length w)%nat).
  { intros f w rest n L K w' rest' Q I. destruct (Nat.le_gt_cases (length w') (length w)) as [G|G]; [exact G|].
    exfalso. specialize (K (length w')).
    assert (B : (n < length w' <= length (w ++ rest))%nat) by (rewrite Q, app_length; lia).
    specialize (K B). rewrite Q in K. rewrite PyFacts.firstn_app_exact in K.
    apply Bool.not_true_iff_false in K. apply K, existsb_exists. exists (marked f w').
    split; [exact I|]. now destruct (eqb_spec (marked f w') (marked f w')). }
  apply (split_step _ true (txt "un") (txt "wanted")); [discriminate|cbn; auto| |].
  { apply (H true (txt "un") (txt "wanted") 2%nat eq_refl).
    intros k B. cbn in B. do 9 (destruct k as [|k]; [try reflexivity; lia|]). lia. }
  apply (split_step _ false (txt "want") (txt "ed")); [discriminate|cbn; auto| |].
  { apply (H false (txt "want") (txt "ed") 4%nat eq_refl).
    intros k B. cbn in B. do 7 (destruct k as [|k]; [try reflexivity; lia|]). lia. }
  apply (split_step _ false (txt "ed") []); [discriminate|cbn; auto| |constructor].
  apply (H false (txt "ed") [] 2%nat eq_refl).
  intros k B. cbn in B. lia.
Qed.
Example ex_subwords : exists a,
  transform_op env0 (SpanSubwords ex_vocab (ETok (txt "[UNK]")) 200)
    (SLst (map ETok [txt "unwanted"; txt "x"; txt "running"])) =
  Ok (SLst (map ETok (map txt ["un"; "##want"; "##ed"; "[UNK]"; "runn"; "##ing"]%string)), a) /\
  align a [1; 2; 3] = Ok [1; 1; 1; 2; 3; 3] /\
  align_inverse env0 a [1; 1; 1; 2; 3; 3] = Ok [1; 2; 3].
Proof. eexists. split; [reflexivity|]. split; reflexivity. Qed.
Lemma subwords_empty_refuted : exists E vocab unk maxlen ts y a l l',
  python E /\ transform_op E (SpanSubwords vocab unk maxlen) (SLst (map ETok ts)) = Ok (y, a) /\
  align a l = Ok l' /\ align_inverse E a l' = Err AssertionErr.
Proof.
  exists env0, ex_vocab, (ETok (txt "[UNK]")), 200, [[]; []]. eexists. eexists.
  exists [1; 1], []. split; [exact env0_python|]. split; [reflexivity|]. split; reflexivity.
Qed.

Example ex_purenum : exists a,
  transform_op env0 (PureNum2Token (ETok (txt "_num_")))
    (SLst (map ETok [txt "12"; txt "1a"; []; [65297]])) =
  Ok (SLst (map ETok [txt "_num_"; txt "1a"; []; txt "_num_"]), a).
Proof. eexists. reflexivity. Qed.

(** ** Trie, hash *)

Example ex_trie : exists t, trie_of [txt "ab"; txt "abc"] = Ok t /\
  match_prefix t (txt "abcd") false = Some (txt "abc") /\
  match_prefix t (txt "abcd") true = Some (txt "ab") /\ match_prefix t (txt "b") false = None /\
  exactly_search t (txt "ab") = true /\ exactly_search t (txt "a") = false.
Proof. eexists. split; [reflexivity|]. repeat split. Qed.
Lemma trie_empty_word_refuted : exists ws t, trie_of ws = Ok t /\ In [] ws /\
  exactly_search t [] = false.
Proof. exists [[]]. eexists. split; [reflexivity|]. split; [cbn; auto|reflexivity]. Qed.

(** test_murmur_hash.py / consistent_hash tests: ("隼興", 100) and ("希臘優格", 100) *)
Example ex_hash_vectors : consistent_hash [38588; 33288] 100 = Ok 15 /\
  consistent_hash [24076; 33240; 20778; 26684] 100 = Ok 51.
Proof. split; vm_compute; reflexivity. Qed.
Example ex_decode : decode [233; 154; 188; 232; 136; 136] = Some [38588; 33288] /\
  decode [237; 160; 128] = None.
Proof. split; reflexivity. Qed.
