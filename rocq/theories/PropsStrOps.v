(** Property theorems C14-C24, C31, C54 (str -> str operators).  The concrete cases that meet the
    hypotheses are in [OpsWitness.v]. *)

From Coq Require Import String Ascii.
From Verif Require Import Py Edit Labels Regex Trie Murmur Ops SpecEdit SpecLabels SpecSeg SpecRuns
  SpecWords SpecScan SpecOps SpecHash SegProofs RunsProofs WordProofs TrieProofs OpProofs StrOpProofs
  ScanProofs ListOpProofs TokProofs HashProofs AlignProofs OpLaws OpsWitness.
From Coq Require Import List.

(** C14 *)
Theorem C14_label_lengths : forall E o x y a,
  python E -> built E o -> transform_op E o x = Ok (y, a) ->
  sound_lengths E a (pseq_length x) (pseq_length y) (representable o) (deletes_twice E o x).
Proof. exact all_sound. Qed.
Print Assumptions C14_label_lengths.

Theorem C14_inverse_always_succeeds_refuted : (exists E o s y a l, python E /\ built E o /\ transform_op E o (SStr s) = Ok (y, a) /\
     length l = pseq_length y /\ align_inverse E a l = Err AssertionErr) /\
  (exists E o ts y a l, python E /\ built E o /\
     transform_op E o (SLst (map ETok ts)) = Ok (y, a) /\
     length l = pseq_length y /\ align_inverse E a l = Err AssertionErr).
Proof. exact touching_refuted. Qed.
Print Assumptions C14_inverse_always_succeeds_refuted.

(** C15 *)
Theorem C15_lowercase : forall E s, ord_ok (ord_c E) ->
  maps E Lowercase any_labels (SStr s) (SStr (map lower s)) keep keep.
Proof. exact lowercase_maps. Qed.
Print Assumptions C15_lowercase.

Theorem C15_idempotent : forall E s, ord_ok (ord_c E) -> idempotent E Lowercase (SStr s).
Proof. exact lower_idempotent. Qed.
Print Assumptions C15_idempotent.

(** C16 *)
Theorem C16_runs_to_one_blank : forall E s, ord_ok (ord_c E) ->
  rewrites E MergeWhiteSpaceCharacters s (seg_runs (is_space E) (fun _ => Some blank) s)
    by_mode by_mode.
Proof. exact merge_rewrites. Qed.
Print Assumptions C16_runs_to_one_blank.

Theorem C16_no_adjacent_whitespace : forall E s y a,
  ord_ok (ord_c E) -> is_space E 32 = true ->
  transform_op E MergeWhiteSpaceCharacters (SStr s) = Ok (SStr y, a) ->
  forall i c d, nth_error y i = Some c -> nth_error y (S i) = Some d ->
  is_space E c = false \/ is_space E d = false.
Proof. exact merge_no_adjacent. Qed.
Print Assumptions C16_no_adjacent_whitespace.

Theorem C16_idempotent : forall E s, ord_ok (ord_c E) -> is_space E 32 = true ->
  idempotent E MergeWhiteSpaceCharacters (SStr s).
Proof. exact merge_idempotent. Qed.
Print Assumptions C16_idempotent.

Theorem C16_other_labels_survive : forall E s, ord_ok (ord_c E) ->
  restores_where E MergeWhiteSpaceCharacters s (fun c => negb (is_space E c)).
Proof. exact merge_where. Qed.
Print Assumptions C16_other_labels_survive.

(** C17 *)
Theorem C17_strip : forall E s, ord_ok (ord_c E) ->
  let p := is_space E in
  maps E StripWhiteSpaceCharacters any_labels (SStr s) (SStr (strip p s))
    (fun l => firstn (length (strip p s)) (skipn (lead p s) l))
    (fun l => repeat 0%Z (lead p s) ++ l ++
              repeat 0%Z (length s - lead p s - length (strip p s))).
Proof. exact strip_maps. Qed.
Print Assumptions C17_strip.

Theorem C17_back_and_forth : forall E s, ord_ok (ord_c E) ->
  restores_back E StripWhiteSpaceCharacters (SStr s) any_labels.
Proof. exact strip_restores_back. Qed.
Print Assumptions C17_back_and_forth.

Theorem C17_idempotent : forall E s, ord_ok (ord_c E) ->
  idempotent E StripWhiteSpaceCharacters (SStr s).
Proof. exact strip_idempotent. Qed.
Print Assumptions C17_idempotent.

Theorem C17_after_merge : forall E s y a,
  ord_ok (ord_c E) -> is_space E 32 = true ->
  transform_op E MergeWhiteSpaceCharacters (SStr s) = Ok (y, a) ->
  exists b, transform_op E StripWhiteSpaceCharacters y
            = Ok (SStr (joined blank (words (is_space E) s)), b).
Proof. exact merge_then_strip. Qed.
Print Assumptions C17_after_merge.

(** C18 *)
Theorem C18_int_token : forall E s, ord_ok (ord_c E) ->
  rewrites E IntToken s (int_like E (txt "_int_") s) by_mode by_entity_mode.
Proof. exact int_rewrites. Qed.
Print Assumptions C18_int_token.

Theorem C18_int_token_labels : forall E s, ord_ok (ord_c E) ->
  restores_kept E IntToken s (int_like E (txt "_int_") s).
Proof. exact int_kept. Qed.
Print Assumptions C18_int_token_labels.

Theorem C18_int_token_with_space : forall E s, ord_ok (ord_c E) ->
  rewrites E IntTokenWithSpace s (int_like E (txt " _int_ ") s) (around by_mode) by_entity_mode.
Proof. exact int_space_rewrites. Qed.
Print Assumptions C18_int_token_with_space.

Theorem C18_int_token_with_space_labels : forall E s, ord_ok (ord_c E) ->
  restores_kept E IntTokenWithSpace s (int_like E (txt " _int_ ") s).
Proof. exact int_space_kept. Qed.
Print Assumptions C18_int_token_with_space_labels.

Theorem C18_num_token_with_space : forall E s, ord_ok (ord_c E) ->
  rewrites E NumTokenWithSpace s (int_like E (txt " _num_ ") s) (around by_mode) by_entity_mode.
Proof. exact num_space_rewrites. Qed.
Print Assumptions C18_num_token_with_space.

Theorem C18_num_token_with_space_labels : forall E s, ord_ok (ord_c E) ->
  restores_kept E NumTokenWithSpace s (int_like E (txt " _num_ ") s).
Proof. exact num_space_kept. Qed.
Print Assumptions C18_num_token_with_space_labels.

Theorem C18_no_number_left : forall E (tok : str) s,
  tok <> [] -> (forall c, In c tok -> point c || digit E c = false) ->
  Forall (fun r => forallb (digit E) r = false)
    (class_runs (fun c => point c || digit E c) (news (int_like E tok s))).
Proof. exact (fun E tok s => number_left E (forallb (digit E)) tok s). Qed.
Print Assumptions C18_no_number_left.

Theorem C18_idempotent : forall E s, ord_ok (ord_c E) ->
  (forall c, In c (txt " _int_ _num_ ") -> point c || digit E c = false) ->
  idempotent E IntToken (SStr s) /\ idempotent E IntTokenWithSpace (SStr s) /\
  idempotent E NumTokenWithSpace (SStr s).
Proof. exact int_idempotent. Qed.
Print Assumptions C18_idempotent.

(** C19 *)
Theorem C19_float_token : forall E s, ord_ok (ord_c E) ->
  rewrites E FloatToken s (float_like E (txt "_float_") s) by_mode by_entity_mode.
Proof. exact float_rewrites. Qed.
Print Assumptions C19_float_token.

Theorem C19_float_token_labels : forall E s, ord_ok (ord_c E) ->
  restores_kept E FloatToken s (float_like E (txt "_float_") s).
Proof. exact float_kept. Qed.
Print Assumptions C19_float_token_labels.

Theorem C19_float_token_with_space : forall E s, ord_ok (ord_c E) ->
  rewrites E FloatTokenWithSpace s (float_like E (txt " _float_ ") s) (around by_mode) by_entity_mode.
Proof. exact float_space_rewrites. Qed.
Print Assumptions C19_float_token_with_space.

Theorem C19_float_token_with_space_labels : forall E s, ord_ok (ord_c E) ->
  restores_kept E FloatTokenWithSpace s (float_like E (txt " _float_ ") s).
Proof. exact float_space_kept. Qed.
Print Assumptions C19_float_token_with_space_labels.

Theorem C19_no_number_left : forall E (tok : str) s,
  tok <> [] -> (forall c, In c tok -> point c || digit E c = false) ->
  Forall (fun r => is_decimal (digit E) r = false)
    (class_runs (fun c => point c || digit E c) (news (float_like E tok s))).
Proof. exact (fun E tok s => number_left E (is_decimal (digit E)) tok s). Qed.
Print Assumptions C19_no_number_left.

Theorem C19_idempotent : forall E s, ord_ok (ord_c E) ->
  (forall c, In c (txt " _float_ ") -> point c || digit E c = false) ->
  idempotent E FloatToken (SStr s) /\ idempotent E FloatTokenWithSpace (SStr s).
Proof. exact float_idempotent. Qed.
Print Assumptions C19_idempotent.

(** C20 *)
Theorem C20_search_is_leftmost : forall r s p, p <= length s ->
  match search r s p with
  | Some (i, e) => p <= i /\ i <= e /\ e <= length s /\ rmatch s r i e /\
                   forall j e', p <= j < i -> ~ rmatch s r j e'
  | None => forall j e', p <= j <= length s -> ~ rmatch s r j e'
  end.
Proof. exact search_leftmost. Qed.
Print Assumptions C20_search_is_leftmost.

Theorem C20_scan_takes_leftmost_matches : forall E p b r s y a,
  ord_ok (ord_c E) -> re_compile E p = Some (search r) ->
  transform_op E (ReplaceAwithB p b) (SStr s) = Ok (y, a) ->
  exists sg, covered r (fun _ => b) s 0 sg /\ olds sg = s /\ y = SStr (news sg).
Proof. exact replace_leftmost. Qed.
Print Assumptions C20_scan_takes_leftmost_matches.

Theorem C20_any_engine : forall E p b find s y a,
  ord_ok (ord_c E) -> re_compile E p = Some find -> in_bounds find ->
  transform_op E (ReplaceAwithB p b) (SStr s) = Ok (y, a) ->
  exists sg, replaced find (fun _ => b) s 0 sg /\ olds sg = s /\ y = SStr (news sg).
Proof. exact replace_pieces. Qed.
Print Assumptions C20_any_engine.

Theorem C20_labels : forall E a b find s sg,
  ord_ok (ord_c E) -> re_compile E a = Some find -> in_bounds find ->
  replaced find (fun _ => b) s 0 sg -> ~ deleted_twice sg ->
  rewrites E (ReplaceAwithB a b) s sg by_entity_mode by_entity_mode.
Proof. exact replace_rewrites. Qed.
Print Assumptions C20_labels.

Theorem C20_labels_lost : forall E a b find s sg,
  ord_ok (ord_c E) -> re_compile E a = Some find -> in_bounds find ->
  replaced find (fun _ => b) s 0 sg -> deleted_twice sg ->
  exists al, transform_op E (ReplaceAwithB a b) (SStr s) = Ok (SStr (news sg), al) /\
    (forall l, length l = length s -> align al l = Ok (relabel by_entity_mode sg l)) /\
    forall l, length l = length (news sg) -> align_inverse E al l = Err AssertionErr.
Proof. exact replace_lost. Qed.
Print Assumptions C20_labels_lost.

Theorem C20_ends_without_empty_match : forall E p b find s,
  ord_ok (ord_c E) -> re_compile E p = Some find -> in_bounds find ->
  (forall q i e, find s q = Some (i, e) -> i < e) ->
  exists y a, transform_op E (ReplaceAwithB p b) (SStr s) = Ok (y, a).
Proof. exact replace_total. Qed.
Print Assumptions C20_ends_without_empty_match.

Theorem C20_empty_match_diverges : forall E a b find s,
  re_compile E a = Some find -> in_bounds find -> stuck find s 0 ->
  (forall fuel, scan fuel find (fun _ => b) s 0 [] = Err OutOfFuel) /\
  transform_op E (ReplaceAwithB a b) (SStr s) = Err OutOfFuel.
Proof. exact replace_diverges. Qed.
Print Assumptions C20_empty_match_diverges.

Theorem C20_always_ends_refuted : exists E a b s,
  python E /\ make_replace E a b = Ok (ReplaceAwithB a b) /\
  forall y, transform_op E (ReplaceAwithB a b) (SStr s) <> Ok y.
Proof. exact replace_terminates_refuted. Qed.
Print Assumptions C20_always_ends_refuted.

Theorem C20_construction : forall E a b,
  (re_compile E a = None -> make_replace E a b = Err ReErr) /\
  (re_compile E a <> None -> make_replace E a b = Ok (ReplaceAwithB a b)).
Proof. exact make_replace_checks. Qed.
Print Assumptions C20_construction.

(** C22 *)
Theorem C22_punctuation_to_blank : forall E s, ord_ok (ord_c E) ->
  let p := endless_punct E in
  maps E PunctuationExceptEndpointToWhitespace any_labels (SStr s)
    (SStr (map (fun c => if p c then 32%Z else c) s)) (zero_where p s) (zero_where p s).
Proof. exact endpoint_maps. Qed.
Print Assumptions C22_punctuation_to_blank.

Theorem C22_idempotent : forall E s, ord_ok (ord_c E) -> is_pcat E 32 = false ->
  idempotent E PunctuationExceptEndpointToWhitespace (SStr s).
Proof. exact endpoint_idempotent. Qed.
Print Assumptions C22_idempotent.

(** C23 *)
Theorem C23_around_cjk : forall E s, ord_ok (ord_c E) ->
  rewrites E AddWhitespaceAroundCJK s (spaced cjk s) (around same) by_entity_mode.
Proof. exact cjk_rewrites. Qed.
Print Assumptions C23_around_cjk.

Theorem C23_around_punctuation : forall E s, ord_ok (ord_c E) ->
  rewrites E AddWhitespaceAroundPunctuation s (spaced (punctuation E) s) (around same)
    by_entity_mode.
Proof. exact punct_rewrites. Qed.
Print Assumptions C23_around_punctuation.

Theorem C23_round_trip : forall E s, ord_ok (ord_c E) ->
  restores E AddWhitespaceAroundCJK (SStr s) /\ restores E AddWhitespaceAroundPunctuation (SStr s).
Proof. exact (fun E s O => conj (cjk_restores E s O) (punct_restores E s O)). Qed.
Print Assumptions C23_round_trip.

Theorem C23_only_blanks_added : forall E s y a, ord_ok (ord_c E) ->
  transform_op E AddWhitespaceAroundCJK (SStr s) = Ok (SStr y, a) \/
  transform_op E AddWhitespaceAroundPunctuation (SStr s) = Ok (SStr y, a) ->
  filter not_blank y = filter not_blank s.
Proof. exact spaced_only_blanks. Qed.
Print Assumptions C23_only_blanks_added.

(** C24 *)
Theorem C24_construction : forall ws sh,
  (ws <> [] /\ fresh_words ws /\ exists o, make_wordn (Some ws) sh = Ok o) \/
  (ws <> [] /\ ~ fresh_words ws /\ make_wordn (Some ws) sh = Err AttributeErr) \/
  (ws = [] /\ make_wordn (Some ws) sh = Err ValueErr).
Proof. exact make_wordn_spec. Qed.
Print Assumptions C24_construction.

Theorem C24_without_words : forall sh, make_wordn None sh = Err ValueErr.
Proof. exact make_wordn_none. Qed.
Print Assumptions C24_without_words.

Theorem C24_around_words : forall E ws sh o s ps,
  ord_ok (ord_c E) -> make_wordn (Some ws) sh = Ok o -> munched sh ws s ps ->
  rewrites E o s (word_spaced ps) (around same) without_ends.
Proof. exact wordn_ok. Qed.
Print Assumptions C24_around_words.

Theorem C24_segmentation_exists : forall sh ws s,
  (exists ps, munched sh ws s ps) /\
  forall ps ps', munched sh ws s ps -> munched sh ws s ps' -> ps = ps'.
Proof. exact (fun sh ws s => conj (munched_exists sh ws s) (munched_unique sh ws s)). Qed.
Print Assumptions C24_segmentation_exists.

Theorem C24_round_trip : forall E ws sh o s,
  ord_ok (ord_c E) -> make_wordn (Some ws) sh = Ok o -> restores E o (SStr s).
Proof. exact wordn_restores. Qed.
Print Assumptions C24_round_trip.

Theorem C24_only_blanks_added : forall E ws sh o s y a,
  ord_ok (ord_c E) -> make_wordn (Some ws) sh = Ok o ->
  transform_op E o (SStr s) = Ok (SStr y, a) -> filter not_blank y = filter not_blank s.
Proof. exact wordn_filter. Qed.
Print Assumptions C24_only_blanks_added.

(** C31 *)
Theorem C31_strip_accents : forall E s, ord_ok (ord_c E) ->
  (length (stripped E s) = length s ->
   maps E StripAccentToken any_labels (SStr s) (SStr (stripped E s)) keep keep) /\
  (length (stripped E s) <> length s ->
   transform_op E StripAccentToken (SStr s) = Err AssertionErr).
Proof. exact accent_maps. Qed.
Print Assumptions C31_strip_accents.

(** C54 *)
Theorem C54_stopwords : forall E s ps,
  ord_ok (ord_c E) -> munched false stopword_set s ps ->
  rewrites E StopwordsToWhitespace s (stop_spaced ps) by_zero by_zero.
Proof. exact stop_ok. Qed.
Print Assumptions C54_stopwords.

Theorem C54_other_labels_survive : forall E s ps,
  ord_ok (ord_c E) -> munched false stopword_set s ps ->
  restores_kept E StopwordsToWhitespace s (stop_spaced ps).
Proof. exact stop_kept. Qed.
Print Assumptions C54_other_labels_survive.
