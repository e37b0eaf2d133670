(** Property theorems C21, C25-C30, C32-C36, C52 (tokens, vocabularies, tokenizers).  The concrete cases that meet the
    hypotheses are in [OpsWitness.v]. *)

From Coq Require Import String Ascii.
From Verif Require Import Py Edit Labels Regex Trie Murmur Ops SpecEdit SpecLabels SpecSeg SpecRuns
  SpecWords SpecScan SpecOps SpecHash SegProofs RunsProofs WordProofs TrieProofs OpProofs StrOpProofs
  ScanProofs ListOpProofs TokProofs HashProofs AlignProofs OpLaws OpsWitness.
From Coq Require Import List.

(** C21 *)
Theorem C21_pure_numbers : forall E tok ts, ord_ok (ord_e E) ->
  maps E (PureNum2Token tok) any_labels (SLst (map ETok ts))
    (SLst (map (fun t => if pure_number E t then tok else ETok t) ts)) keep keep.
Proof. exact purenum_maps. Qed.
Print Assumptions C21_pure_numbers.

Theorem C21_not_a_string : forall E tok ts i l,
  transform_op E (PureNum2Token tok) (SLst (map ETok ts ++ EIdx i :: l)) = Err TypeErr.
Proof. exact purenum_type_error. Qed.
Print Assumptions C21_not_a_string.

(** C25 *)
Theorem C25_pad : forall E maxlen pad l,
  ord_ok (ord_e E) -> (0 <= maxlen)%Z ->
  (Z.of_nat (length l) < 2 ^ 32)%Z \/ Z.of_nat (length l) = maxlen ->
  let m := Z.to_nat maxlen in
  maps E (Pad maxlen pad) any_labels (SLst l)
    (SLst (firstn m l ++ repeat pad (m - length l)))
    (fun ls => firstn m ls ++ repeat 0%Z (m - length l))
    (fun ls => firstn (length l) ls ++ repeat 0%Z (length l - m)).
Proof. exact pad_maps. Qed.
Print Assumptions C25_pad.

Theorem C25_idempotent : forall E maxlen pad l,
  ord_ok (ord_e E) -> (0 <= maxlen)%Z ->
  (Z.of_nat (length l) < 2 ^ 32)%Z \/ Z.of_nat (length l) = maxlen ->
  idempotent E (Pad maxlen pad) (SLst l).
Proof. exact pad_idempotent. Qed.
Print Assumptions C25_idempotent.

Theorem C25_round_trip : forall E maxlen pad l,
  ord_ok (ord_e E) -> (0 <= maxlen)%Z -> (Z.of_nat (length l) < 2 ^ 32)%Z ->
  (Z.of_nat (length l) <= maxlen)%Z -> restores E (Pad maxlen pad) (SLst l).
Proof. exact pad_restores. Qed.
Print Assumptions C25_round_trip.

Theorem C25_negative : forall E maxlen pad l,
  (maxlen < 0)%Z -> transform_op E (Pad maxlen pad) (SLst l) = Err OverflowErr.
Proof. exact pad_negative. Qed.
Print Assumptions C25_negative.

Theorem C25_too_long : forall E maxlen pad l,
  (2 ^ 32 <= Z.of_nat (length l))%Z -> Z.of_nat (length l) <> maxlen ->
  transform_op E (Pad maxlen pad) (SLst l) = Err OverflowErr.
Proof. exact pad_too_long. Qed.
Print Assumptions C25_too_long.

(** C26 *)
Theorem C26_sos_eos : forall E sos eos l,
  ord_ok (ord_e E) -> l <> [] -> (Z.of_nat (length l) < 2 ^ 32)%Z ->
  maps E (AddSosEos sos eos) any_labels (SLst l) (SLst (sos :: l ++ [eos]))
    (fun ls => 0%Z :: ls ++ [0%Z]) (fun ls => firstn (length l) (tl ls)).
Proof. exact soseos_maps. Qed.
Print Assumptions C26_sos_eos.

Theorem C26_end_token : forall E eos l,
  ord_ok (ord_e E) -> (Z.of_nat (length l) < 2 ^ 32)%Z ->
  maps E (AddEndToken eos) any_labels (SLst l) (SLst (l ++ [ETok eos]))
    (fun ls => ls ++ [0%Z]) (firstn (length l)).
Proof. exact end_maps. Qed.
Print Assumptions C26_end_token.

Theorem C26_round_trip : forall E sos eos eos' l,
  ord_ok (ord_e E) -> l <> [] -> (Z.of_nat (length l) < 2 ^ 32)%Z ->
  restores E (AddSosEos sos eos) (SLst l) /\ restores E (AddEndToken eos') (SLst l).
Proof. exact (fun E sos eos eos' l O N L => conj (soseos_restores E sos eos l O N L) (end_restores E eos' l O L)). Qed.
Print Assumptions C26_round_trip.

Theorem C26_end_token_empty : forall E eos l,
  ord_ok (ord_e E) -> (Z.of_nat (length l) < 2 ^ 32)%Z -> restores E (AddEndToken eos) (SLst l).
Proof. exact end_restores. Qed.
Print Assumptions C26_end_token_empty.

Theorem C26_empty_list : forall E sos eos y a,
  ord_ok (ord_e E) -> transform_op E (AddSosEos sos eos) (SLst []) = Ok (y, a) ->
  ((sos <> eos /\ (y = SLst [sos; eos] \/ y = SLst [eos; sos])) \/ (sos = eos /\ y = SLst [sos])) /\
  sound_lengths E a 0 (pseq_length y) (representable (AddSosEos sos eos)) False.
Proof. exact soseos_empty. Qed.
Print Assumptions C26_empty_list.

Theorem C26_empty_list_order_refuted : exists E1 E2 sos eos y1 a1 y2 a2,
  python E1 /\ python E2 /\
  transform_op E1 (AddSosEos sos eos) (SLst []) = Ok (y1, a1) /\
  transform_op E2 (AddSosEos sos eos) (SLst []) = Ok (y2, a2) /\ y1 <> y2.
Proof. exact soseos_empty_order_refuted. Qed.
Print Assumptions C26_empty_list_order_refuted.

Theorem C26_same_tokens_refuted : exists E t a,
  python E /\ transform_op E (AddSosEos t t) (SLst []) = Ok (SLst [t], a).
Proof. exact soseos_same_token_refuted. Qed.
Print Assumptions C26_same_tokens_refuted.

Theorem C26_too_long : forall E sos eos eos' l, (2 ^ 32 <= Z.of_nat (length l))%Z ->
  transform_op E (AddSosEos sos eos) (SLst l) = Err OverflowErr /\
  transform_op E (AddEndToken eos') (SLst l) = Err OverflowErr.
Proof. exact (fun E sos eos eos' l H => conj (soseos_too_long E sos eos l H) (end_too_long E eos' l H)). Qed.
Print Assumptions C26_too_long.

Theorem C26_construction : forall t,
  (t = [] -> make_end t = Err ValueErr) /\ (t <> [] -> make_end t = Ok (AddEndToken t)).
Proof. exact make_end_checks. Qed.
Print Assumptions C26_construction.

(** C27 *)
Theorem C27_construction : forall d unk,
  (continuous d /\ In unk (map fst d) -> make_token2index d unk = Ok (Token2Index d unk)) /\
  (d <> [] /\ continuous d /\ ~ In unk (map fst d) -> make_token2index d unk = Err KeyErr) /\
  (~ (d <> [] /\ continuous d) -> make_token2index d unk = Err ValueErr).
Proof. exact make_token2index_spec. Qed.
Print Assumptions C27_construction.

Theorem C27_indices : forall E d unk l,
  ord_ok (ord_e E) -> In unk (map fst d) ->
  exists out, Forall2 (index_of d unk) l out /\
    maps E (Token2Index d unk) any_labels (SLst l) (SLst out) keep keep.
Proof. exact token2index_maps. Qed.
Print Assumptions C27_indices.

Theorem C27_range : forall E d unk o l y a,
  python E -> make_token2index d unk = Ok o -> transform_op E o (SLst l) = Ok (SLst y, a) ->
  Forall (fun z => exists i, z = EIdx i /\ (0 <= i < Z.of_nat (length d))%Z) y.
Proof. exact index_range. Qed.
Print Assumptions C27_range.

Theorem C27_injective : forall d k k' i,
  is_dict d -> continuous d -> In (k, i) d -> In (k', i) d -> k = k'.
Proof. exact continuous_inj. Qed.
Print Assumptions C27_injective.

(** C28 *)
Theorem C28_construction : forall d : list (str * Z),
  (d <> [] /\ continuous d -> make_hash d = Ok (Token2IndexwithHash d)) /\
  (~ (d <> [] /\ continuous d) -> make_hash d = Err ValueErr).
Proof. exact make_hash_spec. Qed.
Print Assumptions C28_construction.

Theorem C28_indices : forall E d ts,
  ord_ok (ord_e E) -> d <> [] -> (Z.of_nat (length d) < M)%Z ->
  (forall t, In t ts -> Forall code_point t /\ (Z.of_nat (length t) < 2 ^ 29)%Z) ->
  exists out, Forall2 (hashed_index d) ts out /\
    maps E (Token2IndexwithHash d) any_labels (SLst (map ETok ts)) (SLst (map EIdx out))
      keep keep.
Proof. exact hash_maps. Qed.
Print Assumptions C28_indices.

Theorem C28_range : forall d t i,
  d <> [] -> continuous d -> hashed_index d t i -> (0 <= i < Z.of_nat (length d))%Z.
Proof. exact hashed_range. Qed.
Print Assumptions C28_range.

Theorem C28_not_a_string : forall E d ts i l,
  (Z.of_nat (length d) < M)%Z ->
  transform_op E (Token2IndexwithHash d) (SLst (map ETok ts ++ EIdx i :: l)) = Err TypeErr.
Proof. exact hash_type_error. Qed.
Print Assumptions C28_not_a_string.

(** C29 *)
Theorem C29_pieces : forall E vocab unk maxlen ts y a,
  ord_ok (ord_e E) ->
  transform_op E (SpanSubwords vocab unk maxlen) (SLst (map ETok ts)) = Ok (y, a) ->
  exists outs, Forall2 (subwords vocab unk maxlen) ts outs /\ y = SLst (concat outs).
Proof. exact subwords_pieces. Qed.
Print Assumptions C29_pieces.

Theorem C29_always_succeeds : forall E vocab unk maxlen ts,
  ord_ok (ord_e E) ->
  exists y a, transform_op E (SpanSubwords vocab unk maxlen) (SLst (map ETok ts)) = Ok (y, a).
Proof. exact subwords_total. Qed.
Print Assumptions C29_always_succeeds.

Theorem C29_split_is_unique : forall vocab unk maxlen t out out',
  subwords vocab unk maxlen t out -> subwords vocab unk maxlen t out' -> out = out'.
Proof. exact subwords_det. Qed.
Print Assumptions C29_split_is_unique.

Theorem C29_pieces_join : forall vocab first t ps,
  splits vocab first t ps ->
  (forall p, In p ps -> In p vocab) /\
  t = concat (match ps with
              | [] => []
              | p :: qs => (if first then p else skipn 2 p) :: map (skipn 2) qs
              end).
Proof. exact splits_join. Qed.
Print Assumptions C29_pieces_join.

Theorem C29_empty_tokens_vanish : forall vocab unk maxlen out, (0 <= maxlen)%Z ->
  subwords vocab unk maxlen [] out -> out = [].
Proof. exact subwords_empty. Qed.
Print Assumptions C29_empty_tokens_vanish.

(** C30 *)
Theorem C30_labels : forall E vocab unk maxlen ts,
  ord_ok (ord_e E) -> ~ ((0 <= maxlen)%Z /\ two_empty ts) ->
  exists outs, Forall2 (subwords vocab unk maxlen) ts outs /\
    maps E (SpanSubwords vocab unk maxlen) any_labels (SLst (map ETok ts)) (SLst (concat outs))
      (repeat_each outs) (gather outs).
Proof. exact subwords_maps_all. Qed.
Print Assumptions C30_labels.

Theorem C30_round_trip : forall E vocab unk maxlen ts,
  ord_ok (ord_e E) -> (forall t, In t ts -> t <> []) ->
  restores E (SpanSubwords vocab unk maxlen) (SLst (map ETok ts)).
Proof. exact subwords_restores. Qed.
Print Assumptions C30_round_trip.

Theorem C30_empty_tokens_refuted : exists E vocab unk maxlen ts y a l l',
  python E /\ transform_op E (SpanSubwords vocab unk maxlen) (SLst (map ETok ts)) = Ok (y, a) /\
  align a l = Ok l' /\ align_inverse E a l' = Err AssertionErr.
Proof. exact subwords_empty_refuted. Qed.
Print Assumptions C30_empty_tokens_refuted.

(** C32 *)
Theorem C32_only_whitespace_lost : forall E s, python E ->
  loses_only_space E WhiteSpaceTokenizer s /\ loses_only_space E EngTokenizer s /\
  loses_only_space E ZhCharTokenizer s.
Proof. exact (fun E s P => conj (ws_lossless E s (proj1 P)) (conj (eng_lossless E s P) (zh_lossless E s P))). Qed.
Print Assumptions C32_only_whitespace_lost.

Theorem C32_nothing_lost : forall E ws sh o s, ord_ok (ord_c E) -> make_custom (Some ws) sh = Ok o ->
  lossless E CharTokenizer s /\ lossless E o s.
Proof. exact (fun E ws sh o s O M => conj (char_lossless E s O) (custom_lossless E ws sh o s O M)). Qed.
Print Assumptions C32_nothing_lost.

(** C33 *)
Theorem C33_char_tokenizer : forall E s, ord_ok (ord_c E) ->
  tokenizes E CharTokenizer s (map (fun c => ([c], true)) s).
Proof. exact char_tokenizes. Qed.
Print Assumptions C33_char_tokenizer.

Theorem C33_whitespace_tokenizer : forall E s ps, ord_ok (ord_c E) -> cut (by_space E) s ps ->
  tokenizes E WhiteSpaceTokenizer s (kept ps).
Proof. exact ws_tokenizes. Qed.
Print Assumptions C33_whitespace_tokenizer.

Theorem C33_back_and_forth : forall E ws sh o s, python E -> make_custom (Some ws) sh = Ok o ->
  restores_back E CharTokenizer (SStr s) u32_labels /\
  restores_back E WhiteSpaceTokenizer (SStr s) u32_labels /\
  restores_back E EngTokenizer (SStr s) u32_labels /\
  restores_back E ZhCharTokenizer (SStr s) u32_labels /\
  restores_back E o (SStr s) u32_labels.
Proof. exact (fun E ws sh o s P M => conj (char_back E s (proj1 P)) (conj (ws_back E s (proj1 P)) (conj (eng_back E s P) (conj (zh_back E s P) (custom_back E ws sh o s (proj1 P) M))))). Qed.
Print Assumptions C33_back_and_forth.

Theorem C33_mode_is_most_common : forall l, l <> [] -> first_mode (mode l) l.
Proof. exact mode_first_mode. Qed.
Print Assumptions C33_mode_is_most_common.

(** C34 *)
Theorem C34_construction : forall ws,
  (fresh_words ws /\ exists t, trie_of ws = Ok t) \/
  (~ fresh_words ws /\ trie_of ws = Err AttributeErr).
Proof. exact trie_build. Qed.
Print Assumptions C34_construction.

Theorem C34_exact_search : forall ws t q,
  trie_of ws = Ok t -> (exactly_search t q = true <-> In q ws /\ q <> []).
Proof. exact trie_search. Qed.
Print Assumptions C34_exact_search.

Theorem C34_match_prefix : forall ws t q sh,
  trie_of ws = Ok t ->
  match match_prefix t q sh with
  | Some w => best_word sh ws q w
  | None => no_word ws q
  end.
Proof. exact trie_match. Qed.
Print Assumptions C34_match_prefix.

Theorem C34_empty_word_refuted : exists ws t, trie_of ws = Ok t /\ In [] ws /\ exactly_search t [] = false.
Proof. exact trie_empty_word_refuted. Qed.
Print Assumptions C34_empty_word_refuted.

(** C35 *)
Theorem C35_construction : forall ws sh,
  (ws <> [] /\ fresh_words ws /\ exists o, make_custom (Some ws) sh = Ok o) \/
  (ws <> [] /\ ~ fresh_words ws /\ make_custom (Some ws) sh = Err AttributeErr) \/
  (ws = [] /\ make_custom (Some ws) sh = Err ValueErr).
Proof. exact make_custom_spec. Qed.
Print Assumptions C35_construction.

Theorem C35_without_words : forall sh, make_custom None sh = Err ValueErr.
Proof. exact make_custom_none. Qed.
Print Assumptions C35_without_words.

Theorem C35_maximal_munch : forall E ws sh o s ps,
  ord_ok (ord_c E) -> make_custom (Some ws) sh = Ok o -> munched sh ws s ps ->
  tokenizes E o s (all_kept (map fst ps)).
Proof. exact custom_tokenizes. Qed.
Print Assumptions C35_maximal_munch.

Theorem C35_segmentation_exists : forall sh ws s,
  (exists ps, munched sh ws s ps) /\
  forall ps ps', munched sh ws s ps -> munched sh ws s ps' -> ps = ps'.
Proof. exact (fun sh ws s => conj (munched_exists sh ws s) (munched_unique sh ws s)). Qed.
Print Assumptions C35_segmentation_exists.

(** C36 *)
Theorem C36_eng_tokenizer : forall E s ps,
  ord_ok (ord_c E) -> is_space E 32 = true -> cut (by_punct E) s ps ->
  tokenizes E EngTokenizer s (kept ps).
Proof. exact eng_tokenizes. Qed.
Print Assumptions C36_eng_tokenizer.

Theorem C36_zh_char_tokenizer : forall E s ps,
  ord_ok (ord_c E) -> is_space E 32 = true -> cut (by_punct_cjk E) s ps ->
  tokenizes E ZhCharTokenizer s (kept ps).
Proof. exact zh_tokenizes. Qed.
Print Assumptions C36_zh_char_tokenizer.

Theorem C36_cut_exists : forall k s,
  (exists ps, cut k s ps) /\ forall ps ps', cut k s ps -> cut k s ps' -> ps = ps'.
Proof. exact (fun k s => conj (ex_intro _ (cut_by k s) (cut_by_cut k s)) (cut_det k s)). Qed.
Print Assumptions C36_cut_exists.

(** C52 *)
Theorem C52_murmur3 : forall data seed,
  Forall byte data -> (0 <= seed < M)%Z -> (Z.of_nat (length data) < M)%Z ->
  murmur3_32 data seed = murmur data seed /\ (0 <= murmur data seed < M)%Z.
Proof. exact (fun data seed B S L => conj (murmur_ok data seed B S L) (murmur_bound data seed)). Qed.
Print Assumptions C52_murmur3.

Theorem C52_utf8 : forall s,
  (Forall code_point s -> existsb surrogate s = false ->
   exists bs, utf8 s = Ok bs /\ Forall byte bs /\ decode bs = Some s /\ length bs <= 4 * length s) /\
  (existsb surrogate s = true -> exists e, utf8 s = Err e).
Proof. exact (fun s => conj (utf8_ok s) (utf8_err s)). Qed.
Print Assumptions C52_utf8.

Theorem C52_encoding_is_unique : forall bs t, decode bs = Some t -> utf8 t = Ok bs.
Proof. exact decode_utf8. Qed.
Print Assumptions C52_encoding_is_unique.

Theorem C52_consistent_hash : forall s n,
  Forall code_point s -> (Z.of_nat (length s) < 2 ^ 29)%Z -> (0 <= n < M)%Z ->
  (existsb surrogate s = false ->
   exists bs, decode bs = Some s /\ Forall byte bs /\
      consistent_hash s n = Ok (if (n =? 0)%Z then 0%Z else (murmur bs 0 mod n)%Z)) /\
  (existsb surrogate s = true -> consistent_hash s n = Ok 0%Z).
Proof. exact consistent_hash_spec. Qed.
Print Assumptions C52_consistent_hash.

Theorem C52_hash_range : forall s n h, consistent_hash s n = Ok h -> (0 < n)%Z -> (0 <= h < n)%Z.
Proof. exact consistent_hash_range. Qed.
Print Assumptions C52_hash_range.
