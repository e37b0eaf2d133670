(** Specification vocabulary for the operators: character classes, constants and what it
    means that an operator rewrites a text and its labels in a given way.  The classes and
    constants are written independently of the model's. *)

From Coq Require Import String Ascii.
From Verif Require Import Py Edit Labels SpecEdit SpecLabels SpecSeg SpecRuns SpecWords SpecScan Ops.
From Coq Require Import List.

(** ** Constants, as literals *)

Definition txt (s : string) : str :=
  List.map (fun c => Z.of_nat (nat_of_ascii c)) (list_ascii_of_string s).

(** ** Character classes *)

Local Open Scope Z_scope.

Definition between (lo hi : string) (c : Z) : bool :=
  match txt lo, txt hi with
  | [a], [b] => (a <=? c) && (c <=? b)
  | _, _ => false
  end.

Definition ascii_capital : Z -> bool := between "A" "Z".
Definition ascii_small : Z -> bool := between "a" "z".
Definition ascii_digit : Z -> bool := between "0" "9".

(** A to Z become a to z, by position in the alphabet. *)
Definition lower (c : Z) : Z := if ascii_capital c then c - 65 + 97 else c.

(** First and last code points of the CJK ideograph blocks: Unified Ideographs, Extensions A
    to E, and the two Compatibility blocks. *)
Definition cjk_blocks : list (Z * Z) :=
  [(13312, 19903); (19968, 40959); (63744, 64255); (131072, 173791); (173824, 177983);
   (177984, 178207); (178208, 183983); (194560, 195103)].
Definition cjk (c : Z) : bool :=
  existsb (fun b => (fst b <=? c) && (c <=? snd b)) cjk_blocks.

(** Printable ASCII that is neither a letter, a digit nor the space, and category P. *)
Definition punctuation (E : env) (c : Z) : bool :=
  (between "!" "~" c && negb (ascii_capital c || ascii_small c || ascii_digit c)) || is_pcat E c.

(** Decimal digits and the full-width digits. *)
Definition digit (E : env) (c : Z) : bool :=
  is_digit E c || existsb (Z.eqb c)
    [65296; 65297; 65298; 65299; 65300; 65301; 65302; 65303; 65304; 65305].

Definition point : Z -> bool := fun c => existsb (Z.eqb c) (txt ".").
Definition blank : str := txt " ".

Local Close Scope Z_scope.

(** ** What an aligner does *)

(** [a] maps [n] labels to [m] labels by [F] and back by [G], for label lists that satisfy
    [ok]; any other number of labels is a ValueError. *)
Definition aligns (E : env) (a : aligner) (ok : list Z -> Prop) (n m : nat)
  (F G : list Z -> list Z) : Prop :=
  (forall l, length l = n -> ok l -> align a l = Ok (F l) /\ length (F l) = m) /\
  (forall l, length l <> n -> align a l = Err ValueErr) /\
  (forall l, length l = m -> ok l -> align_inverse E a l = Ok (G l) /\ length (G l) = n) /\
  (forall l, length l <> m -> align_inverse E a l = Err ValueErr).

Definition any_labels (l : list Z) : Prop := True.
Definition keep (l : list Z) : list Z := l.

(** The operator turns [x] into [y], and the labels follow [F] and [G]. *)
Definition maps (E : env) (o : op) (ok : list Z -> Prop) (x y : pseq) (F G : list Z -> list Z)
  : Prop :=
  exists a, transform_op E o x = Ok (y, a) /\ aligns E a ok (pseq_length x) (pseq_length y) F G.

(** The operator rewrites [s] piece by piece; labels of replaced pieces follow the rules
    [h] (forward) and [k] (backward), other labels are kept. *)
Definition rewrites (E : env) (o : op) (s : str) (sg : list (seg Z)) (h k : rule) : Prop :=
  olds sg = s /\
  maps E o any_labels (SStr s) (SStr (news sg)) (relabel h sg) (relabel k (swap sg)).

Definition rewrites_lst (E : env) (o : op) (l : list elem) (sg : list (seg elem)) (h k : rule)
  : Prop :=
  olds sg = l /\
  maps E o any_labels (SLst l) (SLst (news sg)) (relabel h sg) (relabel k (swap sg)).

(** ** What the str -> str operators should do *)

(** Whole numbers: maximal runs of digits without a point. *)
Definition int_like (E : env) (tok : str) (s : str) : list (seg Z) :=
  seg_runs (fun c => point c || digit E c)
    (fun r => if forallb (digit E) r then Some tok else None) s.
(** Decimal numbers: digits, a point, digits, not part of a longer such run. *)
Definition float_like (E : env) (tok : str) (s : str) : list (seg Z) :=
  seg_runs (fun c => point c || digit E c)
    (fun r => if is_decimal (digit E) r then Some tok else None) s.

(** Number of leading characters in the class. *)
Definition lead (p : Z -> bool) (s : str) : nat := length s - length (lstrip p s).

(** Characters of the class surrounded by one space. *)
Definition spaced (cls : Z -> bool) (s : str) : list (seg Z) :=
  map (fun c => ([c], if cls c then Some (blank ++ [c] ++ blank) else None)) s.

(** Punctuation other than the full stop. *)
Definition endless_punct (E : env) (c : Z) : bool := punctuation E c && negb (point c).

(** Labels of the characters of a class set to 0. *)
Definition zero_where (p : Z -> bool) (s : str) (l : list Z) : list Z :=
  map (fun cx => if p (fst cx) then 0%Z else snd cx) (combine s l).

(** Words, and single Chinese characters, surrounded by one space. *)
Definition word_spaced (ps : list (str * bool)) : list (seg Z) :=
  map (fun p : str * bool =>
         (fst p, if snd p || forallb cjk (fst p) then Some (blank ++ fst p ++ blank) else None)) ps.

(** The words of stopwords.txt, as a sorted set. *)
Local Open Scope Z_scope.
Definition stopword_set : list str :=
  [[21543]; [21543; 22112]; [21553]; [21568]; [21571]; [21602]; [21621]; [21624];
   [21628; 21735]; [21643]; [21658]; [21670]; [21683]; [21703]; [21705]; [21710];
   [21710; 21568]; [21710; 21938]; [21734]; [21737]; [21738]; [21756]; [21756; 21815];
   [21764]; [21769]; [21815]; [21834]; [21840]; [21861]; [21862]; [21866; 36948];
   [21890]; [21903]; [21908; 21815]; [21938]; [21966]; [21978]; [21978; 21628]; [21985;
   21985]; [21999]; [22030]; [22030; 30331]; [22036]; [22057]; [22075]; [22079];
   [22099]; [22127]; [22217]].
Local Close Scope Z_scope.

(** Stopwords replaced by a space. *)
Definition stop_spaced (ps : list (str * bool)) : list (seg Z) :=
  map (fun p : str * bool => (fst p, if snd p then Some blank else None)) ps.

(** Canonical decomposition without the non-spacing marks. *)
Definition stripped (E : env) (s : str) : str := filter (fun c => negb (is_mn E c)) (nfd E s).

(** ** Tokenizers *)

(** Pieces of the text in order; the flag says whether the piece is a token or dropped. *)
Definition tokens_of (ps : list (str * bool)) : list str := map fst (filter snd ps).
Definition text_of (ps : list (str * bool)) : str := concat (map fst ps).

(** Every token gets the most common label of its characters. *)
Fixpoint token_labels (ps : list (str * bool)) (labels : list Z) : list Z :=
  match ps with
  | [] => []
  | (w, keep) :: ps =>
      let here := firstn (length w) labels in
      let rest := token_labels ps (skipn (length w) labels) in
      if keep then mode here :: rest else rest
  end.

(** Every character gets the label of its token, dropped ones 0. *)
Fixpoint char_labels (ps : list (str * bool)) (labels : list Z) : list Z :=
  match ps with
  | [] => []
  | (w, true) :: ps => repeat (hd 0%Z labels) (length w) ++ char_labels ps (tl labels)
  | (w, false) :: ps => repeat 0%Z (length w) ++ char_labels ps labels
  end.

(** Labels that do not fit a C unsigned int: a token with such a character gets 0. *)
Definition fits (x : Z) : bool := ((0 <=? x) && (x <? 4294967296))%Z.
Fixpoint token_labels32 (ps : list (str * bool)) (labels : list Z) : list Z :=
  match ps with
  | [] => []
  | (w, keep) :: ps =>
      let here := firstn (length w) labels in
      let rest := token_labels32 ps (skipn (length w) labels) in
      if keep then (if forallb fits here then mode here else 0%Z) :: rest else rest
  end.

(** The operator produces the tokens of [ps]; labels follow [token_labels] and
    [char_labels]; labels that do not fit are handled as above on the way forward, and
    refused with an OverflowError on the way back. *)
Definition tokenizes (E : env) (o : op) (s : str) (ps : list (str * bool)) : Prop :=
  text_of ps = s /\
  exists a, transform_op E o (SStr s) = Ok (SLst (map ETok (tokens_of ps)), a) /\
    aligns E a u32_labels (length s) (length (tokens_of ps)) (token_labels ps) (char_labels ps) /\
    (forall l, length l = length s -> align a l = Ok (token_labels32 ps l)) /\
    (forall l, length l = length (tokens_of ps) -> ~ u32_labels l ->
       align_inverse E a l = Err OverflowErr).

(** Pieces that are all tokens. *)
Definition all_kept (ts : list str) : list (str * bool) := map (fun t => (t, true)) ts.

(** Characters that separate tokens, that are a token on their own, that form words. *)
Inductive kind : Type := Gap | Single | Word.

Definition same_run (a b : kind) : bool :=
  match a, b with Gap, Gap | Word, Word => true | _, _ => false end.

(** A piece that consists of characters of its kind. *)
Definition of_kind (k : Z -> kind) (x : str * kind) : Prop :=
  fst x <> [] /\ (forall c, In c (fst x) -> k c = snd x) /\
  (snd x = Single -> length (fst x) = 1).

(** No two neighbouring pieces belong to one run. *)
Fixpoint separate (ps : list (str * kind)) : Prop :=
  match ps with
  | x :: ((y :: _) as t) => same_run (snd x) (snd y) = false /\ separate t
  | _ => True
  end.

(** The cut of a text that the kinds of its characters determine. *)
Definition cut (k : Z -> kind) (s : str) (ps : list (str * kind)) : Prop :=
  concat (map fst ps) = s /\ Forall (of_kind k) ps /\ separate ps.

(** The gaps are dropped. *)
Definition kept (ps : list (str * kind)) : list (str * bool) :=
  map (fun x : str * kind => (fst x, match snd x with Gap => false | _ => true end)) ps.

Definition by_space (E : env) (c : Z) : kind := if is_space E c then Gap else Word.
Definition by_punct (E : env) (c : Z) : kind :=
  if is_space E c then Gap else if punctuation E c then Single else Word.
Definition by_punct_cjk (E : env) (c : Z) : kind :=
  if is_space E c then Gap else if punctuation E c || cjk c then Single else Word.

(** ** WordPiece *)

(** [##] in front of every piece but the first. *)
Definition marked (first : bool) (w : str) : str := if first then w else txt "##" ++ w.

(** Greedy longest-match-first splitting. *)
Inductive splits (vocab : list str) : bool -> str -> list str -> Prop :=
| split_end first : splits vocab first [] []
| split_step first w rest ps :
    w <> [] -> In (marked first w) vocab ->
    (forall w' rest', w ++ rest = w' ++ rest' -> In (marked first w') vocab ->
                      length w' <= length w) ->
    splits vocab false rest ps ->
    splits vocab first (w ++ rest) (marked first w :: ps).

(** What becomes of one token. *)
Definition subwords (vocab : list str) (unk : elem) (maxlen : Z) (t : str) (out : list elem)
  : Prop :=
  ((Z.of_nat (length t) <= maxlen)%Z /\ exists ps, splits vocab true t ps /\ out = map ETok ps) \/
  (((Z.of_nat (length t) > maxlen)%Z \/ ~ exists ps, splits vocab true t ps) /\ out = [unk]).

(** Every piece gets the label of its token. *)
Definition repeat_each (outs : list (list elem)) (l : list Z) : list Z :=
  concat (map (fun ox => repeat (snd ox) (length (fst ox))) (combine outs l)).

(** Every token gets the most common entity label of its pieces, 0 if there is none. *)
Fixpoint gather (outs : list (list elem)) (l : list Z) : list Z :=
  match outs with
  | [] => []
  | o :: outs =>
      mode (filter (fun x => negb (x =? 0)%Z) (firstn (length o) l)) ::
      gather outs (skipn (length o) l)
  end.

(** Two neighbouring tokens are empty. *)
Fixpoint two_empty (ts : list str) : Prop :=
  match ts with
  | [] => False
  | t :: ts => (t = [] /\ hd_error ts = Some []) \/ two_empty ts
  end.

(** ** Numbers *)

(** A non-empty token that consists of digits. *)
Definition pure_number (E : env) (t : str) : bool := nonempty t && forallb (digit E) t.

(** ** Indices *)

(** Vocabularies (python dicts): distinct keys, the indices are 0 .. n-1. *)
Definition is_dict {V} (d : list (str * V)) : Prop := NoDup (map fst d).
Definition continuous (d : list (str * Z)) : Prop :=
  Permutation (map snd d) (map Z.of_nat (seq 0 (length d))).

(** The index of a known token, otherwise that of the unknown-token. *)
Definition index_of (d : list (str * Z)) (unk : str) (x : elem) (y : elem) : Prop :=
  exists i, y = EIdx i /\
    match x with
    | ETok t => In (t, i) d \/ (~ In t (map fst d) /\ In (unk, i) d)
    | EIdx _ => In (unk, i) d
    end.

(** ** Operator objects *)

(** What is assumed of the python runtime: sets are iterated in some order, and the blank is
    a whitespace character. *)
Definition python (E : env) : Prop :=
  ord_ok (ord_c E) /\ ord_ok (ord_e E) /\ is_space E 32%Z = true.

(** The operators that the constructors return. *)
Inductive built (E : env) : op -> Prop :=
| built_plain o :
    In o [Lowercase; MergeWhiteSpaceCharacters; StripWhiteSpaceCharacters; IntToken;
          IntTokenWithSpace; FloatToken; FloatTokenWithSpace; NumTokenWithSpace;
          StopwordsToWhitespace; AddWhitespaceAroundCJK; AddWhitespaceAroundPunctuation;
          PunctuationExceptEndpointToWhitespace; StripAccentToken; CharTokenizer;
          WhiteSpaceTokenizer; EngTokenizer; ZhCharTokenizer] -> built E o
| built_replace a b find :
    re_compile E a = Some find -> in_bounds find -> built E (ReplaceAwithB a b)
| built_wordn ws sh o : make_wordn ws sh = Ok o -> built E o
| built_custom ws sh o : make_custom ws sh = Ok o -> built E o
| built_purenum tok : built E (PureNum2Token tok)
| built_pad m tok : built E (Pad m tok)
| built_soseos a b : built E (AddSosEos a b)
| built_end t o : make_end t = Ok o -> built E o
| built_subwords v u m : built E (SpanSubwords v u m)
| built_index d u o : make_token2index d u = Ok o -> built E o
| built_hash d o : make_hash d = Ok o -> built E o.

(** The same piece is deleted twice and nothing is left of what is between. *)
Definition deleted_twice {A} (sg : list (seg A)) : Prop :=
  exists a o mid c, sg = a ++ (o, Some []) :: mid ++ (o, Some []) :: c /\ news mid = [].

(** The inputs from which an operator deletes such pieces. *)
Definition deletes_twice (E : env) (o : op) (x : pseq) : Prop :=
  match o, x with
  | ReplaceAwithB p b, SStr s =>
      b = [] /\ exists find sg, re_compile E p = Some find /\ replaced find (fun _ => []) s 0 sg /\ deleted_twice sg
  | SpanSubwords _ _ m, SLst l => (0 <= m)%Z /\ exists ts, l = map ETok ts /\ two_empty ts
  | _, _ => False
  end.

(** Labels that the aligner can represent: the tokenizers use C unsigned ints. *)
Definition representable (o : op) (l : list Z) : Prop :=
  input_type o = output_type o \/ u32_labels l.

(** [n] labels become [m] labels and [m] labels become [n]; the way back raises
    AssertionError iff [weird]; a list of another length is a ValueError. *)
Definition sound_lengths (E : env) (a : aligner) (n m : nat) (ok : list Z -> Prop) (weird : Prop)
  : Prop :=
  (forall l, length l <> n -> align a l = Err ValueErr) /\
  (forall l, length l <> m -> align_inverse E a l = Err ValueErr) /\
  (forall l, length l = n -> exists l', align a l = Ok l' /\ length l' = m) /\
  (forall l, length l = m -> ok l ->
     (~ weird /\ exists l', align_inverse E a l = Ok l' /\ length l' = n) \/
     (weird /\ align_inverse E a l = Err AssertionErr)) /\
  (forall l, length l = m -> ~ ok l -> align_inverse E a l = Err OverflowErr).

(** ** Round trips *)

(** Whenever the operator accepts [x], sending labels forward and back gives the same
    labels. *)
Definition restores (E : env) (o : op) (x : pseq) : Prop :=
  forall y a, transform_op E o x = Ok (y, a) ->
  forall l, length l = pseq_length x ->
  exists l', align a l = Ok l' /\ align_inverse E a l' = Ok l.

(** The same for the way back and forward again, for labels that satisfy [ok]. *)
Definition restores_back (E : env) (o : op) (x : pseq) (ok : list Z -> Prop) : Prop :=
  forall y a, transform_op E o x = Ok (y, a) ->
  forall l, length l = pseq_length y -> ok l ->
  exists l', align_inverse E a l = Ok l' /\ align a l' = Ok l.

(** Labels of the characters that satisfy [p] survive the round trip. *)
Definition restores_where (E : env) (o : op) (s : str) (p : Z -> bool) : Prop :=
  forall y a, transform_op E o (SStr s) = Ok (y, a) ->
  forall l, length l = length s ->
  exists l1 l2, align a l = Ok l1 /\ align_inverse E a l1 = Ok l2 /\
    forall i c, nth_error s i = Some c -> p c = true -> nth_error l2 i = nth_error l i.

(** Applying the operator to its own output changes nothing. *)
Definition idempotent (E : env) (o : op) (x : pseq) : Prop :=
  forall y a, transform_op E o x = Ok (y, a) ->
  exists a', transform_op E o y = Ok (y, a').

(** Labels of the kept pieces survive the round trip. *)
Definition restores_kept (E : env) (o : op) (s : str) (sg : list (seg Z)) : Prop :=
  forall y a, transform_op E o (SStr s) = Ok (y, a) ->
  forall l, length l = length s ->
  exists l1 l2, align a l = Ok l1 /\ align_inverse E a l1 = Ok l2 /\
    forall sg1 w sg2, sg = sg1 ++ (w, None) :: sg2 ->
      slice l2 (length (olds sg1)) (length (olds sg1) + length w)
      = slice l (length (olds sg1)) (length (olds sg1) + length w).

(** The operator succeeds, the tokens joined are the input without its whitespace, and no token is
    empty or contains whitespace. *)
Definition loses_only_space (E : env) (o : op) (s : str) : Prop :=
  exists ts a, transform_op E o (SStr s) = Ok (SLst (map ETok ts), a) /\
    concat ts = filter (fun c => negb (is_space E c)) s /\
    Forall (fun t => t <> [] /\ forall c, In c t -> is_space E c = false) ts.

(** The operator succeeds, and the tokens joined are the input. *)
Definition lossless (E : env) (o : op) (s : str) : Prop :=
  exists ts a, transform_op E o (SStr s) = Ok (SLst (map ETok ts), a) /\ concat ts = s.

(** A trie with these words, inserted in this order. *)
Definition trie_of (ws : list str) : res trie := trie_insert_all trie_empty ws.

Definition not_blank (c : Z) : bool := negb (Z.eqb c 32).

