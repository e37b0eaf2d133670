(** Model of the operators in /repo/uttut/pipeline/ops.

    A sequence is a [str] or a list of elements (tokens, or indices produced by
    Token2Index).  [transform_op E o x] is [o.transform(x)]: the output sequence and the
    label aligner; [align] and [align_inverse] are the aligner's two methods.
    Everything that depends on the python runtime is in the record [env]. *)

From Verif Require Export Py Edit Labels Regex Trie Murmur.

(** ** Sequences *)

(** Elements of a python list: tokens and token indices.  (Other element types are not
    modelled.) *)
Inductive elem : Type := ETok (t : str) | EIdx (i : Z).

Definition elem_eqb (a b : elem) : bool :=
  match a, b with
  | ETok s, ETok t => eqb s t
  | EIdx i, EIdx j => Z.eqb i j
  | _, _ => false
  end.

Lemma elem_eqb_spec (a b : elem) : reflect (a = b) (elem_eqb a b).
Proof.
  destruct a as [s|i], b as [t|j]; cbn [elem_eqb]; try (constructor; congruence).
  - destruct (eqb_spec s t); constructor; congruence.
  - destruct (Z.eqb_spec i j); constructor; congruence.
Qed.

#[export] Instance Eqb_elem : Eqb elem := { eqb := elem_eqb; eqb_spec := elem_eqb_spec }.

Inductive pseq : Type := SStr (s : str) | SLst (l : list elem).

Definition pseq_length (x : pseq) : nat :=
  match x with SStr s => length s | SLst l => length l end.

(** ** The python runtime *)

Record env := mkEnv {
  ord_c : list (repl Z) -> list (repl Z);          (* iteration order of sets *)
  ord_e : list (repl elem) -> list (repl elem);
  is_space : Z -> bool;                            (* str.isspace, also \s *)
  is_digit : Z -> bool;                            (* \d: category Nd *)
  is_pcat : Z -> bool;                             (* category starts with P *)
  is_mn : Z -> bool;                               (* category is Mn *)
  nfd : str -> str;                                (* unicodedata.normalize("NFD", .) *)
  (* re.compile(pattern): None is re.error, otherwise pattern.search *)
  re_compile : str -> option (str -> nat -> option (nat * nat))
}.

(** ** Constants *)

Local Open Scope Z_scope.
Definition SPACE : Z := 32.
Definition DOT : Z := 46.
(** tokens.py:1-13 *)
Definition INT_TOKEN : str := [95; 105; 110; 116; 95].                  (* _int_ *)
Definition FLOAT_TOKEN : str := [95; 102; 108; 111; 97; 116; 95].       (* _float_ *)
Definition NUM_TOKEN : str := [95; 110; 117; 109; 95].                  (* _num_ *)
Definition with_space (t : str) : str := SPACE :: t ++ [SPACE].
Definition START_TOKEN : str := [60; 115; 111; 115; 62].                (* <sos> *)
Definition END_TOKEN : str := [60; 101; 111; 115; 62].                  (* <eos> *)
Definition UNK_TOKEN : str := [60; 117; 110; 107; 62].                  (* <unk> *)
Definition PAD_TOKEN : str := [60; 112; 97; 100; 62].                   (* <pad> *)
Definition HASHES : str := [35; 35].                                    (* ## *)

(** pattern_recognizers/stopwords.txt *)
Definition stopwords : list str :=
  [[21543; 22112]; [21978; 21628]; [21628; 21735]; [21710; 21568]; [21710; 21938]; [21756; 21815];
   [21866; 36948]; [21908; 21815]; [21985; 21985]; [22030; 30331]; [21543]; [21568];
   [21834]; [21602]; [21966]; [21703]; [21862]; [21738];
   [21938]; [22217]; [21815]; [21737]; [21553]; [21568];
   [21571]; [22036]; [21764]; [21978]; [21602]; [21621];
   [21624]; [21643]; [21658]; [21670]; [21683]; [21703];
   [21705]; [21710]; [22057]; [21938]; [21734]; [21737];
   [21756]; [21769]; [21834]; [21840]; [21861]; [21862];
   [21890]; [21903]; [21621]; [21999]; [22127]; [22030];
   [22099]; [22075]; [22079]].

(** ** Character classes *)

Definition in_range (lo hi c : Z) : bool := (lo <=? c) && (c <=? hi).

(** add_whitespace_around_cjk.py:38-51 (copied in
    add_whitespace_around_word_n_zhchar.py:118-131 and zh_char_tokenizer.py:63-72) *)
Definition is_cjk (c : Z) : bool :=
  in_range 0x4E00 0x9FFF c || in_range 0x3400 0x4DBF c || in_range 0x20000 0x2A6DF c
  || in_range 0x2A700 0x2B73F c || in_range 0x2B740 0x2B81F c || in_range 0x2B820 0x2CEAF c
  || in_range 0xF900 0xFAFF c || in_range 0x2F800 0x2FA1F c.

(** add_whitespace_around_punctuation.py:41-56 (copied in eng_tokenizer.py:98-109) *)
Definition is_punctuation (E : env) (c : Z) : bool :=
  in_range 33 47 c || in_range 58 64 c || in_range 91 96 c || in_range 123 126 c
  || is_pcat E c.

(** [A-Z] *)
Definition is_upper (c : Z) : bool := in_range 65 90 c.
(** [str.lower()] on a string of ASCII capitals *)
Definition ascii_lower (s : str) : str := map (fun c => c + 32) s.
(** [\d０-９] *)
Definition digit_class (E : env) (c : Z) : bool := is_digit E c || in_range 0xFF10 0xFF19 c.
(** [\.\d０-９] *)
Definition dotdigit_class (E : env) (c : Z) : bool := (c =? DOT) || digit_class E c.

(** ** Patterns *)

(** lowercase.py:32 *)
Definition re_lowercase : re := RPlus is_upper.
(** merge_whitespace_characters.py:40 *)
Definition re_merge (E : env) : re := RPlus (is_space E).
(** strip_whitespace_characters.py:40 *)
Definition re_strip (E : env) : re :=
  RAlt (RSeq RBegin (RPlus (is_space E))) (RSeq (RPlus (is_space E)) REnd).
(** int_token.py:40, int_token_with_space.py:47, num_token_with_space.py:49 *)
Definition re_int (E : env) : re :=
  RSeq (RNotBehind (dotdigit_class E))
    (RSeq (RPlus (digit_class E)) (RNotAhead (dotdigit_class E))).
(** float_token.py:30-32, float_token_with_space.py:49-51 *)
Definition re_float (E : env) : re :=
  RSeq (RNotBehind (dotdigit_class E))
    (RSeq (RPlus (digit_class E))
      (RSeq (RLit [DOT])
        (RSeq (RPlus (digit_class E)) (RNotAhead (dotdigit_class E))))).
(** pure_num_to_token.py:15 *)
Definition re_purenum (E : env) : re := RPlus (digit_class E).
(** stopwords_to_whitespace.py:43-47 *)
Definition re_stopwords : re :=
  match map RLit stopwords with
  | [] => RLit []
  | r :: rs => fold_left RAlt rs r
  end.

(** ** Label transducers defined by the operators *)

(** int_token_with_space.py:14-21, float_token_with_space.py:13-20,
    num_token_with_space.py:14-21; [token] is the class's TOKEN *)
Definition around_most_common (token : str) : transducer := fun labels _ =>
  common <- get_most_common labels (length token - 2)%nat ;;
  Ok (NOT_ENTITY :: common ++ [NOT_ENTITY]).

(** add_whitespace_around_character.py:60-62 *)
Definition around_single : transducer := fun labels _ =>
  match labels with
  | [l] => Ok [NOT_ENTITY; l; NOT_ENTITY]
  | _ => Err AssertionErr
  end.

(** add_whitespace_around_word_n_zhchar.py:143-147 *)
Definition around_all : transducer := fun labels _ =>
  Ok (NOT_ENTITY :: labels ++ [NOT_ENTITY]).

(** add_whitespace_around_word_n_zhchar.py:157-158, [labels[1:-1]] *)
Definition drop_ends : transducer := fun labels _ => Ok (removelast (tl labels)).

(** char_tokenizer.py:8-12: [pass] returns None, and assigning None to a slice is a
    TypeError. *)
Definition return_none : transducer := fun _ _ => Err TypeErr.

(** ** Label aligners (base.py:164-243) *)

Local Close Scope Z_scope.

Inductive aligner : Type :=
(* NullLabelAligner, base.py:237-243 *)
| ANull (input_length output_length : nat)
(* aligners with a str2str edit *)
| AStr (input : str) (edit : list (repl Z)) (output_length : nat) (fwd bwd : transducer)
(* aligners with a lst2lst edit *)
| ALst (input : list elem) (edit : list (repl elem)) (output_length : nat) (fwd bwd : transducer)
(* tokenizers/base.py:52-81 *)
| ATok (input : str) (edit : list (repl Z)) (spans : list span) (output_length : nat)
       (fwd bwd : transducer).

(** base.py:177-179 *)
Definition input_length (a : aligner) : nat :=
  match a with
  | ANull n _ => n
  | AStr s _ _ _ _ => length s
  | ALst l _ _ _ _ => length l
  | ATok s _ _ _ _ _ => length s
  end.

Definition output_length (a : aligner) : nat :=
  match a with
  | ANull _ n => n
  | AStr _ _ n _ _ => n
  | ALst _ _ n _ _ => n
  | ATok _ _ _ n _ _ => n
  end.

(** the aligners' [_transform]: e.g. pattern_recognizers/base.py:65-70,
    tokenizers/base.py:54-61 *)
Definition align_raw (a : aligner) (labels : list Z) : res (list Z) :=
  match a with
  | ANull _ _ => Ok labels
  | AStr _ g _ fwd _ => propagate labels g fwd
  | ALst _ g _ fwd _ => propagate labels g fwd
  | ATok _ g spans _ fwd _ =>
      l <- propagate labels g fwd ;; reduce_by_span_group l spans get_most_common_label
  end.

(** the aligners' [_inverse_transform]: e.g. pattern_recognizers/base.py:75-81,
    tokenizers/base.py:66-78 *)
Definition align_inverse_raw (E : env) (a : aligner) (labels : list Z) : res (list Z) :=
  match a with
  | ANull _ _ => Ok labels
  | AStr s g _ _ bwd => h <- inverse (ord_c E) s g ;; propagate labels h bwd
  | ALst l g _ _ bwd => h <- inverse (ord_e E) l g ;; propagate labels h bwd
  | ATok s g spans _ _ bwd =>
      h <- inverse (ord_c E) s g ;;
      l <- expand_by_span_group labels spans ;;
      propagate l h bwd
  end.

(** base.py:184-200 [LabelAligner.transform] with 220-226 *)
Definition align (a : aligner) (labels : list Z) : res (list Z) :=
  _ <- guard (length labels =? input_length a) ValueErr ;;
  out <- align_raw a labels ;;
  _ <- guard (length out =? output_length a) ValueErr ;;
  Ok out.

(** base.py:202-218 [LabelAligner.inverse_transform] *)
Definition align_inverse (E : env) (a : aligner) (labels : list Z) : res (list Z) :=
  _ <- guard (length labels =? output_length a) ValueErr ;;
  out <- align_inverse_raw E a labels ;;
  _ <- guard (length out =? input_length a) ValueErr ;;
  Ok out.

(** ** Edits of the str -> str operators *)

(** pattern_recognizers/base.py:45-58 and lowercase.py:47-61: the scanning loop.  [newv]
    computes the new value from the matched text. *)
Fixpoint scan (fuel : nat) (find : str -> nat -> option (nat * nat)) (newv : str -> str)
  (s : str) (shift : nat) (acc : list (repl Z)) : res (list (repl Z)) :=
  if length s <=? shift then Ok acc
  else match fuel with
       | 0 => Err OutOfFuel
       | S fuel =>
           match find s shift with
           | None => Ok acc
           | Some (st, en) => scan fuel find newv s en (radd acc st en (newv (slice s st en)))
           end
       end.

(** pattern_recognizers/base.py:40-60 [_gen_forward_replacement_group].  Every iteration
    with a non-empty match advances, so [length s] iterations are enough or the loop never
    ends. *)
Definition scan_group (E : env) (find : str -> nat -> option (nat * nat)) (newv : str -> str)
  (s : str) : res (list (repl Z)) :=
  acc <- scan (length s) find newv s 0 [] ;; rdone (ord_c E) acc.

(** [for i, char in enumerate(input_str): if cond(char): add(i, i + 1, newv(char))]
    (add_whitespace_around_character.py:35-42,
    punctuation_except_endpoint_to_whitespace.py:49-56) *)
Fixpoint char_edits {A} (newv : A -> option (list A)) (i : nat) (s : list A)
  (acc : list (repl A)) : list (repl A) :=
  match s with
  | [] => acc
  | c :: s => char_edits newv (S i) s
                (match newv c with Some v => radd acc i (i + 1) v | None => acc end)
  end.

Definition char_group (E : env) (newv : Z -> option str) (s : str) : res (list (repl Z)) :=
  rdone (ord_c E) (char_edits newv 0 s []).

(** strip_accent_token.py:85-100 [_strip_accents] *)
Definition strip_accents (E : env) (s : str) : str :=
  filter (fun c => negb (is_mn E c)) (nfd E s).

(** strip_accent_token.py:49-56: the loop over [zip(input_str, output_str)] *)
Fixpoint zip_edits (i : nat) (s t : str) (acc : list (repl Z)) : list (repl Z) :=
  match s, t with
  | c :: s, d :: t =>
      zip_edits (S i) s t (if Z.eqb c d then acc else radd acc i (i + 1) [d])
  | _, _ => acc
  end.

(** strip_accent_token.py:44-58 *)
Definition strip_accent_group (E : env) (s : str) : res (list (repl Z)) :=
  let t := strip_accents E s in
  _ <- guard (length s =? length t) AssertionErr ;;
  rdone (ord_c E) (zip_edits 0 s t []).

(** add_whitespace_around_word_n_zhchar.py:74-99: the loop.  Every iteration advances. *)
Fixpoint word_edits (fuel : nat) (t : trie) (shortest : bool) (s : str) (start : nat)
  (acc : list (repl Z)) : res (list (repl Z)) :=
  if length s <=? start then Ok acc
  else match fuel with
       | 0 => Err OutOfFuel
       | S fuel =>
           match match_prefix t (skipn start s) shortest with
           | Some token =>
               word_edits fuel t shortest s (start + length token)
                 (radd acc start (start + length token) (with_space token))
           | None =>
               let char := slice s start (start + 1) in
               let acc' := if forallb is_cjk char
                           then radd acc start (start + 1) (with_space char) else acc in
               word_edits fuel t shortest s (start + 1) acc'
           end
       end.

(** add_whitespace_around_word_n_zhchar.py:71-101 *)
Definition word_group (E : env) (t : trie) (shortest : bool) (s : str) : res (list (repl Z)) :=
  acc <- word_edits (length s) t shortest s 0 [] ;; rdone (ord_c E) acc.

(** ** Edits of the list -> list operators *)

(** The loops [for i, token in enumerate(input_lst)] of pure_num_to_token.py:55-64,
    span_subwords.py:69-82, token_to_index.py:69-79, token_to_index_with_hash.py:58-68:
    [newv] is the new value, [None] if the element is kept. *)
Fixpoint elem_edits (newv : elem -> res (option (list elem))) (i : nat) (l : list elem)
  (acc : list (repl elem)) : res (list (repl elem)) :=
  match l with
  | [] => Ok acc
  | x :: l =>
      v <- newv x ;;
      elem_edits newv (S i) l (match v with Some v => radd acc i (i + 1) v | None => acc end)
  end.

Definition elem_group (E : env) (newv : elem -> res (option (list elem))) (l : list elem)
  : res (list (repl elem)) :=
  acc <- elem_edits newv 0 l [] ;; rdone (ord_e E) acc.

(** pure_num_to_token.py:57-63; [findall] of a non-string is a TypeError *)
Definition purenum_newv (E : env) (token : elem) (x : elem) : res (option (list elem)) :=
  match x with
  | EIdx _ => Err TypeErr
  | ETok t => match findall_first (re_purenum E) t with
              | Some f => Ok (if eqb f t then Some [token] else None)
              | None => Ok None
              end
  end.

(** span_subwords.py:152-161: the inner loop, [end] counting down from [len(chars)]. *)
Fixpoint longest_piece (vocab : list str) (chars : str) (start n : nat) : option (str * nat) :=
  match n with
  | 0 => None
  | S n' =>
      let end_ := start + n in
      let substr := slice chars start end_ in
      let substr := if 0 <? start then HASHES ++ substr else substr in
      if memb substr vocab then Some (substr, end_) else longest_piece vocab chars start n'
  end.

(** span_subwords.py:151-171: the outer loop ([None] stands for [is_bad]). *)
Fixpoint subword_loop (fuel : nat) (vocab : list str) (chars : str) (start : nat)
  (acc : list str) : res (option (list str)) :=
  if length chars <=? start then Ok (Some acc)
  else match fuel with
       | 0 => Err OutOfFuel
       | S fuel =>
           match longest_piece vocab chars start (length chars - start) with
           | None => Ok None
           | Some (p, end_) => subword_loop fuel vocab chars end_ (acc ++ [p])
           end
       end.

(** span_subwords.py:112-171 [span_subwords] *)
Definition span_subwords (vocab : list str) (unk : elem) (maxlen : Z) (word : str)
  : res (list elem) :=
  if (Z.of_nat (length word) >? maxlen)%Z then Ok [unk]
  else r <- subword_loop (length word) vocab word 0 [] ;;
       match r with
       | None => Ok [unk]
       | Some pieces => Ok (map ETok pieces)
       end.

(** span_subwords.py:70-82; [len] of a non-string is a TypeError *)
Definition subwords_newv (vocab : list str) (unk : elem) (maxlen : Z) (x : elem)
  : res (option (list elem)) :=
  match x with
  | EIdx _ => Err TypeErr
  | ETok t => sub <- span_subwords vocab unk maxlen t ;;
              Ok (if eqb sub [x] then None else Some sub)
  end.

(** token_to_index.py:70-78.  An index in the list is not a key of the dict. *)
Definition index_newv (d : list (str * Z)) (unk : str) (x : elem) : res (option (list elem)) :=
  let found := match x with ETok t => dict_get d t | EIdx _ => None end in
  match found with
  | Some i => Ok (Some [EIdx i])
  | None => match dict_get d unk with
            | Some i => Ok (Some [EIdx i])
            | None => Err KeyErr
            end
  end.

(** token_to_index_with_hash.py:59-67; [consistent_hash] of a non-string is a TypeError *)
Definition hash_newv (d : list (str * Z)) (x : elem) : res (option (list elem)) :=
  match x with
  | EIdx _ => Err TypeErr
  | ETok t =>
      match dict_get d t with
      | Some i => Ok (Some [EIdx i])
      | None => i <- consistent_hash t (Z.of_nat (length d)) ;; Ok (Some [EIdx i])
      end
  end.

(** pad.py:51-66 *)
Definition pad_group (E : env) (maxlen : Z) (pad : elem) (l : list elem)
  : res (list (repl elem)) :=
  let seqlen := Z.of_nat (length l) in
  let diff := (maxlen - seqlen)%Z in
  if (seqlen =? maxlen)%Z then radd_all (ord_e E) []
  else if (maxlen <? seqlen)%Z then radd_all (ord_e E) [(maxlen, seqlen, [])]
  else radd_all (ord_e E) [(seqlen, seqlen, repeat pad (Z.to_nat diff))].

(** add_sos_eos.py:53-66 *)
Definition soseos_group (E : env) (sos eos : elem) (l : list elem) : res (list (repl elem)) :=
  let seqlen := Z.of_nat (length l) in
  radd_all (ord_e E) [(0%Z, 0%Z, [sos]); (seqlen, seqlen, [eos])].

(** add_end_token.py:59-64 *)
Definition end_group (E : env) (eos : str) (l : list elem) : res (list (repl elem)) :=
  let seqlen := Z.of_nat (length l) in
  radd_all (ord_e E) [(seqlen, seqlen, [ETok eos])].

(** ** Tokenizers *)

(** [str.split()]: the maximal runs of non-whitespace; [cur] is the run being read. *)
Fixpoint py_split_from (E : env) (s cur : str) : list str :=
  match s with
  | [] => match cur with [] => [] | _ => [cur] end
  | c :: s => if is_space E c
              then match cur with [] => py_split_from E s []
                                | _ => cur :: py_split_from E s [] end
              else py_split_from E s (cur ++ [c])
  end.
Definition py_split (E : env) (s : str) : list str := py_split_from E s [].

(** [" ".join(l)] *)
Fixpoint join_space (l : list str) : str :=
  match l with
  | [] => []
  | [t] => t
  | t :: l => t ++ SPACE :: join_space l
  end.

(** [output[-1].append(char)] on a non-empty list of lists *)
Fixpoint append_last (output : list str) (c : Z) : list str :=
  match output with
  | [] => []
  | [w] => [w ++ [c]]
  | w :: output => w :: append_last output c
  end.

(** eng_tokenizer.py:49-73 [_run_split_on_punc] *)
Fixpoint split_on_punc (E : env) (chars : str) (start_new_word : bool) (output : list str)
  : list str :=
  match chars with
  | [] => output
  | c :: chars =>
      if is_punctuation E c then split_on_punc E chars true (output ++ [[c]])
      else let output := if start_new_word then output ++ [[]] else output in
           split_on_punc E chars false (append_last output c)
  end.

(** eng_tokenizer.py:41-47 [EngTokenizer._tokenize] *)
Definition eng_tokenize (E : env) (s : str) : list str :=
  py_split E (join_space (flat_map (fun t => split_on_punc E t true []) (py_split E s))).

(** zh_char_tokenizer.py:31-48 [_tokenize_chinese_chars] *)
Definition space_cjk (s : str) : str :=
  flat_map (fun c => if is_cjk c then [SPACE; c; SPACE] else [c]) s.

(** zh_char_tokenizer.py:27-29 *)
Definition zh_tokenize (E : env) (s : str) : list str := eng_tokenize E (space_cjk s).

(** custom_word_tokenizer.py:51-66: the loop of [_tokenize] *)
Fixpoint custom_tokenize (fuel : nat) (t : trie) (shortest : bool) (s : str) (start : nat)
  : res (list str) :=
  if length s <=? start then Ok []
  else match fuel with
       | 0 => Err OutOfFuel
       | S fuel =>
           match match_prefix t (skipn start s) shortest with
           | None => rest <- custom_tokenize fuel t shortest s (start + 1) ;;
                     Ok (slice s start (start + 1) :: rest)
           | Some w => rest <- custom_tokenize fuel t shortest s (start + length w) ;;
                       Ok (w :: rest)
           end
       end.

(** ** Operators *)

(** The state of an operator object after its constructor ran. *)
Inductive op : Type :=
| Lowercase
| MergeWhiteSpaceCharacters
| StripWhiteSpaceCharacters
| IntToken
| IntTokenWithSpace
| FloatToken
| FloatTokenWithSpace
| NumTokenWithSpace
| StopwordsToWhitespace
| ReplaceAwithB (a b : str)
| AddWhitespaceAroundCJK
| AddWhitespaceAroundPunctuation
| AddWhitespaceAroundWordnZhChar (t : trie) (shortest : bool)
| PunctuationExceptEndpointToWhitespace
| StripAccentToken
| PureNum2Token (token : elem)
| Pad (maxlen : Z) (pad_token : elem)
| AddSosEos (start_token end_token : elem)
| AddEndToken (end_token : str)
| SpanSubwords (vocab : list str) (unk_token : elem) (maxlen_per_token : Z)
| Token2Index (token2index : list (str * Z)) (unk_token : str)
| Token2IndexwithHash (token2index : list (str * Z))
| CharTokenizer
| WhiteSpaceTokenizer
| EngTokenizer
| ZhCharTokenizer
| CustomWordTokenizer (t : trie) (shortest : bool).

(** [_input_type] and [_output_type] of the classes *)
Inductive seqtype : Type := TStr | TList.

Definition type_of (x : pseq) : seqtype := match x with SStr _ => TStr | SLst _ => TList end.

Definition seqtype_eqb (a b : seqtype) : bool :=
  match a, b with TStr, TStr | TList, TList => true | _, _ => false end.

Definition input_type (o : op) : seqtype :=
  match o with
  | PureNum2Token _ | Pad _ _ | AddSosEos _ _ | AddEndToken _ | SpanSubwords _ _ _
  | Token2Index _ _ | Token2IndexwithHash _ => TList
  | _ => TStr
  end.

Definition output_type (o : op) : seqtype :=
  match o with
  | PureNum2Token _ | Pad _ _ | AddSosEos _ _ | AddEndToken _ | SpanSubwords _ _ _
  | Token2Index _ _ | Token2IndexwithHash _
  | CharTokenizer | WhiteSpaceTokenizer | EngTokenizer | ZhCharTokenizer
  | CustomWordTokenizer _ _ => TList
  | _ => TStr
  end.

(** [str2str.apply] and the construction of the aligner
    (e.g. pattern_recognizers/base.py:30-38) *)
Definition str_result (s : str) (group : res (list (repl Z))) (fwd bwd : transducer)
  : res (pseq * aligner) :=
  g <- group ;;
  let out := apply s g in
  Ok (SStr out, AStr s g (length out) fwd bwd).

Definition lst_result (l : list elem) (group : res (list (repl elem))) (fwd bwd : transducer)
  : res (pseq * aligner) :=
  g <- group ;;
  let out := apply l g in
  Ok (SLst out, ALst l g (length out) fwd bwd).

(** with a NullLabelAligner (pure_num_to_token.py:42-51, token_to_index.py:55-64,
    token_to_index_with_hash.py:44-53) *)
Definition lst_result_null (l : list elem) (group : res (list (repl elem)))
  : res (pseq * aligner) :=
  g <- group ;;
  let out := apply l g in
  Ok (SLst out, ANull (length l) (length out)).

(** tokenizers/base.py:29-46 *)
Definition tok_result (E : env) (s : str) (tokens : res (list str)) (fwd bwd : transducer)
  : res (pseq * aligner) :=
  tokens <- tokens ;;
  g <- gen_replacement_group (ord_c E) s tokens ;;
  let temp_str := apply s g in
  spans <- gen_span_group temp_str tokens ;;
  Ok (SLst (map ETok tokens), ATok s g spans (length tokens) fwd bwd).

Definition except_ne := get_most_common_except_not_entity.

(** [_transform] of every str -> _ operator *)
Definition transform_str (E : env) (o : op) (s : str) : res (pseq * aligner) :=
  match o with
  | Lowercase =>  (* lowercase.py:34-44 *)
      g <- scan_group E (search re_lowercase) ascii_lower s ;;
      let out := apply s g in
      _ <- guard (length s =? length out) AssertionErr ;;
      Ok (SStr out, ANull (length s) (length out))
  | MergeWhiteSpaceCharacters =>
      str_result s (scan_group E (search (re_merge E)) (fun _ => [SPACE]) s)
        get_most_common get_most_common
  | StripWhiteSpaceCharacters =>
      str_result s (scan_group E (search (re_strip E)) (fun _ => []) s)
        get_not_entity get_not_entity
  | IntToken =>
      str_result s (scan_group E (search (re_int E)) (fun _ => INT_TOKEN) s)
        get_most_common except_ne
  | IntTokenWithSpace =>
      str_result s (scan_group E (search (re_int E)) (fun _ => with_space INT_TOKEN) s)
        (around_most_common (with_space INT_TOKEN)) except_ne
  | FloatToken =>
      str_result s (scan_group E (search (re_float E)) (fun _ => FLOAT_TOKEN) s)
        get_most_common except_ne
  | FloatTokenWithSpace =>
      str_result s (scan_group E (search (re_float E)) (fun _ => with_space FLOAT_TOKEN) s)
        (around_most_common (with_space FLOAT_TOKEN)) except_ne
  | NumTokenWithSpace =>
      str_result s (scan_group E (search (re_int E)) (fun _ => with_space NUM_TOKEN) s)
        (around_most_common (with_space NUM_TOKEN)) except_ne
  | StopwordsToWhitespace =>
      str_result s (scan_group E (search re_stopwords) (fun _ => [SPACE]) s)
        get_not_entity get_not_entity
  | ReplaceAwithB a b =>
      match re_compile E a with
      | None => Err ReErr        (* cannot happen after the constructor *)
      | Some find => str_result s (scan_group E find (fun _ => b) s) except_ne except_ne
      end
  | AddWhitespaceAroundCJK =>
      str_result s
        (char_group E (fun c => if is_cjk c then Some [SPACE; c; SPACE] else None) s)
        around_single except_ne
  | AddWhitespaceAroundPunctuation =>
      str_result s
        (char_group E (fun c => if is_punctuation E c then Some [SPACE; c; SPACE] else None) s)
        around_single except_ne
  | AddWhitespaceAroundWordnZhChar t shortest =>
      str_result s (word_group E t shortest s) around_all drop_ends
  | PunctuationExceptEndpointToWhitespace =>
      str_result s
        (char_group E
           (fun c => if is_punctuation E c && negb (Z.eqb c DOT) then Some [SPACE] else None) s)
        get_not_entity get_not_entity
  | StripAccentToken => str_result s (strip_accent_group E s) except_ne except_ne
  | CharTokenizer =>  (* char_tokenizer.py:35-36 *)
      tok_result E s (Ok (map (fun c => [c]) s)) return_none return_none
  | WhiteSpaceTokenizer => tok_result E s (Ok (py_split E s)) except_ne except_ne
  | EngTokenizer => tok_result E s (Ok (eng_tokenize E s)) except_ne except_ne
  | ZhCharTokenizer => tok_result E s (Ok (zh_tokenize E s)) except_ne except_ne
  | CustomWordTokenizer t shortest =>
      tok_result E s (custom_tokenize (length s) t shortest s 0) except_ne except_ne
  | _ => Err TypeErr
  end.

(** [_transform] of every list -> list operator *)
Definition transform_lst (E : env) (o : op) (l : list elem) : res (pseq * aligner) :=
  match o with
  | PureNum2Token token => lst_result_null l (elem_group E (purenum_newv E token) l)
  | Pad maxlen pad => lst_result l (pad_group E maxlen pad l) get_not_entity get_not_entity
  | AddSosEos sos eos =>
      lst_result l (soseos_group E sos eos l) get_not_entity get_not_entity
  | AddEndToken eos => lst_result l (end_group E eos l) get_not_entity get_not_entity
  | SpanSubwords vocab unk maxlen =>
      lst_result l (elem_group E (subwords_newv vocab unk maxlen) l) get_most_common except_ne
  | Token2Index d unk => lst_result_null l (elem_group E (index_newv d unk) l)
  | Token2IndexwithHash d => lst_result_null l (elem_group E (hash_newv d) l)
  | _ => Err TypeErr
  end.

(** base.py:114-137 [Operator.transform] *)
Definition transform_op (E : env) (o : op) (x : pseq) : res (pseq * aligner) :=
  _ <- guard (seqtype_eqb (type_of x) (input_type o)) TypeErr ;;
  r <- match x with SStr s => transform_str E o s | SLst l => transform_lst E o l end ;;
  _ <- guard (seqtype_eqb (type_of (fst r)) (output_type o)) TypeErr ;;
  Ok r.

(** ** Constructors that validate their arguments *)

(** custom_word_tokenizer.py:37-49, add_whitespace_around_word_n_zhchar.py:46-58; [None]
    is [user_words=None] *)
Definition make_trie (user_words : option (list str)) : res trie :=
  match user_words with
  | None | Some [] => Err ValueErr
  | Some words => trie_insert_all trie_empty words
  end.

Definition make_custom (user_words : option (list str)) (shortest : bool) : res op :=
  t <- make_trie user_words ;; Ok (CustomWordTokenizer t shortest).

Definition make_wordn (user_words : option (list str)) (shortest : bool) : res op :=
  t <- make_trie user_words ;; Ok (AddWhitespaceAroundWordnZhChar t shortest).

(** replace_a_with_b.py:39-43 *)
Definition make_replace (E : env) (a b : str) : res op :=
  match re_compile E a with None => Err ReErr | Some _ => Ok (ReplaceAwithB a b) end.

(** add_end_token.py:33-46 on a string *)
Definition make_end (end_token : str) : res op :=
  match end_token with [] => Err ValueErr | _ => Ok (AddEndToken end_token) end.

Local Open Scope Z_scope.
(** [min] / [max] of a non-empty collection *)
Definition min_of (x : Z) (l : list Z) : Z := fold_left Z.min l x.
Definition max_of (x : Z) (l : list Z) : Z := fold_left Z.max l x.

(** token_to_index.py:10-18 [validate_continuity]; [d] is a dict, so its keys are distinct *)
Definition validate_continuity (d : list (str * Z)) : res unit :=
  let indices := dedup (map snd d) in
  _ <- guard (length d =? length indices)%nat ValueErr ;;
  match indices with
  | [] => Err ValueErr       (* min() of an empty set *)
  | i :: is =>
      guard ((min_of i is =? 0) && (max_of i is =? Z.of_nat (length d) - 1)) ValueErr
  end.

(** token_to_index.py:45-53 *)
Definition make_token2index (d : list (str * Z)) (unk : str) : res op :=
  _ <- validate_continuity d ;;
  _ <- guard (dict_mem d unk) KeyErr ;;
  Ok (Token2Index d unk).

(** token_to_index_with_hash.py:37-42 *)
Definition make_hash (d : list (str * Z)) : res op :=
  _ <- validate_continuity d ;; Ok (Token2IndexwithHash d).
