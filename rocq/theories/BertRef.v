(** The reference tokenizer that the repository's tests of pipeline/bert compare the pipes
    with: pipeline/bert/tests/tokenization.py.  Not modelled: [convert_to_unicode] of
    something other than a str, reading the vocabulary from a file ([load_vocab], [vocab] is
    its keys), the conversions between tokens and ids, [validate_case_matches_checkpoint] and
    [printable_text]. *)

From Coq Require Import String.
From Verif Require Import Py Edit Labels Ops.
From Coq Require Import List.
Local Open Scope Z_scope.

(** More of the python runtime that only the reference uses. *)
Record runtime := mkRuntime {
  is_zs : Z -> bool;              (* unicodedata.category(c) == "Zs" *)
  is_ccat : Z -> bool;            (* unicodedata.category(c).startswith("C") *)
  str_lower : str -> str          (* str.lower *)
}.

(** tokenization.py:363-372 [_is_whitespace] *)
Definition ref_is_whitespace (R : runtime) (c : Z) : bool :=
  if (c =? 32) || (c =? 9) || (c =? 10) || (c =? 13) then true else is_zs R c.

(** tokenization.py:375-384 [_is_control] *)
Definition ref_is_control (R : runtime) (c : Z) : bool :=
  if (c =? 9) || (c =? 10) || (c =? 13) then false else is_ccat R c.

(** tokenization.py:387-402 [_is_punctuation] *)
Definition ref_is_punctuation (E : env) (c : Z) : bool :=
  if ((c >=? 33) && (c <=? 47)) || ((c >=? 58) && (c <=? 64)) ||
     ((c >=? 91) && (c <=? 96)) || ((c >=? 123) && (c <=? 126))
  then true else is_pcat E c.

(** tokenization.py:265-285 [_is_chinese_char] *)
Definition ref_is_chinese_char (c : Z) : bool :=
  ((c >=? 0x4E00) && (c <=? 0x9FFF)) || ((c >=? 0x3400) && (c <=? 0x4DBF)) ||
  ((c >=? 0x20000) && (c <=? 0x2A6DF)) || ((c >=? 0x2A700) && (c <=? 0x2B73F)) ||
  ((c >=? 0x2B740) && (c <=? 0x2B81F)) || ((c >=? 0x2B820) && (c <=? 0x2CEAF)) ||
  ((c >=? 0xF900) && (c <=? 0xFAFF)) || ((c >=? 0x2F800) && (c <=? 0x2FA1F)).

(** tokenization.py:287-298 [_clean_text] *)
Fixpoint ref_clean_text (R : runtime) (text : str) : str :=
  match text with
  | [] => []
  | c :: text =>
      if (c =? 0) || (c =? 0xfffd) || ref_is_control R c then ref_clean_text R text
      else if ref_is_whitespace R c then 32 :: ref_clean_text R text
      else c :: ref_clean_text R text
  end.

(** tokenization.py:252-263 [_tokenize_chinese_chars] *)
Fixpoint ref_tokenize_chinese (text : str) : str :=
  match text with
  | [] => []
  | c :: text =>
      if ref_is_chinese_char c then 32 :: c :: 32 :: ref_tokenize_chinese text
      else c :: ref_tokenize_chinese text
  end.

(** [str.strip]: whitespace dropped at the front, then at the back *)
Fixpoint lstrip (E : env) (s : str) : str :=
  match s with [] => [] | c :: t => if is_space E c then lstrip E t else s end.
Definition py_strip (E : env) (s : str) : str := rev (lstrip E (rev (lstrip E s))).

(** tokenization.py:153-159 [whitespace_tokenize] *)
Definition ref_whitespace_tokenize (E : env) (text : str) : list str :=
  match py_strip E text with
  | [] => []
  | text => py_split E text
  end.

(** tokenization.py:221-230 [_run_strip_accents] *)
Fixpoint drop_mn (E : env) (text : str) : str :=
  match text with
  | [] => []
  | c :: text => if is_mn E c then drop_mn E text else c :: drop_mn E text
  end.
Definition ref_strip_accents (E : env) (text : str) : str := drop_mn E (nfd E text).

(** tokenization.py:232-250 [_run_split_on_punc]; [output[-1].append] of a list that is not
    empty because [start_new_word] is true at first *)
Definition append_to_last (output : list str) (c : Z) : list str :=
  removelast output ++ [last output [] ++ [c]].
Fixpoint ref_split_on_punc (E : env) (chars : str) (start_new_word : bool)
  (output : list str) : list str :=
  match chars with
  | [] => output
  | c :: chars =>
      if ref_is_punctuation E c then ref_split_on_punc E chars true (output ++ [[c]])
      else ref_split_on_punc E chars false
             (append_to_last (if start_new_word then output ++ [[]] else output) c)
  end.

(** [" ".join(tokens)] *)
Fixpoint join_blank (ts : list str) : str :=
  match ts with
  | [] => []
  | [t] => t
  | t :: ts => t ++ 32 :: join_blank ts
  end.

(** tokenization.py:197-219 [BasicTokenizer.tokenize] *)
Definition ref_basic (E : env) (R : runtime) (do_lower_case : bool) (text : str) : list str :=
  let text := ref_tokenize_chinese (ref_clean_text R text) in
  let orig_tokens := ref_whitespace_tokenize E text in
  let split_tokens := flat_map (fun token =>
      let token := if do_lower_case then ref_strip_accents E (str_lower R token) else token in
      ref_split_on_punc E token true []) orig_tokens in
  ref_whitespace_tokenize E (join_blank split_tokens).

(** tokenization.py:340-349: the inner loop, [end] counting down from [len(chars)] to
    [start]; the result is [cur_substr] and the last [end] *)
Fixpoint ref_longest (vocab : list str) (chars : str) (start end_ : nat) : option (str * nat) :=
  match end_ with
  | O => None
  | S e =>
      if (start <? end_)%nat then
        let substr := firstn (end_ - start) (skipn start chars) in
        let substr := if (0 <? start)%nat then [35; 35] ++ substr else substr in
        if existsb (eqb substr) vocab then Some (substr, end_)
        else ref_longest vocab chars start e
      else None
  end.

(** tokenization.py:336-354: the outer loop; [None] stands for [is_bad] *)
Fixpoint ref_pieces (fuel : nat) (vocab : list str) (chars : str) (start : nat)
  (sub_tokens : list str) : res (option (list str)) :=
  if (start <? length chars)%nat then
    match fuel with
    | O => Err OutOfFuel
    | S fuel =>
        match ref_longest vocab chars start (length chars) with
        | None => Ok None
        | Some (cur, end_) => ref_pieces fuel vocab chars end_ (sub_tokens ++ [cur])
        end
    end
  else Ok (Some sub_tokens).

(** tokenization.py:329-360: the loop of [WordpieceTokenizer.tokenize] *)
Fixpoint ref_word_loop (vocab : list str) (unk : str) (maxlen : Z) (tokens : list str)
  (output : list str) : res (list str) :=
  match tokens with
  | [] => Ok output
  | token :: tokens =>
      if Z.of_nat (length token) >? maxlen
      then ref_word_loop vocab unk maxlen tokens (output ++ [unk])
      else sub <- ref_pieces (length token) vocab token 0 [] ;;
           match sub with
           | None => ref_word_loop vocab unk maxlen tokens (output ++ [unk])
           | Some sub => ref_word_loop vocab unk maxlen tokens (output ++ sub)
           end
  end.

(** tokenization.py:309-360 [WordpieceTokenizer.tokenize] *)
Definition ref_wordpiece (E : env) (vocab : list str) (unk : str) (maxlen : Z) (text : str)
  : res (list str) := ref_word_loop vocab unk maxlen (ref_whitespace_tokenize E text) [].

(** [unk_token="[UNK]", max_input_chars_per_word=200], tokenization.py:304 *)
Definition ref_unk : str := [91; 85; 78; 75; 93].
Definition ref_max : Z := 200.

(** tokenization.py:171-177 [FullTokenizer.tokenize] *)
Fixpoint ref_full_loop (E : env) (vocab : list str) (tokens : list str) (split_tokens : list str)
  : res (list str) :=
  match tokens with
  | [] => Ok split_tokens
  | token :: tokens =>
      sub <- ref_wordpiece E vocab ref_unk ref_max token ;;
      ref_full_loop E vocab tokens (split_tokens ++ sub)
  end.
Definition ref_full (E : env) (R : runtime) (vocab : list str) (text : str) : res (list str) :=
  ref_full_loop E vocab (ref_basic E R true text) [].
