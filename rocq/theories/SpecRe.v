(** Specification vocabulary: the meaning of regular expressions, how they are written, and
    replacing one text by another. *)

From Coq Require Import String Ascii.
From Verif Require Import Py SpecSeg Ops PyRe SpecScan SpecOps.
From Coq Require Import List.

(** ** Meaning *)

Definition member (k : classes) (x : citem) (c : Z) : Prop :=
  match x with
  | CRange lo hi => (lo <= c <= hi)%Z
  | CDigit neg => c_digit k c = negb neg
  | CSpace neg => c_space k c = negb neg
  | CWord neg => c_word k c = negb neg
  end.
Definition in_class (k : classes) (neg : bool) (l : list citem) (c : Z) : Prop :=
  if neg then ~ exists x, In x l /\ member k x c else exists x, In x l /\ member k x c.

(** [n] steps one after the other *)
Fixpoint iter (n : nat) (R : nat -> nat -> Prop) (i j : nat) : Prop :=
  match n with
  | 0 => i = j
  | S n => exists m, R i m /\ iter n R m j
  end.

Definition word_at (k : classes) (s : str) (j : nat) : Prop :=
  exists c, nth_error s j = Some c /\ c_word k c = true.
(** a word character on exactly one side of position [i] *)
Definition boundary (k : classes) (s : str) (i : nat) : Prop :=
  ((exists j, i = S j /\ word_at k s j) /\ ~ word_at k s i) \/
  (~ (exists j, i = S j /\ word_at k s j) /\ word_at k s i).

(** The expression matches the part of [s] between the positions [i] and [j]. *)
Fixpoint xmatch (k : classes) (s : str) (r : rx) (i j : nat) : Prop :=
  match r with
  | XEmpty => i = j
  | XSet neg l => j = S i /\ exists c, nth_error s i = Some c /\ in_class k neg l c
  | XAny => j = S i /\ exists c, nth_error s i = Some c /\ c <> 10%Z
  | XSeq a b => exists m, xmatch k s a i m /\ xmatch k s b m j
  | XAlt a b => xmatch k s a i j \/ xmatch k s b i j
  | XRep lo hi _ a =>
      exists n, lo <= n /\ (forall h, hi = Some h -> n <= h) /\ iter n (xmatch k s a) i j
  | XLook true true a => i = j /\ exists e, xmatch k s a i e
  | XLook true false a => i = j /\ ~ exists e, xmatch k s a i e
  | XLook false true a => i = j /\ exists b, b <= i /\ xmatch k s a b i
  | XLook false false a => i = j /\ ~ exists b, b <= i /\ xmatch k s a b i
  | XBegin => i = 0 /\ j = 0
  | XEnd => i = length s /\ j = length s
  | XDollar => i = j /\ (i = length s \/ exists t, s = t ++ [10%Z] /\ i = length t)
  | XWordB neg => i = j /\ s <> [] /\ (if neg then ~ boundary k s i else boundary k s i)
  end.

(** Leftmost matches from [p] on: each replaced piece is a match that starts at the first
    position where one starts; after the last one no match starts any more. *)
Inductive leftmost (M : nat -> nat -> Prop) (b : str) (s : str) : nat -> list (seg Z) -> Prop :=
| lm_end p : p <= length s -> (forall i e, p <= i <= length s -> p < length s -> ~ M i e) ->
    leftmost M b s p [(skipn p s, None)]
| lm_match p i e sg : p <= i -> i <= e -> p < e -> e <= length s -> M i e ->
    (forall j e', p <= j < i -> ~ M j e') -> leftmost M b s e sg ->
    leftmost M b s p
      ((firstn (i - p) (skipn p s), None) :: (firstn (e - i) (skipn i s), Some b) :: sg).

(** The numbers of characters that the expression can take, whatever they are. *)
Fixpoint shape (r : rx) (n : nat) : Prop :=
  match r with
  | XSet _ _ | XAny => n = 1
  | XSeq a b => exists x y, shape a x /\ shape b y /\ n = x + y
  | XAlt a b => shape a n \/ shape b n
  | XRep lo hi _ a =>
      exists l, lo <= length l /\ (forall h, hi = Some h -> length l <= h) /\
        Forall (shape a) l /\ n = list_sum l
  | _ => n = 0
  end.
Definition one_width (r : rx) : Prop := forall n m, shape r n -> shape r m -> n = m.

(** ** python's [re] *)

(** \d and \s are those of the runtime, [word] is \w. *)
Definition classes_of (E : env) (word : Z -> bool) : classes := mkClasses (is_digit E) (is_space E) word.

(** [re.compile(p)] of the runtime is as [parse] says; nothing is said about patterns beyond
    the covered part. *)
Definition python_re (E : env) (word : Z -> bool) (p : str) : Prop :=
  match parse p with
  | Read r => exists find, re_compile E p = Some find /\
      forall s q, q <= length s -> find s q = xsearch (classes_of E word) r s q
  | Bad => re_compile E p = None
  | Beyond | Starved => True
  end.

(** ** Writing expressions *)

Definition hex1 (d : Z) : Z := if (d <? 10)%Z then (48 + d)%Z else (55 + d)%Z.
Fixpoint hex (n : nat) (c : Z) : str :=
  match n with 0 => [] | S n => hex n (c / 16)%Z ++ [hex1 (c mod 16)%Z] end.
(** \UHHHHHHHH *)
Definition written_char (c : Z) : str := 92%Z :: txt "U" ++ hex 8 c.
Definition written_kind (letter : string) : str := 92%Z :: txt letter.
Definition written_item (x : citem) : str :=
  match x with
  | CRange lo hi => written_char lo ++ txt "-" ++ written_char hi
  | CDigit neg => written_kind (if neg then "D" else "d")
  | CSpace neg => written_kind (if neg then "S" else "s")
  | CWord neg => written_kind (if neg then "W" else "w")
  end.
(** four decimal digits *)
Definition written_count (n : nat) : str :=
  map (fun d => (48 + (Z.of_nat n / d) mod 10)%Z) [1000; 100; 10; 1]%Z.

Fixpoint written (r : rx) : str :=
  match r with
  | XEmpty => []
  | XSet neg l => txt "[" ++ (if neg then txt "^" else []) ++ flat_map written_item l ++ txt "]"
  | XAny => txt "."
  | XSeq a b => txt "(?:" ++ written a ++ txt ")(?:" ++ written b ++ txt ")"
  | XAlt a b => txt "(?:" ++ written a ++ txt ")|(?:" ++ written b ++ txt ")"
  | XRep lo hi greedy a =>
      txt "(?:" ++ written a ++ txt "){" ++ written_count lo ++ txt "," ++
      match hi with Some h => written_count h | None => [] end ++ txt "}" ++
      (if greedy then [] else txt "?")
  | XLook true true a => txt "(?=" ++ written a ++ txt ")"
  | XLook true false a => txt "(?!" ++ written a ++ txt ")"
  | XLook false true a => txt "(?<=" ++ written a ++ txt ")"
  | XLook false false a => txt "(?<!" ++ written a ++ txt ")"
  | XBegin => written_kind "A"
  | XEnd => written_kind "Z"
  | XDollar => txt "$"
  | XWordB neg => written_kind (if neg then "B" else "b")
  end.

(** Expressions of the covered part. *)
Definition writable_item (x : citem) : Prop :=
  match x with CRange lo hi => (0 <= lo <= hi)%Z /\ (hi <= 0x10FFFF)%Z | _ => True end.
Definition up_to_1000 (n : nat) : Prop := (Z.of_nat n <= 1000)%Z.
Fixpoint writable (r : rx) : Prop :=
  match r with
  | XSet _ l => l <> [] /\ Forall writable_item l
  | XSeq a b | XAlt a b => writable a /\ writable b
  | XRep lo hi _ a => writable a /\ up_to_1000 lo /\ (forall h, hi = Some h -> lo <= h /\ up_to_1000 h)
  | XLook true _ a => writable a
  | XLook false _ a => writable a /\ one_width a
  | _ => True
  end.

(** What is written behind an expression to repeat it. *)
Inductive counts : str -> nat -> option nat -> Prop :=
| c_star : counts (txt "*") 0 None
| c_plus : counts (txt "+") 1 None
| c_optional : counts (txt "?") 0 (Some 1)
| c_least lo : up_to_1000 lo -> counts (txt "{" ++ written_count lo ++ txt ",}") lo None
| c_both lo hi : up_to_1000 lo -> up_to_1000 hi -> lo <= hi ->
    counts (txt "{" ++ written_count lo ++ txt "," ++ written_count hi ++ txt "}") lo (Some hi).

(** ** Texts as patterns *)

(** the characters with a meaning of their own, _parser.py:SPECIAL_CHARS *)
Definition meta (c : Z) : Prop := In c (txt ".[{()*+?^$|") \/ c = 92%Z.
(** no such character *)
Definition plain (t : str) : Prop := forall c, In c t -> ~ meta c.

(** [re.escape(t)] of python 3.7 and later *)
Definition escaped_chars : str :=
  92%Z :: txt "()[]{}?*+-|^$.&~# " ++ [9; 10; 13; 11; 12]%Z.
Definition escaped (t : str) : str :=
  flat_map (fun c => if existsb (Z.eqb c) escaped_chars then [92%Z; c] else [c]) t.

(** alternatives *)
Fixpoint bars (ws : list str) : str :=
  match ws with
  | [] => []
  | [w] => w
  | w :: ws => w ++ txt "|" ++ bars ws
  end.

(** ** The patterns of the repository, character by character *)

Definition ff10_ff19 : str := 92%Z :: txt "uFF10-" ++ 92%Z :: txt "uFF19".
(** lowercase.py:32 *)
Definition pat_lowercase : str := txt "[A-Z]+".
(** merge_whitespace_characters.py:40 *)
Definition pat_merge : str := txt "\s+".
(** strip_whitespace_characters.py:40 *)
Definition pat_strip : str := txt "\A\s+|\s+\Z".
(** int_token.py:40, int_token_with_space.py:47, num_token_with_space.py:49 *)
Definition pat_int : str :=
  txt "(?<![\.\d" ++ ff10_ff19 ++ txt "])[\d" ++ ff10_ff19 ++ txt "]+(?![\.\d" ++ ff10_ff19 ++ txt "])".
(** float_token.py:30-32, float_token_with_space.py:49-51 *)
Definition pat_float : str :=
  txt "(?<![\.\d" ++ ff10_ff19 ++ txt "])[\d" ++ ff10_ff19 ++ txt "]+\.[\d" ++ ff10_ff19 ++
  txt "]+(?![\.\d" ++ ff10_ff19 ++ txt "])".
(** pure_num_to_token.py:15 *)
Definition pat_purenum : str := txt "[\d" ++ ff10_ff19 ++ txt "]+".
(** stopwords_to_whitespace.py:43-47, the lines of stopwords.txt *)
Definition pat_stopwords : str := txt "(" ++ bars stopwords ++ txt ")".

(** The pattern text [p] is found where [find] says. *)
Definition found_as (E : env) (word : Z -> bool) (p : str) (find : finder) : Prop :=
  exists r, parse p = Read r /\ forall s q, xsearch (classes_of E word) r s q = find s q.

(** The operators that replace the matches of one pattern by one text. *)
Inductive replaces_pattern : op -> str -> str -> Prop :=
| rp_merge : replaces_pattern MergeWhiteSpaceCharacters pat_merge (txt " ")
| rp_strip : replaces_pattern StripWhiteSpaceCharacters pat_strip []
| rp_int : replaces_pattern IntToken pat_int (txt "_int_")
| rp_int_space : replaces_pattern IntTokenWithSpace pat_int (txt " _int_ ")
| rp_float : replaces_pattern FloatToken pat_float (txt "_float_")
| rp_float_space : replaces_pattern FloatTokenWithSpace pat_float (txt " _float_ ")
| rp_num_space : replaces_pattern NumTokenWithSpace pat_int (txt " _num_ ")
| rp_stopwords : replaces_pattern StopwordsToWhitespace pat_stopwords (txt " ").

(** A pattern for the text [t], and one for any of several words. *)
Definition text_pattern (t p : str) : Prop := (plain t /\ p = t) \/ p = escaped t.
Definition words_pattern (ws : list str) (p : str) : Prop := p = bars ws \/ p = txt "(" ++ bars ws ++ txt ")".

(** [s.replace(old, new)] for a non-empty [old]: leftmost occurrences, one after the other. *)
Inductive str_replace (old new : str) : str -> str -> Prop :=
| sr_none s : (forall u v, s <> u ++ old ++ v) -> str_replace old new s s
| sr_some u v out : (forall u' v', u ++ old ++ v = u' ++ old ++ v' -> length u <= length u') ->
    str_replace old new v out -> str_replace old new (u ++ old ++ v) (u ++ new ++ out).

(** Several words at once: at the leftmost place where one of them occurs, the first of the
    list that occurs there. *)
Definition occurs_at (w s : str) (i : nat) : Prop := exists u v, s = u ++ w ++ v /\ length u = i.
Inductive words_replace (ws : list str) (new : str) : str -> str -> Prop :=
| wr_none s : (forall w i, In w ws -> ~ occurs_at w s i) -> words_replace ws new s s
| wr_some u w v out before after :
    ws = before ++ w :: after ->
    (forall w' i, In w' ws -> occurs_at w' (u ++ w ++ v) i -> length u <= i) ->
    (forall w', In w' before -> ~ occurs_at w' (u ++ w ++ v) (length u)) ->
    words_replace ws new v out -> words_replace ws new (u ++ w ++ v) (u ++ new ++ out).
