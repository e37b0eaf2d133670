(** Model of the texts that objects show: [Operator.__str__], [Pipe.summary] and the
    [__str__] and [__repr__] methods of pipeline/edit and elements.pyx, with what they use
    of python: [repr] of texts, numbers, lists and dicts, and [reprlib.repr].  The text of a
    Datum is in DatumText.v; the [annotation] of a Replacement other than a text is not
    modelled. *)

From Coq Require Import String.
From Verif Require Import Py Edit Ops Json JsonAscii Elements Pipe.
From Coq Require Import List.
Local Open Scope Z_scope.

Definition APOSTROPHE : Z := 39.

(** ** [repr] of python *)

(** CPython's unicode_repr, one character; [printable] is [str.isprintable], used above 126 *)
Definition repr_char (printable : Z -> bool) (quote c : Z) : str :=
  if (c =? quote) || (c =? BACKSLASH) then [BACKSLASH; c]
  else if c =? 9 then [BACKSLASH; 116]
  else if c =? 10 then [BACKSLASH; 110]
  else if c =? 13 then [BACKSLASH; 114]
  else if (c <? 32) || (c =? 127) then [BACKSLASH; 120; hex (c / 16); hex (c mod 16)]
  else if c <? 127 then [c]
  else if printable c then [c]
  else if c <=? 255 then [BACKSLASH; 120; hex (c / 16); hex (c mod 16)]
  else if c <=? 65535 then u4 c
  else [BACKSLASH; 85; hex (c / 268435456); hex (c / 16777216 mod 16); hex (c / 1048576 mod 16);
        hex (c / 65536 mod 16); hex (c / 4096 mod 16); hex (c / 256 mod 16); hex (c / 16 mod 16); hex (c mod 16)].

(** double quotes if there is an apostrophe and no double quote in the text *)
Definition quote_of (s : str) : Z :=
  if memb APOSTROPHE s && negb (memb QUOTE s) then QUOTE else APOSTROPHE.

(** [repr(s)] *)
Definition repr_str (printable : Z -> bool) (s : str) : str :=
  let q := quote_of s in q :: flat_map (repr_char printable q) s ++ [q].

(** [repr(v)] *)
Fixpoint repr (printable : Z -> bool) (v : jval) : str :=
  match v with
  | JNone => lit "None"
  | JBool true => lit "True"
  | JBool false => lit "False"
  | JInt z => dump_int z
  | JStr s => repr_str printable s
  | JList l => lit "[" ++ commas (map (repr printable) l) ++ lit "]"
  | JTuple l => lit "(" ++ commas (map (repr printable) l) ++ (if (length l =? 1)%nat then lit "," else []) ++ lit ")"
  | JDict d => lit "{" ++ commas (map (fun kv => repr_str printable (fst kv) ++ lit ": " ++ repr printable (snd kv)) d) ++ lit "}"
  end.

(** ** [reprlib.repr] *)

(** [s[len(s)-j:]]; the index is negative if the text is shorter than that, which python reads
    as counted from the end *)
Definition from_end (j : nat) (s : str) : str :=
  skipn (adj (length s) (Z.of_nat (length s) - Z.of_nat j)) s.

(** [s[:i] + '...' + s[len(s)-j:]] *)
Definition cut_middle (i j : nat) (s : str) : str := firstn i s ++ lit "..." ++ from_end j s.

(** Repr.repr_str with maxstring = 30 *)
Definition short_str (printable : Z -> bool) (s : str) : str :=
  let r := repr_str printable (firstn 30 s) in
  if (length r <=? 30)%nat then r
  else cut_middle 13 14 (repr_str printable (firstn 13 s ++ from_end 14 s)).

(** Repr.repr_int with maxlong = 40 *)
Definition short_int (z : Z) : str :=
  let r := dump_int z in if (length r <=? 40)%nat then r else cut_middle 18 19 r.

(** comparison of texts, as [sorted] uses it *)
Fixpoint str_leb (s t : str) : bool :=
  match s, t with
  | [], _ => true
  | _ :: _, [] => false
  | a :: s, b :: t => (a <? b) || ((a =? b) && str_leb s t)
  end.
Fixpoint insert_key (x : str * str) (l : list (str * str)) : list (str * str) :=
  match l with
  | [] => [x]
  | y :: t => if str_leb (fst x) (fst y) then x :: l else y :: insert_key x t
  end.

(** the first pieces, and dots if there are more *)
Definition at_most (n : nat) (pieces : list str) : list str :=
  firstn n pieces ++ (if (n <? length pieces)%nat then [lit "..."] else []).

(** Repr.repr1 with maxlist = maxtuple = 6, maxdict = 4; nested dicts are sorted by key; None
    and bools are shown by [repr] (Repr.repr_instance; they are shorter than maxother) *)
Fixpoint short (printable : Z -> bool) (level : nat) (v : jval) {struct v} : str :=
  match v with
  | JNone => lit "None"
  | JBool true => lit "True"
  | JBool false => lit "False"
  | JInt z => short_int z
  | JStr s => short_str printable s
  | JList [] => lit "[]"
  | JTuple [] => lit "()"
  | JDict [] => lit "{}"
  | JList l =>
      match level with
      | O => lit "[...]"
      | S level => lit "[" ++ commas (at_most 6 (map (short printable level) l)) ++ lit "]"
      end
  | JTuple l =>
      match level with
      | O => lit "(...)"
      | S level => lit "(" ++ commas (at_most 6 (map (short printable level) l)) ++
                   (if (length l =? 1)%nat then lit "," else []) ++ lit ")"
      end
  | JDict d =>
      match level with
      | O => lit "{...}"
      | S level =>
          lit "{" ++ commas (at_most 4 (map snd (fold_right insert_key []
            (map (fun kv => (fst kv, short_str printable (fst kv) ++ lit ": " ++ short printable level (snd kv))) d))))
          ++ lit "}"
      end
  end.

(** ** Operators and pipes *)

(** base.py:148-155 [custom_repr]: of a dict the first two items in insertion order, followed
    by dots in any case; other values as [reprlib.repr] shows them (maxlevel = 6) *)
Definition custom_repr (printable : Z -> bool) (v : jval) : str :=
  match v with
  | JDict d =>
      lit "{" ++ commas (map (fun kv => repr_str printable (fst kv) ++ lit ": " ++ repr printable (snd kv)) (firstn 2 d))
      ++ lit ", ...}"
  | v => short printable 6 v
  end.

(** base.py:146-161 [Operator.__str__] *)
Definition op_str (printable : Z -> bool) (o : opobj) : str :=
  o_class o ++ lit "(" ++
  commas (map (fun kv => fst kv ++ lit "=" ++ custom_repr printable (snd kv)) (o_configs o)) ++ lit ")".

(** [type.__name__] *)
Definition type_name (t : seqtype) : str := match t with TStr => lit "str" | TList => lit "list" end.

(** pipe.py:151-154: the names by index, later ones overwrite earlier ones *)
Definition inverse_checkpoint (ck : list (str * Z)) : list (Z * str) :=
  fold_left (fun d kv => dict_set d (snd kv) (fst kv)) ck [].

(** pipe.py:158-170, the loop over the steps *)
Fixpoint summary_steps (printable : Z -> bool) (names : list (Z * str)) (idx : Z) (prev : seqtype) (ops : list opobj)
  : list str :=
  match ops with
  | [] => []
  | o :: ops =>
      (lit " |    " ++ op_str printable o) ::
      (if seqtype_eqb (out_type o) prev then [] else [lit " v"; type_name (out_type o); lit " v"]) ++
      (match dict_get names idx with
       | Some name => [lit " |"; lit " @--> checkpoint: " ++ repr_str printable name; lit " |"]
       | None => []
       end) ++
      summary_steps printable names (idx + 1) (out_type o) ops
  end.

(** pipe.py:145-176 [Pipe.summary]: the printed lines *)
Definition summary (printable : Z -> bool) (p : pipe) : list str :=
  [repeat 95 80; lit "Type  Operator"; repeat 61 80] ++
  (match pipe_input_type p, pipe_output_type p with
   | Ok t, Ok t' =>
       [type_name t; lit " v"] ++
       summary_steps printable (inverse_checkpoint (checkpoints p)) 1 t (steps p) ++
       [lit " v"; repeat 61 80; type_name t ++ lit " -> " ++ type_name t']
   | _, _ => []
   end) ++
  [lit "Total operators: " ++ dump_int (Z.of_nat (length (steps p)));
   lit "Total checkpoints: " ++ dump_int (Z.of_nat (length (checkpoints p))); repeat 95 80].

(** what appears on the screen: [print] ends every line *)
Definition printed (lines : list str) : str := flat_map (fun l => l ++ [10]) lines.

(** ** Edit structures and elements *)

(** a number of type unsigned int, in an f-string *)
Definition dump_nat (n : nat) : str := dump_int (Z.of_nat n).

(** span.pyx:29-33 *)
Definition span_str (s : nat * nat) : str := lit "(" ++ dump_nat (fst s) ++ lit ", " ++ dump_nat (snd s) ++ lit ")".
Definition span_repr (s : nat * nat) : str := lit "Span" ++ span_str s.
(** span.pyx:118-119 *)
Definition span_group_repr : str := lit "SpanGroup".

(** replacement.pyx:58-61, for texts *)
Definition repl_str (r : repl Z) : str :=
  lit "(" ++ dump_nat (r_start r) ++ lit ", " ++ dump_nat (r_end r) ++ lit ") => '" ++ r_new r ++ lit "'".
(** replacement.pyx:63-67; the annotation, None or a text *)
Definition repl_repr (r : repl Z) (annotation : option str) : str :=
  lit "Replacement(" ++ dump_nat (r_start r) ++ lit ", " ++ dump_nat (r_end r) ++ lit ", " ++ r_new r ++
  lit ", annotation=" ++ (match annotation with None => lit "None" | Some a => a end) ++ lit ")".
(** replacement.pyx:166-169 *)
Definition repl_group_repr (n : nat) : str := lit "ReplacementGroup has " ++ dump_nat n ++ lit " elements".

(** elements.pyx:100-101 *)
Definition intent_repr (label : Z) : str := lit "<Intent " ++ dump_int label ++ lit ">".
(** elements.pyx:54-61; [e_replacements] in the order in which the set is iterated *)
Definition entity_repr (e : entity) : str :=
  lit "<Entity " ++ dump_int (e_label e) ++ lit ": " ++ e_value e ++ lit " at " ++ dump_int (e_start e) ++
  lit " - " ++ dump_int (e_end e) ++ lit ", with replacements: " ++ commas (e_replacements e) ++ lit ">".
