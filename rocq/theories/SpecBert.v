(** When the pipes of pipeline/bert are compared with the reference tokenizer: conditions on
    the text and on the python runtime. *)

From Coq Require Import String.
From Verif Require Import Py Edit Labels SpecEdit SpecLabels SpecSeg SpecRuns SpecWords SpecScan Ops SpecOps BertRef.
From Coq Require Import List.
Local Open Scope Z_scope.

Definition TAB : Z := 9.
Definition LF : Z := 10.
Definition CR : Z := 13.

(** A text on which the two have to agree: no control characters; python and the reference
    have the same idea of whitespace; [str.lower] only changes A to Z; and after that,
    stripping accents replaces every character [c] by one character [f c], which is
    whitespace or punctuation if [c] is. *)
Definition well_behaved (E : env) (R : runtime) (f : Z -> Z) (s : str) : Prop :=
  (forall c, In c s -> c <> 0 /\ c <> 65533 /\
     (is_ccat R c = true -> In c [TAB; LF; CR]) /\
     (is_space E c = true <-> In c [TAB; LF; CR; 32] \/ is_zs R c = true)) /\
  (forall t, incl t s -> str_lower R t = map lower t) /\
  (forall t, incl t (32 :: map lower s) -> stripped E t = map f t) /\
  (forall c, In c (32 :: map lower s) ->
     is_space E (f c) = is_space E c /\ punctuation E (f c) = punctuation E c).

(** The letters A to Z and a to z are neither whitespace nor of category P. *)
Definition letters (E : env) : Prop :=
  forall c, ascii_capital c || ascii_small c = true -> is_space E c = false /\ is_pcat E c = false.

(** ASCII, and the Chinese characters of Unicode 1.1 (U+4E00 to U+9FA5). *)
Definition ascii (c : Z) : Prop := 0 <= c < 128.
Definition chinese (c : Z) : Prop := 19968 <= c <= 40869.
Definition known (c : Z) : Prop := ascii c \/ chinese c.

(** What python's [unicodedata] and [str] say about them. *)
Definition unicode (E : env) (R : runtime) : Prop :=
  (forall c, known c ->
     (is_space E c = true <-> TAB <= c <= CR \/ 28 <= c <= 32) /\
     (is_zs R c = true <-> c = 32) /\
     (is_ccat R c = true <-> c < 32 \/ c = 127) /\
     is_mn E c = false) /\
  letters E /\
  (forall t, Forall known t -> nfd E t = t /\ str_lower R t = map lower t).

(** Printable ASCII, tabs and line ends, and Chinese characters. *)
Definition everyday (c : Z) : Prop := 32 <= c <= 126 \/ In c [TAB; LF; CR] \/ chinese c.

(** The vocabularies of bert/full.py and bert/word_piece.py. *)
Definition word_pieces : list string :=
  ["[UNK]"; "[CLS]"; "[SEP]"; "want"; "##want"; "##ed"; "wa"; "un"; "runn"; "##ing"]%string.
Definition word_pieces_and_comma : list string := word_pieces ++ [","%string].
