(** Specification: what can be read back from the output of an operator or pipe (C100). *)

From Coq Require Import String.
From Verif Require Import Py Edit SpecRuns SpecOps Ops Json Elements Pipe SpecLaws.
From Coq Require Import List ZArith.
Import ListNotations.

(** The operator turns [x] into [y]. *)
Definition turns (E : env) (o : op) (x y : pseq) : Prop := exists a, transform_op E o x = Ok (y, a).

(** A pipe made of these operators turns [x] into [y]. *)
Definition pipe_turns (E : env) (ops : list op) (x y : pseq) : Prop :=
  forall p, made_of ops p -> exists als coll, transform_sequence E p x = Ok (y, als, coll).

(** Different inputs always give different outputs. *)
Definition telling (E : env) (o : op) : Prop := forall x x' y, turns E o x y -> turns E o x' y -> x = x'.

(** A tokenizer, and the operators that write the same tokens as one text. *)
Definition written_as : list (op * list op) :=
  [(WhiteSpaceTokenizer, [MergeWhiteSpaceCharacters; StripWhiteSpaceCharacters]);
   (EngTokenizer, [AddWhitespaceAroundPunctuation; MergeWhiteSpaceCharacters; StripWhiteSpaceCharacters]);
   (ZhCharTokenizer, [AddWhitespaceAroundCJK; AddWhitespaceAroundPunctuation;
                      MergeWhiteSpaceCharacters; StripWhiteSpaceCharacters])].

(** ** WordPiece *)

(** A text that begins with the mark of a continued word. *)
Definition continued (t : str) : Prop := exists r, t = txt "##" ++ r.

Definition is_continued (t : str) : bool :=
  match t with a :: b :: _ => Z.eqb a 35 && Z.eqb b 35 | _ => false end.

(** The word begun, followed by the words that the pieces make. *)
Fixpoint resumed (w : str) (ps : list str) : list str :=
  match ps with
  | [] => [w]
  | p :: ps => if is_continued p then resumed (w ++ skipn 2 p) ps else w :: resumed p ps
  end.

(** The words that the pieces make: a marked piece continues the word before it. *)
Definition whole_words (ps : list str) : list str :=
  match ps with [] => [] | p :: ps => resumed p ps end.

(** A token that the vocabulary can spell. *)
Definition spelled (vocab : list str) (maxlen : Z) (t : str) : Prop :=
  (Z.of_nat (length t) <= maxlen)%Z /\ exists ps, splits vocab true t ps.

(** The token itself if it can be spelled, the unknown token if not. *)
Definition read_as (vocab : list str) (unk : str) (maxlen : Z) (t w : str) : Prop :=
  (spelled vocab maxlen t /\ w = t) \/ (~ spelled vocab maxlen t /\ w = unk).

(** ** Indices *)

(** The only word with this index is the token if the dictionary has it, the unknown token if not. *)
Definition index_reads (d : list (str * Z)) (unk t : str) (e : elem) : Prop :=
  exists i, e = EIdx i /\ forall w, In (w, i) d <-> (In t (map fst d) /\ w = t) \/ (~ In t (map fst d) /\ w = unk).

(** A list that fits and does not end with the padding. *)
Definition unpadded (maxlen : Z) (pad : elem) (l : list elem) : Prop :=
  (Z.of_nat (length l) <= maxlen)%Z /\ forall l', l <> l' ++ [pad].
