(** Specification: which outputs the operators with word lists and vocabularies can give (C110). *)

From Coq Require Import String.
From Verif Require Import Py SpecWords SpecOps Ops.
From Coq Require Import List ZArith.
Import ListNotations.

(** Where the text is cut: each token is the best listed word that begins there, or a single character
    where none begins. *)
Definition best_cut (shortest : bool) (ws ts : list str) : Prop :=
  forall a t b, ts = a ++ t :: b ->
  best_word shortest ws (t ++ concat b) t \/ (length t = 1 /\ no_word ws (t ++ concat b)).

(** A token and what stands for it in the output: blanks around listed words and CJK characters. *)
Definition framed_token (ws : list str) (t u : str) : Prop :=
  ((In t ws \/ forall c, In c t -> cjk c = true) /\ u = txt " " ++ t ++ txt " ") \/
  (~ In t ws /\ (exists c, In c t /\ cjk c = false) /\ u = t).

(** Nothing before: the piece begins the token. *)
Definition begins (before : list str) : bool := match before with [] => true | _ => false end.

(** The parts of one token: each is not empty, in the vocabulary (with ## in front if it does not begin
    the token), and no longer beginning of the rest is. *)
Definition longest_parts (vocab ws : list str) : Prop :=
  forall a w b, ws = a ++ w :: b ->
  w <> [] /\ In (marked (begins a) w) vocab /\
  forall w', is_prefix w' (w ++ concat b) -> In (marked (begins a) w') vocab -> length w' <= length w.

(** The parts as they are written. *)
Definition with_marks (ws : list str) : list str :=
  match ws with [] => [] | w :: ws => w :: map (fun w => txt "##" ++ w) ws end.

(** One token's share of the output. *)
Definition share (vocab : list str) (unk : elem) (maxlen : Z) (g : list elem) : Prop :=
  g = [unk] \/ exists ws, (Z.of_nat (length (concat ws)) <= maxlen)%Z /\ longest_parts vocab ws /\ g = map ETok (with_marks ws).

(** All elements are the unknown token or words of the vocabulary that are not empty. *)
Definition in_vocabulary (vocab : list str) (unk : elem) (l : list elem) : Prop :=
  forall e, In e l -> e = unk \/ exists t, e = ETok t /\ In t vocab /\ t <> [].
