(** Specification vocabulary for datums, entities and ordinal labels.  Only the records and
    the constructors of Elements.v are used here. *)

From Coq Require Import QArith Sorted.
From Verif Require Import Py Json Elements.
Local Open Scope Z_scope.

(** ** Values made by the public constructors *)

Definition is_entity (e : entity) : Prop :=
  exists label value start stop repl, make_entity label value start stop repl = Ok e.
Definition is_intent (i : Z) : Prop := make_intent i = Ok i.
Definition is_datum (d : datum) : Prop :=
  exists u ints ents, make_datum u (Some ints) (Some ents) = Ok d /\
    Forall is_intent ints /\ Forall is_entity ents.

(** ** Sorting and positions *)

(** [m] is [l] sorted by [key], keeping the order of elements with the same key *)
Definition stably_sorted {A} (key : A -> Z) (l m : list A) : Prop :=
  Permutation l m /\ StronglySorted (fun a b => key a <= key b) m /\
  forall k, filter (fun x => key x =? k) m = filter (fun x => key x =? k) l.

(** the characters [i .. j-1] of [u] are [v] *)
Definition text_at (u : str) (i j : Z) (v : str) : Prop :=
  exists a b, u = (a ++ v ++ b)%list /\ Z.of_nat (length a) = i /\ Z.of_nat (length v) = j - i.

(** the positions of the entity exist in the utterance *)
Definition inside (u : str) (e : entity) : Prop :=
  0 <= e_start e <= e_end e /\ e_end e <= Z.of_nat (length u).

Definition before (a b : entity) : Prop := e_end a <= e_start b.

(** two entities, [a] given before [b], that may be in one datum *)
Definition apart (a b : entity) : Prop :=
  if e_start a <=? e_start b then before a b else before b a.

Definition covers (e : entity) (i : Z) : Prop := e_start e <= i < e_end e.

(** the label of the character [i] *)
Definition labelled (es : list entity) (i : Z) (l : Z) : Prop :=
  (exists e, In e es /\ covers e i /\ e_label e = l) \/
  ((forall e, In e es -> ~ covers e i) /\ l = 0).

(** ** Maximal runs of one label *)

Definition at_ (ls : list Z) (i : Z) : Z := nth (Z.to_nat i) ls 0.
Definition run (ls : list Z) (s t l : Z) : Prop :=
  0 <= s < t /\ t <= Z.of_nat (length ls) /\ l <> 0 /\
  (forall i, s <= i < t -> at_ ls i = l) /\
  (s = 0 \/ at_ ls (s - 1) <> l) /\
  (t = Z.of_nat (length ls) \/ at_ ls t <> l).

Definition i32 (z : Z) : Prop := - 2 ^ 31 <= z < 2 ^ 31.

(** the entity without its replacements *)
Definition bare_entity (e : entity) : entity :=
  mkEntity (e_label e) (e_value e) (e_start e) (e_end e) [].

(** ** Equality *)

Definition same_set {A} (a b : list A) : Prop := forall x, In x a <-> In x b.

Definition same_entity (a b : entity) : Prop :=
  e_label a = e_label b /\ e_value a = e_value b /\ e_start a = e_start b /\
  e_end a = e_end b /\ same_set (e_replacements a) (e_replacements b).

Definition same_datum (a b : datum) : Prop :=
  d_utterance a = d_utterance b /\ same_set (d_intents a) (d_intents b) /\
  Forall2 same_entity (d_entities a) (d_entities b).

(** ** Combinations *)

(** all ways to take one element of every list; the first list varies fastest *)
Fixpoint choices {A} (its : list (list A)) : list (list A) :=
  match its with
  | [] => [[]]
  | it :: its => flat_map (fun t => map (fun x => x :: t) it) (choices its)
  end.
Definition n_choices {A} (its : list (list A)) : Z :=
  fold_right Z.mul 1 (map (fun it => Z.of_nat (length it)) its).

(** ** Rebuilding an utterance with other values for its entities *)

(** [pos]: how much of the old text is used up, [out]: length of the new text so far *)
Fixpoint rebuilt_text (u : str) (pos : nat) (es : list entity) (vs : list str) : str :=
  match es, vs with
  | e :: es, v :: vs =>
      (firstn (Z.to_nat (e_start e) - pos) (skipn pos u) ++ v ++
       rebuilt_text u (Z.to_nat (e_end e)) es vs)%list
  | _, _ => skipn pos u
  end.
Fixpoint rebuilt_entities (shift : Z) (es : list entity) (vs : list str) : list entity :=
  match es, vs with
  | e :: es, v :: vs =>
      let n := Z.of_nat (length v) in
      let s := e_start e + shift in
      mkEntity (e_label e) v s (s + n) [] :: rebuilt_entities (s + n - e_end e) es vs
  | _, _ => []
  end.
Definition rebuilt (d : datum) (vs : list str) : datum :=
  mkDatum (rebuilt_text (d_utterance d) 0 (d_entities d) vs) (d_intents d)
          (rebuilt_entities 0 (d_entities d) vs).

(** by code points, a prefix first *)
Inductive str_le : str -> str -> Prop :=
| le_nil : forall b, str_le [] b
| le_lt : forall x y a b, x < y -> str_le (x :: a) (y :: b)
| le_cons : forall x a b, str_le a b -> str_le (x :: a) (x :: b).

(** [cs]: the texts that may stand for the entity *)
Definition candidates (include_orig : bool) (e : entity) (cs : list str) : Prop :=
  match e_replacements e with
  | [] => cs = [e_value e]
  | _ => exists sorted, StronglySorted str_le sorted /\ Permutation (e_replacements e) sorted /\
           cs = (sorted ++ if include_orig then [e_value e] else [])%list
  end.

(** ** Cutting an utterance at its entities *)

(** the text of a piece, and its entity if it is one *)
Definition piece : Type := option entity * str.
Definition piece_entities (ps : list piece) : list entity :=
  flat_map (fun p : piece => match fst p with Some e => [e] | None => [] end) ps.
Definition piece_text (ps : list piece) : str := concat (map snd ps).

Definition cut_into (u : str) (es : list entity) (ps : list piece) : Prop :=
  piece_text ps = u /\ piece_entities ps = es /\
  forall a p b, ps = (a ++ p :: b)%list ->
    match fst p with
    | Some e => snd p = e_value e /\ Z.of_nat (length (piece_text a)) = e_start e
    | None => snd p <> [] /\ match b with (None, _) :: _ => False | _ => True end
    end.

(** ** Agreement of two annotations *)

(** rounding of floating point results: monotone, exact on small integers *)
Definition rounding (fl : Q -> Q) : Prop :=
  (forall x y, (x <= y)%Q -> (fl x <= fl y)%Q) /\
  (forall z, Z.abs z <= 2 ^ 53 -> (fl (inject_Z z) == inject_Z z)%Q).
Definition exact (fl : Q -> Q) : Prop := forall x, (fl x == x)%Q.

(** the penalty for a character labelled [a] and [b] *)
Definition cost (rate : Q) (a b : Z) (q : Q) : Prop :=
  (a = b /\ q = 0%Q) \/
  (a <> b /\ (a = 0 \/ b = 0) /\ q = 1%Q) \/
  (a <> b /\ a <> 0 /\ b <> 0 /\ q = rate).

(** [qs]: the penalties of the characters *)
Definition costs (rate : Q) (d1 d2 : datum) (qs : list Q) : Prop :=
  length qs = length (d_utterance d1) /\
  forall i q, nth_error qs i = Some q -> exists a b,
    labelled (d_entities d1) (Z.of_nat i) a /\ labelled (d_entities d2) (Z.of_nat i) b /\
    cost rate a b q.
Definition sum (qs : list Q) : Q := fold_right Qplus 0%Q qs.

(** the same label on every character *)
Definition same_annotation (d1 d2 : datum) : Prop :=
  forall i a b, 0 <= i < Z.of_nat (length (d_utterance d1)) ->
    labelled (d_entities d1) i a -> labelled (d_entities d2) i b -> a = b.
Definition in01 (q : Q) : Prop := (0 <= q <= 1)%Q.
