(** Independent specifications for the edit layer.  Nothing here mentions the code's own
    algorithms (only the data type of a replacement). *)

From Verif Require Import Py Edit.
From Coq Require Import Sorted.

(** Python slice assignment [s[start:end] = new] for one replacement. *)
Definition splice1 {A} (r : repl A) (s : list A) : list A :=
  firstn (r_start r) s ++ r_new r ++ skipn (r_end r) s.

(** All replacements, performed from the last to the first. *)
Definition splice_all {A} (s : list A) (g : list (repl A)) : list A :=
  fold_right splice1 s g.

(** A well-formed interval. *)
Definition well_formed {A} (r : repl A) : Prop := r_start r <= r_end r.

(** Half-open intervals that do not overlap. *)
Definition non_overlapping {A} (a b : repl A) : Prop :=
  r_end a <= r_start b \/ r_end b <= r_start a.

(** Any two different replacements of the list are disjoint. *)
Definition pairwise_ok {A} (l : list (repl A)) : Prop :=
  forall a b, In a l -> In b l -> a <> b -> non_overlapping a b.

(** No two different replacements have the same interval. *)
Definition distinct_positions {A} (l : list (repl A)) : Prop :=
  forall a b, In a l -> In b l -> r_start a = r_start b -> r_end a = r_end b -> a = b.

(** Tuples (start, end, value) given by the user. *)
Definition tuple_in_range {A} (t : Z * Z * A) : Prop :=
  (0 <= fst (fst t) < 2 ^ 32 /\ 0 <= snd (fst t) < 2 ^ 32)%Z.
Definition proper {A} (t : Z * Z * A) : bool := (fst (fst t) <=? snd (fst t))%Z.
Definition as_repl {A} (t : Z * Z * list A) : repl A :=
  mkR (Z.to_nat (fst (fst t))) (Z.to_nat (snd (fst t))) (snd t).

(** Pairs (start, end) given by the user. *)
Definition pair_in_range (p : Z * Z) : Prop :=
  (0 <= fst p < 2 ^ 32 /\ 0 <= snd p < 2 ^ 32)%Z.
Definition proper_pair (p : Z * Z) : bool := (fst p <=? snd p)%Z.
Definition as_span (p : Z * Z) : nat * nat := (Z.to_nat (fst p), Z.to_nat (snd p)).

(** Lexicographic order on (start, end). *)
Definition pos_le {A} (a b : repl A) : Prop :=
  r_start a < r_start b \/ (r_start a = r_start b /\ r_end a <= r_end b).
Definition pos_lt {A} (a b : repl A) : Prop :=
  r_start a < r_start b \/ (r_start a = r_start b /\ r_end a < r_end b).

(** A finished group whose intervals lie in a sequence of length [n]: intervals are
    well-formed, in order, disjoint, and within [lo, n]. *)
Fixpoint group_in {A} (lo n : nat) (g : list (repl A)) : Prop :=
  match g with
  | [] => lo <= n
  | r :: g => lo <= r_start r /\ r_start r <= r_end r /\ group_in (r_end r) n g
  end.

(** No two neighbouring replacements touch and both delete (empty new value). *)
Fixpoint no_touching_deletions {A} (g : list (repl A)) : Prop :=
  match g with
  | r :: ((r' :: _) as t) =>
      ~ (r_new r = [] /\ r_new r' = [] /\ r_end r = r_start r') /\ no_touching_deletions t
  | _ => True
  end.

(** The oracle for the iteration order of a python set returns its argument in some
    order. *)
Definition ord_ok {A} (ord : list (repl A) -> list (repl A)) : Prop :=
  forall l, Permutation (ord l) l.

(** Where a position outside all replaced intervals goes. *)
Definition net_growth {A} (g : list (repl A)) (p : nat) : Z :=
  fold_right (fun r acc =>
    if r_end r <=? p
    then (acc + Z.of_nat (length (r_new r)) - Z.of_nat (r_end r - r_start r))%Z
    else acc) 0%Z g.

(** By how much a group lengthens a sequence. *)
Definition total_growth {A} (g : list (repl A)) : Z :=
  fold_right (fun r acc =>
    (acc + Z.of_nat (length (r_new r)) - Z.of_nat (r_end r - r_start r))%Z) 0%Z g.

(** What an inverse has to contain: for every replacement, the old piece of [s], to be put
    where the new value ended up. *)
Fixpoint undo_from {A} (s : list A) (shift : Z) (g : list (repl A)) : list (repl A) :=
  match g with
  | [] => []
  | r :: g =>
      let k := Z.to_nat (Z.of_nat (r_start r) + shift) in
      mkR k (k + length (r_new r)) (firstn (r_end r - r_start r) (skipn (r_start r) s)) ::
      undo_from s (shift + Z.of_nat (length (r_new r)) - Z.of_nat (r_end r - r_start r)) g
  end.
Definition undo {A} (s : list A) (g : list (repl A)) : list (repl A) := undo_from s 0 g.

(** Spans tile [0, n): each starts where the previous one stopped. *)
Fixpoint tiles (lo : nat) (g : list span) (n : nat) : Prop :=
  match g with
  | [] => lo = n
  | (s, e) :: g => s = lo /\ s <= e /\ tiles e g n
  end.

(** The tokens occur in [s] one after the other without overlap, possibly with gaps. *)
Inductive occurs_in_order {A} : list (list A) -> list A -> Prop :=
| occ_nil gap : occurs_in_order [] gap
| occ_cons gap t ts rest : occurs_in_order ts rest ->
    occurs_in_order (t :: ts) (gap ++ t ++ rest).

(** A list is constant on a span. *)
Definition constant_on {A} (l : list A) (sp : span) : Prop :=
  forall i j, fst sp <= i < snd sp -> fst sp <= j < snd sp -> nth_error l i = nth_error l j.

(** A span as the pair of python ints given to the API. *)
Definition zspan (sp : span) : Z * Z := (Z.of_nat (fst sp), Z.of_nat (snd sp)).
