(** Independent specifications for label propagation. *)

From Verif Require Import Py Edit Labels SpecEdit.

(** Number of occurrences of a label. *)
Definition occ (x : Z) (l : list Z) : nat := count_occ Z.eq_dec l x.

(** [x] is the most frequent label of [l]; among equally frequent ones, the one that
    occurs first. *)
Definition first_mode (x : Z) (l : list Z) : Prop :=
  exists l1 l2, l = l1 ++ x :: l2 /\
    (forall y, occ y l <= occ x l) /\
    (forall y, In y l1 -> occ y l < occ x l).

(** A transducer that returns as many labels as asked for. *)
Definition sized (f : transducer) : Prop :=
  forall ls k out, f ls k = Ok out -> length out = k.

(** [g'] carries, for every replacement of [g], the labels computed by [f] from the labels
    of the replaced interval. *)
Definition transduced {A} (f : transducer) (labels : list Z) (g : list (repl A))
  (g' : list (repl Z)) : Prop :=
  Forall2 (fun r r' =>
    r_start r' = r_start r /\ r_end r' = r_end r /\
    f (firstn (r_end r - r_start r) (skipn (r_start r) labels)) (length (r_new r))
      = Ok (r_new r')) g g'.

(** [p] lies in none of the replaced intervals. *)
Definition untouched {A} (g : list (repl A)) (p : nat) : Prop :=
  forall r, In r g -> p < r_start r \/ r_end r <= p.

(** All labels fit a C unsigned int. *)
Definition u32_labels (l : list Z) : Prop := Forall (fun x => (0 <= x < 2 ^ 32)%Z) l.

(** What one token's label expands to: [lengths] are the token lengths. *)
Fixpoint spread (labels : list Z) (g : list span) : list Z :=
  match labels, g with
  | l :: labels, (s, e) :: g => repeat l (e - s) ++ spread labels g
  | _, _ => []
  end.
