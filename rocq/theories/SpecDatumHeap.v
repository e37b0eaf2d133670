(** Specification: which calls change which intents, entities, datums and label transformers
    (C81, C82). *)

From Verif Require Import Py Json Elements Ops Pipe DatumHeap.
From Coq Require Import List.

(** What exists after the calls [h]. *)
Definition has_intent (h : list step) (i : nat) (label : Z) : Prop := nth_error (s_intents (after_steps h)) i = Some label.
Definition has_entity (h : list step) (i : nat) (e : entity) : Prop := nth_error (s_entities (after_steps h)) i = Some e.
Definition has_datum (h : list step) (k : nat) (d : datum) : Prop := datum_at (after_steps h) k = Some d.
Definition has_dict (h : list step) (i : nat) (d : list (str * Z)) : Prop := nth_error (s_dicts (after_steps h)) i = Some d.
Definition has_ordinal (h : list step) (i : nat) (o : ordinal) : Prop := ordinal_at (after_steps h) i = Some o.

(** What the call [c] gives after the calls [h]. *)
Definition answers (h : list step) (c : step) : res reply := snd (do c (after_steps h)).

(** The datum [k] has the utterance [u]; its lists hold the intents [is] and the entities [es]. *)
Definition holds (h : list step) (k : nat) (u : str) (is es : list nat) : Prop :=
  nth_error (s_datums (after_steps h)) k = Some (mkDO u is es).

(** Objects. *)
Inductive thing : Type := AnIntent (i : nat) | AnEntity (i : nat) | ADatum (k : nat).

Inductive there (h : list step) : thing -> Prop :=
| intent_there i v : has_intent h i v -> there h (AnIntent i)
| entity_there i e : has_entity h i e -> there h (AnEntity i)
| datum_there k u is es : holds h k u is es -> there h (ADatum k).

(** A datum and the objects in its lists. *)
Inductive part_of (h : list step) (k : nat) : thing -> Prop :=
| itself : part_of h k (ADatum k)
| its_intent u is es i : holds h k u is es -> In i is -> part_of h k (AnIntent i)
| its_entity u is es i : holds h k u is es -> In i es -> part_of h k (AnEntity i).

(** The assignments to an object. *)
Inductive assigns : step -> thing -> Prop :=
| assigns_intent i l : assigns (SetIntent i l) (AnIntent i)
| assigns_entity i l v a b r : assigns (SetEntity i l v a b r) (AnEntity i)
| assigns_datum k u is es : assigns (SetDatum k u is es) (ADatum k).

(** The datum [n] is new, and so are all its intents and entities; nothing else changed. *)
Definition all_new (h : list step) (c : step) (n : nat) (d : datum) : Prop :=
  has_datum (h ++ [c]) n d /\ forall x, part_of (h ++ [c]) n x -> ~ there h x.
Definition keeps_all (h : list step) (c : step) : Prop :=
  (forall i v, has_intent h i v -> has_intent (h ++ [c]) i v) /\
  (forall i e, has_entity h i e -> has_entity (h ++ [c]) i e) /\
  (forall k u is es, holds h k u is es -> holds (h ++ [c]) k u is es) /\
  (forall k d, has_datum h k d -> has_datum (h ++ [c]) k d).

(** An optional list of objects. *)
Definition listed (o : option (list nat)) : list nat := match o with Some l => l | None => [] end.

(** The calls that only ask. *)
Definition question (c : step) : Prop :=
  match c with
  | Unpack _ | Transform _ _ _ | Equal _ _ | Ratio _ _ _ _ | Humanize _ _ _ | Serialize _ => True
  | _ => False
  end.
