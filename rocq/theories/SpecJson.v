(** Specification vocabulary for JSON: what comes back from a round trip through text. *)

From Verif Require Import Json.

(** Tuples come back as lists; everything else as it was. *)
Fixpoint as_json (v : jval) : jval :=
  match v with
  | JList l | JTuple l => JList (map as_json l)
  | JDict d => JDict (map (fun kv => (fst kv, as_json (snd kv))) d)
  | v => v
  end.

(** Characters are code points. *)
Definition text (s : str) : Prop := Forall (fun c => (0 <= c)%Z) s.

(** A value python can hold: texts consist of code points, keys of a dict are distinct. *)
Fixpoint value (v : jval) : Prop :=
  match v with
  | JStr s => text s
  | JList l | JTuple l => fold_right (fun v P => value v /\ P) True l
  | JDict d => NoDup (map fst d) /\ fold_right (fun kv P => (text (fst kv) /\ value (snd kv)) /\ P) True d
  | _ => True
  end.

(** There is no tuple inside. *)
Fixpoint no_tuple (v : jval) : Prop :=
  match v with
  | JTuple _ => False
  | JList l => fold_right (fun v P => no_tuple v /\ P) True l
  | JDict d => fold_right (fun kv P => no_tuple (snd kv) /\ P) True d
  | _ => True
  end.
