(** Model of Intent, Entity, Datum and OrdinalLabel as mutable python objects that share parts:
    which datum holds which entity object.  ([Elements.v] has the same functions on values.)

    A reference is the number of an object of its kind; objects are never removed.  A call is
    one call or assignment by the user; the result is the memory afterwards and what the call
    returns or raises.  Every Datum has lists of its own (elements.pyx:122-123 makes them with
    [sorted] or [[]]), every Entity a set of its own (elements.pyx:40-41): assigning the list or
    set of one object to another object is not modelled. *)

From Coq Require Import QArith.
From Verif Require Import Py Json JsonAscii Elements Ops Pipe.
From Coq Require Import List.
Local Open Scope Z_scope.

(** ** Objects *)

(** elements.pyx:108-112; the lists hold references *)
Record dobj := mkDO { o_utterance : str; o_intents : list nat; o_entities : list nat }.

(** [s_dicts] are dicts made by the user, [s_ordinals] the attributes of OrdinalLabel objects
    (ordinal_label.py:19-25): two of these dicts and a number *)
Record store := mkS {
  s_dicts : list (list (str * Z));
  s_intents : list Z;
  s_entities : list entity;
  s_datums : list dobj;
  s_ordinals : list (nat * nat * Z)
}.
Definition empty_store : store := mkS [] [] [] [] [].

Definition set_dicts (s : store) l := mkS l (s_intents s) (s_entities s) (s_datums s) (s_ordinals s).
Definition set_intents (s : store) l := mkS (s_dicts s) l (s_entities s) (s_datums s) (s_ordinals s).
Definition set_entities (s : store) l := mkS (s_dicts s) (s_intents s) l (s_datums s) (s_ordinals s).
Definition set_datums (s : store) l := mkS (s_dicts s) (s_intents s) (s_entities s) l (s_ordinals s).
Definition set_ordinals (s : store) l := mkS (s_dicts s) (s_intents s) (s_entities s) (s_datums s) l.

(** ** Code that makes objects *)

Definition prog (A : Type) : Type := store -> store * res A.
Definition give {A} (x : res A) : prog A := fun s => (s, x).
Definition seq_prog {A B} (p : prog A) (f : A -> prog B) : prog B :=
  fun s => match p s with (s, Ok x) => f x s | (s, Err e) => (s, Err e) end.
Local Notation "x <-- p ;;; q" := (seq_prog p (fun x => q)) (at level 100, p at next level, right associativity).
Fixpoint map_prog {A B} (f : A -> prog B) (l : list A) : prog (list B) :=
  match l with
  | [] => give (Ok [])
  | x :: l => y <-- f x ;;; ys <-- map_prog f l ;;; give (Ok (y :: ys))
  end.

(** what the objects are at the moment *)
Definition intent_of (s : store) (i : nat) : Z := nth i (s_intents s) 0.
Definition no_entity : entity := mkEntity 0 [] 0 0 [].
Definition entity_of (s : store) (i : nat) : entity := nth i (s_entities s) no_entity.
Definition read_datum (s : store) (d : dobj) : datum :=
  mkDatum (o_utterance d) (map (intent_of s) (o_intents d)) (map (entity_of s) (o_entities d)).
Definition datum_at (s : store) (k : nat) : option datum := option_map (read_datum s) (nth_error (s_datums s) k).
Definition dict_of (s : store) (i : nat) : list (str * Z) := nth i (s_dicts s) [].
Definition ordinal_at (s : store) (i : nat) : option ordinal :=
  option_map (fun '(a, b, ne) => mkOrdinal (dict_of s a) (dict_of s b) ne) (nth_error (s_ordinals s) i).

(** elements.pyx:97-98 *)
Definition new_intent (label : Z) : prog nat := fun s =>
  match make_intent label with
  | Ok v => (set_intents s (s_intents s ++ [v]), Ok (length (s_intents s)))
  | Err e => (s, Err e)
  end.

(** elements.pyx:26-41 *)
Definition new_entity (label : Z) (value : str) (start stop : Z) (replacements : option (list str)) : prog nat := fun s =>
  match make_entity label value start stop replacements with
  | Ok v => (set_entities s (s_entities s ++ [v]), Ok (length (s_entities s)))
  | Err e => (s, Err e)
  end.

(** elements.pyx:116-136: new lists with the same intents and entities *)
Definition new_datum (utterance : str) (intents entities : option (list nat)) : prog nat := fun s =>
  let ints := match intents with None => [] | Some l => sort_by (fun i => intent_hash (intent_of s i)) l end in
  let ents := match entities with None => [] | Some l => sort_by (fun i => e_start (entity_of s i)) l end in
  match _ <- guard (forallb (entity_position_correct utterance) (map (entity_of s) ents)) EntityPositionErr ;;
        check_overlaps (map (entity_of s) ents)
  with
  | Ok _ => (set_datums s (s_datums s ++ [mkDO utterance ints ents]), Ok (length (s_datums s)))
  | Err e => (s, Err e)
  end.

(** elements.pyx:179-180 *)
Definition hcopy_intents (d : datum) : prog (list nat) := map_prog new_intent (d_intents d).

(** expand_by_entities.pyx:16-38 *)
Fixpoint haggregate (pointer : Z) (segments : list str) (labels : list (option Z)) : prog (list nat) :=
  match segments, labels with
  | seg :: segments, label :: labels =>
      let len_seg := Z.of_nat (length seg) in
      e <-- match label with
            | None => give (Ok None)
            | Some label => e <-- new_entity label seg pointer (pointer + len_seg) None ;;; give (Ok (Some e))
            end ;;;
      pointer <-- give (to_i32 (pointer + len_seg)) ;;;
      es <-- haggregate pointer segments labels ;;;
      give (Ok (match e with Some e => e :: es | None => es end))
  | _, _ => give (Ok [])
  end.

(** expand_by_entities.pyx:59-70 *)
Definition hexpand_one (d : datum) (parts : list (list str)) (labels : list (option Z)) (idx : Z) : prog nat :=
  segments <-- give (get_kth_combination parts idx) ;;;
  let utterance := concat segments in
  entities <-- haggregate 0 segments labels ;;;
  intents <-- hcopy_intents d ;;;
  new_datum utterance (Some intents) (Some entities).

(** expand_by_entities.pyx:41-71 for the datum [k], which is [d] at the moment *)
Definition hexpand (k : nat) (d : datum) (sampling_method : option (Z -> list Z)) (include_orig : bool) : prog (list nat) :=
  if negb (has_entities d) then give (Ok [k])
  else
    let sample := match sampling_method with None => zrange 0 | Some f => f end in
    let '(parts, labels) := partition_by_entities d include_orig in
    let n_combinations := fold_right Z.mul 1 (map (fun p => Z.of_nat (length p)) parts) in
    map_prog (hexpand_one d parts labels) (sample n_combinations).

(** pipeline/utils.py:38-46 *)
Definition hpack_entity (utterance : str) (entity_labels : list Z) (se : Z * Z) : prog nat :=
  let '(start, stop) := se in
  let real_end := Z.of_nat (length utterance) - stop in
  label <-- give (get_item entity_labels start) ;;;
  new_entity label (slice_z utterance start real_end) start real_end None.

(** pipeline/utils.py:25-48 *)
Definition hpack (utterance : str) (intent_labels entity_labels : list Z) : prog nat :=
  _ <-- give (guard (Nat.eqb (length utterance) (length entity_labels)) ValueErr) ;;;
  intents <-- map_prog new_intent (sort_by (fun x => x) (dedup intent_labels)) ;;;
  start_indices <-- give (get_meaningful_start_indices entity_labels) ;;;
  end_indices <-- give (get_meaningful_start_indices (rev entity_labels)) ;;;
  entities <-- map_prog (hpack_entity utterance entity_labels) (combine start_indices (rev end_indices)) ;;;
  new_datum utterance (Some intents) (Some entities).

(** ordinal_label.py:78-90 *)
Definition hmachanize_entity (o : ordinal) (utterance raw : jval) : prog nat :=
  name <-- give (key raw K_name) ;;;
  label <-- give (lookup (entity2index o) name) ;;;
  start <-- give (key raw K_start) ;;;
  stop <-- give (key raw K_end) ;;;
  value <-- give (cut_value utterance start stop) ;;;
  label <-- give (to_i32 label) ;;;
  start <-- give (c_int start) ;;;
  stop <-- give (c_int stop) ;;;
  replacements <-- give (match key raw K_replacements with
                         | Err _ => Ok None
                         | Ok JNone => Ok None
                         | Ok v => l <- as_strs v ;; Ok (Some l)
                         end) ;;;
  new_entity label value start stop replacements.

(** ordinal_label.py:73-92 *)
Definition hmachanize (o : ordinal) (raw : jval) : prog nat :=
  utterance <-- give (key raw K_utterance) ;;;
  intent <-- give (key raw K_intent) ;;;
  names <-- give (key intent K_names) ;;;
  names <-- give (as_list names) ;;;
  intents <-- map_prog (fun n => i <-- give (lookup (intent2index o) n) ;;; new_intent i) names ;;;
  entities <-- match key raw K_entities with
               | Err _ => give (Ok [])
               | Ok v => l <-- give (as_list v) ;;; map_prog (hmachanize_entity o utterance) l
               end ;;;
  utterance <-- give (as_str utterance) ;;;
  new_datum utterance (Some intents) (Some entities).

(** elements.pyx:79-90 *)
Definition hentity_from_dict (d : jval) (utterance : str) : prog nat :=
  new_end <-- give (key d K_end) ;;;
  start <-- give (key d K_start) ;;;
  entity_value <-- give (cut_value (JStr utterance) start new_end) ;;;
  label <-- give (key d K_label) ;;;
  label <-- give (c_int label) ;;;
  start <-- give (c_int start) ;;;
  stop <-- give (c_int new_end) ;;;
  replacements <-- give (match key d K_replacements with
                         | Err _ => Ok []
                         | Ok JNone => Ok []
                         | Ok v => as_strs v
                         end) ;;;
  new_entity label entity_value start stop (Some replacements).

(** ** Calls *)

Inductive step : Type :=
| MakeDict (d : list (str * Z))                    (* x = {...} *)
| SetDict (i : nat) (d : list (str * Z))           (* any change of x in place *)
| MakeIntent (label : Z)
| SetIntent (i : nat) (label : Z)                  (* intent.label = label *)
| MakeEntity (label : Z) (value : str) (start stop : Z) (replacements : option (list str))
| EntityFromDict (d : jval) (utterance : str)
| SetEntity (i : nat) (label : Z) (value : str) (start stop : Z) (replacements : list str)
                                                   (* assignments to the attributes, changes of the set *)
| MakeDatum (utterance : str) (intents entities : option (list nat))
| SetDatum (k : nat) (utterance : str) (intents entities : list nat)
                                                   (* datum.utterance = .., changes of datum's lists *)
| CopyIntents (k : nat)
| Expand (k : nat) (sampling_method : option (Z -> list Z)) (include_orig : bool)
| Unpack (k : nat)
| Pack (utterance : str) (intent_labels entity_labels : list Z)
| Transform (E : env) (p : pipe) (k : nat)         (* p.transform(datum) *)
| Equal (k q : nat)                                (* k == q *)
| Ratio (fl : Q -> Q) (k q : nat) (rate : Q)       (* entity_overlapping_ratio *)
| MakeOrdinal (a b : nat) (ne : Z)                 (* OrdinalLabel(a, b, ne) *)
| Humanize (ord : list str -> list str) (o k : nat)
| Machanize (o : nat) (raw : jval)
| Serialize (o : nat).                             (* OrdinalLabel.serialize *)

Inductive reply : Type :=
| Void
| One (i : nat)
| Many (l : list nat)
| Unpacked (u : str) (intents labels : list Z)
| Transformed (y : pseq) (intents labels : list Z) (als : list aligner) (coll : list pseq)
| Truth (b : bool)
| Number (q : Q)
| Raw (v : jval)
| Text (t : str).

Definition one (p : prog nat) : prog reply := i <-- p ;;; give (Ok (One i)).
Definition many (p : prog (list nat)) : prog reply := l <-- p ;;; give (Ok (Many l)).
Definition known {A} (l : list A) (i : nat) : bool := Nat.ltb i (length l).
Definition all_known {A} (l : list A) (is : option (list nat)) : bool :=
  match is with None => true | Some is => forallb (known l) is end.

(** Calls about objects that do not exist are answered with [RuntimeErr]. *)
Definition on {A B} (x : option A) (f : A -> prog B) : prog B :=
  match x with Some a => f a | None => give (Err RuntimeErr) end.

Fixpoint replace {A} (l : list A) (i : nat) (x : A) : list A :=
  match l, i with
  | [], _ => []
  | _ :: l, O => x :: l
  | y :: l, S i => y :: replace l i x
  end.

Definition do (c : step) : prog reply := fun s =>
  match c with
  | MakeDict d => (set_dicts s (s_dicts s ++ [d]), Ok (One (length (s_dicts s))))
  | SetDict i d =>
      if known (s_dicts s) i then (set_dicts s (replace (s_dicts s) i d), Ok Void) else (s, Err RuntimeErr)
  | MakeIntent label => one (new_intent label) s
  | SetIntent i label =>
      if known (s_intents s) i then
        match make_intent label with
        | Ok v => (set_intents s (replace (s_intents s) i v), Ok Void)
        | Err e => (s, Err e)
        end
      else (s, Err RuntimeErr)
  | MakeEntity label value start stop r => one (new_entity label value start stop r) s
  | EntityFromDict d u => one (hentity_from_dict d u) s
  | SetEntity i label value start stop r =>
      if known (s_entities s) i then
        match make_entity label value start stop (Some r) with
        | Ok v => (set_entities s (replace (s_entities s) i v), Ok Void)
        | Err e => (s, Err e)
        end
      else (s, Err RuntimeErr)
  | MakeDatum u ints ents =>
      if all_known (s_intents s) ints && all_known (s_entities s) ents
      then one (new_datum u ints ents) s else (s, Err RuntimeErr)
  | SetDatum k u ints ents =>
      if known (s_datums s) k && all_known (s_intents s) (Some ints) && all_known (s_entities s) (Some ents)
      then (set_datums s (replace (s_datums s) k (mkDO u ints ents)), Ok Void) else (s, Err RuntimeErr)
  | CopyIntents k => on (datum_at s k) (fun d => many (hcopy_intents d)) s
  | Expand k f orig => on (datum_at s k) (fun d => many (hexpand k d f orig)) s
  | Unpack k => on (datum_at s k) (fun d => give ('(u, is, l) <- unpack_datum d ;; Ok (Unpacked u is l))) s
  | Pack u is l => one (hpack u is l) s
  | Transform E p k =>
      on (datum_at s k) (fun d => give ('(y, is, l, als, coll) <- transform E p d ;; Ok (Transformed y is l als coll))) s
  | Equal k q =>
      on (datum_at s k) (fun a => on (datum_at s q) (fun b => give (Ok (Truth (datum_eqb a b))))) s
  | Ratio fl k q rate =>
      on (datum_at s k) (fun a => on (datum_at s q) (fun b =>
        give (r <- entity_overlapping_ratio fl a b rate ;; Ok (Number r)))) s
  | MakeOrdinal a b ne =>
      if known (s_dicts s) a && known (s_dicts s) b then
        match make_ordinal (dict_of s a) (dict_of s b) ne with
        | Ok _ => (set_ordinals s (s_ordinals s ++ [(a, b, ne)]), Ok (One (length (s_ordinals s))))
        | Err e => (s, Err e)
        end
      else (s, Err RuntimeErr)
  | Humanize ord o k =>
      on (ordinal_at s o) (fun o => on (datum_at s k) (fun d => give (v <- humanize ord o d ;; Ok (Raw v)))) s
  | Machanize o raw => on (ordinal_at s o) (fun o => one (hmachanize o raw)) s
  | Serialize o => on (ordinal_at s o) (fun o => give (Ok (Text (ordinal_serialize o)))) s
  end.

(** the memory after a sequence of calls, exceptions caught *)
Definition after_steps (h : list step) : store := fold_left (fun s c => fst (do c s)) h empty_store.
