(** Model of the top-level package: uttut/elements.pyx, uttut/utils.py,
    uttut/pipeline/utils.py, uttut/toolkits, uttut/expand_by_entities.pyx,
    uttut/entity_overlapping_ratio.py, uttut/get_unique_entities.py and
    uttut/transformers/ordinal_label.py.

    Objects are records: values without identity ([DatumHeap.v] has the same functions on
    objects whose attributes can be assigned).  Error messages, [__repr__] and the
    unused attribute [Entity.index] are not modelled. *)

From Coq Require Import QArith.
From Verif Require Export Py Json.
Local Open Scope Z_scope.

(** C [int] arguments and attributes: Cython raises OverflowError for values that do not
    fit in 32 bits. *)
Definition i32b (z : Z) : bool := (- 2147483648 <=? z) && (z <? 2147483648).
Definition to_i32 (z : Z) : res Z := if i32b z then Ok z else Err OverflowErr.

(** [l[i]] *)
Definition get_item {A} (l : list A) (i : Z) : res A :=
  let n := Z.of_nat (length l) in
  let j := if i <? 0 then i + n else i in
  if (0 <=? j) && (j <? n)
  then match nth_error l (Z.to_nat j) with Some x => Ok x | None => Err IndexErr end
  else Err IndexErr.

(** [l[i] = x] *)
Fixpoint upd {A} (l : list A) (n : nat) (x : A) : list A :=
  match l, n with
  | [], _ => []
  | _ :: l, O => x :: l
  | y :: l, S n => y :: upd l n x
  end.
Definition set_item {A} (l : list A) (i : Z) (x : A) : res (list A) :=
  let n := Z.of_nat (length l) in
  let j := if i <? 0 then i + n else i in
  if (0 <=? j) && (j <? n) then Ok (upd l (Z.to_nat j) x) else Err IndexErr.

(** [range(a, b)] *)
Definition zrange (a b : Z) : list Z := map (fun n => a + Z.of_nat n) (seq 0 (Z.to_nat (b - a))).

(** run [f] over a list, stop at the first exception *)
Fixpoint foldM {A B} (f : B -> A -> res B) (l : list A) (b : B) : res B :=
  match l with
  | [] => Ok b
  | x :: l => b <- f b x ;; foldM f l b
  end.

(** ** elements.pyx: Entity *)

(** elements.pyx:19-24.  [replacements] is a set, kept as a list without duplicates. *)
Record entity := mkEntity {
  e_label : Z;
  e_value : str;
  e_start : Z;
  e_end : Z;
  e_replacements : list str
}.

(** elements.pyx:26-41 *)
Definition make_entity (label : Z) (value : str) (start stop : Z) (replacements : option (list str))
  : res entity :=
  label <- to_i32 label ;;
  start <- to_i32 start ;;
  stop <- to_i32 stop ;;
  Ok (mkEntity label value start stop (dedup (match replacements with Some r => r | None => [] end))).

(** elements.pyx:43-52 on two entities *)
Definition entity_eqb (a b : entity) : bool :=
  (e_label a =? e_label b) && eqb (e_value a) (e_value b) &&
  ((e_start a =? e_start b) && (e_end a =? e_end b)) &&
  set_eqb (e_replacements a) (e_replacements b).

(** elements.pyx:63-64 *)
Definition no_replacements (e : entity) : bool := Nat.eqb (length (e_replacements e)) 0.

(** elements.pyx:66-67 *)
Definition n_replacements (e : entity) : Z := Z.of_nat (length (e_replacements e)) + 1.

Definition K_label : str := [108; 97; 98; 101; 108].
Definition K_start : str := [115; 116; 97; 114; 116].
Definition K_end : str := [101; 110; 100].
Definition K_replacements : str :=
  [114; 101; 112; 108; 97; 99; 101; 109; 101; 110; 116; 115].
Definition K_utterance : str := [117; 116; 116; 101; 114; 97; 110; 99; 101].
Definition K_intent : str := [105; 110; 116; 101; 110; 116].
Definition K_names : str := [110; 97; 109; 101; 115].
Definition K_name : str := [110; 97; 109; 101].
Definition K_entities : str := [101; 110; 116; 105; 116; 105; 101; 115].
Definition K_data : str := [100; 97; 116; 97].

(** elements.pyx:69-77; [ord] is the iteration order of the set *)
Definition entity_to_dict (ord : list str -> list str) (e : entity) : jval :=
  JDict ([(K_label, JInt (e_label e)); (K_start, JInt (e_start e)); (K_end, JInt (e_end e))] ++
         (if no_replacements e then []
          else [(K_replacements, JList (map JStr (ord (e_replacements e))))])).

(** [d[k]] on a python value: only dicts have string keys *)
Definition key (v : jval) (k : str) : res jval :=
  match v with
  | JDict d => match dict_get d k with Some x => Ok x | None => Err KeyErr end
  | _ => Err TypeErr
  end.

(** a python value used as a C int, or compared with one: bool is a subclass of int *)
Definition as_int (v : jval) : res Z :=
  match v with
  | JInt z => Ok z
  | JBool b => Ok (if b then 1 else 0)
  | _ => Err TypeErr
  end.

(** a python value given for an [int] argument of a Cython function *)
Definition c_int (v : jval) : res Z := z <- as_int v ;; to_i32 z.

Definition as_str (v : jval) : res str := match v with JStr s => Ok s | _ => Err TypeErr end.

(** iteration over a value; other iterables are not modelled *)
Definition as_list (v : jval) : res (list jval) :=
  match v with
  | JList l | JTuple l => Ok l
  | JStr s => Ok (map (fun c => JStr [c]) s)
  | JDict d => Ok (map (fun kv => JStr (fst kv)) d)
  | _ => Err TypeErr
  end.

Definition as_strs (v : jval) : res (list str) := l <- as_list v ;; mapM as_str l.

(** [utterance[start: end]] for a text; a bound may be None.  (A list can be cut, too, but
    Entity refuses it with the same TypeError.) *)
Definition cut_bound (v : jval) (default : Z) : res Z := match v with JNone => Ok default | _ => as_int v end.
Definition cut_value (utterance start stop : jval) : res str :=
  u <- as_str utterance ;;
  start <- cut_bound start 0 ;;
  stop <- cut_bound stop (Z.of_nat (length u)) ;;
  Ok (slice_z u start stop).

(** elements.pyx:79-90; the arguments of Entity are converted from left to right *)
Definition entity_from_dict (d : jval) (utterance : str) : res entity :=
  new_end <- key d K_end ;;
  start <- key d K_start ;;
  entity_value <- cut_value (JStr utterance) start new_end ;;
  label <- key d K_label ;;
  label <- c_int label ;;
  start <- c_int start ;;
  stop <- c_int new_end ;;
  replacements <- match key d K_replacements with
                  | Err _ => Ok []
                  | Ok JNone => Ok []
                  | Ok v => as_strs v
                  end ;;
  make_entity label entity_value start stop (Some replacements).

(** ** elements.pyx: Intent is its label *)

(** elements.pyx:97-98 *)
Definition make_intent (label : Z) : res Z := to_i32 label.

(** elements.pyx:103-104, [hash(int)]: -1 has the hash -2 *)
Definition intent_hash (label : Z) : Z := if label =? -1 then -2 else label.

(** ** utils.py *)

(** utils.py:1-6 *)
Definition entity_position_correct (utterance : str) (e : entity) : bool :=
  eqb (e_value e) (slice_z utterance (e_start e) (e_end e)).

(** utils.py:9-10 *)
Definition overlap (e next : entity) : bool := e_start next <? e_end e.

(** ** elements.pyx: Datum *)

Record datum := mkDatum {
  d_utterance : str;
  d_intents : list Z;
  d_entities : list entity
}.

(** elements.pyx:131-136 *)
Fixpoint check_overlaps (es : list entity) : res unit :=
  match es with
  | e :: ((next :: _) as rest) =>
      _ <- guard (negb (overlap e next)) EntityOverlapErr ;; check_overlaps rest
  | _ => Ok tt
  end.

(** elements.pyx:116-136 *)
Definition make_datum (utterance : str) (intents : option (list Z)) (entities : option (list entity))
  : res datum :=
  let ints := match intents with None => [] | Some l => sort_by intent_hash l end in
  let ents := match entities with None => [] | Some l => sort_by e_start l end in
  _ <- guard (forallb (entity_position_correct utterance) ents) EntityPositionErr ;;
  _ <- check_overlaps ents ;;
  Ok (mkDatum utterance ints ents).

(** elements.pyx:157-158 *)
Definition has_same_utterance_as (a b : datum) : bool := eqb (d_utterance a) (d_utterance b).
(** elements.pyx:160-161 *)
Definition has_same_intents_as (a b : datum) : bool := set_eqb (d_intents a) (d_intents b).
(** elements.pyx:163-171 *)
Fixpoint same_entities (a b : list entity) : bool :=
  match a, b with
  | [], [] => true
  | x :: a, y :: b => entity_eqb x y && same_entities a b
  | _, _ => false
  end.
Definition has_same_entities_as (a b : datum) : bool := same_entities (d_entities a) (d_entities b).
(** elements.pyx:138-149 on two datums *)
Definition datum_eqb (a b : datum) : bool :=
  has_same_utterance_as a b && has_same_intents_as a b && has_same_entities_as a b.
(** elements.pyx:173-177 *)
Definition has_entities (d : datum) : bool := Nat.ltb 0 (length (d_entities d)).
Definition has_intents (d : datum) : bool := Nat.ltb 0 (length (d_intents d)).
(** elements.pyx:179-180 *)
Definition copy_intents (d : datum) : res (list Z) := mapM make_intent (d_intents d).

(** ** pipeline/utils.py *)

(** pipeline/utils.py:7-22 *)
Definition write_entity (labels : list Z) (e : entity) : res (list Z) :=
  foldM (fun l i => set_item l i (e_label e)) (zrange (e_start e) (e_end e)) labels.

Definition unpack_datum (d : datum) : res (str * list Z * list Z) :=
  let utterance := d_utterance d in
  let intent_labels := d_intents d in
  entity_labels <- foldM write_entity (d_entities d) (repeat 0 (length utterance)) ;;
  Ok (utterance, intent_labels, entity_labels).

(** pipeline/utils.py:61-69 *)
Fixpoint start_indices_from (i : Z) (current : Z) (labels : list Z) : list Z :=
  match labels with
  | [] => []
  | l :: labels =>
      if negb (l =? current) then i :: start_indices_from (i + 1) l labels
      else start_indices_from (i + 1) current labels
  end.
Definition get_start_indices (labels : list Z) : res (list Z) :=
  match labels with
  | [] => Err IndexErr
  | l :: _ => Ok (0 :: start_indices_from 0 l labels)
  end.

(** pipeline/utils.py:51-58: the loop overwrites the list it iterates over; [n] iterations
    remain, [i] is the position of the iterator *)
Fixpoint meaningful_loop (n : nat) (labels : list Z) (indices : list Z) (i j : nat)
  : res (list Z) :=
  match n with
  | O => Ok (firstn j indices)
  | S n =>
      ind <- get_item indices (Z.of_nat i) ;;
      label <- get_item labels ind ;;
      if negb (label =? 0)
      then meaningful_loop n labels (upd indices j ind) (S i) (S j)
      else meaningful_loop n labels indices (S i) j
  end.
Definition get_meaningful_start_indices (labels : list Z) : res (list Z) :=
  indices <- get_start_indices labels ;;
  meaningful_loop (length indices) labels indices 0 0.

(** pipeline/utils.py:38-46 *)
Definition pack_entity (utterance : str) (entity_labels : list Z) (se : Z * Z) : res entity :=
  let '(start, stop) := se in
  let real_end := Z.of_nat (length utterance) - stop in
  label <- get_item entity_labels start ;;
  make_entity label (slice_z utterance start real_end) start real_end None.

(** pipeline/utils.py:25-48 *)
Definition pack_to_datum (utterance : str) (intent_labels entity_labels : list Z) : res datum :=
  _ <- guard (Nat.eqb (length utterance) (length entity_labels)) ValueErr ;;
  intents <- mapM make_intent (sort_by (fun x => x) (dedup intent_labels)) ;;
  start_indices <- get_meaningful_start_indices entity_labels ;;
  end_indices <- get_meaningful_start_indices (rev entity_labels) ;;
  entities <- mapM (pack_entity utterance entity_labels)
                (combine start_indices (rev end_indices)) ;;
  make_datum utterance (Some intents) (Some entities).

(** ** toolkits *)

(** get_kth_combination.pyx:14-30.  [k] is a C int; the intermediate values only get
    smaller in absolute value.  Python's [%] and [//] (floor), as Cython compiles them by
    default. *)
Fixpoint kth_loop {A} (iterables : list (list A)) (k : Z) : res (list A) :=
  match iterables with
  | [] => Ok []
  | it :: iterables =>
      let n := Z.of_nat (length it) in
      _ <- guard (negb (n =? 0)) ZeroDivisionErr ;;
      x <- get_item it (k mod n) ;;
      xs <- kth_loop iterables (k / n) ;;
      Ok (x :: xs)
  end.
Definition get_kth_combination {A} (iterables : list (list A)) (k : Z) : res (list A) :=
  k <- to_i32 k ;; kth_loop iterables k.

(** [<=] on strings: by code points *)
Fixpoint str_leb (a b : str) : bool :=
  match a, b with
  | [], _ => true
  | _ :: _, [] => false
  | x :: a, y :: b => if x <? y then true else if y <? x then false else str_leb a b
  end.
Fixpoint insert_str (x : str) (l : list str) : list str :=
  match l with
  | [] => [x]
  | y :: t => if str_leb x y then x :: l else y :: insert_str x t
  end.
Definition sorted_strs (l : list str) : list str := fold_right insert_str [] l.

(** partition_by_entities.pyx:14-33; [None] is the label of text between entities *)
Fixpoint partition_loop (utt : str) (include_orig : bool) (start : Z) (es : list entity)
  : list (list str) * list (option Z) :=
  match es with
  | [] =>
      if negb (start =? Z.of_nat (length utt))
      then ([[slice_z utt start (Z.of_nat (length utt))]], [None])
      else ([], [])
  | e :: es =>
      let before := negb (start =? e_start e) in
      let candidates :=
        if no_replacements e then [e_value e]
        else sorted_strs (e_replacements e) ++ (if include_orig then [e_value e] else []) in
      let '(parts, labels) := partition_loop utt include_orig (e_end e) es in
      ((if before then [[slice_z utt start (e_start e)]] else []) ++ candidates :: parts,
       (if before then [None] else []) ++ Some (e_label e) :: labels)
  end.
Definition partition_by_entities (d : datum) (include_orig : bool)
  : list (list str) * list (option Z) :=
  partition_loop (d_utterance d) include_orig 0 (d_entities d).

(** ** expand_by_entities.pyx *)

(** expand_by_entities.pyx:16-38; [pointer] is a C int *)
Fixpoint aggregate_entities (pointer : Z) (segments : list str) (labels : list (option Z))
  : res (list entity) :=
  match segments, labels with
  | seg :: segments, label :: labels =>
      let len_seg := Z.of_nat (length seg) in
      e <- match label with
           | None => Ok None
           | Some label => e <- make_entity label seg pointer (pointer + len_seg) None ;; Ok (Some e)
           end ;;
      pointer <- to_i32 (pointer + len_seg) ;;
      es <- aggregate_entities pointer segments labels ;;
      Ok (match e with Some e => e :: es | None => es end)
  | _, _ => Ok []
  end.

(** expand_by_entities.pyx:59-70: one round of the loop *)
Definition expand_one (d : datum) (parts : list (list str)) (labels : list (option Z)) (idx : Z)
  : res datum :=
  segments <- get_kth_combination parts idx ;;
  let utterance := concat segments in
  entities <- aggregate_entities 0 segments labels ;;
  intents <- copy_intents d ;;
  make_datum utterance (Some intents) (Some entities).

(** expand_by_entities.pyx:41-71; [None] is the default sampling method *)
Definition expand_by_entities (d : datum) (sampling_method : option (Z -> list Z))
  (include_orig : bool) : res (list datum) :=
  if negb (has_entities d) then Ok [d]
  else
    let sample := match sampling_method with None => zrange 0 | Some f => f end in
    let '(parts, labels) := partition_by_entities d include_orig in
    let n_combinations := fold_right Z.mul 1 (map (fun p => Z.of_nat (length p)) parts) in
    mapM (expand_one d parts labels) (sample n_combinations).

(** ** entity_overlapping_ratio.py *)

(** entity_overlapping_ratio.py:8-19 and 22-42; [ind] is the value after [ind += 1] *)
Fixpoint expand_loop (fuel : nat) (utter_len : Z) (ind : Z) (es : list entity) (acc : list Z)
  : res (list Z) :=
  match fuel with
  | O => Err OutOfFuel
  | S fuel =>
      if utter_len <=? ind then Ok acc
      else match es with
           | [] => expand_loop fuel utter_len (ind + 1) [] (acc ++ [0])
           | e :: rest =>
               if (e_start e <=? ind) && (ind <? e_end e)
               then expand_loop fuel utter_len (ind + 1) es (acc ++ [e_label e])
               else if e_end e <=? ind
                    then expand_loop fuel utter_len ind rest acc
                    else expand_loop fuel utter_len (ind + 1) es (acc ++ [0])
           end
  end.
Definition expand_entity_to_list (d : datum) : res (list Z) :=
  expand_loop (S (length (d_utterance d) + length (d_entities d)))
    (Z.of_nat (length (d_utterance d))) 0 (d_entities d) [].

(** entity_overlapping_ratio.py:45-56 *)
Definition penalty_on (ent1 ent2 : Z) (rate : Q) : Q :=
  (if ent1 =? ent2 then 0 else if (ent1 =? 0) || (ent2 =? 0) then 1 else rate)%Q.

(** entity_overlapping_ratio.py:59-78.  Floats are rationals; [fl] rounds the result of
    every operation. *)
Definition entity_overlapping_ratio (fl : Q -> Q) (d1 d2 : datum) (rate : Q) : res Q :=
  _ <- guard (has_same_utterance_as d1 d2) DifferentUtteranceErr ;;
  l1 <- expand_entity_to_list d1 ;;
  l2 <- expand_entity_to_list d2 ;;
  let penalty := fold_left (fun p xy => fl (p + penalty_on (fst xy) (snd xy) rate))%Q
                   (combine l1 l2) 0%Q in
  let n := Z.of_nat (length (d_utterance d1)) in
  _ <- guard (negb (n =? 0)) ZeroDivisionErr ;;
  Ok (fl (1 - fl (penalty / inject_Z n)))%Q.

(** ** get_unique_entities.py:6-16; [ord] is the iteration order of the set *)
Definition get_unique_entities (ord : list Z -> list Z) (data : list datum) : list Z :=
  ord (dedup (flat_map (fun d => map e_label (d_entities d)) data)).

(** ** transformers/ordinal_label.py *)

(** uttut/__init__.py:17 *)
Definition NOT_ENTITY_NAME : str :=
  [95; 95; 78; 79; 84; 95; 69; 78; 84; 73; 84; 89; 95; 95].

Record ordinal := mkOrdinal {
  intent2index : list (str * Z);
  entity2index : list (str * Z);
  not_entity_index : Z
}.

(** ordinal_label.py:29-32 (is_valid_mapping) *)
Definition is_valid_mapping (d : list (str * Z)) : bool :=
  let idxs := sort_by (fun x => x) (map snd d) in
  eqb idxs (zrange 0 (Z.of_nat (length idxs))).

(** ordinal_label.py:12-27 *)
Definition make_ordinal (i2i e2i : list (str * Z)) (ne : Z) : res ordinal :=
  _ <- guard (is_valid_mapping i2i) ValueErr ;;
  _ <- guard (is_valid_mapping (dict_set e2i NOT_ENTITY_NAME ne)) ValueErr ;;
  Ok (mkOrdinal i2i e2i ne).

(** ordinal_label.py:38-50 index2entity, index2intent *)
Fixpoint index2name (d : list (str * Z)) (idx : Z) : res str :=
  match d with
  | [] => Err KeyErr
  | (name, i) :: d => if idx =? i then Ok name else index2name d idx
  end.

(** ordinal_label.py:61-69 *)
Definition humanize_entity (ord : list str -> list str) (o : ordinal) (e : entity) : res jval :=
  name <- index2name (entity2index o) (e_label e) ;;
  Ok (JDict ([(K_name, JStr name); (K_start, JInt (e_start e)); (K_end, JInt (e_end e))] ++
             (if no_replacements e then []
              else [(K_replacements, JList (map JStr (ord (e_replacements e))))]))).

(** ordinal_label.py:52-71 *)
Definition humanize (ord : list str -> list str) (o : ordinal) (d : datum) : res jval :=
  names <- mapM (index2name (intent2index o)) (d_intents d) ;;
  let base := [(K_utterance, JStr (d_utterance d));
               (K_intent, JDict [(K_names, JList (map JStr names))])] in
  if has_entities d then
    entities <- mapM (humanize_entity ord o) (d_entities d) ;;
    Ok (JDict (base ++ [(K_entities, JList entities)]))
  else Ok (JDict base).

(** lists and dicts cannot be dict keys, nor tuples that contain them *)
Fixpoint hashable (v : jval) : bool :=
  match v with
  | JTuple l => forallb hashable l
  | JList _ | JDict _ => false
  | _ => true
  end.

(** a name used as a dict key: values other than texts are not keys *)
Definition lookup (d : list (str * Z)) (name : jval) : res Z :=
  match name with
  | JStr s => match dict_get d s with Some i => Ok i | None => Err KeyErr end
  | _ => if hashable name then Err KeyErr else Err TypeErr
  end.

(** ordinal_label.py:78-90: one round of the loop; the arguments of Entity are converted from
    left to right *)
Definition machanize_entity (o : ordinal) (utterance : jval) (raw : jval) : res entity :=
  name <- key raw K_name ;;
  label <- lookup (entity2index o) name ;;
  start <- key raw K_start ;;
  stop <- key raw K_end ;;
  value <- cut_value utterance start stop ;;
  label <- to_i32 label ;;
  start <- c_int start ;;
  stop <- c_int stop ;;
  replacements <- match key raw K_replacements with
                  | Err _ => Ok None
                  | Ok JNone => Ok None
                  | Ok v => l <- as_strs v ;; Ok (Some l)
                  end ;;
  make_entity label value start stop replacements.

(** ordinal_label.py:73-92; an utterance that is None is refused here, python makes a Datum of
    it if there are no entities *)
Definition machanize (o : ordinal) (raw : jval) : res datum :=
  utterance <- key raw K_utterance ;;
  intent <- key raw K_intent ;;
  names <- key intent K_names ;;
  names <- as_list names ;;
  intents <- mapM (fun n => i <- lookup (intent2index o) n ;; make_intent i) names ;;
  entities <- match key raw K_entities with
              | Err _ => Ok []
              | Ok v => l <- as_list v ;; mapM (machanize_entity o utterance) l
              end ;;
  utterance <- as_str utterance ;;
  make_datum utterance (Some intents) (Some entities).

(** ordinal_label.py:118-134: numbering names in order of first appearance; [skip] is the
    index to leave out *)
Fixpoint number (skip : option Z) (idx : Z) (names : list str) (d : list (str * Z))
  : list (str * Z) :=
  match names with
  | [] => d
  | n :: names =>
      if dict_mem d n then number skip idx names d
      else
        let idx := match skip with Some k => if idx =? k then idx + 1 else idx | None => idx end in
        number skip (idx + 1) names (dict_set d n idx)
  end.

(** ordinal_label.py:110-136 *)
Definition from_raw_dictionary (raw : jval) (ne : Z) : res ordinal :=
  data <- key raw K_data ;;
  data <- as_list data ;;
  intents <- mapM (fun d => i <- key d K_intent ;; ns <- key i K_names ;; as_strs ns) data ;;
  entities <- mapM (fun d => match d with
                             | JDict m =>
                                 match dict_get m K_entities with
                                 | None => Ok []
                                 | Some v => l <- as_list v ;;
                                             mapM (fun e => n <- key e K_name ;; as_str n) l
                                 end
                             | _ => Err AttributeErr
                             end) data ;;
  make_ordinal (number None 0 (concat intents) []) (number (Some ne) 0 (concat entities) []) ne.
