(** Model of /repo/uttut/transformers/ordinal_label.py for arguments of any form: the indices
    and the dicts themselves may be any python values ([OrdinalLabel.deserialize] gets them
    from a JSON text).  [Elements.v] and [JsonAscii.v] have the same code for dicts of
    integers. *)

From Verif Require Export Pipe Elements JsonAscii.
Local Open Scope Z_scope.

(** [a < b] on python values: integers and booleans, texts, lists, tuples; TypeError otherwise.
    Lists compare by their first elements that differ. *)
Fixpoint py_ltb (a b : jval) {struct a} : res bool :=
  match a, b with
  | JInt x, JInt y => Ok (x <? y)
  | JInt x, JBool y => Ok (x <? (if y then 1 else 0))
  | JBool x, JInt y => Ok ((if x then 1 else 0) <? y)
  | JBool x, JBool y => Ok ((if x then 1 else 0) <? (if y then 1 else 0))
  | JStr x, JStr y => Ok (negb (str_leb y x))
  | JList l, JList m | JTuple l, JTuple m =>
      (fix go l m := match l, m with
                     | _, [] => Ok false
                     | [], _ :: _ => Ok true
                     | x :: l, y :: m => if py_eqb x y then go l m else py_ltb x y
                     end) l m
  | _, _ => Err TypeErr
  end.

(** [sorted(l)].  Python compares other pairs of elements than an insertion sort does, but both
    compare the neighbours in the result, and in a list in order every two elements can be
    compared, so they raise for the same lists. *)
Fixpoint py_insert (x : jval) (l : list jval) : res (list jval) :=
  match l with
  | [] => Ok [x]
  | y :: t => less <- py_ltb y x ;;
              if less : bool then r <- py_insert x t ;; Ok (y :: r) else Ok (x :: l)
  end.
Fixpoint py_sorted (l : list jval) : res (list jval) :=
  match l with
  | [] => Ok []
  | x :: l => r <- py_sorted l ;; py_insert x r
  end.

(** ordinal_label.py:29-32 (is_valid_mapping); [.values()] of something else than a dict is an
    AttributeError *)
Definition valid_any (v : jval) : res bool :=
  match v with
  | JDict d =>
      idxs <- py_sorted (map snd d) ;;
      Ok (py_eqb (JList idxs) (JList (map JInt (zrange 0 (Z.of_nat (length idxs))))))
  | _ => Err AttributeErr
  end.

(** the attributes of the object *)
Record ordinal_any := mkAny { any_intents : jval; any_entities : jval; any_not_entity : jval }.

(** ordinal_label.py:12-27; [{**entity2index, NOT_ENTITY: not_entity_index}] of something else
    than a dict is a TypeError *)
Definition ordinal_new (i2i e2i ne : jval) : res ordinal_any :=
  ok <- valid_any i2i ;;
  _ <- guard ok ValueErr ;;
  all <- match e2i with JDict d => Ok (JDict (dict_set d NOT_ENTITY_NAME ne)) | _ => Err TypeErr end ;;
  ok <- valid_any all ;;
  _ <- guard ok ValueErr ;;
  Ok (mkAny i2i e2i ne).

(** the dict kept in an attribute (after construction both are dicts) *)
Definition dict_in (v : jval) : list (str * jval) := match v with JDict d => d | _ => [] end.

(** ordinal_label.py:38-50 index2entity, index2intent *)
Fixpoint index2name_any (d : list (str * jval)) (idx : Z) : res str :=
  match d with
  | [] => Err KeyErr
  | (name, i) :: d => if py_eqb (JInt idx) i then Ok name else index2name_any d idx
  end.

(** ordinal_label.py:61-69 *)
Definition humanize_entity_any (ord : list str -> list str) (o : ordinal_any) (e : entity) : res jval :=
  name <- index2name_any (dict_in (any_entities o)) (e_label e) ;;
  Ok (JDict ([(K_name, JStr name); (K_start, JInt (e_start e)); (K_end, JInt (e_end e))] ++
             (if no_replacements e then []
              else [(K_replacements, JList (map JStr (ord (e_replacements e))))]))).

(** ordinal_label.py:52-71 *)
Definition humanize_any (ord : list str -> list str) (o : ordinal_any) (d : datum) : res jval :=
  names <- mapM (index2name_any (dict_in (any_intents o))) (d_intents d) ;;
  let base := [(K_utterance, JStr (d_utterance d));
               (K_intent, JDict [(K_names, JList (map JStr names))])] in
  if has_entities d then
    entities <- mapM (humanize_entity_any ord o) (d_entities d) ;;
    Ok (JDict (base ++ [(K_entities, JList entities)]))
  else Ok (JDict base).

(** [d[name]] *)
Definition lookup_in (d : list (str * jval)) (name : jval) : res jval :=
  match name with
  | JStr s => match dict_get d s with Some i => Ok i | None => Err KeyErr end
  | _ => if hashable name then Err KeyErr else Err TypeErr
  end.

(** ordinal_label.py:78-90; the label becomes a C int when Entity is called *)
Definition machanize_entity_in (o : ordinal_any) (utterance : jval) (raw : jval) : res entity :=
  name <- key raw K_name ;;
  label <- lookup_in (dict_in (any_entities o)) name ;;
  start <- key raw K_start ;;
  stop <- key raw K_end ;;
  value <- cut_value utterance start stop ;;
  label <- c_int label ;;
  start <- c_int start ;;
  stop <- c_int stop ;;
  replacements <- match key raw K_replacements with
                  | Err _ => Ok None
                  | Ok JNone => Ok None
                  | Ok v => l <- as_strs v ;; Ok (Some l)
                  end ;;
  make_entity label value start stop replacements.

(** ordinal_label.py:73-92; [Intent(label)] converts the label to a C int *)
Definition machanize_in (o : ordinal_any) (raw : jval) : res datum :=
  utterance <- key raw K_utterance ;;
  intent <- key raw K_intent ;;
  names <- key intent K_names ;;
  names <- as_list names ;;
  intents <- mapM (fun n => v <- lookup_in (dict_in (any_intents o)) n ;; i <- as_int v ;; make_intent i) names ;;
  entities <- match key raw K_entities with
              | Err _ => Ok []
              | Ok v => l <- as_list v ;; mapM (machanize_entity_in o utterance) l
              end ;;
  utterance <- as_str utterance ;;
  make_datum utterance (Some intents) (Some entities).

(** ordinal_label.py:94-100 *)
Definition serialize_any (o : ordinal_any) : str :=
  dumps_ascii (JDict [(K_INTENT2INDEX, any_intents o); (K_ENTITY2INDEX, any_entities o);
                      (K_NOT_ENTITY_INDEX, any_not_entity o)]).

(** ordinal_label.py:102-108 *)
Definition ordinal_load (s : str) : res ordinal_any :=
  v <- loads s ;;
  i2i <- key v K_INTENT2INDEX ;;
  e2i <- key v K_ENTITY2INDEX ;;
  ne <- key v K_NOT_ENTITY_INDEX ;;
  ordinal_new i2i e2i ne.
