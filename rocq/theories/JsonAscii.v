(** JSON as written by [json.dumps(..)] with the default arguments (ensure_ascii, no
    indentation) and what uttut/transformers/ordinal_label.py stores with it. *)

From Verif Require Import Py Json Elements Pipe.
From Coq Require Import List.
Local Open Scope Z_scope.

(** [\uXXXX] *)
Definition u4 (n : Z) : str :=
  [BACKSLASH; 117; hex (n / 4096); hex (n / 256 mod 16); hex (n / 16 mod 16); hex (n mod 16)].

(** json.encoder.py_encode_basestring_ascii: printable ASCII stands for itself, everything
    else is escaped, above the 16 bit range as a surrogate pair *)
Definition escape_ascii (c : Z) : str :=
  if c =? QUOTE then [BACKSLASH; QUOTE]
  else if c =? BACKSLASH then [BACKSLASH; BACKSLASH]
  else if c =? 10 then [BACKSLASH; 110]
  else if c =? 13 then [BACKSLASH; 114]
  else if c =? 9 then [BACKSLASH; 116]
  else if c =? 12 then [BACKSLASH; 102]
  else if c =? 8 then [BACKSLASH; 98]
  else if (32 <=? c) && (c <=? 126) then [c]
  else if c <? 65536 then u4 c
  else u4 (55296 + (c - 65536) / 1024) ++ u4 (56320 + (c - 65536) mod 1024).

Definition dump_str_ascii (s : str) : str := QUOTE :: flat_map escape_ascii s ++ [QUOTE].

(** [', '.join(l)] *)
Definition commas (l : list str) : str :=
  match l with
  | [] => []
  | x :: l => x ++ flat_map (fun y => 44 :: 32 :: y) l
  end.

(** [json.dumps(v)] *)
Fixpoint dumps_ascii (v : jval) : str :=
  match v with
  | JNone => [110; 117; 108; 108]
  | JBool true => [116; 114; 117; 101]
  | JBool false => [102; 97; 108; 115; 101]
  | JInt z => dump_int z
  | JStr s => dump_str_ascii s
  | JList l | JTuple l => 91 :: commas (map dumps_ascii l) ++ [93]
  | JDict d =>
      123 :: commas (map (fun kv => dump_str_ascii (fst kv) ++ [58; 32] ++ dumps_ascii (snd kv)) d)
      ++ [125]
  end.

(** ** transformers/ordinal_label.py *)

Definition K_INTENT2INDEX : str := [105; 110; 116; 101; 110; 116; 50; 105; 110; 100; 101; 120].
Definition K_ENTITY2INDEX : str := [101; 110; 116; 105; 116; 121; 50; 105; 110; 100; 101; 120].
Definition K_NOT_ENTITY_INDEX : str :=
  [110; 111; 116; 95; 101; 110; 116; 105; 116; 121; 95; 105; 110; 100; 101; 120].

Definition index_dict (d : list (str * Z)) : jval := JDict (map (fun kv => (fst kv, JInt (snd kv))) d).

(** ordinal_label.py:94-100 *)
Definition ordinal_serialize (o : ordinal) : str :=
  dumps_ascii (JDict [(K_INTENT2INDEX, index_dict (intent2index o));
                      (K_ENTITY2INDEX, index_dict (entity2index o));
                      (K_NOT_ENTITY_INDEX, JInt (not_entity_index o))]).

(** ordinal_label.py:102-108.  The types of the loaded members are checked by
    [as_index_dict] and [as_int] (python meets a wrong type later, in [sorted] or [==]). *)
Definition ordinal_deserialize (s : str) : res ordinal :=
  v <- loads s ;;
  i2i <- key v K_INTENT2INDEX ;;
  e2i <- key v K_ENTITY2INDEX ;;
  ne <- key v K_NOT_ENTITY_INDEX ;;
  i2i <- as_index_dict i2i ;;
  e2i <- as_index_dict e2i ;;
  ne <- as_int ne ;;
  make_ordinal i2i e2i ne.
