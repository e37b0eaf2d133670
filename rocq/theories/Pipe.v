(** Model of operator objects (pipeline/ops/base.py, pipeline/ops/factory.py) and of
    pipeline/pipe.py and pipeline/intermediate.py.

    Constructor arguments are the values of Json.v.  Arguments of types other than the ones
    the constructors document are outside the model, which refuses them with a TypeError
    (python may fail later, or not at all).  Operator classes written by users are in Custom.v,
    UserPipe.v and UserOps.v; [Pipe.summary] and [Operator.__str__] in TextForms.v; warnings in
    Output.v; sharing of mutable objects in Heap.v (here only: an Intermediate refers to the
    checkpoints its pipe has at the moment). *)

From Coq Require Import String Ascii.
From Verif Require Import Py Edit Labels Regex Trie Murmur Ops Json Elements.
From Coq Require Import List.
Local Open Scope Z_scope.

Definition lit (s : string) : str :=
  List.map (fun c => Z.of_nat (nat_of_ascii c)) (list_ascii_of_string s).

(** ** Python [==] on argument values *)

Fixpoint py_eqb (a b : jval) {struct a} : bool :=
  match a, b with
  | JNone, JNone => true
  | JBool x, JBool y => Bool.eqb x y
  | JBool x, JInt y => (if x then 1 else 0) =? y
  | JInt x, JBool y => x =? (if y then 1 else 0)
  | JInt x, JInt y => x =? y
  | JStr x, JStr y => eqb x y
  | JList l, JList m | JTuple l, JTuple m =>
      (fix go l m := match l, m with
                     | [], [] => true
                     | x :: l, y :: m => py_eqb x y && go l m
                     | _, _ => false
                     end) l m
  | JDict d, JDict e =>
      (length d =? length e)%nat &&
      forallb (fun kv => match dict_get e (fst kv) with
                         | Some w => py_eqb (snd kv) w
                         | None => false
                         end) d
  | _, _ => false
  end.

(** ** Reading arguments *)

(** [bool(v)] *)
Definition truthy (v : jval) : bool :=
  match v with
  | JNone => false
  | JBool b => b
  | JInt z => negb (z =? 0)
  | JStr s => negb (length s =? 0)%nat
  | JList l | JTuple l => negb (length l =? 0)%nat
  | JDict d => negb (length d =? 0)%nat
  end.

(** a token: a string, or an index *)
Definition as_elem (v : jval) : res elem :=
  match v with JStr s => Ok (ETok s) | JInt z => Ok (EIdx z) | _ => Err TypeErr end.

(** [user_words]: None, or a list of strings *)
Definition as_words (v : jval) : res (option (list str)) :=
  match v with
  | JNone => Ok None
  | JList l | JTuple l => ws <- mapM as_str l ;; Ok (Some ws)
  | _ => Err TypeErr
  end.

(** [vocab]: only membership is used *)
Definition as_vocab (v : jval) : res (list str) :=
  match v with
  | JDict d => Ok (map fst d)
  | JList l | JTuple l => mapM as_str l
  | _ => Err TypeErr
  end.

(** [token2index] *)
Definition as_index_dict (v : jval) : res (list (str * Z)) :=
  match v with
  | JDict d => mapM (fun kv => z <- as_int (snd kv) ;; Ok (fst kv, z)) d
  | _ => Err TypeErr
  end.

(** ** Operator classes: parameter names (without self) with defaults, and [__init__] *)

Record opclass := mkClass {
  c_params : list (str * option jval);
  c_init : env -> list jval -> res op
}.

(** a class without an [__init__] of its own *)
Definition plain (o : op) : opclass := mkClass [] (fun _ _ => Ok o).

Definition one (f : env -> jval -> res op) : env -> list jval -> res op :=
  fun E l => match l with [a] => f E a | _ => Err TypeErr end.
Definition two (f : env -> jval -> jval -> res op) : env -> list jval -> res op :=
  fun E l => match l with [a; b] => f E a b | _ => Err TypeErr end.
Definition three (f : env -> jval -> jval -> jval -> res op) : env -> list jval -> res op :=
  fun E l => match l with [a; b; c] => f E a b c | _ => Err TypeErr end.

(** add_end_token.py:33-46 *)
Definition init_end : env -> jval -> res op := fun _ v =>
  match v with
  | JNone => Err ValueErr
  | JStr s => make_end s
  | _ => Err TypeErr
  end.
(** add_sos_eos.py:34-40 *)
Definition init_soseos : env -> jval -> jval -> res op := fun _ a b =>
  a <- as_elem a ;; b <- as_elem b ;; Ok (AddSosEos a b).
(** add_whitespace_around_word_n_zhchar.py:46-58 *)
Definition init_wordn : env -> jval -> jval -> res op := fun _ w s =>
  w <- as_words w ;; make_wordn w (truthy s).
(** custom_word_tokenizer.py:37-49 *)
Definition init_custom : env -> jval -> jval -> res op := fun _ w s =>
  w <- as_words w ;; make_custom w (truthy s).
(** pad.py:34-36 *)
Definition init_pad : env -> jval -> jval -> res op := fun _ n t =>
  n <- as_int n ;; t <- as_elem t ;; Ok (Pad n t).
(** pure_num_to_token.py:17-40 *)
Definition init_purenum : env -> jval -> res op := fun _ t =>
  match t with
  | JNone => Ok (PureNum2Token (ETok NUM_TOKEN))
  | t => t <- as_elem t ;; Ok (PureNum2Token t)
  end.
(** span_subwords.py:16-50 *)
Definition init_subwords : env -> jval -> jval -> jval -> res op := fun _ v u m =>
  v <- as_vocab v ;; u <- as_elem u ;; m <- as_int m ;; Ok (SpanSubwords v u m).
(** token_to_index.py:45-53 *)
Definition init_index : env -> jval -> jval -> res op := fun _ d u =>
  d <- as_index_dict d ;; u <- as_str u ;; make_token2index d u.
(** token_to_index_with_hash.py:37-42 *)
Definition init_hash : env -> jval -> res op := fun _ d => d <- as_index_dict d ;; make_hash d.
(** replace_a_with_b.py:39-43 *)
Definition init_replace : env -> jval -> jval -> res op := fun E a b =>
  a <- as_str a ;; b <- as_str b ;; make_replace E a b.

(** The classes by name ([cls.__name__]). *)
Definition classes : list (str * opclass) :=
  [(lit "Lowercase", plain Lowercase);
   (lit "AddWhitespaceAroundCJK", plain AddWhitespaceAroundCJK);
   (lit "AddWhitespaceAroundPunctuation", plain AddWhitespaceAroundPunctuation);
   (lit "AddWhitespaceAroundWordnZhChar",
    mkClass [(lit "user_words", None); (lit "shortest", Some (JBool false))] (two init_wordn));
   (lit "StripAccentToken", plain StripAccentToken);
   (lit "PunctuationExceptEndpointToWhitespace", plain PunctuationExceptEndpointToWhitespace);
   (lit "IntToken", plain IntToken);
   (lit "FloatToken", plain FloatToken);
   (lit "IntTokenWithSpace", plain IntTokenWithSpace);
   (lit "FloatTokenWithSpace", plain FloatTokenWithSpace);
   (lit "NumTokenWithSpace", plain NumTokenWithSpace);
   (lit "MergeWhiteSpaceCharacters", plain MergeWhiteSpaceCharacters);
   (lit "StripWhiteSpaceCharacters", plain StripWhiteSpaceCharacters);
   (lit "StopwordsToWhitespace", plain StopwordsToWhitespace);
   (lit "ReplaceAwithB", mkClass [(lit "a", None); (lit "b", None)] (two init_replace));
   (lit "CharTokenizer", plain CharTokenizer);
   (lit "EngTokenizer", plain EngTokenizer);
   (lit "ZhCharTokenizer", plain ZhCharTokenizer);
   (lit "WhiteSpaceTokenizer", plain WhiteSpaceTokenizer);
   (lit "CustomWordTokenizer",
    mkClass [(lit "user_words", None); (lit "shortest", Some (JBool false))] (two init_custom));
   (lit "AddSosEos",
    mkClass [(lit "start_token", Some (JStr START_TOKEN)); (lit "end_token", Some (JStr END_TOKEN))]
      (two init_soseos));
   (lit "Pad", mkClass [(lit "maxlen", None); (lit "pad_token", Some (JStr PAD_TOKEN))] (two init_pad));
   (lit "Token2Index",
    mkClass [(lit "token2index", None); (lit "unk_token", Some (JStr UNK_TOKEN))] (two init_index));
   (lit "SpanSubwords",
    mkClass [(lit "vocab", None); (lit "unk_token", Some (JStr UNK_TOKEN));
             (lit "maxlen_per_token", Some (JInt 200))] (three init_subwords));
   (lit "Token2IndexwithHash", mkClass [(lit "token2index", None)] (one init_hash));
   (lit "PureNum2Token", mkClass [(lit "token", Some JNone)] (one init_purenum));
   (lit "AddEndToken", mkClass [(lit "end_token", Some (JStr END_TOKEN))] (one init_end))].

(** ** Calling a constructor *)

(** python's binding of positional and keyword arguments to parameters *)
Fixpoint bind_params (ps : list (str * option jval)) (args : list jval) (kwargs : list (str * jval))
  : res (list jval) :=
  match ps with
  | [] => match args with [] => Ok [] | _ => Err TypeErr end
  | (name, default) :: ps =>
      match args with
      | a :: args =>
          _ <- guard (negb (dict_mem kwargs name)) TypeErr ;;
          rest <- bind_params ps args kwargs ;; Ok (a :: rest)
      | [] =>
          v <- match dict_get kwargs name, default with
               | Some v, _ => Ok v
               | None, Some v => Ok v
               | None, None => Err TypeErr
               end ;;
          rest <- bind_params ps [] kwargs ;; Ok (v :: rest)
      end
  end.
Definition bind_args (ps : list (str * option jval)) (args : list jval) (kwargs : list (str * jval))
  : res (list jval) :=
  _ <- guard (forallb (fun kv => memb (fst kv) (map fst ps)) kwargs) TypeErr ;;
  bind_params ps args kwargs.

(** the parameters with their defaults, last first (base.py:36-41) *)
Definition defaults_of (ps : list (str * option jval)) : list (str * jval) :=
  flat_map (fun p => match snd p with Some v => [(fst p, v)] | None => [] end) (rev ps).

(** base.py:24-44: the recorded configuration *)
Definition record_configs (ps : list (str * option jval)) (args : list jval)
  (kwargs : list (str * jval)) : list (str * jval) :=
  let configs := combine (map fst ps) args in
  let configs := dict_update configs kwargs in
  dict_update configs (filter (fun kv => negb (dict_mem configs (fst kv))) (defaults_of ps)).

(** an operator object *)
Record opobj := mkObj {
  o_class : str;
  o_configs : list (str * jval);
  o_op : op
}.

(** [C( *args, **kwargs)] for the class called [name] *)
Definition construct (E : env) (name : str) (args : list jval) (kwargs : list (str * jval))
  : res opobj :=
  match dict_get classes name with
  | None => Err KeyErr
  | Some c =>
      bound <- bind_args (c_params c) args kwargs ;;
      o <- c_init c E bound ;;
      Ok (mkObj name (record_configs (c_params c) args kwargs) o)
  end.

(** base.py:143-144 *)
Definition op_eqb (a b : opobj) : bool :=
  eqb (o_class a) (o_class b) && py_eqb (JDict (o_configs a)) (JDict (o_configs b)).

(** ** The factory (factory.py): the names registered so far *)

(** factory.py:22-25 with [op_class( **kwargs)] *)
Definition make_registered (E : env) (reg : list str) (name : str) (kwargs : list (str * jval))
  : res opobj :=
  if memb name reg then construct E name [] kwargs else Err KeyErr.

(** ops/__init__.py: what [import uttut.pipeline.ops] registers, in order of definition
    (base classes left out); add_end_token.py is not imported. *)
Definition imported : list str := removelast (map fst classes).

(** ** Serialisation of operators *)

Definition K_op_name : str := lit "op_name".
Definition K_op_kwargs : str := lit "op_kwargs".

(** base.py:56-60 *)
Definition op_from_dict (E : env) (reg : list str) (params : jval) : res opobj :=
  name <- key params K_op_name ;;
  kwargs <- key params K_op_kwargs ;;
  match name with
  | JStr name =>
      if memb name reg then
        match kwargs with
        | JDict kwargs => make_registered E reg name kwargs
        | _ => Err TypeErr
        end
      else Err KeyErr
  | JList _ | JDict _ => Err TypeErr
  | _ => Err KeyErr
  end.

(** base.py:62-70 *)
Definition op_serialize (o : opobj) : str :=
  dumps 0 (JDict [(K_op_name, JStr (o_class o)); (K_op_kwargs, JDict (o_configs o))]).

(** base.py:51-54 *)
Definition op_deserialize (E : env) (reg : list str) (s : str) : res opobj :=
  params <- loads s ;; op_from_dict E reg params.

(** ** Pipes *)

Record pipe := mkPipe {
  steps : list opobj;
  checkpoints : list (str * Z)
}.

(** pipe.py:24-26 *)
Definition pipe_new : pipe := mkPipe [] [].

Definition in_type (o : opobj) : seqtype := input_type (o_op o).
Definition out_type (o : opobj) : seqtype := output_type (o_op o).

(** pipe.py:133-143 *)
Definition pipe_input_type (p : pipe) : res seqtype :=
  match steps p with [] => Err IndexErr | o :: _ => Ok (in_type o) end.
Definition pipe_output_type (p : pipe) : res seqtype :=
  match last_opt (steps p) with None => Err IndexErr | Some o => Ok (out_type o) end.

(** A method that changes the pipe: the pipe afterwards, and the exception if one is
    raised. *)
Definition effect : Type := pipe * option exn.

(** pipe.py:52-77 *)
Definition add_op (p : pipe) (o : opobj) (checkpoint : option str) : effect :=
  let mismatch :=
    match pipe_output_type p with
    | Ok t => negb (seqtype_eqb (in_type o) t)
    | Err _ => false      (* the pipe is empty *)
    end in
  if mismatch then (p, Some TypeErr)
  else
    let steps' := steps p ++ [o] in
    match checkpoint with
    | None => (mkPipe steps' (checkpoints p), None)
    | Some name =>
        if dict_mem (checkpoints p) name
        then (mkPipe steps' (checkpoints p), Some KeyErr)
        else (mkPipe steps' (dict_set (checkpoints p) name (Z.of_nat (length steps'))), None)
    end.

(** pipe.py:27-50 *)
Definition add (E : env) (reg : list str) (p : pipe) (name : str) (kwargs : option (list (str * jval)))
  (checkpoint : option str) : effect :=
  match op_from_dict E reg (JDict [(K_op_name, JStr name);
           (K_op_kwargs, JDict (match kwargs with Some k => k | None => [] end))]) with
  | Err e => (p, Some e)
  | Ok o => add_op p o checkpoint
  end.

(** equality of lists of operators, and of checkpoint dicts *)
Fixpoint ops_eqb (a b : list opobj) : bool :=
  match a, b with
  | [], [] => true
  | x :: a, y :: b => op_eqb x y && ops_eqb a b
  | _, _ => false
  end.
Definition ckpts_eqb (a b : list (str * Z)) : bool :=
  (length a =? length b)%nat &&
  forallb (fun kv => match dict_get b (fst kv) with Some w => snd kv =? w | None => false end) a.

(** pipe.py:79-80 *)
Definition pipe_eqb (p q : pipe) : bool :=
  ops_eqb (steps p) (steps q) && ckpts_eqb (checkpoints p) (checkpoints q).

(** pipe.py:87-102 *)
Definition iadd (p q : pipe) : effect :=
  match pipe_output_type p, pipe_input_type q with
  | Err e, _ | _, Err e => (p, Some e)
  | Ok a, Ok b =>
      if negb (seqtype_eqb a b) then (p, Some TypeErr)
      else if existsb (fun kv => dict_mem (checkpoints q) (fst kv)) (checkpoints p)
           then (p, Some KeyErr)
           else
             let steps' := steps p ++ steps q in
             (mkPipe steps'
                (dict_update (checkpoints p)
                   (map (fun kv => (fst kv, snd kv + Z.of_nat (length steps'))) (checkpoints q))),
              None)
  end.

(** pipe.py:104-108 *)
Definition copy (p : pipe) : pipe := mkPipe (steps p) (checkpoints p).

(** pipe.py:82-85 *)
Definition concat_pipes (p q : pipe) : res pipe :=
  match iadd (copy p) q with
  | (r, None) => Ok r
  | (_, Some e) => Err e
  end.

(** [slice(start, stop, step)]; [None] is python's None *)
Definition pyslice : Type := (option Z * option Z * option Z)%type.

(** PySlice_AdjustIndices: the first index and the bound, then the indices *)
Definition slice_bounds (n : Z) (start stop : option Z) (step : Z) : Z * Z :=
  let lower := if step <? 0 then -1 else 0 in
  let upper := if step <? 0 then n - 1 else n in
  let clip z := let z := if z <? 0 then z + n else z in
                if z <? lower then lower else if upper <? z then upper else z in
  (match start with None => if step <? 0 then upper else lower | Some z => clip z end,
   match stop with None => if step <? 0 then lower else upper | Some z => clip z end).
Fixpoint indices (fuel : nat) (i bound step : Z) : list Z :=
  match fuel with
  | O => []
  | S fuel =>
      if (if step <? 0 then bound <? i else i <? bound)
      then i :: indices fuel (i + step) bound step else []
  end.
(** [l[start:stop:step]] *)
Definition get_slice {A} (l : list A) (sl : pyslice) : res (list A) :=
  let '(start, stop, step) := sl in
  let step := match step with None => 1 | Some z => z end in
  _ <- guard (negb (step =? 0)) ValueErr ;;
  let '(i, bound) := slice_bounds (Z.of_nat (length l)) start stop step in
  mapM (get_item l) (indices (length l) i bound step).

(** pipe.py:110-118 *)
Definition getitem_slice (p : pipe) (sl : pyslice) : res pipe :=
  steps' <- get_slice (steps p) sl ;;
  let '(start, _, _) := sl in
  match start with
  | None =>
      match checkpoints p with
      | [] => Ok (mkPipe steps' [])
      | _ => Err TypeErr          (* i > None *)
      end
  | Some start =>
      Ok (mkPipe steps'
            (map (fun kv => (fst kv, snd kv - start))
               (filter (fun kv => start <? snd kv) (checkpoints p))))
  end.

(** pipe.py:120 *)
Definition getitem (p : pipe) (i : Z) : res opobj := get_item (steps p) i.

(** ** Running a pipe *)

(** pipe.py:200-224: the output, the aligners (LabelAlignerSequence.collections), and the
    collection of the Intermediate *)
Fixpoint run (E : env) (ops : list opobj) (x : pseq) : res (pseq * list aligner * list pseq) :=
  match ops with
  | [] => Ok (x, [], [x])
  | o :: ops =>
      '(y, a) <- transform_op E (o_op o) x ;;
      '(z, aligners, collection) <- run E ops y ;;
      Ok (z, a :: aligners, x :: collection)
  end.
Definition transform_sequence (E : env) (p : pipe) (x : pseq)
  : res (pseq * list aligner * list pseq) := run E (steps p) x.

(** pipe.py:271-284 *)
Definition align_all (aligners : list aligner) (labels : list Z) : res (list Z) :=
  foldM (fun l a => align a l) aligners labels.

(** pipe.py:286-298 *)
Definition align_inverse_all (E : env) (aligners : list aligner) (labels : list Z) : res (list Z) :=
  foldM (fun l a => align_inverse E a l) (rev aligners) labels.

(** intermediate.py:29-44; [ck] are the checkpoints the pipe has at the moment *)
Definition get_from_checkpoint (ck : list (str * Z)) (collection : list pseq) (name : str) : res pseq :=
  match dict_get ck name with
  | None => Err KeyErr
  | Some i => get_item collection i
  end.

(** pipe.py:178-198 *)
Definition transform (E : env) (p : pipe) (d : datum)
  : res (pseq * list Z * list Z * list aligner * list pseq) :=
  '(utterance, intent_labels, entity_labels) <- unpack_datum d ;;
  '(output, aligners, collection) <- transform_sequence E p (SStr utterance) ;;
  updated <- align_all aligners entity_labels ;;
  Ok (output, intent_labels, updated, aligners, collection).

(** ** Serialisation of pipes *)

Definition K_steps : str := lit "steps".
Definition K_checkpoints : str := lit "checkpoints".

(** pipe.py:226-234 *)
Definition pipe_serialize (p : pipe) : str :=
  dumps 0 (JDict [(K_steps, JList (map (fun o => JStr (op_serialize o)) (steps p)));
                  (K_checkpoints, JDict (map (fun kv => (fst kv, JInt (snd kv))) (checkpoints p)))]).

(** pipe.py:241-249: one round of the loop *)
Definition restore_step (E : env) (reg : list str) (p : pipe) (info : jval) : res pipe :=
  o <- match info with
       | JStr s => op_deserialize E reg s
       | JDict _ => op_from_dict E reg info
       | _ => Err TypeErr
       end ;;
  match add_op p o None with
  | (p, None) => Ok p
  | (_, Some e) => Err e
  end.

(** pipe.py:236-253; checkpoints that are not a dict of ints are not modelled *)
Definition pipe_deserialize (E : env) (reg : list str) (s : str) : res pipe :=
  bundle <- loads s ;;
  infos <- key bundle K_steps ;;
  infos <- as_list infos ;;
  p <- foldM (restore_step E reg) infos pipe_new ;;
  ck <- key bundle K_checkpoints ;;
  ck <- as_index_dict ck ;;
  Ok (mkPipe (steps p) ck).

(** ** The pipes of pipeline/bert *)

Fixpoint add_all_ops (E : env) (reg : list str) (p : pipe)
  (l : list (str * option (list (str * jval)))) : res pipe :=
  match l with
  | [] => Ok p
  | (name, kwargs) :: l =>
      match add E reg p name kwargs None with
      | (p, None) => add_all_ops E reg p l
      | (_, Some e) => Err e
      end
  end.

(** bert/basic.py:4-11 *)
Definition basic_names : list (str * option (list (str * jval))) :=
  map (fun n => (lit n, None))
    ["Lowercase"%string; "AddWhitespaceAroundCJK"%string; "AddWhitespaceAroundPunctuation"%string;
     "MergeWhiteSpaceCharacters"%string; "StripWhiteSpaceCharacters"%string;
     "StripAccentToken"%string; "WhiteSpaceTokenizer"%string].
Definition basic_pipe (E : env) : res pipe := add_all_ops E imported pipe_new basic_names.

(** [{token: ind for ind, token in enumerate(vocab_tokens)}] *)
Definition vocab_of (l : list string) : jval :=
  JDict (map (fun ti => (lit (fst ti), JInt (Z.of_nat (snd ti)))) (combine l (seq 0 (length l)))).
Definition subwords_kwargs (l : list string) : list (str * jval) :=
  [(lit "vocab", vocab_of l); (lit "unk_token", JStr (lit "[UNK]"));
   (lit "maxlen_per_token", JInt 200)].

(** bert/full.py:4-27 *)
Definition full_vocab : list string :=
  ["[UNK]"; "[CLS]"; "[SEP]"; "want"; "##want"; "##ed"; "wa"; "un"; "runn"; "##ing"; ","]%string.
Definition full_pipe (E : env) : res pipe :=
  add_all_ops E imported pipe_new
    (basic_names ++ [(lit "SpanSubwords", Some (subwords_kwargs full_vocab))]).

(** bert/word_piece.py:4-20 *)
Definition word_piece_vocab : list string :=
  ["[UNK]"; "[CLS]"; "[SEP]"; "want"; "##want"; "##ed"; "wa"; "un"; "runn"; "##ing"]%string.
Definition word_piece_pipe (E : env) : res pipe :=
  add_all_ops E imported pipe_new
    [(lit "WhiteSpaceTokenizer", None);
     (lit "SpanSubwords", Some (subwords_kwargs word_piece_vocab))].
