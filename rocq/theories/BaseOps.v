(** Model of the base classes that importing uttut.pipeline.ops leaves in the factory besides the
    operators of [Pipe.v]: their names can be given to [Pipe.add] and to the deserializers.

    When [__init_subclass__] (ops/base.py:14-20) asks [is_abstract()], [__abstractmethods__] has not
    been set on the new class yet, so the answer is always False and every class is registered. *)

From Coq Require Import String.
From Verif Require Import Py Edit Labels Regex Trie Ops Json Elements Pipe.
From Coq Require Import List.
Import ListNotations.
Local Open Scope nat_scope.

(** ops/base.py:76, pattern_recognizers/base.py:9, add_whitespace_around_character.py:11,
    tokenizers/base.py:13 *)
Inductive base := BOperator | BRecognizer | BSpacer | BTokenizer.

(** the name each is registered under (base.py:20 [cls.__name__]) *)
Definition base_name (b : base) : str :=
  match b with
  | BOperator => lit "Operator"
  | BRecognizer => lit "PatternRecognizer"
  | BSpacer => lit "AddWhitespaceAroundCharacter"
  | BTokenizer => lit "Tokenizer"
  end.
Definition base_classes : list (str * base) :=
  map (fun b => (base_name b, b)) [BOperator; BRecognizer; BSpacer; BTokenizer].

(** [C( **kwargs)].  [Operator] has the abstract method [_transform] (base.py:138-140), so
    [object.__new__] raises; the others inherit [object.__init__] through the wrappers of
    base.py:24-44, which takes no argument. *)
Definition construct_base (b : base) (kwargs : list (str * jval)) : res base :=
  match b, kwargs with
  | BOperator, _ => Err TypeErr
  | _, [] => Ok b
  | _, _ :: _ => Err TypeErr
  end.

(** [_input_type] and [_output_type] (pattern_recognizers/base.py:15-16,
    add_whitespace_around_character.py:18-19, tokenizers/base.py:18-19).  Those of [Operator] are
    None; it has no instances, the values here are never used. *)
Definition base_in (b : base) : seqtype := TStr.
Definition base_out (b : base) : seqtype := match b with BTokenizer => TList | _ => TStr end.

(** add_whitespace_around_character.py:34-50: the first character already calls [_is_valid_char],
    which raises NotImplementedError (a RuntimeError) *)
Definition base_char_edits (s : str) : res (list (repl Z)) :=
  match s with [] => Ok [] | _ :: _ => Err RuntimeErr end.

(** pattern_recognizers/base.py:40-60: the first round of the loop reads [self.REGEX_PATTERN],
    which is only annotated (:19), so AttributeError *)
Definition base_scan (E : env) (s : str) : res (list (repl Z)) :=
  match s with [] => rdone (ord_c E) [] | _ :: _ => Err AttributeErr end.

(** [_transform] of the three on a string: add_whitespace_around_character.py:21-32,
    pattern_recognizers/base.py:29-38 ([self._label_aligner_class] is None and is called),
    tokenizers/base.py:29-49 ([_tokenize] raises NotImplementedError) *)
Definition base_raw (E : env) (b : base) (s : str) : res (pseq * aligner) :=
  match b with
  | BOperator => Err TypeErr       (* no instances *)
  | BSpacer => str_result s (edits <- base_char_edits s ;; rdone (ord_c E) edits) around_single except_ne
  | BRecognizer => _ <- base_scan E s ;; Err TypeErr
  | BTokenizer => Err RuntimeErr
  end.

(** base.py:113-136 *)
Definition base_transform (E : env) (b : base) (x : pseq) : res (pseq * aligner) :=
  match x with
  | SLst _ => Err TypeErr
  | SStr s =>
      r <- base_raw E b s ;;
      _ <- guard (seqtype_eqb (type_of (fst r)) (base_out b)) TypeErr ;;
      Ok r
  end.

(** ** What the factory makes *)

Inductive fobj := FLib (o : opobj) | FBase (b : base).

Definition f_class (o : fobj) : str :=
  match o with FLib o => o_class o | FBase b => base_name b end.
(** base.py:72-74; the [_configs] of a base class (base.py:26-42) are empty *)
Definition f_configs (o : fobj) : list (str * jval) :=
  match o with FLib o => o_configs o | FBase _ => [] end.
(** base.py:107-113 *)
Definition f_in (o : fobj) : seqtype := match o with FLib o => in_type o | FBase b => base_in b end.
Definition f_out (o : fobj) : seqtype := match o with FLib o => out_type o | FBase b => base_out b end.

Definition f_transform (E : env) (o : fobj) (x : pseq) : res (pseq * aligner) :=
  match o with FLib o => transform_op E (o_op o) x | FBase b => base_transform E b x end.

(** base.py:142-143 *)
Definition f_eqb (a b : fobj) : bool :=
  eqb (f_class a) (f_class b) && py_eqb (JDict (f_configs a)) (JDict (f_configs b)).

(** base.py:56-60; the base classes are always registered, [reg] lists the others *)
Definition f_from_dict (E : env) (reg : list str) (params : jval) : res fobj :=
  name <- key params K_op_name ;;
  kwargs <- key params K_op_kwargs ;;
  match name with
  | JStr n =>
      match dict_get base_classes n with
      | Some b =>
          match kwargs with
          | JDict kwargs => b <- construct_base b kwargs ;; Ok (FBase b)
          | _ => Err TypeErr
          end
      | None => o <- op_from_dict E reg params ;; Ok (FLib o)
      end
  | _ => o <- op_from_dict E reg params ;; Ok (FLib o)
  end.

(** base.py:62-70 *)
Definition f_serialize (o : fobj) : str :=
  dumps 0 (JDict [(K_op_name, JStr (f_class o)); (K_op_kwargs, JDict (f_configs o))]).
(** base.py:51-54 *)
Definition f_deserialize (E : env) (reg : list str) (s : str) : res fobj :=
  params <- loads s ;; f_from_dict E reg params.

(** ** Pipes of them (pipe.py, as in [Pipe.v]) *)

Record fpipe := mkFP {
  f_steps : list fobj;
  f_checkpoints : list (str * Z)
}.
(** pipe.py:24-26 *)
Definition fpipe_new : fpipe := mkFP [] [].

(** pipe.py:52-77 *)
Definition f_add_op (p : fpipe) (o : fobj) (checkpoint : option str) : fpipe * option exn :=
  let mismatch :=
    match last_opt (f_steps p) with
    | Some l => negb (seqtype_eqb (f_in o) (f_out l))
    | None => false
    end in
  if mismatch then (p, Some TypeErr)
  else
    let steps' := f_steps p ++ [o] in
    match checkpoint with
    | None => (mkFP steps' (f_checkpoints p), None)
    | Some name =>
        if dict_mem (f_checkpoints p) name
        then (mkFP steps' (f_checkpoints p), Some KeyErr)
        else (mkFP steps' (dict_set (f_checkpoints p) name (Z.of_nat (length steps'))), None)
    end.

(** pipe.py:27-50 *)
Definition f_add (E : env) (reg : list str) (p : fpipe) (name : str)
  (kwargs : option (list (str * jval))) (checkpoint : option str) : fpipe * option exn :=
  match f_from_dict E reg (JDict [(K_op_name, JStr name);
           (K_op_kwargs, JDict (match kwargs with Some k => k | None => [] end))]) with
  | Err e => (p, Some e)
  | Ok o => f_add_op p o checkpoint
  end.

(** pipe.py:213-224 *)
Fixpoint f_run (E : env) (ops : list fobj) (x : pseq) : res (pseq * list aligner * list pseq) :=
  match ops with
  | [] => Ok (x, [], [x])
  | o :: ops =>
      '(y, a) <- f_transform E o x ;;
      '(z, aligners, collection) <- f_run E ops y ;;
      Ok (z, a :: aligners, x :: collection)
  end.

(** pipe.py:79-80 *)
Fixpoint f_ops_eqb (a b : list fobj) : bool :=
  match a, b with
  | [], [] => true
  | x :: a, y :: b => f_eqb x y && f_ops_eqb a b
  | _, _ => false
  end.
Definition fpipe_eqb (p q : fpipe) : bool :=
  f_ops_eqb (f_steps p) (f_steps q) && ckpts_eqb (f_checkpoints p) (f_checkpoints q).

(** pipe.py:226-234 *)
Definition fpipe_serialize (p : fpipe) : str :=
  dumps 0 (JDict [(K_steps, JList (map (fun o => JStr (f_serialize o)) (f_steps p)));
                  (K_checkpoints, JDict (map (fun kv => (fst kv, JInt (snd kv))) (f_checkpoints p)))]).

(** pipe.py:241-249 *)
Definition f_restore_step (E : env) (reg : list str) (p : fpipe) (info : jval) : res fpipe :=
  o <- match info with
       | JStr s => f_deserialize E reg s
       | JDict _ => f_from_dict E reg info
       | _ => Err TypeErr
       end ;;
  match f_add_op p o None with
  | (p, None) => Ok p
  | (_, Some e) => Err e
  end.

(** pipe.py:236-253; checkpoints that are not a dict of ints are not modelled *)
Definition fpipe_deserialize (E : env) (reg : list str) (s : str) : res fpipe :=
  bundle <- loads s ;;
  infos <- key bundle K_steps ;;
  infos <- as_list infos ;;
  p <- foldM (f_restore_step E reg) infos fpipe_new ;;
  ck <- key bundle K_checkpoints ;;
  ck <- as_index_dict ck ;;
  Ok (mkFP (f_steps p) ck).
