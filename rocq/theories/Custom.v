(** Model of operator classes written by users: what [class C(Operator): ...] does
    (base.py:11-47, 77-104, tokenizers/base.py:21-27, pattern_recognizers/base.py:21-27),
    what the constructor of such a class records, equality and serialisation of the objects.

    A type ([_input_type]) is an element of any type [T]; a behaviour ([_transform]) is an
    element of any type [B].  An [__init__] has parameters that can be given by position or by
    keyword, with default values for the last ones; [*args], [**kwargs] and keyword-only
    parameters are in [Signature.v]; multiple inheritance is not modelled. *)

From Coq Require Import String.
From Verif Require Import Py Json Elements Pipe Factory.
From Coq Require Import List.

(** What the attribute [__init__] of a class can be: [object.__init__], a function of a class
    body, or the wrapper of base.py:24-44 around another one. *)
Inductive init : Type :=
| ObjectInit
| OwnInit (names : list str) (defaults : list jval) (body : list jval -> option exn)
| Wrapper (original : init).

(** the parameters of an [__init__] after [self], each with its default *)
Definition params (names : list str) (defaults : list jval) : list (str * option jval) :=
  combine names (repeat None (length names - length defaults) ++ map Some defaults).

(** base.py:25: calling it.  The result are the arguments the innermost function gets; the
    function itself may raise. *)
Fixpoint run_init (i : init) (args : list jval) (kwargs : list (str * jval)) : res (list jval) :=
  match i with
  | ObjectInit => match args, kwargs with [], [] => Ok [] | _, _ => Err TypeErr end
  | OwnInit names defaults body =>
      bound <- bind_args (params names defaults) args kwargs ;;
      match body bound with None => Ok bound | Some e => Err e end
  | Wrapper original => run_init original args kwargs
  end.

(** [inspect.getfullargspec(f)]: the arguments without [self], and the defaults; for the
    wrapper ([self, *args, **kwargs]) and [object.__init__] there are none *)
Definition argspec (i : init) : list str * list jval :=
  match i with OwnInit names defaults _ => (names, defaults) | _ => ([], []) end.

Definition SELF : str := lit "self".

(** base.py:26-42: what the wrapper around [original] stores in [_configs] *)
Definition wrapper_configs (original : init) (args : list jval) (kwargs : list (str * jval))
  : list (str * jval) :=
  let '(names, defaults) := argspec original in
  let configs := combine names args in
  let configs := dict_update configs kwargs in
  dict_update configs
    (filter (fun kv => negb (dict_mem configs (fst kv))) (combine (rev (SELF :: names)) (rev defaults))).

Section classes.
  Context {T B : Type}.

  (** A class: its name, [__init__], [_input_type] and [_output_type] (possibly None), whether
      its [__init_subclass__] wants subclasses to have a [_label_aligner_class], whether it has
      one, [_transform] (None while it is the abstract method of Operator), and whether the
      class statement was completed: only then does abc refuse instances of a class with
      abstract methods. *)
  Record pyclass := mkK {
    k_name : str;
    k_init : init;
    k_in : option T;
    k_out : option T;
    k_wants_aligner : bool;
    k_aligner : bool;
    k_transform : option B;
    k_completed : bool
  }.

  (** base.py:77-91 after base.py:14-47: the class Operator itself *)
  Definition operator_class : pyclass :=
    mkK (lit "Operator") (Wrapper ObjectInit) None None false false None true.

  (** A class statement: the name, the parent, and what the body assigns; [d_wants_aligner]:
      it defines the [__init_subclass__] of tokenizers/base.py:21-27. *)
  Record decl := mkD {
    d_name : str;
    d_parent : pyclass;
    d_init : option (list str * list jval * (list jval -> option exn));
    d_in : option (option T);
    d_out : option (option T);
    d_wants_aligner : bool;
    d_aligner : option bool;
    d_transform : option B
  }.

  (** attribute lookup: the body, then the parent *)
  Definition or_parent {X} (o : option X) (p : X) : X := match o with Some x => x | None => p end.

  (** the asserts of base.py:98 and tokenizers/base.py:27, run by the [__init_subclass__] of
      the parent *)
  Definition attributes_there (d : decl) : bool :=
    let p := d_parent d in
    match or_parent (d_in d) (k_in p), or_parent (d_out d) (k_out p) with
    | Some _, Some _ => negb (k_wants_aligner p) || or_parent (d_aligner d) (k_aligner p)
    | _, _ => false
    end.

  (** base.py:22-44: the class with its wrapped [__init__] *)
  Definition build (d : decl) : pyclass :=
    let p := d_parent d in
    let original := match d_init d with
                    | Some (names, defaults, body) => OwnInit names defaults body
                    | None => k_init p
                    end in
    mkK (d_name d) (Wrapper original) (or_parent (d_in d) (k_in p)) (or_parent (d_out d) (k_out p))
      (k_wants_aligner p || d_wants_aligner d) (or_parent (d_aligner d) (k_aligner p))
      (match d_transform d with Some t => Some t | None => k_transform p end)
      (attributes_there d).

  (** base.py:14-20, 92-98: the class is registered, then the attributes are checked
      ([is_abstract] is false at this time); the factory afterwards, and the class or the
      exception *)
  Definition define (f : list (str * pyclass)) (d : decl) : list (str * pyclass) * res pyclass :=
    let c := build d in
    match fregister f (d_name d) c with
    | (f, Some e) => (f, Err e)
    | (f, None) => if attributes_there d then (f, Ok c) else (f, Err AssertionErr)
    end.

  (** An object: its class, [_configs], and the arguments its [__init__] got. *)
  Record obj := mkO {
    ob_class : pyclass;
    ob_configs : list (str * jval);
    ob_bound : list jval
  }.

  (** [C( *args, **kwargs)]; a class without [_transform] is abstract (abc) *)
  Definition instantiate (c : pyclass) (args : list jval) (kwargs : list (str * jval)) : res obj :=
    match k_transform c, k_completed c with
    | None, true => Err TypeErr
    | _, _ =>
        bound <- run_init (k_init c) args kwargs ;;
        Ok (mkO c (match k_init c with Wrapper i => wrapper_configs i args kwargs | _ => [] end) bound)
    end.

  (** base.py:56-60 *)
  Definition from_dict (f : list (str * pyclass)) (name : str) (kwargs : list (str * jval)) : res obj :=
    c <- fget f name ;; instantiate c [] kwargs.

  (** base.py:62-70 *)
  Definition obj_serialize (o : obj) : str :=
    dumps 0 (JDict [(K_op_name, JStr (k_name (ob_class o))); (K_op_kwargs, JDict (ob_configs o))]).

  (** base.py:51-60; names that are not strings are not registered (or not hashable) *)
  Definition obj_deserialize (f : list (str * pyclass)) (s : str) : res obj :=
    v <- loads s ;;
    name <- key v K_op_name ;;
    kwargs <- key v K_op_kwargs ;;
    match name, kwargs with
    | JStr name, JDict kwargs => from_dict f name kwargs
    | JStr name, _ => _ <- fget f name ;; Err TypeErr
    | JList _, _ | JDict _, _ => Err TypeErr
    | _, _ => Err KeyErr
    end.

  (** base.py:143-144; a name denotes one class only, see [define] *)
  Definition obj_eqb (a b : obj) : bool :=
    eqb (k_name (ob_class a)) (k_name (ob_class b)) &&
    py_eqb (JDict (ob_configs a)) (JDict (ob_configs b)).
End classes.
Arguments pyclass : clear implicits.
Arguments decl : clear implicits.
Arguments obj : clear implicits.
