(** Model of the constructor of an operator class written by a user whose [__init__] may have
    any parameters: what the wrapper of base.py:24-44 passes on and records, equality and
    serialisation of the objects.  [Custom.v] has the classes whose [__init__] has ordinary
    parameters only; here are also

      def __init__(self, a, b=1, *rest, c, d=2, **options)

    Positional-only parameters (python 3.8, the library is made for 3.5 to 3.7) and a default
    value of [self] are left out. *)

From Coq Require Import String.
From Verif Require Import Py Json Elements Pipe Factory Custom.
From Coq Require Import List.

(** The parameters after [self]: ordinary ones and the defaults of the last of them, whether
    there is a [*rest], the keyword-only ones with their defaults, whether there is
    [**options]. *)
Record signature := mkSig {
  s_names : list str;
  s_defaults : list jval;
  s_rest : bool;
  s_kwonly : list (str * option jval);
  s_options : bool
}.

(** What the body of [__init__] finds in its parameters. *)
Record received := mkR {
  r_params : list jval;
  r_rest : list jval;
  r_kwonly : list jval;
  r_options : list (str * jval)
}.

(** the value of a keyword-only parameter *)
Definition kwonly_value (kwargs : list (str * jval)) (p : str * option jval) : res jval :=
  match dict_get kwargs (fst p), snd p with
  | Some v, _ => Ok v
  | None, Some v => Ok v
  | None, None => Err TypeErr
  end.

(** does a keyword belong to a parameter with a name? *)
Definition named (s : signature) (n : str) : bool := memb n (s_names s ++ map fst (s_kwonly s)).

(** python's binding of the arguments of a call (base.py:25).  The wrapper's own first
    parameter is [self], so no keyword can have this name. *)
Definition bind_any (s : signature) (args : list jval) (kwargs : list (str * jval)) : res received :=
  let n := length (s_names s) in
  _ <- guard (negb (dict_mem kwargs SELF)) TypeErr ;;
  _ <- guard (s_rest s || (length args <=? n)) TypeErr ;;
  _ <- guard (s_options s || forallb (fun kv => named s (fst kv)) kwargs) TypeErr ;;
  ps <- bind_params (params (s_names s) (s_defaults s)) (firstn n args) kwargs ;;
  ks <- mapM (kwonly_value kwargs) (s_kwonly s) ;;
  Ok (mkR ps (skipn n args) ks (filter (fun kv => negb (named s (fst kv))) kwargs)).

(** base.py:26-42: [getfullargspec(original_init)] has [self] and the ordinary parameters in
    [args] and their defaults in [defaults]; for a class that inherits its [__init__] the
    original is the wrapper of another class, with [self] only *)
Definition record_any (inherited : bool) (s : signature) (args : list jval) (kwargs : list (str * jval))
  : list (str * jval) :=
  let names := if inherited then [] else s_names s in
  let defaults := if inherited then [] else s_defaults s in
  let configs := combine names args in
  let configs := dict_update configs kwargs in
  dict_update configs
    (filter (fun kv => negb (dict_mem configs (fst kv))) (combine (rev (SELF :: names)) (rev defaults))).

(** A class: name, whether [__init__] is inherited, its parameters, and what its body does
    with them (raise or not). *)
Record sclass := mkSC {
  sc_name : str;
  sc_inherited : bool;
  sc_sig : signature;
  sc_body : received -> option exn
}.

(** An object: [_configs] and what [__init__] got. *)
Record sobj := mkSO {
  so_class : sclass;
  so_configs : list (str * jval);
  so_got : received
}.

(** [C( *args, **kwargs)] *)
Definition make_any (c : sclass) (args : list jval) (kwargs : list (str * jval)) : res sobj :=
  r <- bind_any (sc_sig c) args kwargs ;;
  match sc_body c r with
  | Some e => Err e
  | None => Ok (mkSO c (record_any (sc_inherited c) (sc_sig c) args kwargs) r)
  end.

(** base.py:56-60 *)
Definition from_dict_any (f : list (str * sclass)) (name : str) (kwargs : list (str * jval)) : res sobj :=
  c <- fget f name ;; make_any c [] kwargs.

(** base.py:62-70 *)
Definition serialize_sobj (o : sobj) : str :=
  dumps 0 (JDict [(K_op_name, JStr (sc_name (so_class o))); (K_op_kwargs, JDict (so_configs o))]).

(** base.py:51-60, for the text of an object *)
Definition deserialize_sobj (f : list (str * sclass)) (t : str) : res sobj :=
  v <- loads t ;;
  name <- key v K_op_name ;;
  kwargs <- key v K_op_kwargs ;;
  match name, kwargs with
  | JStr name, JDict kwargs => from_dict_any f name kwargs
  | JStr name, _ => _ <- fget f name ;; Err TypeErr
  | JList _, _ | JDict _, _ => Err TypeErr
  | _, _ => Err KeyErr
  end.

(** base.py:143-144; a name denotes one class only, see [Custom.define] *)
Definition sobj_eqb (a b : sobj) : bool :=
  eqb (sc_name (so_class a)) (sc_name (so_class b)) && py_eqb (JDict (so_configs a)) (JDict (so_configs b)).
