(** Model of operators, pipes and Intermediates as mutable python objects that share parts:
    which list or dict is the same object as which other one.  ([Pipe.v] has the same methods
    on values.)

    A reference is the number of an object of its kind; objects are never removed.  A command
    is one call by the user; the result is the memory afterwards and what the call returns or
    raises. *)

From Coq Require Import String.
From Verif Require Import Py Json Elements Ops Pipe.
From Coq Require Import List.
Local Open Scope Z_scope.

(** ** The user's lists and dicts *)

(** A list of words or a dict from words to numbers made by the user, who may change it in
    place at any time. *)
Inductive cell : Type := Words (l : list str) | Numbers (d : list (str * Z)).

Definition contents (c : cell) : jval :=
  match c with
  | Words l => JList (map JStr l)
  | Numbers d => JDict (map (fun kv => (fst kv, JInt (snd kv))) d)
  end.
Definition same_kind (a b : cell) : bool :=
  match a, b with Words _, Words _ | Numbers _, Numbers _ => true | _, _ => false end.

(** An argument: a value that nobody else refers to, or one of those lists and dicts. *)
Inductive arg : Type := Own (v : jval) | Ref (c : nat).

(** ** Objects *)

(** An operator: its class, [_configs] (base.py:27-42), the arguments [__init__] got, and what
    [__init__] made of them. *)
Record hop := mkHop {
  h_class : str;
  h_configs : list (str * arg);
  h_bound : list arg;
  h_made : op
}.

(** [h_pipes]: the references of [_steps] and [_checkpoints] (pipe.py:23-25);
    [h_ims]: the reference of the dict of checkpoints and [_collection] (intermediate.py:14-16) *)
Record memory := mkM {
  h_cells : list cell;
  h_ops : list hop;
  h_lists : list (list nat);
  h_dicts : list (list (str * Z));
  h_pipes : list (nat * nat);
  h_ims : list (nat * list pseq)
}.
Definition empty_memory : memory := mkM [] [] [] [] [] [].

Fixpoint put {A} (l : list A) (i : nat) (x : A) : list A :=
  match l, i with
  | [], _ => []
  | _ :: l, O => x :: l
  | y :: l, S i => y :: put l i x
  end.

Definition set_cells (m : memory) l := mkM l (h_ops m) (h_lists m) (h_dicts m) (h_pipes m) (h_ims m).
Definition set_ops (m : memory) l := mkM (h_cells m) l (h_lists m) (h_dicts m) (h_pipes m) (h_ims m).
Definition set_lists (m : memory) l := mkM (h_cells m) (h_ops m) l (h_dicts m) (h_pipes m) (h_ims m).
Definition set_dicts (m : memory) l := mkM (h_cells m) (h_ops m) (h_lists m) l (h_pipes m) (h_ims m).
Definition set_pipes (m : memory) l := mkM (h_cells m) (h_ops m) (h_lists m) (h_dicts m) l (h_ims m).
Definition set_ims (m : memory) l := mkM (h_cells m) (h_ops m) (h_lists m) (h_dicts m) (h_pipes m) l.

(** ** Operators *)

(** what an argument is at the moment *)
Definition now (m : memory) (a : arg) : jval :=
  match a with
  | Own v => v
  | Ref c => match nth_error (h_cells m) c with Some x => contents x | None => JNone end
  end.

Definition exists_in (m : memory) (a : arg) : bool :=
  match a with Own _ => true | Ref c => (c <? length (h_cells m))%nat end.

(** [bind_args] of [Pipe.v] for arguments that are references *)
Fixpoint hbind_params (ps : list (str * option jval)) (args : list arg) (kwargs : list (str * arg))
  : res (list arg) :=
  match ps with
  | [] => match args with [] => Ok [] | _ => Err TypeErr end
  | (name, default) :: ps =>
      match args with
      | a :: args =>
          _ <- guard (negb (dict_mem kwargs name)) TypeErr ;;
          rest <- hbind_params ps args kwargs ;; Ok (a :: rest)
      | [] =>
          v <- match dict_get kwargs name, default with
               | Some v, _ => Ok v
               | None, Some v => Ok (Own v)
               | None, None => Err TypeErr
               end ;;
          rest <- hbind_params ps [] kwargs ;; Ok (v :: rest)
      end
  end.
Definition hbind_args (ps : list (str * option jval)) (args : list arg) (kwargs : list (str * arg))
  : res (list arg) :=
  _ <- guard (forallb (fun kv => memb (fst kv) (map fst ps)) kwargs) TypeErr ;;
  hbind_params ps args kwargs.

(** base.py:27-42: the configuration refers to the arguments, it does not copy them *)
Definition hrecord (ps : list (str * option jval)) (args : list arg) (kwargs : list (str * arg))
  : list (str * arg) :=
  let configs := combine (map fst ps) args in
  let configs := dict_update configs kwargs in
  dict_update configs
    (filter (fun kv => negb (dict_mem configs (fst kv)))
       (map (fun kv => (fst kv, Own (snd kv))) (defaults_of ps))).

(** What the operator does at the moment.  token_to_index.py:47,70-73, token_to_index_with_hash.py:39,59
    and span_subwords.py:48,73 keep the user's dict and look into it when they transform;
    custom_word_tokenizer.py:40-44 and add_whitespace_around_word_n_zhchar.py:49-53 put the words
    into a trie of their own, but keep the reference of [shortest]. *)
Definition acts_as (m : memory) (o : hop) : op :=
  match h_made o, h_bound o with
  | Token2Index d u, a :: _ =>
      match as_index_dict (now m a) with Ok d' => Token2Index d' u | Err _ => Token2Index d u end
  | Token2IndexwithHash d, a :: _ =>
      match as_index_dict (now m a) with Ok d' => Token2IndexwithHash d' | Err _ => Token2IndexwithHash d end
  | SpanSubwords v u n, a :: _ =>
      match as_vocab (now m a) with Ok v' => SpanSubwords v' u n | Err _ => SpanSubwords v u n end
  | CustomWordTokenizer t _, _ :: s :: _ => CustomWordTokenizer t (truthy (now m s))
  | AddWhitespaceAroundWordnZhChar t _, _ :: s :: _ => AddWhitespaceAroundWordnZhChar t (truthy (now m s))
  | o, _ => o
  end.

(** the operator as its methods see it at the moment *)
Definition read_op (m : memory) (o : hop) : opobj :=
  mkObj (h_class o) (map (fun kv => (fst kv, now m (snd kv))) (h_configs o)) (acts_as m o).

Definition op_at (m : memory) (i : nat) : option opobj := option_map (read_op m) (nth_error (h_ops m) i).

(** ** Pipes *)

Definition list_at (m : memory) (i : nat) : list nat := nth i (h_lists m) [].
Definition dict_at (m : memory) (i : nat) : list (str * Z) := nth i (h_dicts m) [].
Definition read_list (m : memory) (l : list nat) : list opobj :=
  flat_map (fun i => match op_at m i with Some o => [o] | None => [] end) l.

(** the pipe as its methods see it at the moment *)
Definition pipe_at (m : memory) (k : nat) : option pipe :=
  option_map (fun r => mkPipe (read_list m (list_at m (fst r))) (dict_at m (snd r))) (nth_error (h_pipes m) k).

Inductive command : Type :=
| NewCell (c : cell)                       (* x = [...] or x = {...} *)
| SetCell (i : nat) (c : cell)             (* any change of x in place *)
| NewOp (name : str) (args : list arg) (kwargs : list (str * arg))
| NewPipe                                  (* Pipe() *)
| AddOp (k o : nat) (checkpoint : option str)
| IAdd (k q : nat)                         (* k += q *)
| Plus (k q : nat)                         (* k + q *)
| Copy (k : nat)                           (* copy.copy(k) *)
| Slice (k : nat) (sl : pyslice)           (* k[start:stop:step] *)
| SetSteps (k : nat) (l : list nat)        (* any change of k.steps in place: k.steps[:] = l *)
| SetChecks (k : nat) (d : list (str * Z)) (* any change of k.checkpoints in place *)
| Run (k : nat) (x : pseq)                 (* k.transform_sequence(x) *)
| Get (i : nat) (name : str).              (* i.get_from_checkpoint(name) *)

(** what a call returns: nothing, a new object, the output and the aligners with a new
    Intermediate, or a sequence *)
Inductive answer : Type :=
| Nothing
| New (i : nat)
| Ran (y : pseq) (als : list aligner) (im : nat)
| Item (x : pseq).

(** a new Pipe object with a new list and a new dict *)
Definition new_pipe (m : memory) (l : list nat) (d : list (str * Z)) : memory * nat :=
  (mkM (h_cells m) (h_ops m) (h_lists m ++ [l]) (h_dicts m ++ [d])
       (h_pipes m ++ [(length (h_lists m), length (h_dicts m))]) (h_ims m),
   length (h_pipes m)).

(** [op.input_type], [op.output_type]: attributes of the class *)
Definition hin (m : memory) (i : nat) : option seqtype := option_map (fun o => input_type (h_made o)) (nth_error (h_ops m) i).
Definition hout (m : memory) (i : nat) : option seqtype := option_map (fun o => output_type (h_made o)) (nth_error (h_ops m) i).
Definition differ (a b : option seqtype) : bool :=
  match a, b with Some a, Some b => negb (seqtype_eqb a b) | _, _ => false end.

(** pipe.py:66-77 *)
Definition do_add_op (m : memory) (rl rd o : nat) (checkpoint : option str) : memory * res answer :=
  let l := list_at m rl in
  if match last_opt l with Some a => differ (hin m o) (hout m a) | None => false end
  then (m, Err TypeErr)
  else
    let m := set_lists m (put (h_lists m) rl (l ++ [o])) in
    match checkpoint with
    | None => (m, Ok Nothing)
    | Some name =>
        let d := dict_at m rd in
        if dict_mem d name then (m, Err KeyErr)
        else (set_dicts m (put (h_dicts m) rd (dict_set d name (Z.of_nat (length (list_at m rl))))), Ok Nothing)
    end.

(** pipe.py:87-102 *)
Definition do_iadd (m : memory) (rl rd ql qd : nat) : memory * res answer :=
  match last_opt (list_at m rl), list_at m ql with
  | None, _ | _, [] => (m, Err IndexErr)
  | Some a, b :: _ =>
      if differ (hout m a) (hin m b) then (m, Err TypeErr)
      else if existsb (fun kv => dict_mem (dict_at m qd) (fst kv)) (dict_at m rd) then (m, Err KeyErr)
      else
        let m := set_lists m (put (h_lists m) rl (list_at m rl ++ list_at m ql)) in
        (set_dicts m (put (h_dicts m) rd
           (dict_update (dict_at m rd)
              (map (fun kv => (fst kv, snd kv + Z.of_nat (length (list_at m rl)))) (dict_at m qd)))),
         Ok Nothing)
  end.

(** Commands about objects that do not exist are answered with [RuntimeErr]. *)
Definition exec (E : env) (m : memory) (c : command) : memory * res answer :=
  match c with
  | NewCell c => (set_cells m (h_cells m ++ [c]), Ok (New (length (h_cells m))))
  | SetCell i c =>
      match nth_error (h_cells m) i with
      | Some old => if same_kind old c then (set_cells m (put (h_cells m) i c), Ok Nothing)
                    else (m, Err RuntimeErr)      (* a list does not become a dict *)
      | None => (m, Err RuntimeErr)
      end
  | NewOp name args kwargs =>
      match dict_get classes name with
      | None => (m, Err KeyErr)
      | Some c =>
          match _ <- guard (forallb (exists_in m) (args ++ map snd kwargs)) RuntimeErr ;;
                bound <- hbind_args (c_params c) args kwargs ;;
                o <- c_init c E (map (now m) bound) ;;
                Ok (mkHop name (hrecord (c_params c) args kwargs) bound o)
          with
          | Ok o => (set_ops m (h_ops m ++ [o]), Ok (New (length (h_ops m))))
          | Err e => (m, Err e)
          end
      end
  | NewPipe => let '(m, k) := new_pipe m [] [] in (m, Ok (New k))
  | AddOp k o ck =>
      match nth_error (h_pipes m) k, nth_error (h_ops m) o with
      | Some (rl, rd), Some _ => do_add_op m rl rd o ck
      | _, _ => (m, Err RuntimeErr)
      end
  | IAdd k q =>
      match nth_error (h_pipes m) k, nth_error (h_pipes m) q with
      | Some (rl, rd), Some (ql, qd) => do_iadd m rl rd ql qd
      | _, _ => (m, Err RuntimeErr)
      end
  | Plus k q =>        (* pipe.py:82-85; the copy is dropped if [+=] raises *)
      match nth_error (h_pipes m) k, nth_error (h_pipes m) q with
      | Some (rl, rd), Some (ql, qd) =>
          let '(m1, n) := new_pipe m (list_at m rl) (dict_at m rd) in
          match do_iadd m1 (length (h_lists m)) (length (h_dicts m)) ql qd with
          | (m2, Ok _) => (m2, Ok (New n))
          | (_, Err e) => (m, Err e)
          end
      | _, _ => (m, Err RuntimeErr)
      end
  | Copy k =>          (* pipe.py:104-108 *)
      match nth_error (h_pipes m) k with
      | Some (rl, rd) => let '(m, n) := new_pipe m (list_at m rl) (dict_at m rd) in (m, Ok (New n))
      | None => (m, Err RuntimeErr)
      end
  | Slice k sl =>      (* pipe.py:110-118 *)
      match nth_error (h_pipes m) k with
      | Some (rl, rd) =>
          match get_slice (list_at m rl) sl with
          | Err e => (m, Err e)
          | Ok l =>
              match fst (fst sl), dict_at m rd with
              | None, [] => let '(m, n) := new_pipe m l [] in (m, Ok (New n))
              | None, _ => (m, Err TypeErr)
              | Some start, d =>
                  let '(m, n) := new_pipe m l (map (fun kv => (fst kv, snd kv - start))
                                                 (filter (fun kv => start <? snd kv) d)) in
                  (m, Ok (New n))
              end
          end
      | None => (m, Err RuntimeErr)
      end
  | SetSteps k l =>    (* pipe.py:125-127 gives the list itself; nothing is checked *)
      match nth_error (h_pipes m) k with
      | Some (rl, rd) =>
          if forallb (fun i => (i <? length (h_ops m))%nat) l
          then (set_lists m (put (h_lists m) rl l), Ok Nothing)
          else (m, Err RuntimeErr)
      | None => (m, Err RuntimeErr)
      end
  | SetChecks k d =>   (* pipe.py:129-131 gives the dict itself; the keys of a dict differ *)
      match nth_error (h_pipes m) k with
      | Some (rl, rd) =>
          if (length (dedup (map fst d)) =? length d)%nat
          then (set_dicts m (put (h_dicts m) rd d), Ok Nothing)
          else (m, Err RuntimeErr)
      | None => (m, Err RuntimeErr)
      end
  | Run k x =>         (* pipe.py:200-224 with intermediate.py:14-16: the dict of the pipe itself *)
      match nth_error (h_pipes m) k with
      | Some (rl, rd) =>
          match run E (read_list m (list_at m rl)) x with
          | Ok (y, als, coll) => (set_ims m (h_ims m ++ [(rd, coll)]), Ok (Ran y als (length (h_ims m))))
          | Err e => (m, Err e)
          end
      | None => (m, Err RuntimeErr)
      end
  | Get i name =>      (* intermediate.py:29-44 *)
      match nth_error (h_ims m) i with
      | Some (rd, coll) => (m, x <- get_from_checkpoint (dict_at m rd) coll name ;; Ok (Item x))
      | None => (m, Err RuntimeErr)
      end
  end.

(** the memory after a sequence of calls, exceptions caught *)
Definition after_commands (E : env) (m : memory) (h : list command) : memory :=
  fold_left (fun m c => fst (exec E m c)) h m.
