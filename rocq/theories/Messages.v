(** Model of the messages with which the library raises: for a call, [None] if it returns, or the
    exception with its text ([str(e)]; for a KeyError [e.args[0]]).  The calls themselves are
    modelled in the other files; the definitions here follow the same lines of the source and
    keep the text. *)

From Coq Require Import String.
From Verif Require Import Py Edit Ops Json JsonAscii Elements Pipe GroupObj Factory TextForms.
From Coq Require Import List.
Local Open Scope Z_scope.

Inductive raised : Type :=
| Says (e : exn) (message : str)      (* raised by the library *)
| Python (e : exn).                   (* raised by python itself, with a text of its own *)

(** ** utils.py and elements.pyx *)

(** utils.py:13-24 *)
Definition msg_entity_wrong_position (utterance : str) (e : entity) : str :=
  [10] ++ lit "        Utterance position " ++ dump_int (e_start e) ++ lit " - " ++ dump_int (e_end e) ++
  lit " expected to be " ++ e_value e ++ lit "," ++ [10] ++
  lit "        but got " ++ slice_z utterance (e_start e) (e_end e) ++ lit "." ++ [10] ++ lit "    ".

(** utils.py:27-37 *)
Definition msg_entity_overlapping (utterance : str) (e next : entity) : str :=
  [10] ++ lit "        For utterance " ++ utterance ++ lit ", entity " ++ e_value e ++ lit " ends at " ++ dump_int (e_end e) ++
  lit ", and entity " ++ e_value next ++ lit " starts at " ++ dump_int (e_start next) ++ lit "," ++ [10] ++
  lit "        which are overlapping. Currently, uttut doesn't support overlapping or hierachy entities." ++ [10] ++ lit "    ".

(** elements.pyx:126-129 *)
Fixpoint position_message (utterance : str) (es : list entity) : option raised :=
  match es with
  | [] => None
  | e :: es =>
      if entity_position_correct utterance e then position_message utterance es
      else Some (Says EntityPositionErr (msg_entity_wrong_position utterance e))
  end.
(** elements.pyx:131-136 *)
Fixpoint overlap_message (utterance : str) (es : list entity) : option raised :=
  match es with
  | e :: ((next :: _) as rest) =>
      if overlap e next then Some (Says EntityOverlapErr (msg_entity_overlapping utterance e next))
      else overlap_message utterance rest
  | _ => None
  end.
(** elements.pyx:116-136 *)
Definition datum_message (utterance : str) (entities : option (list entity)) : option raised :=
  let ents := match entities with None => [] | Some l => sort_by e_start l end in
  match position_message utterance ents with
  | Some r => Some r
  | None => overlap_message utterance ents
  end.

(** ** pipeline/edit *)

(** validation.pyx:14-24 *)
Fixpoint disjoint_message {X} (st en : X -> nat) (current : nat) (l : list X) : option raised :=
  match l with
  | [] => None
  | x :: l => if (st x <? current)%nat then Some (Says ValueErr (lit "overlapped")) else disjoint_message st en (en x) l
  end.

(** replacement.pyx:113-118; a bool tells whether the new value is a str *)
Fixpoint values_message {A} (target : bool) (i : nat) (l : list (item A)) : option raised :=
  match l with
  | [] => None
  | x :: l =>
      if Bool.eqb (fst x) target then values_message target (S i) l
      else Some (Says TypeErr (lit "the new_value of " ++ dump_nat i ++ lit "-th element is not a(an) " ++
                               type_name (if target then TStr else TList)))
  end.
(** replacement.pyx:98-111 *)
Definition rg_message {A} `{Eqb A} (ord : list (item A) -> list (item A)) (skip_sort : bool) (g : rgroup A) : option raised :=
  match ord (dedup (rg_items g)) with
  | [] => None
  | x :: l =>
      if skip_sort then None
      else match values_message (fst x) 0 (x :: l) with
           | Some r => Some r
           | None =>
               match sort_by (fun y => Z.of_nat (i_start y)) (sort_by (fun y => Z.of_nat (i_end y)) (x :: l)) with
               | [] => None
               | y :: l => disjoint_message i_start i_end (i_end y) l
               end
           end
  end.

(** span.pyx:70-74 *)
Fixpoint contiguous_message (current : span) (l : list span) : option raised :=
  match l with
  | [] => None
  | n :: l => if (snd current =? fst n)%nat then contiguous_message n l else Some (Says ValueErr (lit "Spans should be contiguous."))
  end.
(** span.pyx:50-74 *)
Definition sg_message (g : sgroup) : option raised :=
  match sort_by (fun e : span => Z.of_nat (snd e)) (sg_items g) with
  | [] => None
  | s :: l =>
      match disjoint_message fst snd (snd s) l with
      | Some r => Some r
      | None => if (fst s =? 0)%nat then contiguous_message s l else Some (Says ValueErr (lit "Spans should start from 0"))
      end
  end.

(** lst2str.py:19-21 *)
Fixpoint tokens_message {A} (i : nat) (l : list (list A)) (g : list span) : option raised :=
  match l, g with
  | t :: l, sp :: g =>
      if (length t =? snd sp - fst sp)%nat then tokens_message (S i) l g
      else Some (Says ValueErr (dump_nat i ++ lit "-th element is not compatible."))
  | _, _ => None
  end.
(** lst2str.py:16-21 *)
Definition lst2str_message {A} (l : list (list A)) (g : list span) : option raised :=
  if (length l =? length g)%nat then tokens_message 0 l g
  else Some (Says ValueErr (lit "Input list and span group have different length.")).

(** ** pipeline *)

(** [str(t)] of a class *)
Definition class_text (t : seqtype) : str := lit "<class '" ++ type_name t ++ lit "'>".

(** the first of two checks that fails *)
Definition first_of (a b : option raised) : option raised := match a with Some r => Some r | None => b end.

(** pipe.py:66-76 *)
Definition add_op_message (p : pipe) (o : opobj) (checkpoint : option str) : option raised :=
  first_of
    (match last_opt (steps p) with
     | Some s =>
         if seqtype_eqb (in_type o) (out_type s) then None
         else Some (Says TypeErr (lit "InputType of the step op is not valid." ++ lit "Got " ++ class_text (in_type o) ++
                                  lit ", but requires " ++ class_text (out_type s)))
     | None => None
     end)
    (match checkpoint with
     | Some name => if dict_mem (checkpoints p) name then Some (Says KeyErr (lit "duplicated checkpoints: " ++ name)) else None
     | None => None
     end).

(** pipe.py:87-96 and 133-143; [printable] as in [repr_str] *)
Definition iadd_message (printable : Z -> bool) (p q : pipe) : option raised :=
  match last_opt (steps p), steps q with
  | None, _ | _, [] => Some (Says IndexErr (lit "Pipe is empty!"))
  | Some s, t :: _ =>
      if negb (seqtype_eqb (out_type s) (in_type t)) then
        Some (Says TypeErr (lit "input/output type of two pipes are not valid. " ++ class_text (out_type s) ++ lit " != " ++
                            class_text (in_type t)))
      else if existsb (fun kv => dict_mem (checkpoints q) (fst kv)) (checkpoints p) then
        let shown ck := repr printable (JDict (map (fun kv => (fst kv, JInt (snd kv))) ck)) in
        Some (Says KeyErr (lit "duplicated checkpoints between: " ++ shown (checkpoints p) ++ lit ", " ++ shown (checkpoints q)))
      else None
  end.

(** intermediate.py:38-41; python's list raises by itself for a number outside *)
Definition checkpoint_message (ck : list (str * Z)) (collection : list pseq) (name : str) : option raised :=
  match dict_get ck name with
  | None => Some (Says KeyErr (name ++ lit " is not found."))
  | Some i => match get_item collection i with Ok _ => None | Err e => Some (Python e) end
  end.

(** factory.py:18-20 *)
Definition register_message {C} (f : list (str * C)) (name : str) : option raised :=
  if dict_mem f name then Some (Says KeyErr (name ++ lit " already exists.")) else None.
(** factory.py:22-25 *)
Definition lookup_message {C} (f : list (str * C)) (name : str) : option raised :=
  if dict_mem f name then None else Some (Says KeyErr (name ++ lit " is not registered")).

(** token_to_index.py:10-18 *)
Definition continuity_message (d : list (str * Z)) : option raised :=
  let indices := dedup (map snd d) in
  if negb (length d =? length indices)%nat then Some (Says ValueErr (lit "duplicated index"))
  else match indices with
       | [] => Some (Python ValueErr)      (* min() of an empty set *)
       | i :: is =>
           if (min_of i is =? 0) && (max_of i is =? Z.of_nat (length d) - 1) then None
           else Some (Says ValueErr (lit "indices are not continuous."))
       end.
(** token_to_index.py:50-53 *)
Definition token2index_message (d : list (str * Z)) (unk : str) : option raised :=
  first_of (continuity_message d)
    (if dict_mem d unk then None else Some (Says KeyErr (lit "token2index should have token " ++ unk))).

(** ordinal_label.py:38-50; [what] is Entity or Intent *)
Fixpoint index_message (what : str) (d : list (str * Z)) (idx : Z) : option raised :=
  match d with
  | [] => Some (Says KeyErr (what ++ lit " index " ++ dump_int idx ++ lit " not found"))
  | (_, i) :: d => if idx =? i then None else index_message what d idx
  end.

(** ordinal_label.py:19-27 *)
Definition ordinal_message (intent2index entity2index : list (str * Z)) (not_entity_index : Z) : option raised :=
  first_of
    (if is_valid_mapping intent2index then None else Some (Says ValueErr (lit "Intent mapping is not valid.")))
    (if is_valid_mapping (dict_set entity2index NOT_ENTITY_NAME not_entity_index) then None
     else Some (Says ValueErr (lit "Entity mapping is not valid."))).
