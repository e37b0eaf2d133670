(** JSON as written by [json.dumps(.., ensure_ascii=False, indent=2)] and read by
    [json.loads] (python's standard library), for the values that operator arguments can
    have.  Floats are not modelled.  Python 3.11's limit on the number of digits of an
    integer (4300) is not modelled. *)

From Verif Require Export Py.
From Coq Require Import Decimal DecimalZ.
Local Open Scope Z_scope.

(** Python values of constructor arguments.  Dicts have string keys and are in insertion
    order. *)
Inductive jval : Type :=
| JNone
| JBool (b : bool)
| JInt (z : Z)
| JStr (s : str)
| JList (l : list jval)
| JTuple (l : list jval)
| JDict (d : list (str * jval)).

(** ** json.dumps *)

Definition QUOTE : Z := 34.
Definition BACKSLASH : Z := 92.

(** hexadecimal digit, lower case *)
Definition hex (n : Z) : Z := if n <? 10 then 48 + n else 87 + n.

(** json.encoder.ESCAPE_DCT *)
Definition escape (c : Z) : str :=
  if c =? QUOTE then [BACKSLASH; QUOTE]
  else if c =? BACKSLASH then [BACKSLASH; BACKSLASH]
  else if c =? 10 then [BACKSLASH; 110]
  else if c =? 13 then [BACKSLASH; 114]
  else if c =? 9 then [BACKSLASH; 116]
  else if c =? 12 then [BACKSLASH; 102]
  else if c =? 8 then [BACKSLASH; 98]
  else if c <? 32 then [BACKSLASH; 117; 48; 48; hex (c / 16); hex (c mod 16)]
  else [c].

Definition dump_str (s : str) : str := QUOTE :: flat_map escape s ++ [QUOTE].

Fixpoint dump_uint (u : uint) : str :=
  match u with
  | Nil => []
  | D0 u => 48 :: dump_uint u
  | D1 u => 49 :: dump_uint u
  | D2 u => 50 :: dump_uint u
  | D3 u => 51 :: dump_uint u
  | D4 u => 52 :: dump_uint u
  | D5 u => 53 :: dump_uint u
  | D6 u => 54 :: dump_uint u
  | D7 u => 55 :: dump_uint u
  | D8 u => 56 :: dump_uint u
  | D9 u => 57 :: dump_uint u
  end.

(** [int.__repr__] *)
Definition dump_int (z : Z) : str :=
  match Z.to_int z with
  | Pos u => dump_uint u
  | Neg u => 45 :: dump_uint u
  end.

(** newline and indentation *)
Definition newline (ind : nat) : str := 10 :: repeat 32 (2 * ind).

Definition with_commas (ind : nat) (l : list str) : str :=
  match l with
  | [] => []
  | x :: l => newline ind ++ x ++ flat_map (fun y => 44 :: newline ind ++ y) l
  end.

Fixpoint dumps (ind : nat) (v : jval) : str :=
  match v with
  | JNone => [110; 117; 108; 108]
  | JBool true => [116; 114; 117; 101]
  | JBool false => [102; 97; 108; 115; 101]
  | JInt z => dump_int z
  | JStr s => dump_str s
  | JList l | JTuple l =>
      match l with
      | [] => [91; 93]
      | _ => 91 :: with_commas (S ind) (map (dumps (S ind)) l) ++ newline ind ++ [93]
      end
  | JDict d =>
      match d with
      | [] => [123; 125]
      | _ => 123 :: with_commas (S ind)
                      (map (fun kv => dump_str (fst kv) ++ [58; 32] ++ dumps (S ind) (snd kv)) d)
             ++ newline ind ++ [125]
      end
  end.

(** ** json.loads *)

Definition is_ws (c : Z) : bool := (c =? 32) || (c =? 9) || (c =? 10) || (c =? 13).
Fixpoint skip_ws (s : str) : str :=
  match s with c :: t => if is_ws c then skip_ws t else s | [] => [] end.

Definition unhex (c : Z) : option Z :=
  if (48 <=? c) && (c <=? 57) then Some (c - 48)
  else if (97 <=? c) && (c <=? 102) then Some (c - 87)
  else if (65 <=? c) && (c <=? 70) then Some (c - 55)
  else None.

(** four hexadecimal digits *)
Definition unhex4 (s : str) : option (Z * str) :=
  match s with
  | a :: b :: c :: d :: s =>
      match unhex a, unhex b, unhex c, unhex d with
      | Some a, Some b, Some c, Some d => Some (((a * 16 + b) * 16 + c) * 16 + d, s)
      | _, _, _, _ => None
      end
  | _ => None
  end.

(** json.decoder.BACKSLASH *)
Definition simple_escape (c : Z) : option Z :=
  if c =? QUOTE then Some QUOTE
  else if c =? BACKSLASH then Some BACKSLASH
  else if c =? 47 then Some 47
  else if c =? 98 then Some 8
  else if c =? 102 then Some 12
  else if c =? 110 then Some 10
  else if c =? 114 then Some 13
  else if c =? 116 then Some 9
  else None.

(** a [\u] escape, after the [u]: the character, and the rest; two escapes that are a
    surrogate pair are one character *)
Definition parse_u (s : str) : option (Z * str) :=
  match unhex4 s with
  | None => None
  | Some (u, s) =>
      if (55296 <=? u) && (u <=? 56319) then
        match s with
        | 92 :: 117 :: s' =>
            match unhex4 s' with
            | Some (v, s'') =>
                if (56320 <=? v) && (v <=? 57343)
                then Some (65536 + ((u - 55296) * 1024 + (v - 56320)), s'')
                else Some (u, s)
            | None => None
            end
        | _ => Some (u, s)
        end
      else Some (u, s)
  end.

(** json.decoder.scanstring after the opening quote *)
Fixpoint parse_str (fuel : nat) (s : str) (acc : str) : option (str * str) :=
  match fuel with
  | O => None
  | S fuel =>
      match s with
      | [] => None
      | c :: s =>
          if c =? QUOTE then Some (acc, s)
          else if c =? BACKSLASH then
            match s with
            | [] => None
            | e :: s =>
                if e =? 117 then
                  match parse_u s with
                  | Some (x, s) => parse_str fuel s (acc ++ [x])
                  | None => None
                  end
                else match simple_escape e with
                     | Some x => parse_str fuel s (acc ++ [x])
                     | None => None
                     end
            end
          else if c <? 32 then None
          else parse_str fuel s (acc ++ [c])
      end
  end.

(** decimal digits *)
Fixpoint parse_uint (s : str) : uint * str :=
  match s with
  | c :: t =>
      let '(u, r) := parse_uint t in
      if c =? 48 then (D0 u, r)
      else if c =? 49 then (D1 u, r)
      else if c =? 50 then (D2 u, r)
      else if c =? 51 then (D3 u, r)
      else if c =? 52 then (D4 u, r)
      else if c =? 53 then (D5 u, r)
      else if c =? 54 then (D6 u, r)
      else if c =? 55 then (D7 u, r)
      else if c =? 56 then (D8 u, r)
      else if c =? 57 then (D9 u, r)
      else (Nil, s)
  | [] => (Nil, [])
  end.

(** json.scanner.NUMBER_RE, integers only: a fraction or exponent is not modelled *)
Definition parse_nat (s : str) : option (uint * str) :=
  match s with
  | 48 :: s => Some (D0 Nil, s)
  | _ => match parse_uint s with
         | (Nil, _) => None
         | (u, s) => Some (u, s)
         end
  end.
Definition no_fraction (s : str) : bool :=
  match s with c :: _ => negb ((c =? 46) || (c =? 101) || (c =? 69)) | [] => true end.
Definition parse_int (s : str) : option (Z * str) :=
  match s with
  | 45 :: s =>
      match parse_nat s with
      | Some (u, s) => if no_fraction s then Some (Z.of_int (Neg u), s) else None
      | None => None
      end
  | _ =>
      match parse_nat s with
      | Some (u, s) => if no_fraction s then Some (Z.of_int (Pos u), s) else None
      | None => None
      end
  end.

Definition keyword (w : str) (v : jval) (s : str) : option (jval * str) :=
  if prefixb w s then Some (v, skipn (length w) s) else None.

(** json.scanner.scan_once with JSONArray and JSONObject; a repeated key overwrites the
    value of the first one *)
Fixpoint parse_value (fuel : nat) (s : str) : option (jval * str) :=
  match fuel with
  | O => None
  | S fuel =>
      match s with
      | [] => None
      | c :: t =>
          if c =? QUOTE then
            match parse_str fuel t [] with
            | Some (x, r) => Some (JStr x, r)
            | None => None
            end
          else if c =? 91 then
            match skip_ws t with
            | 93 :: r => Some (JList [], r)
            | t => match parse_elems fuel t with
                   | Some (l, r) => Some (JList l, r)
                   | None => None
                   end
            end
          else if c =? 123 then
            match skip_ws t with
            | 125 :: r => Some (JDict [], r)
            | t => match parse_members fuel t [] with
                   | Some (d, r) => Some (JDict d, r)
                   | None => None
                   end
            end
          else if c =? 110 then keyword [110; 117; 108; 108] JNone s
          else if c =? 116 then keyword [116; 114; 117; 101] (JBool true) s
          else if c =? 102 then keyword [102; 97; 108; 115; 101] (JBool false) s
          else match parse_int s with
               | Some (z, r) => Some (JInt z, r)
               | None => None
               end
      end
  end
with parse_elems (fuel : nat) (s : str) : option (list jval * str) :=
  match fuel with
  | O => None
  | S fuel =>
      match parse_value fuel s with
      | None => None
      | Some (v, r) =>
          match skip_ws r with
          | 93 :: r => Some ([v], r)
          | 44 :: r => match parse_elems fuel (skip_ws r) with
                       | Some (l, r) => Some (v :: l, r)
                       | None => None
                       end
          | _ => None
          end
      end
  end
with parse_members (fuel : nat) (s : str) (acc : list (str * jval))
  : option (list (str * jval) * str) :=
  match fuel with
  | O => None
  | S fuel =>
      match s with
      | 34 :: s =>
          match parse_str fuel s [] with
          | None => None
          | Some (k, r) =>
              match skip_ws r with
              | 58 :: r =>
                  match parse_value fuel (skip_ws r) with
                  | None => None
                  | Some (v, r) =>
                      let acc := dict_set acc k v in
                      match skip_ws r with
                      | 125 :: r => Some (acc, r)
                      | 44 :: r => parse_members fuel (skip_ws r) acc
                      | _ => None
                      end
                  end
              | _ => None
              end
          end
      | _ => None
      end
  end.

(** [json.loads]; JSONDecodeError is a ValueError *)
Definition loads (s : str) : res jval :=
  match parse_value (2 * length s + 2) (skip_ws s) with
  | Some (v, r) => match skip_ws r with [] => Ok v | _ => Err ValueErr end
  | None => Err ValueErr
  end.
