(** Model of python's [re]: the pattern language (Lib/re/_parser.py, in older versions
    Lib/sre_parse.py) and the backtracking search (Modules/_sre).

    The repository calls [re.compile] on its own pattern texts (lowercase.py:32,
    pure_num_to_token.py:15, pattern_recognizers/*.py) and on the user's text
    (replace_a_with_b.py:42), always without flags, and then [pattern.search(s, pos)]
    (pattern_recognizers/base.py:49) and [pattern.findall(s)] (pure_num_to_token.py:57).

    Not covered, [Beyond]: group references, named and conditional groups, inline flags,
    comments, atomic groups, possessive repeats, octal escapes, [\N{..}], repeat counts
    above 1000.  A text outside the covered part is never called bad or good here.

    A match attempt at position [i] of the whole text is the list of the end positions the
    backtracking engine would try, in order. *)

From Verif Require Export Py.

(** ** Expressions *)

(** Members of a character set.  A single character [c] is [CRange c c]. *)
Inductive citem : Type :=
| CRange (lo hi : Z)
| CDigit (neg : bool)          (* \d \D *)
| CSpace (neg : bool)          (* \s \S *)
| CWord (neg : bool).          (* \w \W *)

Inductive rx : Type :=
| XEmpty
| XSet (neg : bool) (items : list citem)   (* [..] [^..], characters, \d and the like *)
| XAny                                     (* . *)
| XSeq (a b : rx)
| XAlt (a b : rx)
| XRep (lo : nat) (hi : option nat) (greedy : bool) (a : rx)
| XLook (ahead pos : bool) (a : rx)        (* (?=a) (?!a) (?<=a) (?<!a) *)
| XBegin                                   (* \A ^ *)
| XEnd                                     (* \Z *)
| XDollar                                  (* $ *)
| XWordB (neg : bool).                     (* \b \B *)

Definition xchar (c : Z) : rx := XSet false [CRange c c].

(** ** Search *)

(** The classes \d, \s and \w of the unicode database. *)
Record classes := mkClasses { c_digit : Z -> bool; c_space : Z -> bool; c_word : Z -> bool }.

Definition item_has (k : classes) (x : citem) (c : Z) : bool :=
  match x with
  | CRange lo hi => (lo <=? c)%Z && (c <=? hi)%Z
  | CDigit n => xorb n (c_digit k c)
  | CSpace n => xorb n (c_space k c)
  | CWord n => xorb n (c_word k c)
  end.
Definition set_has (k : classes) (neg : bool) (l : list citem) (c : Z) : bool :=
  xorb neg (existsb (fun x => item_has k x c) l).

(** SubPattern.getwidth: the least and the greatest width. *)
Fixpoint minw (r : rx) : nat :=
  match r with
  | XSet _ _ | XAny => 1
  | XSeq a b => minw a + minw b
  | XAlt a b => Nat.min (minw a) (minw b)
  | XRep lo _ _ a => lo * minw a
  | _ => 0
  end.
Definition w_add (x y : option nat) : option nat :=
  match x, y with Some a, Some b => Some (a + b) | _, _ => None end.
Definition w_max (x y : option nat) : option nat :=
  match x, y with Some a, Some b => Some (Nat.max a b) | _, _ => None end.
Fixpoint maxw (r : rx) : option nat :=
  match r with
  | XSet _ _ | XAny => Some 1
  | XSeq a b => w_add (maxw a) (maxw b)
  | XAlt a b => w_max (maxw a) (maxw b)
  | XRep _ hi _ a =>
      match hi, maxw a with
      | Some 0, _ => Some 0
      | _, Some 0 => Some 0
      | Some h, Some w => Some (h * w)
      | _, _ => None
      end
  | _ => Some 0
  end.

(** [SRE_OP_MAX_UNTIL]: the iterations up to the least count. *)
Fixpoint times (n : nat) (f : nat -> list nat) (i : nat) : list nat :=
  match n with 0 => [i] | S n => flat_map (times n f) (f i) end.
(** [SRE_OP_MAX_UNTIL], [SRE_OP_MIN_UNTIL]: up to [n] further ones; after one that consumed
    nothing only the rest of the pattern is tried. *)
Fixpoint more (n : nat) (greedy : bool) (f : nat -> list nat) (i : nat) : list nat :=
  match n with
  | 0 => [i]
  | S n =>
      let again := flat_map (fun e => if e =? i then [e] else more n greedy f e) (f i) in
      if greedy then again ++ [i] else i :: again
  end.

Definition is_wordb (k : classes) (s : str) (i : nat) : bool :=
  let at_ j := match nth_error s j with Some c => c_word k c | None => false end in
  xorb (match i with 0 => false | S j => at_ j end) (at_ i).
Definition nilb {A} (l : list A) : bool := match l with [] => true | _ => false end.

Fixpoint xends (k : classes) (s : str) (r : rx) (i : nat) {struct r} : list nat :=
  match r with
  | XEmpty => [i]
  | XSet neg l =>
      match nth_error s i with Some c => if set_has k neg l c then [S i] else [] | None => [] end
  | XAny => match nth_error s i with Some c => if (c =? 10)%Z then [] else [S i] | None => [] end
  | XSeq a b => flat_map (xends k s b) (xends k s a i)
  | XAlt a b => xends k s a i ++ xends k s b i
  | XRep lo hi g a =>
      flat_map (more (match hi with Some h => h - lo | None => S (length s) end) g (xends k s a))
        (times lo (xends k s a) i)
  | XLook true pos a => if Bool.eqb pos (nilb (xends k s a i)) then [] else [i]
  | XLook false pos a =>
      let found := (minw a <=? i) && negb (nilb (xends k s a (i - minw a))) in
      if Bool.eqb pos found then [i] else []
  | XBegin => if i =? 0 then [i] else []
  | XEnd => if i =? length s then [i] else []
  | XDollar =>
      if (i =? length s) || ((S i =? length s) && match nth_error s i with
                                                   | Some c => (c =? 10)%Z
                                                   | None => false
                                                   end)
      then [i] else []
  | XWordB neg =>
      (* SRE_AT_UNI_NON_BOUNDARY fails on the empty text too *)
      match s with [] => [] | _ => if xorb neg (is_wordb k s i) then [i] else [] end
  end.

(** Try the positions [i], [i+1], .., [i+n]. *)
Fixpoint xsearch_at (k : classes) (r : rx) (s : str) (n i : nat) : option (nat * nat) :=
  match xends k s r i with
  | e :: _ => Some (i, e)
  | [] => match n with 0 => None | S n => xsearch_at k r s n (S i) end
  end.
(** [pattern.search(s, pos)], [pos <= len(s)]: [(match.start(), match.end())]. *)
Definition xsearch (k : classes) (r : rx) (s : str) (pos : nat) : option (nat * nat) :=
  if length s <? pos then None else xsearch_at k r s (length s - pos) pos.

(** ** Patterns *)

(** [Bad]: re.error; [Beyond]: outside the covered part; [Starved]: the fuel of the model
    ran out. *)
Inductive reading (A : Type) : Type :=
| Read (a : A)
| Bad
| Beyond
| Starved.
Arguments Read {A} a. Arguments Bad {A}. Arguments Beyond {A}. Arguments Starved {A}.

Definition rbind {A B} (x : reading A) (f : A -> reading B) : reading B :=
  match x with Read a => f a | Bad => Bad | Beyond => Beyond | Starved => Starved end.

Definition between (lo hi c : Z) : bool := (lo <=? c)%Z && (c <=? hi)%Z.
Definition ascii_digit (c : Z) : bool := between 48 57 c.
Definition ascii_letter (c : Z) : bool := between 65 90 c || between 97 122 c.

Definition hex_digit (c : Z) : option Z :=
  if between 48 57 c then Some (c - 48)%Z
  else if between 65 70 c then Some (c - 55)%Z
  else if between 97 102 c then Some (c - 87)%Z
  else None.
(** exactly [n] hexadecimal digits *)
Fixpoint hex_num (n : nat) (acc : Z) (s : str) : option (Z * str) :=
  match n with
  | 0 => Some (acc, s)
  | S n =>
      match s with
      | c :: t => match hex_digit c with Some d => hex_num n (16 * acc + d)%Z t | None => None end
      | [] => None
      end
  end.
Definition hex_escape (n : nat) (s : str) : reading (Z * str) :=
  match hex_num n 0%Z s with
  | Some (c, t) => if (c <=? 0x10FFFF)%Z then Read (c, t) else Bad
  | None => Bad
  end.

(** The escapes that stand for one character: \a \f \n \r \t \v \\, \xHH, \uHHHH,
    \UHHHHHHHH, and any character that is neither an ASCII letter nor a digit. *)
Definition char_escape (c : Z) (s : str) : reading (Z * str) :=
  if (c =? 97)%Z then Read (7%Z, s)
  else if (c =? 102)%Z then Read (12%Z, s)
  else if (c =? 110)%Z then Read (10%Z, s)
  else if (c =? 114)%Z then Read (13%Z, s)
  else if (c =? 116)%Z then Read (9%Z, s)
  else if (c =? 118)%Z then Read (11%Z, s)
  else if (c =? 120)%Z then hex_escape 2 s
  else if (c =? 117)%Z then hex_escape 4 s
  else if (c =? 85)%Z then hex_escape 8 s
  else if (c =? 78)%Z then Beyond
  else if ascii_digit c then Beyond
  else if ascii_letter c then Bad
  else Read (c, s).

Definition class_kind (c : Z) : option citem :=
  if (c =? 100)%Z then Some (CDigit false)
  else if (c =? 68)%Z then Some (CDigit true)
  else if (c =? 115)%Z then Some (CSpace false)
  else if (c =? 83)%Z then Some (CSpace true)
  else if (c =? 119)%Z then Some (CWord false)
  else if (c =? 87)%Z then Some (CWord true)
  else None.

(** _class_escape: inside a set \b is the backspace character. *)
Definition class_escape (c : Z) (s : str) : reading (citem * str) :=
  if (c =? 98)%Z then Read (CRange 8 8, s)
  else match class_kind c with
       | Some x => Read (x, s)
       | None => rbind (char_escape c s) (fun '(z, t) => Read (CRange z z, t))
       end.

(** One character or escape inside a set. *)
Definition class_char (c : Z) (t : str) : reading (citem * str) :=
  if (c =? 92)%Z then match t with [] => Bad | d :: u => class_escape d u end
  else Read (CRange c c, t).

(** _parse, the set loop: from behind [\[] or [\[^].  A [\]] in first place is a member. *)
Fixpoint parse_class (n : nat) (seen : list citem) (s : str) : reading (list citem * str) :=
  match n with
  | 0 => Starved
  | S n =>
      match s with
      | [] => Bad
      | c :: t =>
          if (c =? 93)%Z && negb (nilb seen) then Read (rev seen, t)
          else
            rbind (class_char c t) (fun '(x, t1) =>
              match t1 with
              | m :: t2 =>
                  if (m =? 45)%Z then
                    match t2 with
                    | [] => Bad
                    | d :: t3 =>
                        if (d =? 93)%Z then Read (rev (CRange 45 45 :: x :: seen), t3)
                        else
                          rbind (class_char d t3) (fun '(y, t4) =>
                            match x, y with
                            | CRange a _, CRange b _ =>
                                if (b <? a)%Z then Bad else parse_class n (CRange a b :: seen) t4
                            | _, _ => Bad
                            end)
                    end
                  else parse_class n (x :: seen) t1
              | [] => parse_class n (x :: seen) t1
              end)
      end
  end.

(** ASCII decimal digits: the value, whether there are any, the rest. *)
Fixpoint dec_digits (acc : option Z) (s : str) : option Z * str :=
  match s with
  | c :: t =>
      if ascii_digit c
      then dec_digits (Some (10 * match acc with Some z => z | None => 0 end + (c - 48)))%Z t
      else (acc, s)
  | [] => (acc, s)
  end.
Definition MAXCOUNT : Z := 1000.
Definition big (x : option Z) : bool :=
  match x with Some z => (MAXCOUNT <? z)%Z | None => false end.

(** _parse, REPEAT_CHARS: the counts of a repeat that starts with [c], [None] if a brace
    does not start one and is a character. *)
Definition quantifier (c : Z) (s : str) : reading (option (nat * option nat * str)) :=
  if (c =? 42)%Z then Read (Some (0, None, s))
  else if (c =? 43)%Z then Read (Some (1, None, s))
  else if (c =? 63)%Z then Read (Some (0, Some 1, s))
  else
    match s with
    | m :: _ =>
        if (m =? 125)%Z then Read None
        else
          let '(lo, t) := dec_digits None s in
          let '(hi, u) :=
            match t with
            | k :: t' => if (k =? 44)%Z then dec_digits None t' else (lo, t)
            | [] => (lo, t)
            end in
          match u with
          | z :: v =>
              if (z =? 125)%Z then
                if big lo || big hi then Beyond
                else
                  let l := match lo with Some x => Z.to_nat x | None => 0 end in
                  match hi with
                  | Some h => if Z.to_nat h <? l then Bad else Read (Some (l, Some (Z.to_nat h), v))
                  | None => Read (Some (l, None, v))
                  end
              else Read None
          | [] => Read None
          end
    | [] => Read None
    end.

(** What a repeat may follow: an anchor cannot be repeated, a repeat not again. *)
Inductive kind : Type := KAt | KRep | KOther.
Definition pitem : Type := kind * rx.

(** _escape: outside sets. *)
Definition escape (c : Z) (s : str) : reading (pitem * str) :=
  if (c =? 65)%Z then Read ((KAt, XBegin), s)
  else if (c =? 90)%Z then Read ((KAt, XEnd), s)
  else if (c =? 98)%Z then Read ((KAt, XWordB false), s)
  else if (c =? 66)%Z then Read ((KAt, XWordB true), s)
  else match class_kind c with
       | Some x => Read ((KOther, XSet false [x]), s)
       | None => rbind (char_escape c s) (fun '(z, t) => Read ((KOther, xchar z), t))
       end.

(** One item after the other. *)
Fixpoint xseq (l : list rx) : rx :=
  match l with
  | [] => XEmpty
  | [a] => a
  | a :: t => XSeq a (xseq t)
  end.

(** The repeat applies to the last item. *)
Definition repeat_last (acc : list pitem) (lo : nat) (hi : option nat) (s : str)
  : reading (list pitem * str) :=
  match acc with
  | (KOther, a) :: acc =>
      match s with
      | m :: t =>
          if (m =? 63)%Z then Read ((KRep, XRep lo hi false a) :: acc, t)
          else if (m =? 43)%Z then Beyond
          else Read ((KRep, XRep lo hi true a) :: acc, s)
      | [] => Read ((KRep, XRep lo hi true a) :: acc, s)
      end
  | _ => Bad
  end.

(** The opening of a group, from behind the parenthesis: what becomes of the expression
    inside. *)
Definition group_open (s : str) : reading ((rx -> rx) * str) :=
  match s with
  | q :: t =>
      if (q =? 63)%Z then
        match t with
        | [] => Bad
        | o :: u =>
            if (o =? 58)%Z then Read (fun a => a, u)
            else if (o =? 61)%Z then Read (XLook true true, u)
            else if (o =? 33)%Z then Read (XLook true false, u)
            else if (o =? 60)%Z then
              match u with
              | [] => Bad
              | d :: v =>
                  if (d =? 61)%Z then Read (XLook false true, v)
                  else if (d =? 33)%Z then Read (XLook false false, v)
                  else Bad
              end
            else Beyond
        end
      else Read (fun a => a, s)
  | [] => Read (fun a => a, s)
  end.

(** _parse_sub and _parse.  [acc]: the items so far, last first. *)
Fixpoint parse_sub (n : nat) (s : str) {struct n} : reading (rx * str) :=
  match n with
  | 0 => Starved
  | S n =>
      rbind (parse_seq n [] s) (fun '(a, t) =>
        match t with
        | c :: u =>
            if (c =? 124)%Z then rbind (parse_sub n u) (fun '(b, v) => Read (XAlt a b, v))
            else Read (a, t)
        | [] => Read (a, t)
        end)
  end
with parse_seq (n : nat) (acc : list pitem) (s : str) {struct n} : reading (rx * str) :=
  match n with
  | 0 => Starved
  | S n =>
      match s with
      | [] => Read (xseq (rev (map snd acc)), s)
      | c :: t =>
          if (c =? 124)%Z || (c =? 41)%Z then Read (xseq (rev (map snd acc)), s)
          else if (c =? 92)%Z then
            match t with
            | [] => Bad
            | d :: u => rbind (escape d u) (fun '(x, v) => parse_seq n (x :: acc) v)
            end
          else if (c =? 91)%Z then
            let '(neg, u) := match t with
                             | m :: t' => if (m =? 94)%Z then (true, t') else (false, t)
                             | [] => (false, t)
                             end in
            rbind (parse_class n [] u) (fun '(l, v) => parse_seq n ((KOther, XSet neg l) :: acc) v)
          else if (c =? 42)%Z || (c =? 43)%Z || (c =? 63)%Z || (c =? 123)%Z then
            rbind (quantifier c t) (fun q =>
              match q with
              | None => parse_seq n ((KOther, xchar c) :: acc) t
              | Some (lo, hi, u) =>
                  rbind (repeat_last acc lo hi u) (fun '(acc, v) => parse_seq n acc v)
              end)
          else if (c =? 46)%Z then parse_seq n ((KOther, XAny) :: acc) t
          else if (c =? 94)%Z then parse_seq n ((KAt, XBegin) :: acc) t
          else if (c =? 36)%Z then parse_seq n ((KAt, XDollar) :: acc) t
          else if (c =? 40)%Z then
            rbind (group_open t) (fun '(f, u) =>
              rbind (parse_sub n u) (fun '(a, v) =>
                match v with
                | z :: w => if (z =? 41)%Z then parse_seq n ((KOther, f a) :: acc) w else Bad
                | [] => Bad
                end))
          else parse_seq n ((KOther, xchar c) :: acc) t
      end
  end.

(** _compile: a look-behind needs a fixed width. *)
Fixpoint behind_ok (r : rx) : bool :=
  match r with
  | XSeq a b | XAlt a b => behind_ok a && behind_ok b
  | XRep _ _ _ a => behind_ok a
  | XLook true _ a => behind_ok a
  | XLook false _ a =>
      behind_ok a && match maxw a with Some w => w =? minw a | None => false end
  | _ => true
  end.

(** [re.compile(p)] *)
Definition parse (p : str) : reading rx :=
  rbind (parse_sub (2 * length p + 2) p) (fun '(r, t) =>
    match t with
    | [] => if behind_ok r then Read r else Bad
    | _ => Bad
    end).
Definition compile (k : classes) (p : str) : option (str -> nat -> option (nat * nat)) :=
  match parse p with Read r => Some (xsearch k r) | _ => None end.
