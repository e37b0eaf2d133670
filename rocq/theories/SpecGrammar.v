(** Specification: which texts are JSON, and what they say (C78).  The grammar of RFC 8259,
    without fractions, exponents, NaN and Infinity, which stand for floats. *)

From Coq Require Import String.
From Verif Require Import Py Json Pipe.
From Coq Require Import List.
Local Open Scope Z_scope.

(** What may stand between the parts: space, tab, line feed, carriage return. *)
Definition blank (s : str) : Prop := Forall (fun c => In c [32; 9; 10; 13]) s.

(** A hexadecimal digit and its value. *)
Inductive hex_digit : Z -> Z -> Prop :=
| hex_decimal d : 0 <= d <= 9 -> hex_digit (48 + d) d
| hex_lower d : 0 <= d <= 5 -> hex_digit (97 + d) (10 + d)
| hex_upper d : 0 <= d <= 5 -> hex_digit (65 + d) (10 + d).

(** [\uXXXX] *)
Inductive unit_escape : Z -> str -> Prop :=
| a_unit a b c d p q r s :
    hex_digit a p -> hex_digit b q -> hex_digit c r -> hex_digit d s ->
    unit_escape (p * 4096 + q * 256 + r * 16 + s) [92; 117; a; b; c; d].

Definition high_surrogate (u : Z) : Prop := 0xD800 <= u <= 0xDBFF.
Definition low_surrogate (u : Z) : Prop := 0xDC00 <= u <= 0xDFFF.

(** The escapes of one letter: the letter and the character it stands for. *)
Definition short_escapes : list (Z * Z) :=
  [(34, 34); (92, 92); (47, 47); (98, 8); (102, 12); (110, 10); (114, 13); (116, 9)].

(** The inside of a string literal and the string it stands for. *)
Inductive in_quotes : str -> str -> Prop :=
| quotes_end : in_quotes [] []
| quotes_plain c s t : 32 <= c -> c <> 34 -> c <> 92 -> in_quotes s t -> in_quotes (c :: s) (c :: t)
| quotes_short e c s t : In (e, c) short_escapes -> in_quotes s t -> in_quotes (c :: s) (92 :: e :: t)
| quotes_unit u h s t : unit_escape u h -> in_quotes s t ->
    (high_surrogate u -> forall v k t', unit_escape v k -> low_surrogate v -> t <> k ++ t') ->
    in_quotes (u :: s) (h ++ t)
| quotes_pair u h v k s t : unit_escape u h -> unit_escape v k -> high_surrogate u -> low_surrogate v ->
    in_quotes s t -> in_quotes (0x10000 + (u - 0xD800) * 1024 + (v - 0xDC00) :: s) (h ++ k ++ t).

Definition quoted (s t : str) : Prop := exists t', t = 34 :: t' ++ [34] /\ in_quotes s t'.

(** Decimal digits without leading zeros, and the number they are. *)
Definition digits_value (ds : str) : Z := fold_left (fun a d => 10 * a + (d - 48)) ds 0.
Definition is_number (ds : str) : Prop :=
  ds = [48] \/ exists d ds', ds = d :: ds' /\ 49 <= d <= 57 /\ Forall (fun d => 48 <= d <= 57) ds'.

(** [says v t]: the text [t], with nothing around it, is the value [v]. *)
Inductive says : jval -> str -> Prop :=
| says_null : says JNone (lit "null")
| says_true : says (JBool true) (lit "true")
| says_false : says (JBool false) (lit "false")
| says_nat ds : is_number ds -> says (JInt (digits_value ds)) ds
| says_negative ds : is_number ds -> says (JInt (- digits_value ds)) (45 :: ds)
| says_string s t : quoted s t -> says (JStr s) t
| says_empty_list w : blank w -> says (JList []) (91 :: w ++ [93])
| says_list l t : elements l t -> says (JList l) (91 :: t ++ [93])
| says_empty_object w : blank w -> says (JDict []) (123 :: w ++ [125])
| says_object d t : members d t ->
    says (JDict (fold_left (fun o kv => dict_set o (fst kv) (snd kv)) d [])) (123 :: t ++ [125])
(* values between commas *)
with elements : list jval -> str -> Prop :=
| last_element v w t w' : blank w -> says v t -> blank w' -> elements [v] (w ++ t ++ w')
| next_element v w t w' l t' : blank w -> says v t -> blank w' -> elements l t' ->
    elements (v :: l) (w ++ t ++ w' ++ 44 :: t')
(* keys with values, between commas *)
with members : list (str * jval) -> str -> Prop :=
| last_member k v w kt w1 w2 t w' : blank w -> quoted k kt -> blank w1 -> blank w2 -> says v t -> blank w' ->
    members [(k, v)] (w ++ kt ++ w1 ++ 58 :: w2 ++ t ++ w')
| next_member k v w kt w1 w2 t w' d t' : blank w -> quoted k kt -> blank w1 -> blank w2 -> says v t -> blank w' ->
    members d t' -> members ((k, v) :: d) (w ++ kt ++ w1 ++ 58 :: w2 ++ t ++ w' ++ 44 :: t').

(** The whole text: blanks may stand around the value. *)
Definition json_text (v : jval) (s : str) : Prop :=
  exists w t w', s = w ++ t ++ w' /\ blank w /\ blank w' /\ says v t.

(** No float is written in the text: no digit is followed by a full stop or an [e], and
    there is no [N] and no [I]. *)
Definition no_floats (s : str) : Prop :=
  ~ In 78 s /\ ~ In 73 s /\
  forall a d c b, s = a ++ d :: c :: b -> 48 <= d <= 57 -> ~ In c [46; 101; 69].
