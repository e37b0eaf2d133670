(** Model of the part of python's [re] used by the built-in patterns.

    A match attempt at position [i] of the whole string [s] is the list of the end
    positions the backtracking engine would try, in order; the first one is the match. *)

From Verif Require Export Py.

Inductive re : Type :=
| RLit (l : str)               (* literal text *)
| RPlus (c : Z -> bool)        (* [c]+ , greedy *)
| RStar (c : Z -> bool)        (* [c]* , greedy *)
| RSeq (a b : re)
| RAlt (a b : re)              (* a|b, a tried first *)
| RNotBehind (c : Z -> bool)   (* (?<![c]) *)
| RNotAhead (c : Z -> bool)    (* (?![c]) *)
| RBegin                       (* \A *)
| REnd.                        (* \Z *)

(** Length of the longest prefix of characters in the class. *)
Fixpoint run_length (c : Z -> bool) (s : str) : nat :=
  match s with
  | x :: s => if c x then S (run_length c s) else 0
  | [] => 0
  end.

Fixpoint ends (r : re) (s : str) (i : nat) : list nat :=
  match r with
  | RLit l => if prefixb l (skipn i s) then [i + length l] else []
  | RPlus c => map (fun k => i + k) (rev (seq 1 (run_length c (skipn i s))))
  | RStar c => map (fun k => i + k) (rev (seq 0 (S (run_length c (skipn i s)))))
  | RSeq a b => flat_map (ends b s) (ends a s i)
  | RAlt a b => ends a s i ++ ends b s i
  | RNotBehind c =>
      match i with
      | 0 => [i]
      | S j => match nth_error s j with
               | Some x => if c x then [] else [i]
               | None => [i]
               end
      end
  | RNotAhead c =>
      match nth_error s i with
      | Some x => if c x then [] else [i]
      | None => [i]
      end
  | RBegin => if i =? 0 then [i] else []
  | REnd => if i =? length s then [i] else []
  end.

(** Try the positions [i], [i+1], .., [i+n]. *)
Fixpoint search_at (r : re) (s : str) (n i : nat) : option (nat * nat) :=
  match ends r s i with
  | e :: _ => Some (i, e)
  | [] => match n with 0 => None | S n => search_at r s n (S i) end
  end.

(** [pattern.search(s, pos)]: (match.start(), match.end()).  [\A] and the lookbehind see
    the whole string, not only the part from [pos] on. *)
Definition search (r : re) (s : str) (pos : nat) : option (nat * nat) :=
  if length s <? pos then None else search_at r s (length s - pos) pos.

(** [pattern.findall(s)[0]] for a pattern without groups, [None] if there is no match. *)
Definition findall_first (r : re) (s : str) : option str :=
  match search r s 0 with
  | Some (i, e) => Some (slice s i e)
  | None => None
  end.
