(** Independent specifications: UTF-8 (by its decoder) and MurmurHash3 for 32 bits (as
    arithmetic on natural numbers below 2^32, with block indices). *)

From Verif Require Import Py.
Local Open Scope Z_scope.

(** ** UTF-8 *)

Definition surrogate (c : Z) : bool := (55296 <=? c) && (c <=? 57343).
Definition code_point (c : Z) : Prop := 0 <= c < 1114112.
Definition byte (b : Z) : Prop := 0 <= b < 256.

(** Continuation bytes are 10xxxxxx. *)
Definition cont (b : Z) : bool := (128 <=? b) && (b <? 192).

(** A strict decoder: the first byte tells the number of bytes; overlong forms and
    surrogates are rejected. *)
Fixpoint decode (bs : list Z) : option (list Z) :=
  match bs with
  | [] => Some []
  | a :: bs =>
      let single := if (0 <=? a) && (a <? 128) then option_map (cons a) (decode bs) else None in
      match bs with
      | [] => single
      | b :: bs =>
          if (192 <=? a) && (a <? 224) && cont b then
            let x := (a - 192) * 64 + (b - 128) in
            if 128 <=? x then option_map (cons x) (decode bs) else None
          else match bs with
          | [] => single
          | c :: bs =>
              if (224 <=? a) && (a <? 240) && cont b && cont c then
                let x := ((a - 224) * 64 + (b - 128)) * 64 + (c - 128) in
                if (2048 <=? x) && negb (surrogate x) then option_map (cons x) (decode bs) else None
              else match bs with
              | [] => single
              | d :: bs =>
                  if (240 <=? a) && (a <? 248) && cont b && cont c && cont d then
                    let x := (((a - 240) * 64 + (b - 128)) * 64 + (c - 128)) * 64 + (d - 128) in
                    if (65536 <=? x) && (x <? 1114112) then option_map (cons x) (decode bs) else None
                  else single
              end
          end
      end
  end.

(** ** MurmurHash3_x86_32 *)

Definition M : Z := 4294967296.

(** Little-endian value of a list of bytes. *)
Fixpoint little_endian (bs : list Z) : Z :=
  match bs with
  | [] => 0
  | b :: bs => b + 256 * little_endian bs
  end.

(** Rotation to the left of a 32 bit word. *)
Definition rotate (x : Z) (r : Z) : Z := (x * 2 ^ r) mod M + x / 2 ^ (32 - r).

Definition scramble (k : Z) : Z := (rotate ((k * 3432918353) mod M) 15 * 461845907) mod M.

(** Block number [i]: four bytes. *)
Definition block (data : list Z) (i : nat) : Z :=
  little_endian (firstn 4 (skipn (4 * i) data)).

Definition absorb (data : list Z) (h : Z) (i : nat) : Z :=
  (rotate (Z.lxor h (scramble (block data i))) 13 * 5 + 3864292196) mod M.

(** Shifting to the right by [r] is dividing by 2^r. *)
Definition avalanche (h : Z) : Z :=
  let h := (Z.lxor h (h / 65536) * 2246822507) mod M in
  let h := (Z.lxor h (h / 8192) * 3266489909) mod M in
  Z.lxor h (h / 65536).

Definition murmur (data : list Z) (seed : Z) : Z :=
  let n := (length data / 4)%nat in
  let h := fold_left (absorb data) (seq 0 n) seed in
  let rest := skipn (4 * n) data in
  let h := match rest with [] => h | _ => Z.lxor h (scramble (little_endian rest)) end in
  avalanche (Z.lxor h (Z.of_nat (length data))).

(** ** Hashed indices *)

(** The index of a known token; for an unknown one, the hash of its UTF-8 form modulo the
    size; 0 if it cannot be encoded. *)
Definition hashed_index (d : list (str * Z)) (t : str) (i : Z) : Prop :=
  In (t, i) d \/
  (~ In t (map fst d) /\
   ((exists bs, decode bs = Some t /\ i = murmur bs 0 mod Z.of_nat (length d)) \/
    (existsb surrogate t = true /\ i = 0))).
