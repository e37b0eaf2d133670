(** Model of /repo/uttut/pipeline/ops/utils/MurmurHash3.cpp (x86_32) and
    consistent_hash.pyx. *)

From Verif Require Export Py.
Local Open Scope Z_scope.

(** uint32_t arithmetic *)
Definition w32 (x : Z) : Z := x mod 2 ^ 32.
Definition mul32 (x y : Z) : Z := w32 (x * y).

(** MurmurHash3.cpp:45-48 [rotl32] *)
Definition rotl32 (x r : Z) : Z := Z.lor (w32 (Z.shiftl x r)) (Z.shiftr x (32 - r)).

(** MurmurHash3.cpp:79-88 [fmix] *)
Definition fmix32 (h : Z) : Z :=
  let h := Z.lxor h (Z.shiftr h 16) in
  let h := mul32 h 0x85ebca6b in
  let h := Z.lxor h (Z.shiftr h 13) in
  let h := mul32 h 0xc2b2ae35 in
  Z.lxor h (Z.shiftr h 16).

(** MurmurHash3.cpp:113-114 *)
Definition c1 : Z := 0xcc9e2d51.
Definition c2 : Z := 0x1b873593.

(** MurmurHash3.cpp:125-127, 146: [k1 *= c1; k1 = ROTL32(k1,15); k1 *= c2] *)
Definition mix_k (k : Z) : Z := mul32 (rotl32 (mul32 k c1) 15) c2.

(** MurmurHash3.cpp:121-132, the loop over the blocks, and 137-147, the tail.  Blocks are
    read as little-endian uint32_t. *)
Fixpoint murmur_body (h : Z) (data : list Z) : Z :=
  match data with
  | b0 :: b1 :: b2 :: b3 :: rest =>
      let k := b0 + 2 ^ 8 * b1 + 2 ^ 16 * b2 + 2 ^ 24 * b3 in
      let h := rotl32 (Z.lxor h (mix_k k)) 13 in
      murmur_body (w32 (h * 5 + 0xe6546b64)) rest
  | [b0; b1; b2] => Z.lxor h (mix_k (Z.lxor (Z.lxor (Z.shiftl b2 16) (Z.shiftl b1 8)) b0))
  | [b0; b1] => Z.lxor h (mix_k (Z.lxor (Z.shiftl b1 8) b0))
  | [b0] => Z.lxor h (mix_k b0)
  | [] => h
  end.

(** MurmurHash3.cpp:105-157 [MurmurHash3_x86_32] *)
Definition murmur3_32 (data : list Z) (seed : Z) : Z :=
  fmix32 (Z.lxor (murmur_body seed data) (w32 (Z.of_nat (length data)))).

(** [str.encode('utf-8')] of one code point; surrogates cannot be encoded. *)
Definition utf8_char (c : Z) : res (list Z) :=
  if c <? 0x80 then Ok [c]
  else if c <? 0x800 then Ok [0xC0 + c / 64; 0x80 + c mod 64]
  else if (0xD800 <=? c) && (c <=? 0xDFFF) then Err ValueErr
  else if c <? 0x10000 then
    Ok [0xE0 + c / 4096; 0x80 + (c / 64) mod 64; 0x80 + c mod 64]
  else Ok [0xF0 + c / 262144; 0x80 + (c / 4096) mod 64; 0x80 + (c / 64) mod 64;
           0x80 + c mod 64].

Definition utf8 (s : str) : res (list Z) :=
  l <- mapM utf8_char s ;; Ok (concat l).

(** consistent_hash.pyx:13-34.  [consistent_hash_in_c] is [cdef unsigned int] without
    [except]: the UnicodeEncodeError (a ValueError) of [encode] is swallowed and the call returns 0, as is
    the ZeroDivisionError of [out % 0].  The argument [mod_int] is converted to
    [unsigned int] by the caller, which does raise. *)
Definition consistent_hash (s : str) (mod_int : Z) : res Z :=
  _ <- to_u32 mod_int ;;
  match utf8 s with
  | Err _ => Ok 0
  | Ok b => if mod_int =? 0 then Ok 0 else Ok (murmur3_32 b 0 mod mod_int)
  end.
