(** MurmurHash3, UTF-8 and the hashing operator. *)

From Verif Require Import Py PyFacts Murmur SpecHash Edit Labels SpecEdit SpecLabels SpecSeg
  SpecRuns SpecWords SpecOps EditProofs EditApiProofs SegProofs Regex Trie Ops OpProofs ListOpProofs.
Local Open Scope Z_scope.

(** ** Bits *)

Lemma lxor_bound n a b : 0 <= n -> 0 <= a < 2 ^ n -> 0 <= b < 2 ^ n -> 0 <= Z.lxor a b < 2 ^ n.
Proof.
  intros HN HA HB. split; [apply Z.lxor_nonneg; lia|].
  assert (E : Z.lxor a b = (Z.lxor a b) mod 2 ^ n).
  { apply Z.bits_inj'. intros k HK.
    destruct (Z.ltb_spec k n) as [L|L].
    - rewrite Z.mod_pow2_bits_low by lia. reflexivity.
    - rewrite Z.mod_pow2_bits_high by lia. rewrite Z.lxor_spec.
      rewrite <- (Z.mod_small a (2 ^ n)) by lia. rewrite <- (Z.mod_small b (2 ^ n)) by lia.
      rewrite !Z.mod_pow2_bits_high by lia. reflexivity. }
  rewrite E. apply Z.mod_pos_bound. lia.
Qed.

Lemma land_disjoint r q t : 0 <= r -> 0 <= t < 2 ^ r -> Z.land (q * 2 ^ r) t = 0.
Proof.
  intros HR HT. apply Z.bits_inj'. intros k HK. rewrite Z.land_spec, Z.bits_0.
  destruct (Z.ltb_spec k r) as [L|L].
  - rewrite Z.mul_pow2_bits_low by lia. reflexivity.
  - rewrite <- (Z.mod_small t (2 ^ r)) by lia. rewrite Z.mod_pow2_bits_high by lia. apply andb_false_r.
Qed.

Lemma rotl_rotate x r : 0 <= r <= 32 -> 0 <= x < M -> rotl32 x r = rotate x r.
Proof.
  intros HR HX. unfold rotl32, rotate, w32. change M with (2 ^ 32) in *.
  rewrite Z.shiftl_mul_pow2, Z.shiftr_div_pow2 by lia.
  assert (E : (x * 2 ^ r) mod 2 ^ 32 = (x mod 2 ^ (32 - r)) * 2 ^ r).
  { replace (2 ^ 32) with (2 ^ (32 - r) * 2 ^ r) by (rewrite <- Z.pow_add_r by lia; f_equal; lia).
    apply Z.mul_mod_distr_r; apply Z.pow_nonzero; lia. }
  rewrite E.
  assert (D : Z.land (x mod 2 ^ (32 - r) * 2 ^ r) (x / 2 ^ (32 - r)) = 0).
  { apply land_disjoint; [lia|]. split.
    - apply Z.div_pos; [lia|]. apply Z.pow_pos_nonneg; lia.
    - apply Z.div_lt_upper_bound; [apply Z.pow_pos_nonneg; lia|].
      rewrite <- Z.pow_add_r by lia. replace (32 - r + r) with 32 by lia. lia. }
  rewrite <- Z.lxor_lor by exact D. now rewrite Z.add_nocarry_lxor.
Qed.

Lemma rotate_bound x r : 0 <= r <= 32 -> 0 <= x < M -> 0 <= rotate x r < M.
Proof.
  intros HR HX. unfold rotate. change M with (2 ^ 32) in *.
  assert (E : (x * 2 ^ r) mod 2 ^ 32 = (x mod 2 ^ (32 - r)) * 2 ^ r).
  { replace (2 ^ 32) with (2 ^ (32 - r) * 2 ^ r) by (rewrite <- Z.pow_add_r by lia; f_equal; lia).
    apply Z.mul_mod_distr_r; apply Z.pow_nonzero; lia. }
  rewrite E.
  assert (P1 : 0 < 2 ^ (32 - r)) by (apply Z.pow_pos_nonneg; lia).
  assert (P2 : 0 < 2 ^ r) by (apply Z.pow_pos_nonneg; lia).
  assert (EM : 2 ^ 32 = 2 ^ (32 - r) * 2 ^ r) by (rewrite <- Z.pow_add_r by lia; f_equal; lia).
  pose proof (Z.mod_pos_bound x (2 ^ (32 - r)) P1) as B1.
  assert (B2 : 0 <= x / 2 ^ (32 - r) < 2 ^ r).
  { split; [apply Z.div_pos; lia|]. apply Z.div_lt_upper_bound; lia. }
  split; [apply Z.add_nonneg_nonneg; [apply Z.mul_nonneg_nonneg; lia|lia]|].
  rewrite EM. nia.
Qed.

Lemma mod_M_bound x : 0 <= x mod M < M.
Proof. apply Z.mod_pos_bound. reflexivity. Qed.

Lemma mix_scramble k : mix_k k = scramble k.
Proof.
  unfold mix_k, scramble, mul32, w32, c1, c2. change (2 ^ 32) with M.
  rewrite rotl_rotate; [reflexivity|lia|apply mod_M_bound].
Qed.

Lemma scramble_bound k : 0 <= scramble k < M.
Proof. apply mod_M_bound. Qed.

Lemma fmix_avalanche h : fmix32 h = avalanche h.
Proof.
  unfold fmix32, avalanche, mul32, w32. change (2 ^ 32) with M.
  rewrite !Z.shiftr_div_pow2 by lia. reflexivity.
Qed.

Lemma avalanche_bound h : 0 <= avalanche h < M.
Proof.
  unfold avalanche. set (x := (Z.lxor h (h / 65536) * 2246822507) mod M).
  set (y := (Z.lxor x (x / 8192) * 3266489909) mod M).
  assert (B : 0 <= y < M) by apply mod_M_bound.
  apply (lxor_bound 32); [lia|exact B|]. change (2 ^ 32) with M. split.
  - apply Z.div_pos; lia.
  - apply Z.div_lt_upper_bound; [lia|]. unfold M in *. lia.
Qed.

Lemma xor_shift a b r : 0 <= r -> 0 <= a < 2 ^ r -> Z.lxor (Z.shiftl b r) a = a + 2 ^ r * b.
Proof.
  intros HR HA. rewrite Z.shiftl_mul_pow2 by lia.
  rewrite <- Z.add_nocarry_lxor by now apply land_disjoint. lia.
Qed.

Lemma list_ind4 {A} (P : list A -> Prop) :
  P [] -> (forall a, P [a]) -> (forall a b, P [a; b]) -> (forall a b c, P [a; b; c]) ->
  (forall a b c d l, P l -> P (a :: b :: c :: d :: l)) -> forall l, P l.
Proof.
  intros H0 H1 H2 H3 H4. fix IH 1. intros [|a [|b [|c [|d l]]]];
    [exact H0|apply H1|apply H2|apply H3|apply H4, IH].
Qed.

(** What the body does after [n] blocks. *)
Definition rest_mix (h : Z) (rest : list Z) : Z :=
  match rest with [] => h | _ => Z.lxor h (scramble (little_endian rest)) end.

Lemma absorb_shift a b c d (data : list Z) h i :
  absorb (a :: b :: c :: d :: data) h (S i) = absorb data h i.
Proof.
  unfold absorb, block. replace (4 * S i)%nat with (4 + 4 * i)%nat by lia. reflexivity.
Qed.

Lemma fold_absorb_shift a b c d (data : list Z) n : forall h s,
  fold_left (absorb (a :: b :: c :: d :: data)) (seq (S s) n) h = fold_left (absorb data) (seq s n) h.
Proof.
  induction n as [|n IH]; intros h s; [reflexivity|].
  cbn [seq fold_left]. rewrite absorb_shift. apply IH.
Qed.

Lemma body_murmur data : forall h,
  Forall byte data -> 0 <= h < M ->
  murmur_body h data =
  rest_mix (fold_left (absorb data) (seq 0 (length data / 4)) h) (skipn (4 * (length data / 4)) data).
Proof.
  induction data as [|a|a b|a b c|a b c d l IH] using list_ind4; intros h HB HH.
  - reflexivity.
  - change (length [a] / 4)%nat with 0%nat. cbn [murmur_body seq fold_left Nat.mul Nat.add skipn rest_mix].
    rewrite mix_scramble. do 2 f_equal. cbn [little_endian]. lia.
  - change (length [a; b] / 4)%nat with 0%nat. cbn [murmur_body seq fold_left Nat.mul Nat.add skipn rest_mix].
    rewrite mix_scramble. do 2 f_equal. inversion HB; subst.
    rewrite xor_shift by (unfold byte in *; lia). cbn [little_endian]. lia.
  - change (length [a; b; c] / 4)%nat with 0%nat. cbn [murmur_body seq fold_left Nat.mul Nat.add skipn rest_mix].
    rewrite mix_scramble. do 2 f_equal. inversion HB as [|? ? HA HB1]; subst. inversion HB1 as [|? ? HBb HB2]; subst.
    assert (E : Z.lxor (Z.shiftl c 16) (Z.shiftl b 8) = Z.shiftl (b + 256 * c) 8).
    { rewrite xor_shift; [|lia|rewrite Z.shiftl_mul_pow2 by lia; unfold byte in *; lia].
      rewrite !Z.shiftl_mul_pow2 by lia. lia. }
    rewrite E, xor_shift by (unfold byte in *; lia). cbn [little_endian]. lia.
  - replace (length (a :: b :: c :: d :: l) / 4)%nat with (S (length l / 4)).
    2:{ cbn [length]. replace (S (S (S (S (length l)))))%nat with (length l + 1 * 4)%nat by lia.
        rewrite Nat.div_add by lia. lia. }
    inversion HB as [|? ? Ha HB1]; subst. inversion HB1 as [|? ? Hb HB2]; subst.
    inversion HB2 as [|? ? Hc HB3]; subst. inversion HB3 as [|? ? Hd HB4]; subst.
    cbn [seq fold_left]. rewrite fold_absorb_shift.
    replace (4 * S (length l / 4))%nat with (4 + 4 * (length l / 4))%nat by lia.
    change (skipn (4 + 4 * (length l / 4)) (a :: b :: c :: d :: l)) with (skipn (4 * (length l / 4)) l).
    assert (EA : w32 (rotl32 (Z.lxor h (mix_k (a + 2 ^ 8 * b + 2 ^ 16 * c + 2 ^ 24 * d))) 13 * 5 + 3864292196)
                 = absorb (a :: b :: c :: d :: l) h 0).
    { unfold absorb, w32. change (2 ^ 32) with M. rewrite mix_scramble, rotl_rotate; [|lia|].
      - replace (block (a :: b :: c :: d :: l) 0) with (a + 2 ^ 8 * b + 2 ^ 16 * c + 2 ^ 24 * d);
          [reflexivity|].
        unfold block. cbn [Nat.mul Nat.add skipn firstn little_endian]. lia.
      - apply (lxor_bound 32); [lia|exact HH|apply scramble_bound]. }
    cbn [murmur_body]. rewrite EA. apply IH; [exact HB4|apply mod_M_bound].
Qed.

Lemma murmur_ok data seed :
  Forall byte data -> 0 <= seed < M -> Z.of_nat (length data) < M ->
  murmur3_32 data seed = murmur data seed.
Proof.
  intros HB HS HL. unfold murmur3_32, murmur, w32. rewrite fmix_avalanche, body_murmur by assumption.
  change (2 ^ 32) with M. rewrite (Z.mod_small (Z.of_nat (length data))) by lia. reflexivity.
Qed.

Lemma murmur_bound data seed : 0 <= murmur data seed < M.
Proof. apply avalanche_bound. Qed.

(** ** UTF-8 *)

Ltac zbool :=
  repeat match goal with
  | H : (_ && _) = true |- _ => apply andb_true_iff in H; destruct H
  | H : negb _ = true |- _ => apply negb_true_iff in H
  | H : (_ <=? _) = true |- _ => apply Z.leb_le in H
  | H : (_ <? _) = true |- _ => apply Z.ltb_lt in H
  end.

Lemma utf8_char_ok c :
  code_point c -> surrogate c = false ->
  exists bs, utf8_char c = Ok bs /\ Forall byte bs /\ (length bs <= 4)%nat /\
    forall rest, decode (bs ++ rest) = option_map (cons c) (decode rest).
Proof.
  intros HC HS. unfold code_point in HC. unfold utf8_char.
  change 0xD800 with 55296. change 0xDFFF with 57343. fold (surrogate c).
  change 0x80 with 128. change 0x800 with 2048. change 0xC0 with 192. change 0xE0 with 224.
  change 0x10000 with 65536. change 0xF0 with 240.
  pose proof (Z.mod_pos_bound c 64 ltac:(lia)) as M1.
  pose proof (Z.div_mod c 64 ltac:(lia)) as D1.
  pose proof (Z.mod_pos_bound (c / 64) 64 ltac:(lia)) as M2.
  pose proof (Z.div_mod (c / 64) 64 ltac:(lia)) as D2.
  pose proof (Z.mod_pos_bound (c / 4096) 64 ltac:(lia)) as M3.
  pose proof (Z.div_mod (c / 4096) 64 ltac:(lia)) as D3.
  assert (E2 : c / 64 / 64 = c / 4096) by (rewrite Z.div_div by lia; reflexivity).
  assert (E3 : c / 4096 / 64 = c / 262144) by (rewrite Z.div_div by lia; reflexivity).
  rewrite E2 in D2. rewrite E3 in D3.
  destruct (Z.ltb_spec c 128) as [L|L].
  { eexists. split; [reflexivity|]. split; [constructor; [unfold byte; lia|constructor]|].
    split; [cbn; lia|]. intros rest.
    assert (B : (0 <=? c) && (c <? 128) = true) by lia.
    assert (N1 : (192 <=? c) = false) by lia. assert (N2 : (224 <=? c) = false) by lia.
    assert (N3 : (240 <=? c) = false) by lia.
    destruct rest as [|b [|b2 [|b3 rest]]]; cbn [app decode]; rewrite ?B, ?N1, ?N2, ?N3; reflexivity. }
  destruct (Z.ltb_spec c 2048) as [L2|L2].
  { eexists. split; [reflexivity|].
    split; [repeat constructor; unfold byte; lia|]. split; [cbn; lia|].
    intros rest. cbn [app decode].
    assert (B : (192 <=? 192 + c / 64) && (192 + c / 64 <? 224) && cont (128 + c mod 64) = true)
      by (unfold cont; lia).
    rewrite B.
    replace ((192 + c / 64 - 192) * 64 + (128 + c mod 64 - 128)) with c by lia.
    assert (B2 : (128 <=? c) = true) by lia. now rewrite B2. }
  rewrite HS.
  destruct (Z.ltb_spec c 65536) as [L3|L3].
  { eexists. split; [reflexivity|].
    split; [repeat constructor; unfold byte; lia|]. split; [cbn; lia|].
    intros rest. cbn [app decode].
    assert (N : (224 + c / 4096 <? 224) = false) by lia. rewrite N, andb_false_r. cbn [andb].
    assert (B : (224 <=? 224 + c / 4096) && (224 + c / 4096 <? 240) && cont (128 + (c / 64) mod 64)
                && cont (128 + c mod 64) = true) by (unfold cont; lia).
    rewrite B.
    replace (((224 + c / 4096 - 224) * 64 + (128 + (c / 64) mod 64 - 128)) * 64
             + (128 + c mod 64 - 128)) with c by lia.
    rewrite HS. assert (B2 : (2048 <=? c) = true) by lia. now rewrite B2. }
  eexists. split; [reflexivity|].
  split; [repeat constructor; unfold byte; lia|]. split; [cbn; lia|].
  intros rest. cbn [app decode].
  assert (N : (240 + c / 262144 <? 224) = false) by lia. rewrite N, andb_false_r. cbn [andb].
  assert (N2 : (240 + c / 262144 <? 240) = false) by lia. rewrite N2, andb_false_r. cbn [andb].
  assert (B : (240 <=? 240 + c / 262144) && (240 + c / 262144 <? 248) && cont (128 + (c / 4096) mod 64)
              && cont (128 + (c / 64) mod 64) && cont (128 + c mod 64) = true) by (unfold cont; lia).
  rewrite B.
  replace ((((240 + c / 262144 - 240) * 64 + (128 + (c / 4096) mod 64 - 128)) * 64
            + (128 + (c / 64) mod 64 - 128)) * 64 + (128 + c mod 64 - 128)) with c by lia.
  assert (B2 : (65536 <=? c) && (c <? 1114112) = true) by lia. now rewrite B2.
Qed.

Lemma utf8_char_err c : surrogate c = true -> utf8_char c = Err ValueErr.
Proof.
  intros HS. unfold utf8_char. change 0xD800 with 55296. change 0xDFFF with 57343.
  fold (surrogate c). rewrite HS. unfold surrogate in HS. zbool.
  destruct (Z.ltb_spec c 0x80); [lia|]. destruct (Z.ltb_spec c 0x800); [lia|]. reflexivity.
Qed.

Lemma utf8_ok s :
  Forall code_point s -> existsb surrogate s = false ->
  exists bs, utf8 s = Ok bs /\ Forall byte bs /\ decode bs = Some s /\ (length bs <= 4 * length s)%nat.
Proof.
  unfold utf8. induction s as [|c s IH]; intros HC HS.
  - exists []. repeat split; constructor.
  - inversion HC as [|? ? H1 H2]; subst. cbn [existsb] in HS. apply orb_false_iff in HS.
    destruct HS as (S1 & S2). destruct (IH H2 S2) as (bs & E1 & E2 & E3 & E4).
    destruct (utf8_char_ok c H1 S1) as (b & F1 & F2 & F4 & F3).
    cbn [mapM]. rewrite F1. cbn [bind].
    destruct (mapM utf8_char s) as [l|e]; [|discriminate]. cbn [bind] in *. injection E1 as <-.
    exists (b ++ concat l). split; [reflexivity|]. split; [now apply Forall_app|].
    split; [now rewrite F3, E3|]. rewrite app_length. cbn [length]. lia.
Qed.

Lemma utf8_err s :
  existsb surrogate s = true -> exists e, utf8 s = Err e.
Proof.
  unfold utf8. induction s as [|c s IH]; intros HS; [discriminate|].
  cbn [existsb mapM] in *. destruct (surrogate c) eqn:EC.
  - rewrite utf8_char_err by exact EC. eexists; reflexivity.
  - cbn [orb] in HS. destruct (IH HS) as (e & E).
    destruct (utf8_char c) as [b|e']; [|eexists; reflexivity]. cbn [bind].
    destruct (mapM utf8_char s) as [l|e']; [discriminate|]. eexists; reflexivity.
Qed.

(** One character is decoded from one byte string only. *)
Lemma utf8_cons c s b bs : utf8_char c = Ok b -> utf8 s = Ok bs -> utf8 (c :: s) = Ok (b ++ bs).
Proof.
  unfold utf8. intros H1 H2. cbn [mapM]. rewrite H1. cbn [bind].
  destruct (mapM utf8_char s); [|discriminate]. cbn [bind] in *. injection H2 as <-. reflexivity.
Qed.

Lemma decode_utf8_len n : forall bs t, (length bs <= n)%nat -> decode bs = Some t -> utf8 t = Ok bs.
Proof.
  induction n as [|n IH]; intros bs t HL HD.
  { destruct bs; [|cbn in HL; lia]. injection HD as <-. reflexivity. }
  destruct bs as [|a bs]; [injection HD as <-; reflexivity|]. cbn [length] in HL.
  assert (SG : forall bs', bs' = bs ->
     (if (0 <=? a) && (a <? 128) then option_map (cons a) (decode bs') else None) = Some t ->
     utf8 t = Ok (a :: bs)).
  { intros bs' -> H. destruct ((0 <=? a) && (a <? 128)) eqn:B; [|discriminate]. zbool.
    destruct (decode bs) as [t'|] eqn:ED; [|discriminate]. injection H as <-.
    apply (utf8_cons a t' [a] bs); [|apply IH; [lia|exact ED]].
    unfold utf8_char. destruct (Z.ltb_spec a 0x80); [reflexivity|lia]. }
  cbn [decode] in HD.
  destruct bs as [|b bs]; [now apply (SG []) in HD|].
  destruct ((192 <=? a) && (a <? 224) && cont b) eqn:B2.
  { set (x := (a - 192) * 64 + (b - 128)) in *. unfold cont in B2. zbool.
    destruct (Z.leb_spec 128 x) as [LX|LX]; [|discriminate].
    destruct (decode bs) as [t'|] eqn:ED; [|discriminate]. injection HD as <-.
    apply (utf8_cons x t' [a; b] bs); [|apply IH; [cbn in HL; lia|exact ED]].
    unfold utf8_char. destruct (Z.ltb_spec x 0x80); [lia|]. destruct (Z.ltb_spec x 0x800); [|lia].
    assert (E1 : x / 64 = a - 192) by (symmetry; apply Z.div_unique with (r := b - 128); lia).
    assert (E2 : x mod 64 = b - 128) by (symmetry; apply Z.mod_unique with (q := a - 192); lia).
    rewrite E1, E2. do 2 f_equal; [lia|f_equal; lia]. }
  destruct bs as [|c bs]; [now apply (SG [b]) in HD|].
  destruct ((224 <=? a) && (a <? 240) && cont b && cont c) eqn:B3.
  { set (x := ((a - 224) * 64 + (b - 128)) * 64 + (c - 128)) in *. unfold cont in B3. zbool.
    destruct ((2048 <=? x) && negb (surrogate x)) eqn:BX; [|discriminate]. zbool.
    destruct (decode bs) as [t'|] eqn:ED; [|discriminate]. injection HD as <-.
    apply (utf8_cons x t' [a; b; c] bs); [|apply IH; [cbn in HL; lia|exact ED]].
    unfold utf8_char. destruct (Z.ltb_spec x 0x80); [lia|]. destruct (Z.ltb_spec x 0x800); [lia|].
    change 0xD800 with 55296. change 0xDFFF with 57343. fold (surrogate x).
    match goal with H : surrogate x = false |- _ => rewrite H end.
    destruct (Z.ltb_spec x 0x10000); [|lia].
    assert (E1 : x / 64 = (a - 224) * 64 + (b - 128)) by (symmetry; apply Z.div_unique with (r := c - 128); lia).
    assert (E2 : x mod 64 = c - 128) by (symmetry; apply Z.mod_unique with (q := (a - 224) * 64 + (b - 128)); lia).
    assert (E3 : x / 4096 = a - 224).
    { symmetry. apply Z.div_unique with (r := (b - 128) * 64 + (c - 128)); lia. }
    assert (E4 : ((a - 224) * 64 + (b - 128)) mod 64 = b - 128)
      by (symmetry; apply Z.mod_unique with (q := a - 224); lia).
    rewrite E3, E1, E2, E4. do 2 f_equal; [lia|f_equal; [lia|f_equal; lia]]. }
  destruct bs as [|d bs]; [now apply (SG [b; c]) in HD|].
  destruct ((240 <=? a) && (a <? 248) && cont b && cont c && cont d) eqn:B4.
  { set (x := (((a - 240) * 64 + (b - 128)) * 64 + (c - 128)) * 64 + (d - 128)) in *.
    unfold cont in B4. zbool.
    destruct ((65536 <=? x) && (x <? 1114112)) eqn:BX; [|discriminate]. zbool.
    destruct (decode bs) as [t'|] eqn:ED; [|discriminate]. injection HD as <-.
    apply (utf8_cons x t' [a; b; c; d] bs); [|apply IH; [cbn in HL; lia|exact ED]].
    unfold utf8_char. destruct (Z.ltb_spec x 0x80); [lia|]. destruct (Z.ltb_spec x 0x800); [lia|].
    assert (NS : (0xD800 <=? x) && (x <=? 0xDFFF) = false) by lia. rewrite NS.
    destruct (Z.ltb_spec x 0x10000); [lia|].
    set (y := ((a - 240) * 64 + (b - 128)) * 64 + (c - 128)) in *.
    assert (E1 : x / 64 = y) by (symmetry; apply Z.div_unique with (r := d - 128); lia).
    assert (E2 : x mod 64 = d - 128) by (symmetry; apply Z.mod_unique with (q := y); lia).
    assert (E3 : x / 4096 = (a - 240) * 64 + (b - 128)).
    { symmetry. apply Z.div_unique with (r := (c - 128) * 64 + (d - 128)); lia. }
    assert (E4 : x / 262144 = a - 240).
    { symmetry. apply Z.div_unique with (r := ((b - 128) * 64 + (c - 128)) * 64 + (d - 128)); lia. }
    assert (E5 : y mod 64 = c - 128)
      by (symmetry; apply Z.mod_unique with (q := (a - 240) * 64 + (b - 128)); lia).
    assert (E6 : ((a - 240) * 64 + (b - 128)) mod 64 = b - 128)
      by (symmetry; apply Z.mod_unique with (q := a - 240); lia).
    rewrite E4, E3, E1, E2, E5, E6. do 2 f_equal; [lia|f_equal; [lia|f_equal; [lia|f_equal; lia]]]. }
  now apply (SG (b :: c :: d :: bs)) in HD.
Qed.

Lemma decode_utf8 bs t : decode bs = Some t -> utf8 t = Ok bs.
Proof. apply (decode_utf8_len (length bs)). lia. Qed.

(** ** consistent_hash *)

Lemma consistent_hash_spec s n :
  Forall code_point s -> (Z.of_nat (length s) < 2 ^ 29) -> 0 <= n < M ->
  (existsb surrogate s = false ->
   exists bs, decode bs = Some s /\ Forall byte bs /\
      consistent_hash s n = Ok (if n =? 0 then 0 else murmur bs 0 mod n)) /\
  (existsb surrogate s = true -> consistent_hash s n = Ok 0).
Proof.
  intros HC HL HN. unfold consistent_hash. rewrite to_u32_ok by (change (2 ^ 32) with M; lia). cbn [bind].
  split; intros HS.
  - destruct (utf8_ok s HC HS) as (bs & E1 & E2 & E3 & E4). exists bs. split; [exact E3|].
    split; [exact E2|]. rewrite E1. rewrite murmur_ok; [|exact E2|unfold M; lia|unfold M; lia].
    destruct (n =? 0); reflexivity.
  - destruct (utf8_err s HS) as (e & E). now rewrite E.
Qed.

Lemma consistent_hash_range s n h : consistent_hash s n = Ok h -> 0 < n -> 0 <= h < n.
Proof.
  unfold consistent_hash. intros H HN. destruct (to_u32 n); [|discriminate]. cbn [bind] in H.
  destruct (utf8 s); [|injection H as <-; lia].
  destruct (n =? 0); injection H as <-; [lia|]. apply Z.mod_pos_bound. exact HN.
Qed.

(** ** Token2IndexwithHash *)

Lemma hash_maps E d ts :
  ord_ok (ord_e E) -> d <> [] -> Z.of_nat (length d) < M ->
  (forall t, In t ts -> Forall code_point t /\ Z.of_nat (length t) < 2 ^ 29) ->
  exists out, Forall2 (hashed_index d) ts out /\
    maps E (Token2IndexwithHash d) any_labels (SLst (map ETok ts)) (SLst (map EIdx out)) keep keep.
Proof.
  intros HO HD HL HT.
  assert (HN : (Z.of_nat (length d) =? 0) = false) by (destruct d; [congruence|reflexivity]).
  assert (HF : forall t, In t ts -> exists i, hash_newv d (ETok t) = Ok (Some [EIdx i]) /\ hashed_index d t i).
  { intros t HI. destruct (HT t HI) as (T1 & T2). cbn [hash_newv]. unfold hashed_index.
    destruct (dict_get d t) as [i|] eqn:EG.
    - exists i. split; [reflexivity|]. left. now apply dict_get_In.
    - rewrite dict_get_None in EG.
      destruct (consistent_hash_spec t (Z.of_nat (length d)) T1 T2 ltac:(lia)) as (H1 & H2).
      destruct (existsb surrogate t) eqn:ES.
      + exists 0. rewrite (H2 eq_refl). split; [reflexivity|]. right. split; [exact EG|]. right. auto.
      + destruct (H1 eq_refl) as (bs & E1 & E2 & E3). rewrite HN in E3.
        exists (murmur bs 0 mod Z.of_nat (length d)). rewrite E3. split; [reflexivity|].
        right. split; [exact EG|]. left. eauto. }
  set (f := fun x => match hash_newv d x with Ok (Some [y]) => y | _ => x end).
  assert (HM : maps E (Token2IndexwithHash d) any_labels (SLst (map ETok ts)) (SLst (map f (map ETok ts))) keep keep).
  { apply (null_maps E _ (hash_newv d)); auto. intros x HI. apply in_map_iff in HI.
    destruct HI as (t & <- & HI). destruct (HF t HI) as (i & H1 & _). exists true.
    split; [|discriminate]. unfold f. now rewrite H1. }
  clear HT. induction ts as [|t ts IH] in HF, HM |- *.
  - exists []. split; [constructor|exact HM].
  - assert (EX : exists out, Forall2 (hashed_index d) (t :: ts) out /\ map f (map ETok (t :: ts)) = map EIdx out).
    { clear IH HM. set (us := t :: ts) in *. clearbody us. induction us as [|u us IH].
      - exists []. split; [constructor|reflexivity].
      - destruct IH as (out & O1 & O2); [intros; apply HF; now right|].
        destruct (HF u (or_introl eq_refl)) as (i & H1 & H2). exists (i :: out).
        split; [now constructor|]. cbn [map]. rewrite O2. f_equal. unfold f. now rewrite H1. }
    destruct EX as (out & O1 & O2). exists out. split; [exact O1|]. rewrite <- O2. exact HM.
Qed.

