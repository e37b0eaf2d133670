(** [parse] reads written expressions back. *)

From Coq Require Import String Ascii.
From Verif Require Import Py SpecOps PyRe SpecRe ReProofs ReParse ReShape.
From Coq Require Import List Lia PeanoNat Bool ZArith.

(** ** Numbers *)

Lemma hex_num_S n : forall acc s, hex_num (S n) acc s =
  match hex_num n acc s with
  | Some (z, d :: t) => match hex_digit d with Some v => Some (16 * z + v, t)%Z | None => None end
  | _ => None
  end.
Proof.
  induction n as [|n IH]; intros acc s.
  - destruct s as [|c t]; [reflexivity|]. cbn [hex_num]. now destruct (hex_digit c).
  - destruct s as [|c t]; [reflexivity|].
    change (hex_num (S (S n)) acc (c :: t)) with
      (match hex_digit c with Some d => hex_num (S n) (16 * acc + d)%Z t | None => None end).
    change (hex_num (S n) acc (c :: t)) with
      (match hex_digit c with Some d => hex_num n (16 * acc + d)%Z t | None => None end).
    destruct (hex_digit c); [apply IH|reflexivity].
Qed.

Lemma hex_digit_hex1 d : (0 <= d < 16)%Z -> hex_digit (hex1 d) = Some d.
Proof.
  intros H. unfold hex1, hex_digit, PyRe.between. destruct (Z.ltb_spec d 10).
  - replace ((48 <=? 48 + d) && (48 + d <=? 57))%Z with true; [f_equal; lia|].
    symmetry. apply andb_true_iff. rewrite !Z.leb_le. lia.
  - replace ((48 <=? 55 + d) && (55 + d <=? 57))%Z with false.
    2:{ symmetry. apply andb_false_iff. rewrite !Z.leb_gt. lia. }
    replace ((65 <=? 55 + d) && (55 + d <=? 70))%Z with true; [f_equal; lia|].
    symmetry. apply andb_true_iff. rewrite !Z.leb_le. lia.
Qed.

Lemma hex_num_hex n : forall c acc s, (0 <= c < 16 ^ Z.of_nat n)%Z ->
  hex_num n acc (hex n c ++ s) = Some (acc * 16 ^ Z.of_nat n + c, s)%Z.
Proof.
  induction n as [|n IH]; intros c acc s H.
  - cbn in *. do 2 f_equal. lia.
  - rewrite hex_num_S. cbn [hex]. rewrite <- app_assoc. cbn [app].
    rewrite Nat2Z.inj_succ, Z.pow_succ_r in * by lia.
    rewrite IH by (split; [apply Z.div_pos; lia|apply Z.div_lt_upper_bound; lia]).
    rewrite hex_digit_hex1 by (apply Z.mod_pos_bound; lia). do 2 f_equal.
    pose proof (Z.div_mod c 16 ltac:(lia)). lia.
Qed.

Lemma hex_escape_hex c s : (0 <= c <= 0x10FFFF)%Z -> hex_escape 8 (hex 8 c ++ s) = Read (c, s).
Proof.
  intros H. unfold hex_escape. rewrite hex_num_hex by (change (16 ^ Z.of_nat 8)%Z with 4294967296%Z; lia).
  rewrite Z.mul_0_l, Z.add_0_l. destruct (Z.leb_spec c 0x10FFFF); [reflexivity|lia].
Qed.

Lemma class_char_written c s : (0 <= c <= 0x10FFFF)%Z ->
  class_char 92 (txt "U" ++ hex 8 c ++ s) = Read (CRange c c, s).
Proof.
  intros H. change (class_char 92 (txt "U" ++ hex 8 c ++ s)) with
    (rbind (hex_escape 8 (hex 8 c ++ s)) (fun '(z, t) => Read (CRange z z, t))).
  now rewrite hex_escape_hex.
Qed.

Lemma digit_digit z : ascii_digit (48 + z mod 10)%Z = true.
Proof.
  unfold ascii_digit, PyRe.between. pose proof (Z.mod_pos_bound z 10 ltac:(lia)).
  apply andb_true_iff. rewrite !Z.leb_le. lia.
Qed.

Lemma dec_digits_written n s : up_to_1000 n -> (forall c t, s = c :: t -> ascii_digit c = false) ->
  dec_digits None (written_count n ++ s) = (Some (Z.of_nat n), s).
Proof.
  unfold up_to_1000, written_count. intros H HS. cbn [map app dec_digits]. rewrite !digit_digit.
  assert (END : forall a, dec_digits (Some a) s = (Some a, s)).
  { intros a. destruct s as [|c t]; [reflexivity|]. cbn. now rewrite (HS c t). }
  rewrite END. f_equal. f_equal. set (m := Z.of_nat n) in *. assert (0 <= m)%Z by lia.
  rewrite Z.div_1_r. clearbody m. Z.to_euclidean_division_equations. lia.
Qed.

Lemma big_ok n : up_to_1000 n -> big (Some (Z.of_nat n)) = false.
Proof. unfold up_to_1000, big, MAXCOUNT. intros H. apply Z.ltb_ge. lia. Qed.

Lemma quantifier_written lo hi s : up_to_1000 lo -> (forall h, hi = Some h -> lo <= h /\ up_to_1000 h) ->
  quantifier 123 (written_count lo ++ txt "," ++ match hi with Some h => written_count h | None => [] end ++ txt "}" ++ s) =
  Read (Some (lo, hi, s)).
Proof.
  intros HL HH. unfold quantifier. cbn [Z.eqb Pos.eqb].
  set (t := txt "," ++ _).
  assert (W : written_count lo ++ t =
     (48 + (Z.of_nat lo / 1000) mod 10)%Z :: List.tl (written_count lo) ++ t) by reflexivity.
  rewrite W. cbv iota.
  replace (48 + (Z.of_nat lo / 1000) mod 10 =? 125)%Z with false.
  2:{ symmetry. apply Z.eqb_neq. pose proof (Z.mod_pos_bound (Z.of_nat lo / 1000) 10 ltac:(lia)). lia. }
  rewrite <- W.
  rewrite dec_digits_written; [|exact HL|intros c u; unfold t; cbn; intros [= <- _]; reflexivity].
  unfold t. cbn [txt app list_ascii_of_string List.map].
  change (Z.of_nat (nat_of_ascii ",")) with 44%Z. change (Z.of_nat (nat_of_ascii "}")) with 125%Z.
  cbn [Z.eqb Pos.eqb].
  destruct hi as [h|].
  - destruct (HH h eq_refl) as (LE & HB).
    rewrite dec_digits_written; [|exact HB|intros c u [= <- _]; reflexivity].
    cbn [Z.eqb Pos.eqb]. rewrite !big_ok by assumption. cbn [orb]. rewrite !Nat2Z.id.
    destruct (Nat.ltb_spec h lo); [lia|reflexivity].
  - cbn [app dec_digits]. change (ascii_digit 125) with false. cbv iota. cbn [Z.eqb Pos.eqb].
    rewrite big_ok by assumption. cbn [orb big]. now rewrite Nat2Z.id.
Qed.

(** ** Sets *)

Lemma parse_class_written l : forall n seen v, Forall writable_item l -> seen <> [] \/ l <> [] ->
  length (flat_map written_item l ++ txt "]" ++ v) < n ->
  parse_class n seen (flat_map written_item l ++ txt "]" ++ v) = Read (rev seen ++ l, v).
Proof.
  induction l as [|x l IH]; intros n seen v HW HN HL; (destruct n as [|n]; [cbn in HL; lia|]).
  - cbn. destruct seen as [|y seen]; [tauto|]. now rewrite app_nil_r.
  - inversion HW as [|? ? WX WL]; subst. cbn [flat_map] in *. rewrite <- app_assoc in *.
    set (w := flat_map written_item l ++ txt "]" ++ v) in *.
    assert (HEAD : forall t, w <> 45%Z :: t).
    { intros t. unfold w. destruct l as [|y l]; [discriminate|]. destruct y; cbn; unfold written_char, written_kind; discriminate. }
    assert (NXT : forall n seen, length w < n -> parse_class n (x :: seen) w = Read (rev seen ++ x :: l, v)).
    { intros m sn HM. etransitivity; [apply IH; [assumption|left; discriminate|exact HM]|]. cbn [rev]. now rewrite <- app_assoc. }
    assert (KIND : forall letter, class_char 92 (txt letter ++ w) = Read (x, w) -> String.length letter = 1%nat ->
              parse_class (S n) seen (written_kind letter ++ w) = parse_class n (x :: seen) w).
    { intros letter HC _. cbn [parse_class written_kind app]. change (92 =? 93)%Z with false. cbn [andb].
      rewrite HC. cbn [rbind]. destruct w as [|m w']; [reflexivity|].
      destruct (Z.eqb_spec m 45) as [->|_]; [now destruct (HEAD w')|reflexivity]. }
    assert (LW : length w < n) by (rewrite app_length in HL; destruct x; cbn in HL; lia).
    destruct x as [lo hi|[]|[]|[]]; cbn [written_item];
      try (rewrite KIND; [apply NXT; exact LW|reflexivity|reflexivity]).
    cbn in WX. destruct WX as (W1 & W2). unfold written_char at 1. cbn [app parse_class].
    change (92 =? 93)%Z with false. cbn [andb].
    repeat rewrite <- app_assoc. rewrite class_char_written by lia. cbn [rbind].
    cbn [app txt list_ascii_of_string List.map]. change (Z.of_nat (nat_of_ascii "-")) with 45%Z.
    change (45 =? 45)%Z with true. cbv iota. unfold written_char. cbn [app].
    change (92 =? 93)%Z with false. cbv iota.
    repeat rewrite <- app_assoc. rewrite class_char_written by lia. cbn [rbind].
    destruct (Z.ltb_spec hi lo); [lia|]. apply NXT. exact LW.
Qed.

(** ** Expressions *)

Ltac lens H := repeat first [rewrite app_length in H | progress cbn [length txt list_ascii_of_string List.map] in H].
Ltac lens_goal := repeat first [rewrite app_length | progress cbn [length txt list_ascii_of_string List.map]].

Definition closed (v : str) : Prop := v = [] \/ exists w, v = 41%Z :: w.
Definition stops (v : str) : Prop := closed v \/ exists w, v = 124%Z :: w.

Lemma seq_stops n acc v : stops v -> parse_seq (S n) acc v = Read (xseq (rev (map snd acc)), v).
Proof. intros [[->|(w & ->)]|(w & ->)]; reflexivity. Qed.
Lemma sub_of_seq n s a v : closed v -> parse_seq n [] s = Read (a, v) -> parse_sub (S n) s = Read (a, v).
Proof. intros C H. cbn [parse_sub]. rewrite H. cbn [rbind]. now destruct C as [->|(w & ->)]. Qed.
Lemma seq_brace n acc t lo hi u : quantifier 123 t = Read (Some (lo, hi, u)) ->
  parse_seq (S n) acc (123%Z :: t) = rbind (repeat_last acc lo hi u) (fun '(acc, v) => parse_seq n acc v).
Proof.
  intros H. change (parse_seq (S n) acc (123%Z :: t)) with
    (rbind (quantifier 123 t) (fun q =>
              match q with
              | None => parse_seq n ((KOther, xchar 123) :: acc) t
              | Some (lo, hi, u) => rbind (repeat_last acc lo hi u) (fun '(acc, v) => parse_seq n acc v)
              end)). now rewrite H.
Qed.

Definition reads_back (r : rx) : Prop := forall n v, closed v -> 2 * length (written r ++ v) + 2 <= n ->
  parse_sub n (written r ++ v) = Read (r, v).

(** a group of any kind *)
Lemma group_reads a : reads_back a -> forall (o : str) f n acc v,
  (forall t, group_open (o ++ t) = Read (f, t)) ->
  2 * length (o ++ written a ++ txt ")" ++ v) + 2 <= n ->
  parse_seq (S n) acc (40%Z :: o ++ written a ++ txt ")" ++ v) = parse_seq n ((KOther, f a) :: acc) v.
Proof.
  intros HA o f n acc v HO HN. cbn [parse_seq]. change ((40 =? 124)%Z || (40 =? 41)%Z) with false.
  cbn [Z.eqb Pos.eqb orb]. rewrite HO. cbn [rbind].
  rewrite HA.
  - cbn [rbind app txt list_ascii_of_string List.map]. reflexivity.
  - right. eexists. reflexivity.
  - rewrite app_length in HN. lia.
Qed.

(** one item *)
Lemma one_item n s v x : closed v -> 1 <= n ->
  (forall m, m = n -> parse_seq (S m) [] s = parse_seq m [x] v) ->
  parse_sub (S (S n)) s = Read (snd x, v).
Proof.
  intros C HN H. destruct n as [|n]; [lia|]. cbn [parse_sub]. rewrite (H (S n) eq_refl), seq_stops by (now left).
  cbn [rbind map rev app xseq]. now destruct C as [->|(w & ->)].
Qed.

Lemma one_kind letter x v n : closed v -> 1 <= n ->
  (forall t, escape (Z.of_nat (nat_of_ascii letter)) t = Read (x, t)) ->
  parse_sub (S (S n)) (written_kind (String letter "") ++ v) = Read (snd x, v).
Proof.
  intros C HN H. apply one_item; auto. intros m _. cbn [written_kind txt list_ascii_of_string List.map app parse_seq].
  change ((92 =? 124)%Z || (92 =? 41)%Z) with false. change (92 =? 92)%Z with true. cbv iota. now rewrite H.
Qed.

Lemma written_reads r : writable r -> reads_back r.
Proof.
  induction r as [|neg l| |a IHa b IHb|a IHa b IHb|lo hi g a IHa|ahead pos a IHa| | | |neg]; cbn [writable]; intros HW n v C HN;
    (destruct n as [|[|n]]; [lia|lia|]).
  - cbn [written app]. cbn [parse_sub]. rewrite seq_stops by (now left). cbn. now destruct C as [->|(w & ->)].
  - cbn [written] in *. destruct HW as (NE & HF).
    rewrite !app_length in HN. cbn [txt list_ascii_of_string List.map length] in HN.
    apply (one_item n _ v (KOther, XSet neg l)); [exact C|lia|]. intros m ->.
    assert (L : length (flat_map written_item l ++ txt "]" ++ v) < n).
    { rewrite !app_length. cbn [txt list_ascii_of_string List.map length]. lia. }
    repeat rewrite <- app_assoc. cbn [app parse_seq txt list_ascii_of_string List.map].
    change (Z.of_nat (nat_of_ascii "[")) with 91%Z.
    cbn [Z.eqb Pos.eqb orb].
    destruct neg; cbn [app].
    + change (Z.of_nat (nat_of_ascii "^")) with 94%Z. cbn [Z.eqb Pos.eqb].
      change (Z.of_nat (nat_of_ascii "]") :: v) with (txt "]" ++ v).
      rewrite parse_class_written; [reflexivity|exact HF|now right|exact L].
    + change (Z.of_nat (nat_of_ascii "]") :: v) with (txt "]" ++ v).
      set (s := flat_map written_item l ++ txt "]" ++ v) in *.
      assert (Q : match s with m :: t' => if (m =? 94)%Z then (true, t') else (false, s) | [] => (false, s) end = (false, s)).
      { unfold s. destruct l as [|y l]; [congruence|]. destruct y; reflexivity. }
      rewrite Q. unfold s. rewrite parse_class_written; [reflexivity|exact HF|now right|exact L].
  - apply (one_item n _ v (KOther, XAny)); [exact C|cbn in HN; lia|]. intros m _. reflexivity.
  - destruct HW as (WA & WB). cbn [written] in *. repeat rewrite <- app_assoc in *.
    change (txt "(?:") with (40%Z :: txt "?:") in *. change (txt ")(?:") with (txt ")" ++ 40%Z :: txt "?:") in *.
    repeat rewrite <- app_assoc in *. cbn [app] in *.
    cbn [parse_sub].
    lens HN.
    destruct n as [|[|n]]; [lia|lia|].
    rewrite (group_reads a (IHa WA) (txt "?:") (fun a => a)); [|reflexivity|].
    2:{ lens_goal. lia. }
    rewrite (group_reads b (IHb WB) (txt "?:") (fun a => a)); [|reflexivity|].
    2:{ lens_goal. lia. }
    destruct n as [|n]; [lia|]. rewrite seq_stops by (now left). cbn. now destruct C as [->|(w & ->)].
  - destruct HW as (WA & WB). cbn [written] in *. repeat rewrite <- app_assoc in *.
    change (txt "(?:") with (40%Z :: txt "?:") in *. change (txt ")|(?:") with (txt ")" ++ 124%Z :: 40%Z :: txt "?:") in *.
    repeat rewrite <- app_assoc in *. cbn [app] in *.
    lens HN.
    destruct n as [|[|n]]; [lia|lia|].
    remember (S (S (S n))) as m eqn:EM. cbn [parse_sub].
    rewrite EM at 1. rewrite (group_reads a (IHa WA) (txt "?:") (fun a => a)); [|reflexivity|].
    2:{ lens_goal. lia. }
    rewrite seq_stops by (right; eexists; reflexivity). cbn [rbind map rev app xseq snd].
    change (124 =? 124)%Z with true. cbv iota. rewrite EM. cbn [parse_sub].
    rewrite (group_reads b (IHb WB) (txt "?:") (fun a => a)); [|reflexivity|].
    2:{ lens_goal. lia. }
    destruct n as [|n]; [lia|]. rewrite seq_stops by (now left). cbn. now destruct C as [->|(w & ->)].
  - destruct HW as (WA & WL & WH). cbn [written] in *. repeat rewrite <- app_assoc in *.
    change (txt "(?:") with (40%Z :: txt "?:") in *. change (txt "){") with (txt ")" ++ [123%Z]) in *.
    repeat rewrite <- app_assoc in *. cbn [app] in *.
    set (q := written_count lo ++ txt "," ++ match hi with Some h => written_count h | None => [] end ++ txt "}" ++
                (if g then [] else txt "?") ++ v) in *.
    assert (LQ : length v + 4 <= length q).
    { unfold q. rewrite !app_length. cbn [length written_count map]. lia. }
    lens HN.
    destruct n as [|[|n]]; [lia|lia|].
    apply sub_of_seq; [exact C|].
    rewrite (group_reads a (IHa WA) (txt "?:") (fun a => a)); [|reflexivity|].
    2:{ lens_goal. lia. }
    rewrite (seq_brace _ _ q lo hi ((if g then [] else txt "?") ++ v)) by (apply quantifier_written; assumption).
    cbv beta.
    assert (R : repeat_last [(KOther, a)] lo hi ((if g then [] else txt "?") ++ v) = Read ([(KRep, XRep lo hi g a)], v)).
    { destruct g; [destruct C as [->|(w & ->)]; reflexivity|reflexivity]. }
    etransitivity; [exact (f_equal (fun x => rbind x _) R)|]. cbn [rbind]. now rewrite seq_stops by (now left).
  - assert (WA : writable a) by (destruct ahead; tauto).
    set (o := if ahead then (if pos then txt "?=" else txt "?!") else (if pos then txt "?<=" else txt "?<!")).
    assert (EW : written (XLook ahead pos a) ++ v = 40%Z :: o ++ written a ++ txt ")" ++ v).
    { unfold o. destruct ahead, pos; cbn [written]; repeat rewrite <- app_assoc; reflexivity. }
    rewrite EW in *. apply (one_item n _ v (KOther, XLook ahead pos a)); [exact C|cbn in HN; lia|].
    intros m ->. destruct n as [|n]; [cbn in HN; lia|].
    rewrite (group_reads a (IHa WA) o (XLook ahead pos)); [reflexivity| |].
    + unfold o. destruct ahead, pos; reflexivity.
    + cbn [length] in HN. lia.
  - apply (one_kind "A" (KAt, XBegin)); [exact C|cbn in HN; lia|reflexivity].
  - apply (one_kind "Z" (KAt, XEnd)); [exact C|cbn in HN; lia|reflexivity].
  - apply (one_item n _ v (KAt, XDollar)); [exact C|cbn in HN; lia|]. intros m _. reflexivity.
  - destruct neg.
    + apply (one_kind "B" (KAt, XWordB true)); [exact C|cbn in HN; lia|reflexivity].
    + apply (one_kind "b" (KAt, XWordB false)); [exact C|cbn in HN; lia|reflexivity].
Qed.

Lemma writable_counted r : writable r -> counted r.
Proof.
  induction r as [| | |a IHa b IHb|a IHa b IHb|lo hi g a IHa|[] pos a IHa| | | |]; cbn; auto; intuition. now apply H2.
Qed.
Lemma writable_behind r : writable r -> behind_ok r = true.
Proof.
  induction r as [| | |a IHa b IHb|a IHa b IHb|lo hi g a IHa|[] pos a IHa| | | |]; cbn; auto; rewrite ?andb_true_iff; intuition.
  apply one_width_iff; [|assumption]. now apply writable_counted.
Qed.

Theorem parse_written r : writable r -> parse (written r) = Read r.
Proof.
  intros W. unfold parse. rewrite <- (app_nil_r (written r)) at 2.
  rewrite (written_reads r W); [|now left|rewrite app_nil_r; lia]. cbn. now rewrite writable_behind.
Qed.
