(** [parse] reads exactly the patterns of the grammar in SpecReGrammar.v. *)

From Coq Require Import String Ascii.
From Verif Require Import Py SpecOps PyRe SpecRe ReProofs ReParse ReShape ReWritten ReGroups Ops ReReplace SpecGrammar SpecReGrammar.
From Coq Require Import List Lia PeanoNat Bool ZArith.

Ltac flat := repeat first [rewrite <- app_assoc | progress cbn [app txt list_ascii_of_string List.map]]; reflexivity.

(** ** Characters *)

Lemma hex_digit_iff c d : PyRe.hex_digit c = Some d <-> SpecGrammar.hex_digit c d.
Proof.
  unfold PyRe.hex_digit, PyRe.between. split.
  - destruct (Z.leb_spec 48 c); destruct (Z.leb_spec c 57); cbn [andb].
    1:{ intros E; injection E as <-. replace c with (48 + (c - 48))%Z at 1 by lia. constructor. lia. }
    all: destruct (Z.leb_spec 65 c); destruct (Z.leb_spec c 70); cbn [andb];
      try (intros E; injection E as <-; replace c with (65 + (c - 65))%Z at 1 by lia;
           replace (c - 55)%Z with (10 + (c - 65))%Z by lia; constructor; lia).
    all: destruct (Z.leb_spec 97 c); destruct (Z.leb_spec c 102); cbn [andb]; try discriminate;
      try (intros E; injection E as <-; replace c with (97 + (c - 97))%Z at 1 by lia;
           replace (c - 87)%Z with (10 + (c - 97))%Z by lia; constructor; lia).
    all: exfalso; lia.
  - destruct 1 as [d H|d H|d H].
    + replace (48 <=? 48 + d)%Z with true by (symmetry; apply Z.leb_le; lia).
      replace (48 + d <=? 57)%Z with true by (symmetry; apply Z.leb_le; lia). cbn [andb]. f_equal; lia.
    + replace (97 + d <=? 57)%Z with false by (symmetry; apply Z.leb_gt; lia). rewrite andb_false_r.
      replace (97 + d <=? 70)%Z with false by (symmetry; apply Z.leb_gt; lia). rewrite andb_false_r.
      replace (97 <=? 97 + d)%Z with true by (symmetry; apply Z.leb_le; lia).
      replace (97 + d <=? 102)%Z with true by (symmetry; apply Z.leb_le; lia). cbn [andb]. f_equal; lia.
    + replace (65 + d <=? 57)%Z with false by (symmetry; apply Z.leb_gt; lia). rewrite andb_false_r.
      replace (65 <=? 65 + d)%Z with true by (symmetry; apply Z.leb_le; lia).
      replace (65 + d <=? 70)%Z with true by (symmetry; apply Z.leb_le; lia). cbn [andb]. f_equal; lia.
Qed.

Lemma hex_num_iff n : forall s z t, hex_num n 0 s = Some (z, t) <-> exists u, s = u ++ t /\ length u = n /\ hex_value u z.
Proof.
  induction n as [|n IH]; intros s z t.
  - cbn. split.
    + intros [= <- <-]. exists []. repeat split. constructor.
    + intros (u & -> & L & H). apply length_zero_iff_nil in L. subst u. cbn. inversion H as [|t' z' c d H' D E]; [reflexivity|].
      exfalso. now destruct t'.
  - rewrite hex_num_S. split.
    + destruct (hex_num n 0 s) as [[y [|c w]]|] eqn:E; try discriminate. apply IH in E. destruct E as (u & -> & L & H).
      destruct (PyRe.hex_digit c) as [d|] eqn:D; [|discriminate]. intros [= <- <-]. exists (u ++ [c]). rewrite <- app_assoc, app_length.
      split; [reflexivity|]. split; [cbn; lia|]. constructor; [exact H|now apply hex_digit_iff].
    + intros (u & -> & L & H). inversion H as [|t' z' c d H' D E1 E2]; subst; [discriminate|].
      rewrite app_length in L. cbn in L. rewrite <- app_assoc. cbn [app].
      assert (Q : hex_num n 0 (t' ++ c :: t) = Some (z', c :: t)) by (apply IH; exists t'; repeat split; [lia|assumption]).
      rewrite Q. apply hex_digit_iff in D. now rewrite D.
Qed.

Lemma digit_iff c : ascii_digit c = true <-> a_digit c.
Proof. unfold ascii_digit, PyRe.between, a_digit. rewrite andb_true_iff, !Z.leb_le. tauto. Qed.
Lemma letter_iff c : ascii_letter c = true <-> a_letter c.
Proof. unfold ascii_letter, PyRe.between, a_letter. rewrite orb_true_iff, !andb_true_iff, !Z.leb_le. tauto. Qed.

Lemma hex_escape_iff n s z t : hex_escape n s = Read (z, t) <-> exists u, s = u ++ t /\ length u = n /\ hex_value u z /\ (z <= 0x10FFFF)%Z.
Proof.
  unfold hex_escape. split.
  - destruct (hex_num n 0 s) as [[y w]|] eqn:E; [|discriminate]. destruct (Z.leb_spec y 0x10FFFF); [|discriminate]. intros [= <- <-].
    apply hex_num_iff in E. destruct E as (u & A & B & C). eauto.
  - intros (u & A & B & C & D). assert (Q : hex_num n 0 s = Some (z, t)) by (apply hex_num_iff; eauto). rewrite Q.
    destruct (Z.leb_spec z 0x10FFFF); [reflexivity|lia].
Qed.

Lemma char_escape_sound c s z t : char_escape c s = Read (z, t) -> exists u, c :: s = u ++ t /\ names (92%Z :: u) z.
Proof.
  unfold char_escape.
  repeat (match goal with |- (if (c =? ?k)%Z then _ else _) = _ -> _ => destruct (Z.eqb_spec c k) as [->|] end).
  all: try (intros [= <- <-]; eexists [_]; split; [reflexivity|]; apply names_control; cbn; tauto).
  all: try discriminate.
  1-3: intros H; apply hex_escape_iff in H; destruct H as (u & -> & L & H & B); eexists (_ :: u); split; [reflexivity|];
    eapply names_code; [|exact L|exact H|exact B]; cbn; tauto.
  destruct (ascii_digit c) eqn:D; [discriminate|]. destruct (ascii_letter c) eqn:A; [discriminate|]. intros [= <- <-].
  exists [c]. split; [reflexivity|]. apply names_itself; [rewrite <- digit_iff|rewrite <- letter_iff]; congruence.
Qed.
Lemma names_shape s z : names s z -> exists c u, s = 92%Z :: c :: u /\ c <> 98%Z /\ class_kind c = None /\
  c <> 65%Z /\ c <> 90%Z /\ c <> 66%Z /\ forall t, char_escape c (u ++ t) = Read (z, t).
Proof.
  destruct 1 as [l c H|l n t z H L V B|c ND NL].
  - cbn in H. repeat destruct H as [[= <- <-]|H]; try contradiction; eexists _, []; repeat split; discriminate.
  - cbn in H. repeat destruct H as [[= <- <-]|H]; try contradiction; eexists _, t; repeat split; try discriminate;
      intros w; cbn [char_escape Z.eqb Pos.eqb]; apply hex_escape_iff; exists t; auto.
  - exists c, []. split; [reflexivity|]. unfold a_digit, a_letter in *. split; [lia|]. split.
    { unfold class_kind. repeat (match goal with |- (if (c =? ?k)%Z then _ else _) = _ => destruct (Z.eqb_spec c k); [lia|] end). reflexivity. }
    repeat split; try lia. intros t. unfold char_escape. cbn [app].
    repeat (match goal with |- (if (c =? ?k)%Z then _ else _) = _ => destruct (Z.eqb_spec c k); [lia|] end).
    destruct (ascii_digit c) eqn:D; [apply digit_iff in D; unfold a_digit in D; lia|].
    destruct (ascii_letter c) eqn:A; [apply letter_iff in A; unfold a_letter in A; lia|]. reflexivity.
Qed.

Lemma class_kind_iff c x : class_kind c = Some x <-> class_letter c x.
Proof.
  unfold class_kind, class_letter. split.
  - repeat (match goal with |- (if (c =? ?k)%Z then _ else _) = _ -> _ => destruct (Z.eqb_spec c k) as [->|] end); try discriminate;
      intros [= <-]; cbn; tauto.
  - intros H. cbn in H. repeat destruct H as [[= <- <-]|H]; try contradiction; reflexivity.
Qed.
Lemma class_letter_shape c x : class_letter c x -> c <> 98%Z /\ c <> 65%Z /\ c <> 90%Z /\ c <> 66%Z.
Proof. unfold class_letter. intros H. cbn in H. repeat destruct H as [[= <- <-]|H]; try contradiction; repeat split; discriminate. Qed.

(** ** Sets *)

Lemma class_char_sound c s x t : class_char c s = Read (x, t) -> exists u, c :: s = u ++ t /\ set_member u x.
Proof.
  unfold class_char. destruct (Z.eqb_spec c 92) as [->|N].
  - destruct s as [|d s]; [discriminate|]. unfold class_escape. destruct (Z.eqb_spec d 98) as [->|].
    + intros [= <- <-]. exists [92%Z; 98%Z]. split; [reflexivity|apply member_backspace].
    + destruct (class_kind d) as [y|] eqn:K.
      * intros [= <- <-]. exists [92%Z; d]. split; [reflexivity|]. apply member_class. now apply class_kind_iff.
      * destruct (char_escape d s) as [[z w]| | |] eqn:E; try discriminate. cbn [rbind]. intros [= <- <-].
        apply char_escape_sound in E. destruct E as (u & E & H). exists (92%Z :: u). cbn. rewrite E. split; [reflexivity|now apply member_named].
  - intros [= <- <-]. exists [c]. split; [reflexivity|now apply member_itself].
Qed.
Lemma set_member_read s x : set_member s x -> exists c u, s = c :: u /\ (c = 93%Z <-> s = txt "]") /\ forall t, class_char c (u ++ t) = Read (x, t).
Proof.
  assert (BS : forall u : str, (92 = 93)%Z <-> 92%Z :: u = txt "]") by (intros u; split; discriminate).
  destruct 1 as [c N|s c H| |l x H].
  - exists c, []. split; [reflexivity|]. split; [split; [intros ->; reflexivity|intros [= ->]; reflexivity]|]. intros t. cbn [app]. unfold class_char.
    destruct (Z.eqb_spec c 92); [congruence|reflexivity].
  - apply names_shape in H. destruct H as (d & u & -> & NB & K & _ & _ & _ & H). exists 92%Z, (d :: u). split; [reflexivity|]. split; [apply BS|].
    intros t. cbn [app class_char Z.eqb Pos.eqb]. unfold class_escape. destruct (Z.eqb_spec d 98); [congruence|]. now rewrite K, H.
  - exists 92%Z, [98%Z]. split; [reflexivity|]. split; [apply BS|reflexivity].
  - exists 92%Z, [l]. split; [reflexivity|]. split; [apply BS|]. intros t. cbn [app class_char Z.eqb Pos.eqb]. unfold class_escape.
    apply class_letter_shape in H as S. destruct (Z.eqb_spec l 98); [tauto|]. apply class_kind_iff in H. now rewrite H.
Qed.

Lemma member_first c s u x : set_member u x -> c :: s = u ++ s -> u = [c].
Proof. intros H E. apply (f_equal (@length Z)) in E as L. rewrite app_length in L. cbn in L. destruct u as [|d [|e u]]; cbn in *; try lia. congruence. Qed.

Lemma range_shape s lo hi : set_member s (CRange lo hi) -> lo = hi.
Proof. inversion 1; subst; try reflexivity. unfold class_letter in *. cbn in *. repeat match goal with H : _ \/ _ |- _ => destruct H as [[=]|H] end; contradiction. Qed.

Lemma parse_class_sound n : forall seen s l v, parse_class n seen s = Read (l, v) ->
  exists u l', s = u ++ v /\ set_items (nilb seen) u l' /\ l = rev seen ++ l'.
Proof.
  induction n as [|n IH]; intros seen s l v; [discriminate|]. destruct s as [|c t]; [discriminate|]. cbn [parse_class].
  destruct ((c =? 93)%Z && negb (nilb seen)) eqn:CL.
  - intros [= <- <-]. apply andb_true_iff in CL. destruct CL as (C & N). apply Z.eqb_eq in C. subst c.
    destruct seen as [|y seen]; [discriminate|]. exists [93%Z], []. split; [reflexivity|]. split; [constructor|now rewrite app_nil_r].
  - destruct (class_char c t) as [[x t1]| | |] eqn:EC; try discriminate. cbn [rbind]. apply class_char_sound in EC. destruct EC as (u & EU & HU).
    assert (F : nilb seen = true \/ u <> txt "]").
    { destruct (nilb seen); [now left|right]. intros ->. injection EU as -> _. discriminate. }
    rewrite EU. clear EU CL c t.
    assert (ONE : ~ starts 45 t1 -> parse_class n (x :: seen) t1 = Read (l, v) ->
      exists u0 l', u ++ t1 = u0 ++ v /\ set_items (nilb seen) u0 l' /\ l = rev seen ++ l').
    { intros NS H. apply IH in H. destruct H as (w & l' & -> & HI & ->). cbn [nilb] in HI. exists (u ++ w), (x :: l').
      rewrite app_assoc. split; [reflexivity|]. split; [|cbn [rev]; now rewrite <- app_assoc].
      apply items_one; auto. intros (t & ->). apply NS. eexists. reflexivity. }
    destruct t1 as [|m t2]; [apply ONE; intros (t & H); discriminate|].
    destruct (Z.eqb_spec m 45) as [->|NM]; [|apply ONE; intros (t & [= H _]); congruence].
    clear ONE. destruct t2 as [|d t3]; [discriminate|]. destruct (Z.eqb_spec d 93) as [->|ND].
    + intros [= <- <-]. exists (u ++ txt "-]"), [x; CRange 45 45]. rewrite <- app_assoc. split; [reflexivity|]. split; [now apply items_hyphen|].
      cbn [rev]. rewrite <- app_assoc. reflexivity.
    + destruct (class_char d t3) as [[y t4]| | |] eqn:EC; try discriminate. cbn [rbind]. apply class_char_sound in EC. destruct EC as (w & EW & HW).
      destruct x as [a a'| | |]; try discriminate. destruct y as [b b'| | |]; try discriminate.
      pose proof (range_shape _ _ _ HU) as ->. pose proof (range_shape _ _ _ HW) as ->. destruct (Z.ltb_spec b' a') as [|LE]; [discriminate|].
      intros H. apply IH in H. destruct H as (w' & l' & -> & HI & ->). cbn [nilb] in HI.
      exists (u ++ txt "-" ++ w ++ w'), (CRange a' b' :: l').
      split; [rewrite EW, <- !app_assoc; reflexivity|]. split; [|cbn [rev]; now rewrite <- app_assoc].
      apply items_range; auto. intros ->. injection EW as ->. congruence.
Qed.

Lemma set_items_shape first s l : set_items first s l -> 1 <= length s.
Proof.
  induction 1 as [|first s x t l M F NS H IH|first s a u b t l M F M' F' LE H IH|first s x M F]; cbn; try lia; rewrite ?app_length; cbn; try lia.
Qed.

Lemma parse_class_complete first s l : set_items first s l -> forall n seen v, first = nilb seen -> length (s ++ v) < n ->
  parse_class n seen (s ++ v) = Read (rev seen ++ l, v).
Proof.
  assert (CLOSE : forall s c u (seen : list citem), s = c :: u -> (c = 93%Z <-> s = txt "]") -> nilb seen = true \/ s <> txt "]" ->
            (c =? 93)%Z && negb (nilb seen) = false).
  { intros s0 c u seen -> HC [F|F]; [rewrite F; apply andb_false_r|]. destruct (Z.eqb_spec c 93); [|reflexivity]. tauto. }
  induction 1 as [|first s x t l M F NS H IH|first s a u b t l M F M' F' LE H IH|first s x M F]; intros n seen v EF HL;
    (destruct n as [|n]; [lia|]).
  - destruct seen as [|y seen]; [discriminate|]. cbn. now rewrite app_nil_r.
  - subst first. apply set_member_read in M. destruct M as (c & w & -> & HC & M). rewrite <- app_assoc. cbn [app parse_class].
    rewrite (CLOSE _ _ _ seen eq_refl HC F), M. cbn [rbind].
    assert (Q : parse_class n (x :: seen) (t ++ v) = Read (rev seen ++ x :: l, v)).
    { rewrite IH; [cbn [rev]; now rewrite <- app_assoc|reflexivity|]. cbn in HL. rewrite !app_length in *. lia. }
    apply set_items_shape in H. destruct t as [|m t]; [cbn in H; lia|]. cbn [app] in *.
    destruct (Z.eqb_spec m 45) as [->|]; [|exact Q]. exfalso. apply NS. eexists. reflexivity.
  - subst first. apply set_member_read in M. destruct M as (c & w & -> & HC & M). apply set_member_read in M'. destruct M' as (d & w' & -> & HD & M').
    repeat rewrite <- app_assoc. cbn [app parse_class].
    rewrite (CLOSE _ _ _ seen eq_refl HC F), M. cbn [rbind]. cbn [txt list_ascii_of_string List.map app].
    change (Z.of_nat (nat_of_ascii "-") =? 45)%Z with true. cbv iota.
    destruct (Z.eqb_spec d 93) as [->|_]; [exfalso; apply F'; now apply HD|]. rewrite M'. cbn [rbind].
    destruct (Z.ltb_spec b a); [lia|]. rewrite IH; [cbn [rev]; now rewrite <- app_assoc|reflexivity|].
    cbn in HL. rewrite !app_length in *. cbn in HL. rewrite !app_length in *. lia.
  - subst first. apply set_member_read in M. destruct M as (c & w & -> & HC & M). rewrite <- app_assoc. cbn [app parse_class].
    rewrite (CLOSE _ _ _ seen eq_refl HC F), M. cbn [rbind]. cbn [txt list_ascii_of_string List.map app].
    change (Z.of_nat (nat_of_ascii "-") =? 45)%Z with true. change (Z.of_nat (nat_of_ascii "]") =? 93)%Z with true. cbv iota.
    cbn [rev]. now rewrite <- !app_assoc.
Qed.

(** ** Counts *)

Definition number (acc : option Z) (d : str) : option Z :=
  match d with [] => acc | _ => Some (fold_left (fun z c => 10 * z + (c - 48))%Z d (match acc with Some z => z | None => 0%Z end)) end.
Definition no_digit_first (t : str) : Prop := match t with c :: _ => ~ a_digit c | [] => True end.

Lemma dec_digits_sound s : forall acc o t, dec_digits acc s = (o, t) -> exists d, s = d ++ t /\ Forall a_digit d /\ no_digit_first t /\ o = number acc d.
Proof.
  induction s as [|c s IH]; intros acc o t; cbn [dec_digits].
  - intros [= <- <-]. exists []. repeat split; constructor.
  - destruct (ascii_digit c) eqn:D.
    + intros H. apply IH in H. destruct H as (d & -> & F & N & ->). exists (c :: d). split; [reflexivity|]. split; [constructor; [now apply digit_iff|exact F]|].
      split; [exact N|]. destruct d; reflexivity.
    + intros [= <- <-]. exists []. repeat split; [constructor|]. cbn. rewrite <- digit_iff. congruence.
Qed.
Lemma dec_digits_complete d : forall acc t, Forall a_digit d -> no_digit_first t -> dec_digits acc (d ++ t) = (number acc d, t).
Proof.
  induction d as [|c d IH]; intros acc t F N.
  - cbn [app number]. destruct t as [|c t]; [reflexivity|]. cbn [dec_digits]. destruct (ascii_digit c) eqn:D; [|reflexivity]. apply digit_iff in D. now destruct N.
  - inversion F as [|? ? D F']; subst. cbn [app dec_digits]. apply digit_iff in D. rewrite D, IH by assumption. destruct d; reflexivity.
Qed.

Lemma digits_value_nonneg d : Forall a_digit d -> forall z, (0 <= z)%Z -> (0 <= fold_left (fun z c => 10 * z + (c - 48)) d z)%Z.
Proof. induction 1 as [|c d D F IH]; intros z Z0; cbn [fold_left]; [exact Z0|]. apply IH. unfold a_digit in D. nia. Qed.
Lemma number_decimal d z : Forall a_digit d -> number None d = Some z -> (0 <= z)%Z /\ decimal d (Z.to_nat z).
Proof.
  intros F. destruct d as [|c d]; [discriminate|]. intros [= <-].
  assert (P : (0 <= digits_value (c :: d))%Z) by (apply (digits_value_nonneg _ F); reflexivity). split; [exact P|].
  split; [discriminate|]. split; [exact F|]. rewrite Z2Nat.id by exact P. reflexivity.
Qed.
Lemma decimal_number d n : decimal d n -> Forall a_digit d /\ number None d = Some (Z.of_nat n).
Proof. intros (N & F & V). split; [exact F|]. rewrite V. destruct d; [congruence|reflexivity]. Qed.
Lemma decimal_or_number d n : decimal_or 0 d n -> Forall a_digit d /\ (number None d = None /\ n = 0 \/ number None d = Some (Z.of_nat n)).
Proof.
  intros [(-> & ->)|H]; [split; [constructor|left; auto]|]. apply decimal_number in H. split; [tauto|right; tauto].
Qed.

Lemma brace_sound t lo hi u : quantifier 123 t = Read (Some (lo, hi, u)) -> exists q, 123%Z :: t = q ++ u /\ repeats q lo hi.
Proof.
  cbn [quantifier Z.eqb Pos.eqb]. unfold quantifier. cbn [Z.eqb Pos.eqb]. destruct t as [|m t]; [discriminate|].
  destruct (Z.eqb_spec m 125) as [->|NM]; [discriminate|].
  destruct (dec_digits None (m :: t)) as [a w] eqn:E1. apply dec_digits_sound in E1. destruct E1 as (d & E1 & D1 & N1 & ->). rewrite E1.
  assert (SMALL : forall o z, big o = false -> o = Some z -> (z <= 1000)%Z).
  { intros o z B ->. cbn in B. destruct (Z.ltb_spec MAXCOUNT z); [discriminate|]. unfold MAXCOUNT in *. lia. }
  assert (OR : forall l, match number None d with Some x => Z.to_nat x | None => 0 end = l -> decimal_or 0 d l).
  { intros l <-. destruct (number None d) as [z|] eqn:EN; [right; now apply number_decimal|left]. destruct d; [auto|discriminate]. }
  assert (CMA : forall w', w = 44%Z :: w' ->
     (let '(hi0, u0) := dec_digits None w' in
      match u0 with
      | [] => Read None
      | z :: v => if (z =? 125)%Z then if big (number None d) || big hi0 then Beyond
                    else let l := match number None d with Some x => Z.to_nat x | None => 0 end in
                         match hi0 with
                         | Some h => if Z.to_nat h <? l then Bad else Read (Some (l, Some (Z.to_nat h), v))
                         | None => Read (Some (l, None, v))
                         end
                  else Read None
      end) = Read (Some (lo, hi, u)) -> exists q, 123%Z :: d ++ w = q ++ u /\ repeats q lo hi).
  { intros w' ->. destruct (dec_digits None w') as [b x] eqn:E2. apply dec_digits_sound in E2. destruct E2 as (e & -> & D2 & N2 & ->).
    destruct x as [|z v]; [discriminate|]. destruct (Z.eqb_spec z 125) as [->|]; [|discriminate].
    destruct (big (number None d)) eqn:B1; [discriminate|]. destruct (big (number None e)) eqn:B2; [discriminate|]. cbn [orb]. cbv zeta.
    destruct (number None e) as [h|] eqn:EH.
    - destruct (Nat.ltb_spec (Z.to_nat h) (match number None d with Some x => Z.to_nat x | None => 0 end)) as [|LE]; [discriminate|].
      intros [= <- <- <-]. exists (txt "{" ++ d ++ txt "," ++ e ++ txt "}"). split; [flat|].
      apply number_decimal in EH; [|exact D2]. destruct EH as (P & EH). apply rep_between; [now apply OR|exact EH| |exact LE].
      unfold up_to_1000. rewrite Z2Nat.id by exact P. now apply (SMALL (Some h) h B2).
    - assert (X : e = []) by (destruct e; [reflexivity|discriminate]). subst e. intros [= <- <- <-].
      exists (txt "{" ++ d ++ txt ",}"). split; [flat|]. apply rep_least; [now apply OR|].
      unfold up_to_1000. destruct (number None d) as [z|] eqn:EN; [|cbn; lia]. apply number_decimal in EN as (P & _); [|exact D1].
      rewrite Z2Nat.id by exact P. now apply (SMALL (Some z) z B1). }
  destruct w as [|k w']; [discriminate|]. destruct (Z.eqb_spec k 44) as [->|NK].
  - intros H. exact (CMA w' eq_refl H).
  - clear CMA. destruct (Z.eqb_spec k 125) as [->|]; [|discriminate]. destruct (big (number None d)) eqn:B1; [discriminate|]. cbn [orb]. cbv zeta.
    destruct (number None d) as [z|] eqn:EN.
    + rewrite Nat.ltb_irrefl. intros [= <- <- <-]. exists (txt "{" ++ d ++ txt "}"). split; [flat|].
      apply number_decimal in EN as (P & EN); [|exact D1]. apply rep_exact; [exact EN|]. unfold up_to_1000. rewrite Z2Nat.id by exact P.
      now apply (SMALL (Some z) z B1).
    + exfalso. destruct d; [|discriminate]. injection E1 as -> _. congruence.
Qed.

Lemma brace_none t : quantifier 123 t = Read None <-> ~ begins_count t.
Proof.
  unfold quantifier. cbn [Z.eqb Pos.eqb]. split.
  - intros H (d & e & u & D & D' & T).
    assert (Q : exists m t', t = m :: t' /\ m <> 125%Z).
    { destruct d as [|m d]; [|inversion D as [|? ? DM _]; subst; exists m, (match T with _ => tl t end); unfold a_digit in DM].
      - destruct T as [(N & _)|T]; [congruence|]. exists 44%Z. eexists. split; [exact T|lia].
      - split; [destruct T as [(_ & ->)| ->]; reflexivity|lia]. }
    destruct Q as (m & t' & -> & NM). destruct (Z.eqb_spec m 125); [congruence|].
    destruct T as [(N & T)|T].
    + rewrite T in H. rewrite dec_digits_complete in H; [|exact D|cbn; unfold a_digit; lia].
      cbn [txt list_ascii_of_string List.map app] in H. change (Z.of_nat (nat_of_ascii "}")) with 125%Z in H. cbn [Z.eqb Pos.eqb] in H.
      destruct (big _ || big _); [discriminate|]. destruct (number None d) as [z|]; [|discriminate]. rewrite Nat.ltb_irrefl in H. discriminate.
    + rewrite T in H. rewrite dec_digits_complete in H; [|exact D|cbn; unfold a_digit; lia].
      cbn [txt list_ascii_of_string List.map app] in H. change (Z.of_nat (nat_of_ascii ",")) with 44%Z in H. cbn [Z.eqb Pos.eqb] in H.
      rewrite dec_digits_complete in H; [|exact D'|cbn; unfold a_digit; lia].
      change (Z.of_nat (nat_of_ascii "}")) with 125%Z in H. cbn [Z.eqb Pos.eqb] in H.
      destruct (big _ || big _); [discriminate|]. destruct (number None e) as [z|]; [|discriminate]. destruct (_ <? _); discriminate.
  - intros NB. destruct t as [|m t]; [reflexivity|]. destruct (Z.eqb_spec m 125) as [->|NM]; [reflexivity|].
    destruct (dec_digits None (m :: t)) as [a w] eqn:E1. apply dec_digits_sound in E1. destruct E1 as (d & E1 & D1 & N1 & ->).
    destruct w as [|k w']; [reflexivity|]. destruct (Z.eqb_spec k 44) as [->|NK].
    + destruct (dec_digits None w') as [b x] eqn:E2. apply dec_digits_sound in E2. destruct E2 as (e & -> & D2 & N2 & ->).
      destruct x as [|z v]; [reflexivity|]. destruct (Z.eqb_spec z 125) as [->|]; [|reflexivity].
      exfalso. apply NB. exists d, e, v. split; [exact D1|]. split; [exact D2|]. right. exact E1.
    + destruct (Z.eqb_spec k 125) as [->|]; [|reflexivity]. exfalso. apply NB. exists d, [], w'. split; [exact D1|]. split; [constructor|].
      left. split; [intros ->; injection E1 as ->; congruence|exact E1].
Qed.

(** the first character of a count, and what [quantifier] makes of it *)
Lemma repeats_read q lo hi : repeats q lo hi -> exists c u, q = c :: u /\ In c [42; 43; 63; 123]%Z /\ forall t, quantifier c (u ++ t) = Read (Some (lo, hi, t)).
Proof.
  assert (SMALL : forall n, up_to_1000 n -> big (Some (Z.of_nat n)) = false).
  { intros n H. unfold up_to_1000 in H. cbn. unfold MAXCOUNT. destruct (Z.ltb_spec 1000 (Z.of_nat n)); [lia|reflexivity]. }
  destruct 1 as [| | |d n D U|d n D U|d n e m D D' U LE].
  - eexists _, []. split; [reflexivity|]. split; [cbn; tauto|reflexivity].
  - eexists _, []. split; [reflexivity|]. split; [cbn; tauto|reflexivity].
  - eexists _, []. split; [reflexivity|]. split; [cbn; tauto|reflexivity].
  - exists 123%Z, (d ++ txt "}"). split; [reflexivity|]. split; [cbn; tauto|]. intros t. apply decimal_number in D as (F & E).
    unfold quantifier. cbn [Z.eqb Pos.eqb]. rewrite <- app_assoc. destruct d as [|m d]; [discriminate|]. inversion F as [|? ? DM _]; subst. unfold a_digit in DM.
    cbn [app]. destruct (Z.eqb_spec m 125); [lia|]. change (m :: d ++ txt "}" ++ t) with ((m :: d) ++ txt "}" ++ t).
    rewrite dec_digits_complete; [|exact F|cbn; unfold a_digit; lia]. rewrite E.
    cbn [txt list_ascii_of_string List.map app]. change (Z.of_nat (nat_of_ascii "}")) with 125%Z. cbn [Z.eqb Pos.eqb].
    rewrite SMALL by exact U. cbn [orb]. rewrite Nat.ltb_irrefl. now rewrite Nat2Z.id.
  - exists 123%Z, (d ++ txt ",}"). split; [reflexivity|]. split; [cbn; tauto|]. intros t. apply decimal_or_number in D as (F & E).
    unfold quantifier. cbn [Z.eqb Pos.eqb]. rewrite <- app_assoc.
    assert (Q : exists m t', d ++ txt ",}" ++ t = m :: t' /\ m <> 125%Z).
    { destruct d as [|m d]; [exists 44%Z; eexists; split; [reflexivity|lia]|]. inversion F as [|? ? DM _]; subst. unfold a_digit in DM. exists m. eexists. split; [reflexivity|lia]. }
    destruct Q as (m & t' & Q & NM). rewrite Q. destruct (Z.eqb_spec m 125); [congruence|]. rewrite <- Q.
    rewrite dec_digits_complete; [|exact F|cbn; unfold a_digit; lia].
    cbn [txt list_ascii_of_string List.map app]. change (Z.of_nat (nat_of_ascii "}")) with 125%Z. change (Z.of_nat (nat_of_ascii ",")) with 44%Z. cbn [Z.eqb Pos.eqb dec_digits ascii_digit PyRe.between Z.leb Z.compare Pos.compare Pos.compare_cont andb].
    destruct E as [(-> & ->)| ->]; cbn [big orb]; [reflexivity|]. specialize (SMALL n U). cbn [big] in SMALL. rewrite SMALL. cbn [orb]. now rewrite Nat2Z.id.
  - exists 123%Z, (d ++ txt "," ++ e ++ txt "}"). split; [reflexivity|]. split; [cbn; tauto|]. intros t. apply decimal_or_number in D as (F & E). apply decimal_number in D' as (F' & E').
    unfold quantifier. cbn [Z.eqb Pos.eqb]. repeat rewrite <- app_assoc.
    assert (Q : exists x t', d ++ txt "," ++ e ++ txt "}" ++ t = x :: t' /\ x <> 125%Z).
    { destruct d as [|x d]; [exists 44%Z; eexists; split; [reflexivity|lia]|]. inversion F as [|? ? DM _]; subst. unfold a_digit in DM. exists x. eexists. split; [reflexivity|lia]. }
    destruct Q as (x & t' & Q & NM). rewrite Q. destruct (Z.eqb_spec x 125); [congruence|]. rewrite <- Q.
    rewrite dec_digits_complete; [|exact F|cbn; unfold a_digit; lia].
    cbn [txt list_ascii_of_string List.map app]. change (Z.of_nat (nat_of_ascii "}")) with 125%Z. change (Z.of_nat (nat_of_ascii ",")) with 44%Z. cbn [Z.eqb Pos.eqb].
    rewrite dec_digits_complete; [|exact F'|cbn; unfold a_digit; lia]. cbn [Z.eqb Pos.eqb]. rewrite E'.
    assert (UN : up_to_1000 n) by (unfold up_to_1000 in *; lia). pose proof (SMALL m U) as SM. pose proof (SMALL n UN) as SN.
    destruct E as [(-> & ->)| ->]; rewrite SM; rewrite ?SN; cbn [big orb]; rewrite !Nat2Z.id.
    + reflexivity.
    + destruct (Nat.ltb_spec m n); [lia|reflexivity].
Qed.

Lemma begins_count_app t v : begins_count t -> begins_count (t ++ v).
Proof.
  intros (d & e & u & D & D' & T). exists d, e, (u ++ v). split; [exact D|]. split; [exact D'|].
  destruct T as [(N & ->)| ->]; [left; split; [exact N|]|right]; flat.
Qed.

(** ** From the parser to the grammar *)

(** the last item, with the repeat that may follow *)
Definition grown (k : kind) (x : rx) (q : str) (x' : rx) : Prop :=
  (q = [] /\ x' = x) \/ (k = KOther /\ exists q0 lo hi g, repeats q0 lo hi /\ q = q0 ++ lazily g /\ x' = XRep lo hi g x).
Definition seq_sound (acc : list pitem) (s : str) (r : rx) (v : str) : Prop :=
  stops v /\
  match acc with
  | [] => exists u l, s = u ++ v /\ in_a_row u l /\ r = xseq l
  | (k, x) :: acc => exists q u l x', s = q ++ u ++ v /\ grown k x q x' /\ in_a_row u l /\ r = xseq (rev (map snd acc) ++ x' :: l)
  end.

Lemma atom_step acc sa (b : bool) y s r v : atom sa b y -> (sa = txt "{" -> ~ begins_count s) ->
  seq_sound ((if b then KOther else KAt, y) :: acc) s r v -> seq_sound acc (sa ++ s) r v.
Proof.
  intros HA HB (ST & q & u & l & x' & -> & G & R & ->). split; [exact ST|].
  assert (Q : in_a_row (sa ++ q ++ u) (x' :: l)).
  { destruct G as [(-> & ->)|(K & q0 & lo & hi & g & HR & -> & ->)].
    - cbn [app] in *. apply (row_once _ b); auto. intros E B. apply (HB E). now apply begins_count_app.
    - destruct b; [|discriminate]. rewrite <- app_assoc in *. apply row_repeated; auto. intros E B. apply (HB E).
      apply (begins_count_app _ v) in B. now rewrite <- !app_assoc in *. }
  destruct acc as [|[k x] acc].
  - exists (sa ++ q ++ u), (x' :: l). split; [now rewrite <- !app_assoc|]. split; [exact Q|reflexivity].
  - exists [], (sa ++ q ++ u), (x' :: l), x. split; [cbn [app]; now rewrite <- !app_assoc|]. split; [left; auto|]. split; [exact Q|].
    cbn [map rev snd]. now rewrite <- app_assoc.
Qed.

Lemma escape_sound c s k x t : escape c s = Read ((k, x), t) -> exists u (b : bool), 92%Z :: c :: s = u ++ t /\ atom u b x /\ k = (if b then KOther else KAt) /\ u <> txt "{".
Proof.
  unfold escape.
  repeat (match goal with |- (if (c =? ?k)%Z then _ else _) = _ -> _ => destruct (Z.eqb_spec c k) as [->|] end).
  1-4: intros [= <- <- <-]; eexists [92%Z; _], false; repeat split; try discriminate; constructor.
  destruct (class_kind c) as [y|] eqn:K.
  - intros [= <- <- <-]. exists [92%Z; c], true. repeat split; try discriminate. apply atom_class. now apply class_kind_iff.
  - destruct (char_escape c s) as [[z w]| | |] eqn:E; try discriminate. cbn [rbind]. intros [= <- <- <-].
    apply char_escape_sound in E. destruct E as (u & E & H). exists (92%Z :: u), true. cbn. rewrite E.
    repeat split; try discriminate. now apply atom_named.
Qed.

Lemma group_open_sound s f u : group_open s = Read (f, u) -> exists o, s = o ++ u /\ opens o f.
Proof.
  unfold group_open. destruct s as [|q t]; [intros [= <- <-]; exists []; split; [reflexivity|constructor]|].
  destruct (Z.eqb_spec q 63) as [->|]; [|intros [= <- <-]; exists []; split; [reflexivity|constructor]].
  destruct t as [|o t]; [discriminate|].
  destruct (Z.eqb_spec o 58) as [->|]; [intros [= <- <-]; exists (txt "?:"); split; [reflexivity|constructor]|].
  destruct (Z.eqb_spec o 61) as [->|]; [intros [= <- <-]; exists (txt "?="); split; [reflexivity|constructor]|].
  destruct (Z.eqb_spec o 33) as [->|]; [intros [= <- <-]; exists (txt "?!"); split; [reflexivity|constructor]|].
  destruct (Z.eqb_spec o 60) as [->|]; [|discriminate]. destruct t as [|d t]; [discriminate|].
  destruct (Z.eqb_spec d 61) as [->|]; [intros [= <- <-]; exists (txt "?<="); split; [reflexivity|constructor]|].
  destruct (Z.eqb_spec d 33) as [->|]; [intros [= <- <-]; exists (txt "?<!"); split; [reflexivity|constructor]|discriminate].
Qed.

Lemma parse_sound n :
  (forall s r v, parse_sub n s = Read (r, v) -> closed v /\ exists u, s = u ++ v /\ alternatives u r) /\
  (forall acc s r v, parse_seq n acc s = Read (r, v) -> seq_sound acc s r v).
Proof.
  induction n as [|n (IHs & IHq)]; [split; discriminate|]. split.
  - intros s r v. cbn [parse_sub]. destruct (parse_seq n [] s) as [[a t]| | |] eqn:E; try discriminate. cbn [rbind].
    apply IHq in E. destruct E as (ST & u & l & -> & R & ->).
    destruct t as [|c w].
    + intros [= <- <-]. split; [now left|]. exists u. split; [reflexivity|now apply only_one].
    + destruct (Z.eqb_spec c 124) as [->|N].
      * destruct (parse_sub n w) as [[b x]| | |] eqn:E; try discriminate. cbn [rbind]. intros [= <- <-]. apply IHs in E.
        destruct E as (C & u' & -> & A). split; [exact C|]. exists (u ++ txt "|" ++ u'). split; [flat|now apply one_or_else].
      * intros [= <- <-]. split; [|exists u; split; [reflexivity|now apply only_one]].
        destruct ST as [ST|(x & [= -> _])]; [exact ST|congruence].
  - intros acc s r v. cbn [parse_seq].
    assert (STOP : forall s, stops s -> Read (xseq (rev (map snd acc)), s) = Read (r, v) -> seq_sound acc s r v).
    { intros s0 ST [= <- <-]. split; [exact ST|]. destruct acc as [|[k x] acc].
      - exists [], []. split; [reflexivity|]. split; [constructor|reflexivity].
      - exists [], [], [], x. split; [reflexivity|]. split; [left; auto|]. split; [constructor|reflexivity]. }
    destruct s as [|c t]; [apply STOP; left; left; reflexivity|].
    destruct (Z.eqb_spec c 124) as [->|N124]; [apply STOP; right; eexists; reflexivity|].
    destruct (Z.eqb_spec c 41) as [->|N41]; [apply STOP; left; right; eexists; reflexivity|]. clear STOP. cbn [orb].
    destruct (Z.eqb_spec c 92) as [->|N92].
    { destruct t as [|d t]; [discriminate|]. destruct (escape d t) as [[[k x] w]| | |] eqn:E; try discriminate. cbn [rbind]. intros H. apply IHq in H.
      apply escape_sound in E. destruct E as (u & b & -> & A & -> & NB). eapply atom_step; [exact A| |exact H]. congruence. }
    destruct (Z.eqb_spec c 91) as [->|N91].
    { assert (NEG : forall neg u o, (o = if neg : bool then txt "[^" else txt "[") -> (neg = false -> ~ starts 94 u) ->
        rbind (parse_class n [] u) (fun '(l, v0) => parse_seq n ((KOther, XSet neg l) :: acc) v0) = Read (r, v) -> seq_sound acc (o ++ u) r v).
      { intros neg u o -> HN. destruct (parse_class n [] u) as [[l w]| | |] eqn:E; try discriminate. cbn [rbind]. intros H. apply IHq in H.
        apply parse_class_sound in E. destruct E as (u' & l' & -> & HI & ->). cbn [nilb rev app] in HI, H. rewrite app_assoc.
        assert (A : atom ((if neg then txt "[^" else txt "[") ++ u') true (XSet neg l')).
        { destruct neg; [now apply atom_not_set|apply atom_set; [exact HI|]]. intros (x & ->). apply (HN eq_refl). eexists. reflexivity. }
        eapply atom_step; [exact A| |exact H]. destruct neg; discriminate. }
      destruct t as [|m t].
      - intros H. refine (NEG false [] _ eq_refl _ H). intros _ (x & X). discriminate.
      - destruct (Z.eqb_spec m 94) as [->|N94]; intros H.
        + exact (NEG true t _ eq_refl ltac:(discriminate) H).
        + refine (NEG false (m :: t) _ eq_refl _ H). intros _ (x & [= -> _]). congruence. }
    assert (NEXT : forall (b : bool) y, atom [c] b y -> (c = 123%Z -> ~ begins_count t) ->
      parse_seq n ((if b then KOther else KAt, y) :: acc) t = Read (r, v) -> seq_sound acc (c :: t) r v).
    { intros b y A HB H. apply IHq in H. change (c :: t) with ([c] ++ t). eapply atom_step; [exact A| |exact H]. intros [= X]. now apply HB. }
    destruct ((c =? 42)%Z || (c =? 43)%Z || (c =? 63)%Z || (c =? 123)%Z) eqn:RC.
    { destruct (quantifier c t) as [[[[lo hi] u]|]| | |] eqn:Q; try discriminate; cbn [rbind].
      - assert (R : exists q, c :: t = q ++ u /\ repeats q lo hi).
        { rewrite !orb_true_iff, !Z.eqb_eq in RC. destruct RC as [[[->| ->]| ->]| ->].
          - injection Q as <- <- <-. exists (txt "*"). split; [reflexivity|constructor].
          - injection Q as <- <- <-. exists (txt "+"). split; [reflexivity|constructor].
          - injection Q as <- <- <-. exists (txt "?"). split; [reflexivity|constructor].
          - now apply brace_sound. }
        destruct R as (q & -> & R). unfold repeat_last. destruct acc as [|[[] a] acc]; try discriminate.
        assert (GO : forall g w, u = lazily g ++ w -> parse_seq n ((KRep, XRep lo hi g a) :: acc) w = Read (r, v) ->
                  seq_sound ((KOther, a) :: acc) (q ++ u) r v).
        { intros g w -> H. apply IHq in H. destruct H as (ST & q' & u' & l & x' & -> & G & RW & ->).
          destruct G as [(-> & ->)|(K & _)]; [|discriminate]. split; [exact ST|]. exists (q ++ lazily g), u', l, (XRep lo hi g a).
          split; [cbn [app]; now rewrite <- !app_assoc|]. split; [right; split; [reflexivity|]; exists q, lo, hi, g; auto|]. auto. }
        destruct u as [|m w]; [exact (GO true [] eq_refl)|]. destruct (Z.eqb_spec m 63) as [->|]; [exact (GO false w eq_refl)|].
        destruct (m =? 43)%Z; [discriminate|]. exact (GO true (m :: w) eq_refl).
      - assert (X : c = 123%Z).
        { rewrite !orb_true_iff, !Z.eqb_eq in RC. destruct RC as [[[->| ->]| ->]| ->]; [discriminate..|reflexivity]. }
        subst c. apply (NEXT true); [|intros _; now apply brace_none]. apply atom_char; [|discriminate].
        cbn. intuition discriminate. }
    rewrite !orb_false_iff, !Z.eqb_neq in RC. destruct RC as (((N42 & N43) & N63) & N123).
    destruct (Z.eqb_spec c 46) as [->|N46]; [apply (NEXT true); [constructor|congruence]|].
    destruct (Z.eqb_spec c 94) as [->|N94]; [apply (NEXT false); [constructor|congruence]|].
    destruct (Z.eqb_spec c 36) as [->|N36]; [apply (NEXT false); [constructor|congruence]|].
    destruct (Z.eqb_spec c 40) as [->|N40].
    { destruct (group_open t) as [[f u]| | |] eqn:EG; try discriminate. cbn [rbind]. apply group_open_sound in EG. destruct EG as (o & -> & HO).
      destruct (parse_sub n u) as [[a w]| | |] eqn:ES; try discriminate. cbn [rbind]. apply IHs in ES. destruct ES as (C & u' & -> & A).
      destruct w as [|z w]; [discriminate|]. destruct (Z.eqb_spec z 41) as [->|]; [|discriminate]. intros H. apply IHq in H.
      replace (40%Z :: o ++ u' ++ 41%Z :: w) with ((txt "(" ++ o ++ u' ++ txt ")") ++ w) by flat.
      refine (atom_step acc _ true (f a) w r v (atom_group o f u' a HO A) _ H). discriminate. }
    apply (NEXT true); [|congruence]. apply atom_char; [|exact N92]. cbn. lia.
Qed.

(** ** From the grammar to the parser *)

Lemma names_first s c : names s c -> exists t, s = 92%Z :: t.
Proof. destruct 1; eexists; reflexivity. Qed.

(** no item starts as a count does *)
Definition not_count (s : str) : Prop := match s with c :: t => c <> 42%Z /\ c <> 43%Z /\ c <> 63%Z /\ (c = 123%Z -> ~ begins_count t) | [] => True end.
Lemma atom_first s b r : atom s b r -> exists c t, s = c :: t /\ c <> 42%Z /\ c <> 43%Z /\ c <> 63%Z /\ (c = 123%Z -> s = txt "{").
Proof.
  destruct 1 as [c N N'|s c H| | | | | | | | | | |].
  1:{ exists c, []. split; [reflexivity|]. cbn in N. repeat split; try lia. intros ->. reflexivity. }
  1:{ apply names_first in H. destruct H as (t & ->). eexists _, _. split; [reflexivity|]. repeat split; discriminate. }
  all: eexists _, _; split; [reflexivity|]; repeat split; discriminate.
Qed.

Lemma stops_count t v : stops v -> begins_count (t ++ v) -> begins_count t.
Proof.
  intros ST (d & e & u & D & D' & T).
  assert (CUT : forall p (c : Z) u, t ++ v = p ++ c :: u -> Forall (fun x => x <> 41%Z /\ x <> 124%Z) (p ++ [c]) -> exists u', t = p ++ c :: u').
  { clear - ST. intros p. revert t. induction p as [|x p IH]; intros t c u E F.
    - cbn in *. destruct t as [|y t]; [|injection E as -> _; eauto]. cbn in E. inversion F as [|? ? (A & B) _]; subst.
      destruct ST as [[ST|(w & ST)]|(w & ST)]; congruence.
    - cbn in *. inversion F as [|? ? (A & B) F']; subst. destruct t as [|y t].
      + cbn in E. destruct ST as [[ST|(w & ST)]|(w & ST)]; congruence.
      + injection E as -> E. destruct (IH t c u E F') as (u' & ->). eauto. }
  assert (DF : forall d, Forall a_digit d -> Forall (fun x => x <> 41%Z /\ x <> 124%Z) d).
  { intros d0. apply Forall_impl. unfold a_digit. intros; lia. }
  destruct T as [(N & T)|T].
  - destruct (CUT d 125%Z u) as (u' & ->); [exact T|apply Forall_app; split; [now apply DF|repeat constructor; discriminate]|].
    exists d, e, u'. split; [exact D|]. split; [exact D'|]. left. auto.
  - destruct (CUT (d ++ txt "," ++ e) 125%Z u) as (u' & ->).
    + rewrite T. flat.
    + repeat (apply Forall_app; split); auto; repeat constructor; discriminate.
    + exists d, e, u'. split; [exact D|]. split; [exact D'|]. right. flat.
Qed.

Lemma row_first t l : in_a_row t l -> forall v, stops v -> not_count (t ++ v).
Proof.
  destruct 1 as [|s b r t l A HB R|s r q lo hi g t l A HR HB R]; intros v ST.
  - destruct ST as [[->|(w & ->)]|(w & ->)]; cbn; try exact I; repeat split; discriminate.
  - apply atom_first in A. destruct A as (c & u & E & N1 & N2 & N3 & N4). rewrite E. cbn. repeat split; auto. intros ->.
    specialize (N4 eq_refl). specialize (HB N4). rewrite N4 in E. injection E as <-. cbn. intros B. apply HB. now apply (stops_count t v).
  - apply atom_first in A. destruct A as (c & u & E & N1 & N2 & N3 & N4). rewrite E. cbn. repeat split; auto. intros ->.
    specialize (N4 eq_refl). specialize (HB N4). rewrite N4 in E. injection E as <-. cbn. intros B. apply HB. now apply (stops_count _ v).
Qed.

Scheme atom_mind := Induction for atom Sort Prop
  with row_mind := Induction for in_a_row Sort Prop
  with alternatives_mind := Induction for alternatives Sort Prop.
Combined Scheme grammar_mind from atom_mind, row_mind, alternatives_mind.

Lemma alternatives_first s r : alternatives s r -> forall v, closed v -> not_count (s ++ v).
Proof.
  destruct 1 as [s l R|s l t r R A]; intros v C; [apply (row_first _ _ R); now left|].
  rewrite <- !app_assoc. apply (row_first _ _ R). right. eexists. reflexivity.
Qed.

Lemma parse_complete :
  (forall s b r, atom s b r -> forall n acc v, (s = txt "{" -> ~ begins_count v) -> 2 * length (s ++ v) + 1 <= S n ->
     parse_seq (S n) acc (s ++ v) = parse_seq n ((if b then KOther else KAt, r) :: acc) v) /\
  (forall s l, in_a_row s l -> forall n acc v, stops v -> 2 * length (s ++ v) + 1 <= n ->
     parse_seq n acc (s ++ v) = Read (xseq (rev (map snd acc) ++ l), v)) /\
  (forall s r, alternatives s r -> forall n v, closed v -> 2 * length (s ++ v) + 2 <= n -> parse_sub n (s ++ v) = Read (r, v)).
Proof.
  apply (grammar_mind
    (fun s b r _ => forall n acc v, (s = txt "{" -> ~ begins_count v) -> 2 * length (s ++ v) + 1 <= S n ->
       parse_seq (S n) acc (s ++ v) = parse_seq n ((if b then KOther else KAt, r) :: acc) v)
    (fun s l _ => forall n acc v, stops v -> 2 * length (s ++ v) + 1 <= n -> parse_seq n acc (s ++ v) = Read (xseq (rev (map snd acc) ++ l), v))
    (fun s r _ => forall n v, closed v -> 2 * length (s ++ v) + 2 <= n -> parse_sub n (s ++ v) = Read (r, v))).
  - intros c N N92 n acc v HB HL. cbn in N. cbn [app parse_seq].
    destruct (Z.eqb_spec c 124); [lia|]. destruct (Z.eqb_spec c 41); [lia|]. cbn [orb]. destruct (Z.eqb_spec c 92); [lia|]. destruct (Z.eqb_spec c 91); [lia|].
    destruct (Z.eqb_spec c 42); [lia|]. destruct (Z.eqb_spec c 43); [lia|]. destruct (Z.eqb_spec c 63); [lia|]. cbn [orb].
    destruct (Z.eqb_spec c 123) as [->|]; [assert (Q : quantifier 123 v = Read None) by (apply brace_none; now apply HB); now rewrite Q|].
    destruct (Z.eqb_spec c 46); [lia|]. destruct (Z.eqb_spec c 94); [lia|]. destruct (Z.eqb_spec c 36); [lia|]. destruct (Z.eqb_spec c 40); [lia|]. reflexivity.
  - intros s c H n acc v _ HL. apply names_shape in H. destruct H as (d & u & -> & NB & K & NA & NZ & NB' & H).
    change (parse_seq (S n) acc ((92%Z :: d :: u) ++ v)) with (rbind (escape d (u ++ v)) (fun '(x, v) => parse_seq n (x :: acc) v)).
    assert (Q : escape d (u ++ v) = Read ((KOther, xchar c), v)); [|now rewrite Q].
    unfold escape. destruct (Z.eqb_spec d 65); [congruence|]. destruct (Z.eqb_spec d 90); [congruence|]. destruct (Z.eqb_spec d 98); [congruence|].
    destruct (Z.eqb_spec d 66); [congruence|]. now rewrite K, H.
  - intros d x H n acc v _ HL.
    change (parse_seq (S n) acc ([92%Z; d] ++ v)) with (rbind (escape d v) (fun '(x, v) => parse_seq n (x :: acc) v)).
    assert (Q : escape d v = Read ((KOther, XSet false [x]), v)); [|now rewrite Q]. apply class_letter_shape in H as S. destruct S as (NB & NA & NZ & NB').
    unfold escape. destruct (Z.eqb_spec d 65); [congruence|]. destruct (Z.eqb_spec d 90); [congruence|]. destruct (Z.eqb_spec d 98); [congruence|].
    destruct (Z.eqb_spec d 66); [congruence|]. apply class_kind_iff in H. now rewrite H.
  - reflexivity.
  - reflexivity.
  - reflexivity.
  - reflexivity.
  - reflexivity.
  - reflexivity.
  - reflexivity.
  - intros s l H NS n acc v _ HL. rewrite <- app_assoc.
    change (parse_seq (S n) acc (txt "[" ++ s ++ v)) with
      (let '(neg, u) := match s ++ v with m :: t' => if (m =? 94)%Z then (true, t') else (false, s ++ v) | [] => (false, s ++ v) end in
       rbind (parse_class n [] u) (fun '(l, v) => parse_seq n ((KOther, XSet neg l) :: acc) v)).
    assert (Q : match s ++ v with m :: t' => if (m =? 94)%Z then (true, t') else (false, s ++ v) | [] => (false, s ++ v) end = (false, s ++ v)).
    { apply set_items_shape in H. destruct s as [|m s]; [cbn in H; lia|]. cbn [app]. destruct (Z.eqb_spec m 94) as [->|]; [|reflexivity].
      exfalso. apply NS. eexists. reflexivity. }
    rewrite Q, (parse_class_complete true s l H n [] v eq_refl); [reflexivity|]. cbn in HL. rewrite !app_length in *. lia.
  - intros s l H n acc v _ HL. rewrite <- app_assoc.
    change (parse_seq (S n) acc (txt "[^" ++ s ++ v)) with
      (rbind (parse_class n [] (s ++ v)) (fun '(l, v) => parse_seq n ((KOther, XSet true l) :: acc) v)).
    rewrite (parse_class_complete true s l H n [] v eq_refl); [reflexivity|]. cbn in HL. rewrite !app_length in *. lia.
  - intros o f s r HO A IH n acc v _ HL. repeat rewrite <- app_assoc. cbn [app txt list_ascii_of_string List.map].
    change (Z.of_nat (nat_of_ascii "(")) with 40%Z. change (Z.of_nat (nat_of_ascii ")")) with 41%Z.
    change (parse_seq (S n) acc (40%Z :: o ++ s ++ 41%Z :: v)) with
      (rbind (group_open (o ++ s ++ 41%Z :: v)) (fun '(f, u) => rbind (parse_sub n u) (fun '(a, v) =>
         match v with z :: w => if (z =? 41)%Z then parse_seq n ((KOther, f a) :: acc) w else Bad | [] => Bad end))).
    assert (G : group_open (o ++ s ++ 41%Z :: v) = Read (f, s ++ 41%Z :: v)).
    { destruct HO; try reflexivity. cbn [app]. assert (N : not_count (s ++ 41%Z :: v)) by (apply (alternatives_first s r A); right; eexists; reflexivity).
      unfold group_open. destruct (s ++ 41%Z :: v) as [|c t]; [reflexivity|]. cbn in N. destruct (Z.eqb_spec c 63); [tauto|reflexivity]. }
    rewrite G. cbn [rbind]. rewrite IH; [reflexivity|right; eexists; reflexivity|].
    cbn in HL. rewrite !app_length in HL. cbn in HL. rewrite app_length. cbn. lia.
  - intros n acc v ST HL. destruct n as [|n]; [cbn in HL; lia|]. cbn [app]. rewrite seq_stops by exact ST. now rewrite app_nil_r.
  - intros s b r t l A IHA HB R IHR n acc v ST HL. rewrite <- app_assoc in *. destruct n as [|n]; [lia|].
    assert (L1 : 1 <= length s) by (apply atom_first in A; destruct A as (c & u & -> & _); cbn; lia).
    rewrite IHA; [|intros E B; apply (HB E); now apply (stops_count t v)|exact HL].
    rewrite IHR; [cbn [map rev snd]; now rewrite <- app_assoc|exact ST|]. rewrite app_length in HL. lia.
  - intros s r q lo hi g t l A IHA HR HB R IHR n acc v ST HL. repeat rewrite <- app_assoc in *. destruct n as [|n]; [lia|].
    assert (L1 : 1 <= length s) by (apply atom_first in A; destruct A as (c & u & -> & _); cbn; lia).
    rewrite IHA; [|intros E B; apply (HB E); apply (stops_count _ v ST); now repeat rewrite <- app_assoc|exact HL].
    pose proof (row_first t l R v ST) as NC. apply repeats_read in HR. destruct HR as (c & u & -> & HC & HQ).
    destruct n as [|n]; [rewrite !app_length in HL; cbn in HL; lia|].
    assert (STEP : parse_seq (S n) ((KOther, r) :: acc) (c :: u ++ lazily g ++ t ++ v) = parse_seq n ((KRep, XRep lo hi g r) :: acc) (t ++ v)).
    { change (match g with true => lazily g | false => lazily g end) with (lazily g).
      assert (E : parse_seq (S n) ((KOther, r) :: acc) (c :: u ++ lazily g ++ t ++ v) =
        rbind (quantifier c (u ++ lazily g ++ t ++ v)) (fun q =>
              match q with
              | None => parse_seq n ((KOther, xchar c) :: (KOther, r) :: acc) (u ++ lazily g ++ t ++ v)
              | Some (lo, hi, u) => rbind (repeat_last ((KOther, r) :: acc) lo hi u) (fun '(acc, v) => parse_seq n acc v)
              end)) by (destruct HC as [<-|[<-|[<-|[<-|[]]]]]; reflexivity).
      rewrite E, HQ. cbn [rbind]. destruct g; cbn [lazily app]; [|reflexivity]. unfold repeat_last.
      destruct (t ++ v) as [|m w]; [reflexivity|]. cbn in NC. destruct (Z.eqb_spec m 63); [tauto|]. destruct (Z.eqb_spec m 43); [tauto|]. reflexivity. }
    cbn [app]. rewrite STEP. rewrite IHR; [cbn [map rev snd]; now rewrite <- app_assoc|exact ST|]. rewrite !app_length in HL. cbn in HL. rewrite !app_length in *. lia.
  - intros s l R IHR n v C HL. destruct n as [|n]; [lia|]. apply sub_of_seq; [exact C|]. rewrite IHR; [reflexivity|now left|lia].
  - intros s l t r R IHR A IHA n v C HL. repeat rewrite <- app_assoc in *. destruct n as [|n]; [lia|]. cbn [parse_sub].
    rewrite IHR; [|right; eexists; reflexivity|lia]. cbn [map rev app txt list_ascii_of_string List.map rbind].
    change (Z.of_nat (nat_of_ascii "|") =? 124)%Z with true. cbv iota. rewrite IHA; [reflexivity|exact C|].
    rewrite !app_length in *. cbn in HL. lia.
Qed.

(** ** Patterns *)

Lemma behinds_iff r : counted r -> (behind_ok r = true <-> behinds_fixed r).
Proof.
  induction r as [| | |a IHa b IHb|a IHa b IHb|lo hi g a IHa|ahead pos a IHa| | | |]; cbn [counted behind_ok behinds_fixed]; intros C; try tauto.
  - rewrite andb_true_iff. tauto.
  - rewrite andb_true_iff. tauto.
  - destruct ahead; [rewrite (IHa C); intuition discriminate|]. rewrite andb_true_iff, (IHa C), (one_width_iff a C). intuition.
Qed.

Theorem parse_pattern p r : parse p = Read r <-> pattern p r.
Proof.
  split.
  - intros H. pose proof (parse_counted p r H) as C. apply parse_inv in H. destruct H as (H & B). apply (proj1 (parse_sound _)) in H.
    destruct H as (_ & u & E & A). rewrite app_nil_r in E. subst u. split; [exact A|]. now apply behinds_iff.
  - intros (A & B). assert (Q : parse_sub (2 * length p + 2) p = Read (r, [])).
    { rewrite <- (app_nil_r p) at 2. apply (proj2 (proj2 parse_complete) p r A); [now left|]. rewrite app_nil_r. lia. }
    pose proof (proj1 (parse_ends (2 * length p + 2)) p (Nat.le_refl _)) as C. rewrite Q in C. destruct C as (C & _).
    unfold parse. rewrite Q. cbn [rbind]. apply behinds_iff in B; [|exact C]. now rewrite B.
Qed.
Theorem pattern_unique p r r' : pattern p r -> pattern p r' -> r = r'.
Proof. intros H H'. apply parse_pattern in H, H'. congruence. Qed.

Theorem accepts_patterns E w a b : python_re E w a -> parse a <> Beyond ->
  (make_replace E a b = Ok (ReplaceAwithB a b) <-> exists r, pattern a r) /\ (make_replace E a b = Err ReErr <-> ~ exists r, pattern a r).
Proof.
  intros HP NB. pose proof (construct_checks E w a b HP) as C. pose proof (parse_decides a) as D.
  destruct (parse a) as [r| | |] eqn:EP; try congruence; rewrite C.
  - assert (X : exists r, pattern a r) by (exists r; now apply parse_pattern). split; split; auto; intros H; [discriminate|contradiction].
  - assert (X : ~ exists r, pattern a r) by (intros (r & H); apply parse_pattern in H; congruence). split; split; auto; intros H; [discriminate|contradiction].
Qed.
