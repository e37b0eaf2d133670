(** The search of [PyRe] finds what the meaning of the expressions says. *)

From Verif Require Import Py PyRe SpecRe.
From Coq Require Import List Lia PeanoNat Bool.

(** ** Iteration *)

Lemma iter_app (R : nat -> nat -> Prop) n m i j l : iter n R i j -> iter m R j l -> iter (n + m) R i l.
Proof.
  revert i. induction n as [|n IH]; cbn; intros i H K; [now subst|].
  destruct H as (x & A & B). eauto.
Qed.
Lemma iter_split (R : nat -> nat -> Prop) n m i l : iter (n + m) R i l -> exists j, iter n R i j /\ iter m R j l.
Proof.
  revert i. induction n as [|n IH]; cbn; intros i H; [eauto|].
  destruct H as (x & A & B). destruct (IH _ B) as (j & C & D). eauto.
Qed.
Lemma iter_imp (R S : nat -> nat -> Prop) n i j : (forall a b, R a b -> S a b) -> iter n R i j -> iter n S i j.
Proof. intros HI. revert i. induction n as [|n IH]; cbn; [auto|]. intros i (m & A & B). eauto. Qed.
Lemma iter_le (R : nat -> nat -> Prop) L n i j :
  (forall a b, a <= L -> R a b -> a <= b <= L) -> i <= L -> iter n R i j -> i <= j <= L.
Proof.
  intros HR. revert i. induction n as [|n IH]; cbn; intros i HI; [intros <-; lia|].
  intros (m & A & B). specialize (HR i m HI A). specialize (IH m ltac:(lia) B). lia.
Qed.
(** steps that do not move can be left out *)
Lemma iter_moving (R : nat -> nat -> Prop) n i j :
  iter n R i j -> exists q, q <= n /\ iter q (fun a b => R a b /\ a <> b) i j.
Proof.
  revert i. induction n as [|n IH]; cbn; intros i; [intros <-; exists 0; now cbn|].
  intros (m & A & B). destruct (IH _ B) as (q & LE & Q).
  destruct (Nat.eq_dec i m) as [<-|NE]; [exists q; split; [lia|exact Q]|].
  exists (S q). split; [lia|]. cbn. eauto.
Qed.
Lemma moving_count (R : nat -> nat -> Prop) L n i j :
  (forall a b, a <= L -> R a b -> a <= b <= L) -> i <= L ->
  iter n (fun a b => R a b /\ a <> b) i j -> n + i <= L.
Proof.
  intros HR. revert i. induction n as [|n IH]; cbn; intros i HI; [lia|].
  intros (m & (A & NE) & B). pose proof (HR i m HI A). specialize (IH m ltac:(lia) B). lia.
Qed.

Section Iterate.
Context (f : nat -> list nat) (R : nat -> nat -> Prop) (L : nat).
Context (HF : forall i j, i <= L -> (In j (f i) <-> R i j)) (HR : forall a b, a <= L -> R a b -> a <= b <= L).

Lemma times_iter n i j : i <= L -> (In j (times n f i) <-> iter n R i j).
Proof.
  revert i. induction n as [|n IH]; cbn [times iter]; intros i HI.
  - cbn. intuition.
  - rewrite in_flat_map. split.
    + intros (m & A & B). apply HF in A; [|lia]. exists m. split; [exact A|]. apply IH; [|exact B].
      apply HR in A; lia.
    + intros (m & A & B). exists m. split; [now apply HF|]. apply IH; [|exact B]. apply HR in A; lia.
Qed.

Lemma in_more n (g : bool) i j :
  In j (more (S n) g f i) <-> j = i \/ exists e, In e (f i) /\ In j (if e =? i then [e] else more n g f e).
Proof.
  cbn [more]. destruct g; [rewrite in_app_iff|]; rewrite in_flat_map || cbn [In];
    rewrite ?in_flat_map; cbn [In]; intuition.
Qed.

Lemma more_sound n g i j : i <= L -> In j (more n g f i) -> exists q, q <= n /\ iter q R i j.
Proof.
  revert i. induction n as [|n IH]; intros i HI H.
  - cbn in H. destruct H as [<-|[]]. exists 0. now cbn.
  - apply in_more in H. destruct H as [->|(e & A & B)]; [exists 0; split; [lia|now cbn]|].
    apply HF in A; [|lia]. destruct (Nat.eqb_spec e i) as [->|NE].
    + destruct B as [<-|[]]. exists 1. split; [lia|]. cbn. eauto.
    + destruct (IH e) as (q & LE & Q); [apply HR in A; lia|exact B|].
      exists (S q). split; [lia|]. cbn. eauto.
Qed.

Lemma more_complete n g q i j : i <= L -> q <= n ->
  iter q (fun a b => R a b /\ a <> b) i j -> In j (more n g f i).
Proof.
  revert q i. induction n as [|n IH]; intros q i HI HQ H.
  - replace q with 0 in H by lia. cbn in *. auto.
  - apply in_more. destruct q as [|q]; cbn in H; [auto|]. right. destruct H as (m & (A & NE) & B).
    exists m. split; [now apply HF|]. destruct (Nat.eqb_spec m i) as [->|_]; [congruence|].
    apply IH with (q := q); [apply HR in A; lia|lia|exact B].
Qed.

(** a repeat with at least [lo] and, if there is a limit, at most [h] iterations *)
Lemma repeat_iter lo (hi : option nat) g i j : i <= L -> (forall h, hi = Some h -> lo <= h) ->
  (In j (flat_map (more (match hi with Some h => h - lo | None => S L end) g f) (times lo f i)) <->
   exists n, lo <= n /\ (forall h, hi = Some h -> n <= h) /\ iter n R i j).
Proof.
  intros HI HL. rewrite in_flat_map. split.
  - intros (m & A & B). apply times_iter in A; [|lia].
    destruct (more_sound _ _ _ _ (proj2 (iter_le R L lo i m HR HI A)) B) as (q & LE & Q).
    exists (lo + q). split; [lia|]. split; [|eapply iter_app; eauto].
    intros h ->. specialize (HL h eq_refl). lia.
  - intros (n & A & B & C). replace n with (lo + (n - lo)) in C by lia.
    apply iter_split in C. destruct C as (m & C & D). exists m. split; [now apply times_iter|].
    pose proof (iter_le R L lo i m HR HI C) as BM.
    destruct (iter_moving _ _ _ _ D) as (q & LE & Q).
    apply more_complete with (q := q); [lia| |exact Q].
    destruct hi as [h|]; [specialize (B h eq_refl); lia|].
    pose proof (moving_count R L q m j HR ltac:(lia) Q). lia.
Qed.
End Iterate.

(** ** Matches *)

(** repeats in the right order, look-behinds of fixed width *)
Fixpoint good (r : rx) : Prop :=
  match r with
  | XSeq a b | XAlt a b => good a /\ good b
  | XRep lo hi _ a => good a /\ (forall h, hi = Some h -> lo <= h)
  | XLook true _ a => good a
  | XLook false _ a => good a /\ maxw a = Some (minw a)
  | _ => True
  end.

Lemma nth_error_lt {A} (l : list A) i x : nth_error l i = Some x -> i < length l.
Proof. intros H. apply nth_error_Some. congruence. Qed.

Lemma xmatch_bounds k s r : forall i j, i <= length s -> xmatch k s r i j -> i <= j <= length s.
Proof.
  induction r as [| | |a IHa b IHb|a IHa b IHb|lo hi g a IHa|[] [] a IHa| | | |]; cbn [xmatch]; intros i j HI H;
    try (destruct H as (-> & c & H & _); apply nth_error_lt in H; lia); try lia.
  - destruct H as (m & A & B). apply IHa in A; [|lia]. apply IHb in B; lia.
  - destruct H as [H|H]; [apply IHa in H|apply IHb in H]; lia.
  - destruct H as (n & _ & _ & H). eapply iter_le; eauto.
Qed.

Lemma item_has_iff k x c : item_has k x c = true <-> member k x c.
Proof.
  destruct x; cbn.
  - rewrite andb_true_iff, !Z.leb_le. tauto.
  - destruct neg, (c_digit k c); cbn; intuition congruence.
  - destruct neg, (c_space k c); cbn; intuition congruence.
  - destruct neg, (c_word k c); cbn; intuition congruence.
Qed.
Lemma set_has_iff k neg l c : set_has k neg l c = true <-> in_class k neg l c.
Proof.
  unfold set_has, in_class.
  assert (E : existsb (fun x => item_has k x c) l = true <-> exists x, In x l /\ member k x c).
  { rewrite existsb_exists. split; intros (x & A & B); exists x; split; auto; now apply item_has_iff. }
  destruct neg; cbn [xorb].
  - destruct (existsb _ l); cbn; intuition congruence.
  - destruct (existsb _ l); cbn; intuition congruence.
Qed.

Lemma minw_le k s r : forall i j, xmatch k s r i j -> good r -> i + minw r <= j.
Proof.
  induction r as [| | |a IHa b IHb|a IHa b IHb|lo hi g a IHa|[] [] a IHa| | | |]; cbn [xmatch minw good];
    intros i j H G; try (destruct H as (-> & _); lia); try lia.
  - destruct H as (m & A & B). apply IHa in A; [|tauto]. apply IHb in B; [|tauto]. lia.
  - destruct H as [H|H]; [apply IHa in H|apply IHb in H]; try tauto; lia.
  - destruct H as (n & LE & _ & H).
    assert (Q : i + n * minw a <= j); [|nia]. clear LE. revert i H.
    induction n as [|n IH]; cbn; intros i H; [lia|]. destruct H as (m & A & B).
    apply IHa in A; [|tauto]. apply IH in B. nia.
Qed.

Lemma iter_max (R : nat -> nat -> Prop) w n i j : (forall a b, R a b -> b <= a + w) -> iter n R i j -> j <= i + n * w.
Proof.
  intros HR. revert i. induction n as [|n IH]; cbn; intros i; [intros <-; lia|].
  intros (m & A & B). apply HR in A. apply IH in B. lia.
Qed.
Lemma maxw_ge k s r : forall i j w, xmatch k s r i j -> good r -> maxw r = Some w -> j <= i + w.
Proof.
  induction r as [| | |a IHa b IHb|a IHa b IHb|lo hi g a IHa|[] [] a IHa| | | |]; cbn [xmatch maxw good];
    intros i j w H G W; try (injection W as <-; try destruct H as (-> & _); lia).
  - destruct H as (m & A & B). destruct (maxw a) as [x|]; [|discriminate]. destruct (maxw b) as [y|]; [|discriminate].
    injection W as <-. apply (IHa _ _ x) in A; [|tauto|reflexivity]. apply (IHb _ _ y) in B; [|tauto|reflexivity]. lia.
  - destruct (maxw a) as [x|]; [|discriminate]. destruct (maxw b) as [y|]; [|discriminate]. injection W as <-.
    destruct H as [H|H]; [apply (IHa _ _ x) in H|apply (IHb _ _ y) in H]; try tauto; lia.
  - destruct H as (n & LE & HH & H).
    destruct hi as [[|h]|].
    + injection W as <-. specialize (HH 0 eq_refl). replace n with 0 in H by lia. cbn in H. lia.
    + destruct (maxw a) as [[|x]|] eqn:MA; [|injection W as <-|discriminate].
      * injection W as <-. apply (iter_max _ 0) in H; [lia|]. intros a0 b0 Q. exact (IHa _ _ 0 Q (proj1 G) eq_refl).
      * specialize (HH _ eq_refl). apply (iter_max _ (S x)) in H; [nia|]. intros a0 b0 Q. exact (IHa _ _ (S x) Q (proj1 G) eq_refl).
    + destruct (maxw a) as [[|x]|] eqn:MA; try discriminate. injection W as <-.
      apply (iter_max _ 0) in H; [lia|]. intros a0 b0 Q. exact (IHa _ _ 0 Q (proj1 G) eq_refl).
  - injection W as <-. lia.
  - injection W as <-. lia.
Qed.

Lemma nilb_false {A} (l : list A) : nilb l = false <-> exists x, In x l.
Proof. destruct l; cbn; split; intros H; try discriminate; [destruct H as (? & [])|eauto|reflexivity]. Qed.
Lemma nilb_true {A} (l : list A) : nilb l = true <-> ~ exists x, In x l.
Proof.
  destruct l; cbn; split; intros H; auto; try discriminate; [intros (? & [])|]. destruct H. eauto.
Qed.

Lemma wordb_iff k s i : is_wordb k s i = true <-> boundary k s i.
Proof.
  unfold is_wordb, boundary. set (f := fun j => match nth_error s j with Some c => c_word k c | None => false end).
  assert (F : forall j, f j = true <-> word_at k s j).
  { intros j. unfold f, word_at. destruct (nth_error s j) as [c|].
    - split; [eauto|intros (d & [= <-] & H); exact H].
    - split; [discriminate|intros (d & [=] & _)]. }
  set (b := match i with 0 => false | S j => f j end).
  assert (B : b = true <-> exists j, i = S j /\ word_at k s j).
  { unfold b. destruct i as [|i]; [split; [discriminate|intros (j & [=] & _)]|].
    rewrite F. split; [eauto|intros (j & [= <-] & H); exact H]. }
  change (xorb b (f i) = true <-> (exists j, i = S j /\ word_at k s j) /\ ~ word_at k s i \/
    ~ (exists j, i = S j /\ word_at k s j) /\ word_at k s i).
  rewrite <- B, <- F. destruct b, (f i); cbn; intuition congruence.
Qed.

Lemma dollar_iff s i : i <= length s ->
  (i =? length s) || ((S i =? length s) && match nth_error s i with Some c => (c =? 10)%Z | None => false end) = true <->
  i = length s \/ exists t, s = t ++ [10%Z] /\ i = length t.
Proof.
  intros HI. rewrite orb_true_iff, andb_true_iff, !Nat.eqb_eq. split.
  - intros [H|(A & B)]; [auto|]. right. destruct (nth_error s i) as [c|] eqn:EN; [|discriminate].
    apply Z.eqb_eq in B. subst c. apply nth_error_split in EN. destruct EN as (u & v & -> & LU).
    rewrite app_length in A. cbn in A. destruct v; [|cbn in A; lia]. eauto.
  - intros [H|(t & -> & ->)]; [auto|]. right. rewrite app_length. cbn. split; [lia|].
    rewrite nth_error_app2, Nat.sub_diag by lia. reflexivity.
Qed.

Lemma xends_iff k s r : forall i j, good r -> i <= length s -> (In j (xends k s r i) <-> xmatch k s r i j).
Proof.
  induction r as [|neg l| |a IHa b IHb|a IHa b IHb|lo hi g a IHa|ahead pos a IHa| | | |neg]; intros i j G HI.
  - cbn. intuition.
  - cbn. destruct (nth_error s i) as [c|]; [|split; [intros []|intros (_ & c & [=] & _)]].
    destruct (set_has k neg l c) eqn:ES.
    + cbn. split; [intros [<-|[]]; split; auto; exists c; split; auto; now apply set_has_iff|].
      intros (-> & _). auto.
    + split; [intros []|]. intros (_ & d & [= <-] & H). apply set_has_iff in H. congruence.
  - cbn. destruct (nth_error s i) as [c|]; [|split; [intros []|intros (_ & c & [=] & _)]].
    destruct (Z.eqb_spec c 10) as [->|NE].
    + split; [intros []|]. intros (_ & d & [= <-] & H). congruence.
    + cbn. split; [intros [<-|[]]; eauto|]. intros (-> & _). auto.
  - cbn [xends xmatch]. rewrite in_flat_map. cbn in G. split.
    + intros (m & A & B). apply IHa in A; [|tauto|lia]. exists m. split; [exact A|].
      apply IHb in B; [exact B|tauto|]. apply (xmatch_bounds k s a i m) in A; lia.
    + intros (m & A & B). exists m. pose proof (xmatch_bounds k s a i m HI A). split; [apply IHa; tauto|].
      apply IHb; [tauto|lia|exact B].
  - cbn [xends xmatch]. rewrite in_app_iff. cbn in G. rewrite IHa, IHb by tauto. tauto.
  - cbn [xends xmatch]. cbn in G. destruct G as (G & GL).
    apply (repeat_iter (xends k s a) (xmatch k s a) (length s)); auto.
    intros x y. apply xmatch_bounds.
  - destruct ahead.
    + cbn [good] in G. cbn [xends xmatch].
      assert (Q : (exists e, In e (xends k s a i)) <-> exists e, xmatch k s a i e).
      { split; intros (e & H); exists e; now apply IHa. }
      destruct pos; destruct (nilb (xends k s a i)) eqn:EN; cbn.
      * apply nilb_true in EN. rewrite Q in EN. split; [intros []|intros (_ & H); tauto].
      * apply nilb_false in EN. rewrite Q in EN. split; [intros [<-|[]]; auto|intros (<- & _); auto].
      * apply nilb_true in EN. rewrite Q in EN. split; [intros [<-|[]]; auto|intros (<- & _); auto].
      * apply nilb_false in EN. rewrite Q in EN. split; [intros []|intros (_ & H); tauto].
    + cbn [good] in G. destruct G as (G & W). cbn [xends xmatch].
      set (found := (minw a <=? i) && negb (nilb (xends k s a (i - minw a)))).
      assert (Q : found = true <-> exists b, b <= i /\ xmatch k s a b i).
      { unfold found. rewrite andb_true_iff, negb_true_iff, Nat.leb_le, nilb_false. split.
        - intros (LE & e & H). apply IHa in H; [|exact G|lia].
          pose proof (minw_le k s a _ _ H G). pose proof (maxw_ge k s a _ _ _ H G W).
          exists (i - minw a). split; [lia|]. replace i with e at 2 by lia. exact H.
        - intros (b & LE & H). pose proof (minw_le k s a _ _ H G). pose proof (maxw_ge k s a _ _ _ H G W).
          split; [lia|]. exists i. replace (i - minw a) with b by lia. apply IHa; [exact G|lia|exact H]. }
      destruct pos; destruct found; cbn.
      * split; [intros [<-|[]]; split; auto; now apply Q|intros (<- & _); auto].
      * split; [intros []|intros (_ & H); apply Q in H; discriminate].
      * split; [intros []|intros (_ & H)]. destruct H. now apply Q.
      * split; [intros [<-|[]]; split; auto; rewrite <- Q; discriminate|intros (<- & _); auto].
  - cbn. destruct (Nat.eqb_spec i 0); cbn; [intuition|split; [intros []|lia]].
  - cbn. destruct (Nat.eqb_spec i (length s)); cbn; [intuition|split; [intros []|lia]].
  - cbn [xends xmatch]. pose proof (dollar_iff s i HI) as D.
    destruct ((i =? length s) || _).
    + cbn. split; [intros [<-|[]]; split; auto; now apply D|intros (<- & _); auto].
    + split; [intros []|]. intros (_ & H). apply D in H. discriminate.
  - cbn [xends xmatch]. destruct s as [|c s]; [split; [intros []|intros (_ & H & _); congruence]|].
    pose proof (wordb_iff k (c :: s) i) as W. destruct neg; destruct (is_wordb k (c :: s) i); cbn [xorb In].
    + split; [intros []|]. intros (_ & _ & H). destruct H. now apply W.
    + split; [intros [<-|[]]|intros (<- & _); auto]. split; [auto|]. split; [discriminate|]. rewrite <- W. discriminate.
    + split; [intros [<-|[]]|intros (<- & _); auto]. split; [auto|]. split; [discriminate|]. now apply W.
    + split; [intros []|]. intros (_ & _ & H). apply W in H. discriminate.
Qed.

(** ** Search *)

Lemma xsearch_at_some k r s n i j e : xsearch_at k r s n i = Some (j, e) ->
  i <= j <= i + n /\ (exists l, xends k s r j = e :: l) /\ forall q, i <= q < j -> xends k s r q = [].
Proof.
  revert i. induction n as [|n IH]; intros i; cbn; destruct (xends k s r i) as [|x l] eqn:EX; try discriminate.
  - intros [= <- <-]. split; [lia|]. split; [eauto|]. intros; lia.
  - intros H. apply IH in H. destruct H as (B & L & Q). split; [lia|]. split; [exact L|].
    intros q HQ. destruct (Nat.eq_dec q i) as [->|]; [exact EX|]. apply Q. lia.
  - intros [= <- <-]. split; [lia|]. split; [eauto|]. intros; lia.
Qed.
Lemma xsearch_at_none k r s n i : xsearch_at k r s n i = None -> forall q, i <= q <= i + n -> xends k s r q = [].
Proof.
  revert i. induction n as [|n IH]; intros i; cbn; destruct (xends k s r i) as [|x l] eqn:EX; try discriminate; intros H q HQ.
  - now replace q with i by lia.
  - destruct (Nat.eq_dec q i) as [->|]; [exact EX|]. apply (IH (S i)); [exact H|lia].
Qed.

Lemma xsearch_some k r s p i e : xsearch k r s p = Some (i, e) ->
  p <= i <= length s /\ (exists l, xends k s r i = e :: l) /\ forall q, p <= q < i -> xends k s r q = [].
Proof.
  unfold xsearch. destruct (Nat.ltb_spec (length s) p); [discriminate|]. intros H'.
  apply xsearch_at_some in H'. destruct H' as (B & L & Q). split; [lia|]. split; [exact L|]. intros q HQ. apply Q. lia.
Qed.
Lemma xsearch_none k r s p : p <= length s -> xsearch k r s p = None ->
  forall q, p <= q <= length s -> xends k s r q = [].
Proof.
  unfold xsearch. destruct (Nat.ltb_spec (length s) p); [lia|]. intros _ H' q HQ.
  eapply xsearch_at_none; [exact H'|]. lia.
Qed.

Lemma xsearch_leftmost k r s p : good r -> p <= length s ->
  match xsearch k r s p with
  | Some (i, e) => p <= i /\ i <= e /\ e <= length s /\ xmatch k s r i e /\
                   forall j e', p <= j < i -> ~ xmatch k s r j e'
  | None => forall j e', p <= j <= length s -> ~ xmatch k s r j e'
  end.
Proof.
  intros G HP. destruct (xsearch k r s p) as [[i e]|] eqn:ES.
  - apply xsearch_some in ES. destruct ES as (B & (l & L) & Q).
    assert (M : xmatch k s r i e) by (apply xends_iff; [exact G|lia|rewrite L; now left]).
    pose proof (xmatch_bounds k s r i e ltac:(lia) M). repeat split; try lia; [exact M|].
    intros j e' HJ M'. apply xends_iff in M'; [|exact G|lia]. rewrite Q in M' by lia. destruct M'.
  - intros j e' HJ M'. apply xends_iff in M'; [|exact G|lia]. rewrite (xsearch_none k r s p HP ES j HJ) in M'. destruct M'.
Qed.
