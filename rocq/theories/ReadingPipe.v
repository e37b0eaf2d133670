(** Labels keep their order: pipes, names of entities, datums. *)

From Coq Require Import Lia ZArith Bool Sorted.
From Verif Require Import Py PyFacts Edit Labels SpecEdit SpecLabels LabelProofs Ops SpecOps Elements
  SpecElements DatumProofs PackProofs Pipe SpecPipe PipeProofs PipeAlign SpecReading ReadingProofs.
From Coq Require Import List Permutation.
Import ListNotations.
Local Open Scope nat_scope.

Lemma orderly_align als : forall l l', Forall (fun a => forall l l', align a l = Ok l' -> in_order l l') als ->
  align_all als l = Ok l' -> in_order l l'.
Proof.
  induction als as [|a als IH]; intros l l' HF H; unfold align_all in H; cbn [foldM] in H.
  - injection H as <-. apply order_refl.
  - inversion HF as [|? ? H1 H2]; subst. destruct (align a l) as [m|] eqn:EA; cbn [bind] in H; [|discriminate].
    apply (order_trans _ m); auto.
Qed.
Lemma orderly_inverse E als : forall l l', Forall (fun a => forall l l', align_inverse E a l = Ok l' -> in_order l l') als ->
  align_inverse_all E als l = Ok l' -> in_order l l'.
Proof.
  intros l l' HF H. unfold align_inverse_all in H. apply Forall_rev in HF. revert l H.
  induction (rev als) as [|a r IH]; intros l H; cbn [foldM] in H.
  - injection H as <-. apply order_refl.
  - inversion HF as [|? ? H1 H2]; subst. destruct (align_inverse E a l) as [m|] eqn:EA; cbn [bind] in H; [|discriminate].
    apply (order_trans _ m); auto.
Qed.

Theorem pipe_orderly E p x y als coll : python E -> regexes E -> reachable E p -> transform_sequence E p x = Ok (y, als, coll) ->
  (forall l l', align_all als l = Ok l' -> in_order l l') /\
  (forall l l', align_inverse_all E als l = Ok l' -> in_order l l').
Proof.
  intros PY RX HR HT. destruct (reachable_sound E p HR) as (HM & _). unfold transform_sequence in HT.
  assert (HF : Forall (orderly E) als).
  { revert x als coll HT. induction HM as [|o ops HO HM IH]; intros x als coll; cbn [run].
    - intros [= _ <- _]. constructor.
    - destruct (transform_op E (o_op o) x) as [[m a]|] eqn:HT; cbn [bind]; [|discriminate].
      destruct (run E ops m) as [[[z als'] coll']|] eqn:HR'; cbn [bind]; [|discriminate].
      intros [= -> <- _]. constructor; [|eapply IH; eauto].
      exact (operator_orderly E (o_op o) x m a PY (made_built _ _ RX HO) HT). }
  split; intros l l' HA.
  - apply (orderly_align als l l'); [|exact HA]. eapply Forall_impl; [|exact HF]. intros a (H & _). exact H.
  - apply (orderly_inverse E als l l'); [|exact HA]. eapply Forall_impl; [|exact HF]. intros a (_ & H). exact H.
Qed.

Theorem operator_order E o x y a : python E -> built E o -> transform_op E o x = Ok (y, a) ->
  (forall l l', align a l = Ok l' -> in_order l l') /\
  (forall l l', align_inverse E a l = Ok l' -> in_order l l').
Proof. exact (operator_orderly E o x y a). Qed.

Theorem propagate_orderly (A : Type) (f : transducer) labels (g : list (repl A)) out :
  (forall ls k new, f ls k = Ok new -> in_order ls new) -> sized f ->
  group_in 0 (length labels) g -> propagate labels g f = Ok out -> in_order labels out.
Proof. exact (order_propagate f labels g out). Qed.

(** ** What follows *)

Theorem order_before l l' a b : in_order l l' -> a <> 0%Z -> b <> 0%Z -> all_before a b l -> all_before a b l'.
Proof.
  intros (f & F1 & F2) NA NB H i j Hi Hj. apply F2 in Hi; [|exact NA]. apply F2 in Hj; [|exact NB].
  specialize (H _ _ Hi Hj). destruct (Nat.lt_ge_cases i j) as [L|L]; [exact L|]. specialize (F1 j i L). lia.
Qed.

Notation nonzero := (fun x => negb (x =? 0)%Z).
Lemma order_filter l : in_order l (filter nonzero l) /\ in_order (filter nonzero l) l.
Proof.
  induction l as [|x l (I1 & I2)]; [split; apply order_refl|]. cbn [filter]. destruct (Z.eqb_spec x 0) as [-> |N]; cbn [negb].
  - split.
    + apply (order_trans _ l); [apply (order_skip (0%Z :: l) 1)|exact I1].
    + apply (order_app [] _ [0%Z] l); [apply (order_zero [] 1)|exact I2].
  - split; [apply (order_app [x] l [x])|apply (order_app [x] _ [x] l)]; auto using order_refl.
Qed.
Lemma squeeze_cons x y t : squeeze (x :: y :: t) = if (x =? y)%Z then squeeze (y :: t) else x :: squeeze (y :: t).
Proof. reflexivity. Qed.
Lemma order_squeeze l : in_order l (squeeze l) /\ in_order (squeeze l) l.
Proof.
  induction l as [|x l IH]; [split; apply order_refl|]. destruct l as [|y t]; [split; apply order_refl|].
  destruct IH as (I1 & I2). rewrite squeeze_cons. destruct (Z.eqb_spec x y) as [-> |N].
  - split.
    + apply (order_trans _ (y :: t)); [apply (order_skip (y :: y :: t) 1)|exact I1].
    + apply (order_trans _ (y :: t)); [exact I2|]. exists pred. split; [intros; lia|].
      intros [|i] z H _; exact H.
  - split; [apply (order_app [x] (y :: t) [x])|apply (order_app [x] _ [x] (y :: t))]; auto using order_refl.
Qed.
Lemma order_reading l : in_order l (reading l) /\ in_order (reading l) l.
Proof.
  unfold reading. destruct (order_filter l) as (F1 & F2). destruct (order_squeeze (filter nonzero l)) as (S1 & S2).
  split; eapply order_trans; eauto.
Qed.

Fixpoint changes (l : list Z) : Prop :=
  match l with
  | x :: ((y :: _) as t) => x <> y /\ changes t
  | _ => True
  end.
Lemma squeeze_head x l : exists t, squeeze (x :: l) = x :: t.
Proof.
  revert x. induction l as [|y l IH]; intros x; [now exists []|]. rewrite squeeze_cons.
  destruct (Z.eqb_spec x y) as [-> |N]; [apply IH|]. now eexists.
Qed.
Lemma squeeze_changes l : changes (squeeze l).
Proof.
  induction l as [|x l IH]; [exact I|]. destruct l as [|y t]; [exact I|]. rewrite squeeze_cons.
  destruct (Z.eqb_spec x y) as [-> |N]; [exact IH|]. destruct (squeeze_head y t) as (r & E). rewrite E in *. now split.
Qed.
Lemma squeeze_In x l : In x (squeeze l) -> In x l.
Proof.
  induction l as [|y l IH]; [auto|]. destruct l as [|z t]; [auto|]. rewrite squeeze_cons.
  destruct (y =? z)%Z; [intros H; right; auto|]. intros [H|H]; [now left|right; auto].
Qed.
Lemma reading_nonzero l : forall z, In z (reading l) -> z <> 0%Z.
Proof.
  intros z H. apply squeeze_In, filter_In in H. destruct H as (_ & H). now destruct (Z.eqb_spec z 0).
Qed.
Lemma changes_nth l : changes l -> forall i x y, nth_error l i = Some x -> nth_error l (S i) = Some y -> x <> y.
Proof.
  induction l as [|a l IH]; intros H [|i] x y H1 H2; try discriminate; (destruct l as [|b t]; [try discriminate H2; destruct i; discriminate H2|]).
  - cbn in H1, H2. destruct H as (H & _). congruence.
  - destruct H as (_ & H). exact (IH H i x y H1 H2).
Qed.

Lemma left_out_nil {A} (l : list A) : left_out l [].
Proof. induction l; now constructor. Qed.
Lemma left_out_strict (m : list Z) : forall w (f : nat -> nat), (forall i j, i <= j -> f i <= f j) ->
  (forall i, S i < length w -> f i < f (S i)) -> (forall i z, nth_error w i = Some z -> nth_error m (f i) = Some z) -> left_out m w.
Proof.
  induction m as [|x m IH]; intros w f F1 F2 F3.
  - destruct w as [|z w]; [constructor|]. specialize (F3 0 z eq_refl). destruct (f 0); discriminate.
  - destruct w as [|z w]; [apply left_out_nil|]. destruct (f 0) as [|n] eqn:F0.
    + pose proof (F3 0 z eq_refl) as Q. rewrite F0 in Q. injection Q as ->. constructor.
      assert (P : forall i, i < length w -> 1 <= f (S i)).
      { intros i L. specialize (F2 0 ltac:(cbn [length]; lia)). specialize (F1 1 (S i) ltac:(lia)). lia. }
      apply (IH w (fun i => pred (f (S i)))).
      * intros i j L. specialize (F1 (S i) (S j) ltac:(lia)). lia.
      * intros i L. specialize (F2 (S i) ltac:(cbn [length]; lia)). specialize (P i ltac:(lia)). lia.
      * intros i y H. assert (L : i < length w) by (apply nth_error_Some; congruence).
        specialize (F3 (S i) y H). specialize (P i L). destruct (f (S i)); [lia|exact F3].
    + constructor. assert (P : forall i, S n <= f i) by (intros i; rewrite <- F0; apply F1; lia).
      apply (IH (z :: w) (fun i => pred (f i))).
      * intros i j L. specialize (F1 i j L). lia.
      * intros i L. specialize (F2 i L). specialize (P i). lia.
      * intros i y H. specialize (F3 i y H). specialize (P i). destruct (f i); [lia|exact F3].
Qed.

Theorem order_read l l' : in_order l l' -> left_out (reading l) (reading l').
Proof.
  intros H. assert (Q : in_order (reading l) (reading l')).
  { eapply order_trans; [apply order_reading|]. eapply order_trans; [exact H|]. apply order_reading. }
  destruct Q as (f & F1 & F2). apply (left_out_strict _ _ f F1).
  - intros i L. destruct (nth_error (reading l') i) as [x|] eqn:EX; [|apply nth_error_None in EX; lia].
    destruct (nth_error (reading l') (S i)) as [y|] eqn:EY; [|apply nth_error_None in EY; lia].
    pose proof (changes_nth _ (squeeze_changes _) i x y EX EY) as N.
    pose proof (F2 i x EX (reading_nonzero _ _ (nth_error_In _ _ EX))) as HX.
    pose proof (F2 (S i) y EY (reading_nonzero _ _ (nth_error_In _ _ EY))) as HY.
    specialize (F1 i (S i) ltac:(lia)). destruct (Nat.eq_dec (f i) (f (S i))) as [Q|Q]; [|lia].
    rewrite Q in HX. congruence.
  - intros i z H2. apply F2; [exact H2|]. eapply reading_nonzero, nth_error_In, H2.
Qed.

Theorem pipe_before E p x y als coll a b : python E -> regexes E -> reachable E p ->
  transform_sequence E p x = Ok (y, als, coll) -> a <> 0%Z -> b <> 0%Z ->
  (forall l l', align_all als l = Ok l' -> all_before a b l -> all_before a b l') /\
  (forall l l', align_inverse_all E als l = Ok l' -> all_before a b l -> all_before a b l').
Proof.
  intros PY RX HR HT NA NB. destruct (pipe_orderly E p x y als coll PY RX HR HT) as (H1 & H2).
  split; intros l l' HA; apply order_before; auto.
Qed.
Theorem pipe_names E p x y als coll : python E -> regexes E -> reachable E p -> transform_sequence E p x = Ok (y, als, coll) ->
  (forall l l', align_all als l = Ok l' -> left_out (reading l) (reading l')) /\
  (forall l l', align_inverse_all E als l = Ok l' -> left_out (reading l) (reading l')).
Proof.
  intros PY RX HR HT. destruct (pipe_orderly E p x y als coll PY RX HR HT) as (H1 & H2).
  split; intros l l' HA; apply order_read; auto.
Qed.

(** ** Datums *)

Lemma nth_error_map_inv {A B} (f : A -> B) l i y : nth_error (map f l) i = Some y -> exists x, nth_error l i = Some x /\ y = f x.
Proof.
  revert i. induction l as [|a l IH]; intros [|i] H; try discriminate; cbn in *.
  - injection H as <-. eauto.
  - auto.
Qed.
Definition ended (es : list entity) (i : Z) : nat := length (filter (fun e => e_end e <=? i)%Z es).
Lemma ended_nth es : StronglySorted before es -> Forall (fun e => (e_start e <= e_end e)%Z) es -> forall e i, In e es -> covers e i ->
  nth_error es (ended es i) = Some e.
Proof.
  induction 1 as [|a es HS IH HF]; intros HL e i HI HC; [destruct HI|]. inversion HL as [|? ? L1 L2]; subst.
  unfold ended. cbn [filter]. destruct HI as [<-|HI].
  - destruct HC as (C1 & C2). destruct (Z.leb_spec (e_end a) i); [lia|].
    replace (filter (fun e => e_end e <=? i)%Z es) with (@nil entity); [reflexivity|].
    assert (X : Forall (fun e => (i < e_end e)%Z) es).
    { rewrite Forall_forall in *. intros e HE. specialize (HF e HE). specialize (L2 e HE). unfold before in HF. lia. }
    clear - X. induction X as [|e es L X IH]; [reflexivity|]. cbn [filter]. destruct (Z.leb_spec (e_end e) i); [lia|exact IH].
  - pose proof (proj1 (Forall_forall _ _) HF e HI) as B. unfold before in B. destruct HC as (C1 & C2).
    destruct (Z.leb_spec (e_end a) i); [|lia]. cbn [length nth_error]. apply IH; auto. now split.
Qed.

Lemma order_unpack d u ints ls : is_datum d -> Forall (inside (d_utterance d)) (d_entities d) ->
  unpack_datum d = Ok (u, ints, ls) -> in_order (map e_label (d_entities d)) ls.
Proof.
  intros HD HI HU. destruct (unpack_inside d HD HI) as (l & U & L & P). rewrite U in HU. injection HU as _ _ <-.
  destruct (is_datum_inv d HD) as (_ & _ & _ & _ & SB & _).
  assert (HL : Forall (fun e => (e_start e <= e_end e)%Z) (d_entities d)).
  { eapply Forall_impl; [|exact HI]. intros e (H & _). lia. }
  exists (fun i => ended (d_entities d) (Z.of_nat i)). split.
  - intros i j LE. unfold ended. clear - LE. induction (d_entities d) as [|e es IH]; [apply le_n|]. cbn [filter].
    destruct (Z.leb_spec (e_end e) (Z.of_nat i)), (Z.leb_spec (e_end e) (Z.of_nat j)); cbn [length]; lia.
  - intros i z H N. assert (LI : i < length l) by (apply nth_error_Some; congruence).
    specialize (P (Z.of_nat i) ltac:(lia)). unfold at_ in P. rewrite Nat2Z.id in P.
    rewrite (nth_error_nth l i 0%Z H) in P. destruct P as [(e & HE & HC & <-)|(_ & ->)]; [|congruence].
    apply map_nth_error. now apply ended_nth.
Qed.

Theorem datum_order E p d y ints ls als coll : python E -> regexes E -> reachable E p ->
  is_datum d -> Forall (inside (d_utterance d)) (d_entities d) ->
  transform E p d = Ok (y, ints, ls, als, coll) -> left_out (names d) (reading ls).
Proof.
  intros PY RX HR HD HI HT. unfold transform in HT.
  destruct (unpack_datum d) as [[[u is_] l0]|] eqn:EU; cbn [bind] in HT; [|discriminate].
  destruct (transform_sequence E p (SStr u)) as [[[y' als'] coll']|] eqn:ES; cbn [bind] in HT; [|discriminate].
  destruct (align_all als' l0) as [l1|] eqn:EA; cbn [bind] in HT; [|discriminate]. injection HT as <- <- <- <- <-.
  apply order_read. eapply order_trans; [exact (order_unpack d u is_ l0 HD HI EU)|].
  exact (proj1 (pipe_orderly E p _ _ _ _ PY RX HR ES) _ _ EA).
Qed.

Lemma order_pack u ints ls d : length u = length ls -> u <> [] -> Forall i32 ints ->
  (forall s t l, SpecElements.run ls s t l -> i32 t /\ i32 l) -> pack_to_datum u ints ls = Ok d ->
  in_order ls (map e_label (d_entities d)).
Proof.
  intros HL NU HI HB HP. destruct (pack_spec u ints ls HL NU HI HB) as (d' & HP' & HD & EU & _ & _ & HIN & _ & HR & SB).
  rewrite HP in HP'. injection HP' as <-.
  exists (fun k => match nth_error (d_entities d) k with Some e => Z.to_nat (e_start e) | None => length ls end).
  assert (RE : forall e, In e (d_entities d) -> SpecElements.run ls (e_start e) (e_end e) (e_label e)) by (intros e HE; apply HR; eauto).
  split.
  - intros i j LE. destruct (nth_error (d_entities d) j) as [b|] eqn:EJ.
    + assert (LJ : j < length (d_entities d)) by (apply nth_error_Some; congruence).
      destruct (nth_error (d_entities d) i) as [a|] eqn:EI; [|apply nth_error_None in EI; lia].
      destruct (Nat.eq_dec i j) as [-> |NE]; [rewrite EI in EJ; injection EJ as ->; lia|].
      assert (B : before a b).
      { clear - SB EI EJ LE NE. revert i j EI EJ LE NE. induction SB as [|x es HS IH HF]; intros i j EI EJ LE NE; [destruct i; discriminate|].
        destruct j as [|j]; [lia|]. destruct i as [|i].
        - injection EI as <-. apply (proj1 (Forall_forall _ _) HF). eapply nth_error_In, EJ.
        - apply (IH i j EI EJ); lia. }
      pose proof (proj1 (RE a (nth_error_In _ _ EI))) as Q. unfold before in B. lia.
    + destruct (nth_error (d_entities d) i) as [a|] eqn:EI; [|lia].
      destruct (RE a (nth_error_In _ _ EI)) as (Q & Q2 & _). lia.
  - intros i z H _. apply nth_error_map_inv in H. destruct H as (e & HE & ->). rewrite HE.
    destruct (RE e (nth_error_In _ _ HE)) as (Q1 & Q2 & _ & Q3 & _). specialize (Q3 (e_start e) ltac:(lia)).
    unfold at_ in Q3. rewrite <- Q3. apply nth_error_nth'. lia.
Qed.

Theorem back_order E p x y als coll l l' u ints d : python E -> regexes E -> reachable E p ->
  transform_sequence E p x = Ok (y, als, coll) -> align_inverse_all E als l = Ok l' ->
  length u = length l' -> u <> [] -> Forall i32 ints -> (forall s t z, SpecElements.run l' s t z -> i32 t /\ i32 z) ->
  pack_to_datum u ints l' = Ok d -> left_out (reading l) (names d).
Proof.
  intros PY RX HR HT HA HL NU HI HB HP. apply order_read. eapply order_trans.
  - exact (proj2 (pipe_orderly E p _ _ _ _ PY RX HR HT) _ _ HA).
  - exact (order_pack u ints l' d HL NU HI HB HP).
Qed.
