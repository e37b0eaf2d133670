(** Proofs about Datum: construction, equality, unpacking and packing. *)

From Coq Require Import QArith Sorted.
From Verif Require Import Py PyFacts Json Elements SpecElements.
Local Open Scope Z_scope.

(** ** Integers *)

Lemma i32b_spec z : reflect (i32 z) (i32b z).
Proof.
  unfold i32b, i32. change (2 ^ 31) with 2147483648.
  destruct (Z.leb_spec0 (-2147483648) z), (Z.ltb_spec0 z 2147483648); cbn; constructor; lia.
Qed.

Lemma to_i32_ok z : i32 z -> to_i32 z = Ok z.
Proof. intros H. unfold to_i32. now destruct (i32b_spec z). Qed.

Lemma to_i32_inv z y : to_i32 z = Ok y -> y = z /\ i32 z.
Proof. unfold to_i32. destruct (i32b_spec z); [intros [= <-]; auto|discriminate]. Qed.

Lemma to_i32_err z : ~ i32 z -> to_i32 z = Err OverflowErr.
Proof. intros H. unfold to_i32. now destruct (i32b_spec z). Qed.

Lemma make_entity_ok l v s t r : i32 l -> i32 s -> i32 t ->
  make_entity l v s t r = Ok (mkEntity l v s t (dedup (match r with Some r => r | None => [] end))).
Proof. intros. unfold make_entity. rewrite !to_i32_ok by assumption. reflexivity. Qed.

Lemma make_entity_inv l v s t r e : make_entity l v s t r = Ok e ->
  i32 l /\ i32 s /\ i32 t /\
  e = mkEntity l v s t (dedup (match r with Some r => r | None => [] end)).
Proof.
  unfold make_entity.
  destruct (to_i32 l) as [l'|] eqn:HL; [|discriminate].
  destruct (to_i32 s) as [s'|] eqn:HS; [|discriminate].
  destruct (to_i32 t) as [t'|] eqn:HT; [|discriminate].
  apply to_i32_inv in HL, HS, HT. destruct HL as (-> & HL), HS as (-> & HS), HT as (-> & HT).
  cbn [bind]. intros [= <-]. auto.
Qed.

Lemma is_entity_iff e : is_entity e <->
  i32 (e_label e) /\ i32 (e_start e) /\ i32 (e_end e) /\ NoDup (e_replacements e).
Proof.
  split.
  - intros (l & v & s & t & r & H). apply make_entity_inv in H.
    destruct H as (HL & HS & HT & ->).
    cbn [e_label e_start e_end e_replacements]. repeat (split; [assumption|]). apply NoDup_dedup.
  - intros (HL & HS & HT & HN). destruct e as [l v s t r]. cbn in *.
    exists l, v, s, t, (Some r). rewrite make_entity_ok by assumption. now rewrite dedup_id.
Qed.

Lemma is_intent_iff i : is_intent i <-> i32 i.
Proof.
  unfold is_intent, make_intent. split; [intros H; now apply to_i32_inv in H|apply to_i32_ok].
Qed.

(** ** Sorting *)

Lemma filter_insert {A} (key : A -> Z) x l k :
  filter (fun y => key y =? k) (insert_by key x l) = filter (fun y => key y =? k) (x :: l).
Proof.
  induction l as [|y l IH]; [reflexivity|]. cbn [insert_by].
  destruct (Z.leb_spec (key x) (key y)) as [L|L]; [reflexivity|].
  cbn [filter] in *. rewrite IH.
  destruct (Z.eqb_spec (key x) k), (Z.eqb_spec (key y) k); try reflexivity. lia.
Qed.

Lemma sort_by_stable {A} (key : A -> Z) l : stably_sorted key l (sort_by key l).
Proof.
  split; [symmetry; apply sort_by_perm|]. split; [apply sort_by_sorted|]. intros k.
  induction l as [|x l IH]; [reflexivity|].
  change (sort_by key (x :: l)) with (insert_by key x (sort_by key l)).
  rewrite filter_insert. cbn [filter]. now rewrite IH.
Qed.

(** pairs of a sorted list and of the original *)
Definition ordered {A} (key : A -> Z) (P : A -> A -> Prop) (a b : A) : Prop :=
  if key a <=? key b then P a b else P b a.

Lemma insert_pairs {A} (key : A -> Z) (P : A -> A -> Prop) x m :
  StronglySorted (fun a b => key a <= key b) m ->
  (StronglySorted P (insert_by key x m) <->
   Forall (ordered key P x) m /\ StronglySorted P m).
Proof.
  induction m as [|y m IH]; intros HS.
  - cbn. split; repeat constructor.
  - apply StronglySorted_inv in HS. destruct HS as (HS & HY). cbn [insert_by].
    unfold ordered at 1.
    destruct (Z.leb_spec (key x) (key y)) as [L|L].
    + rewrite Forall_forall in HY.
      split.
      * intros H. apply StronglySorted_inv in H. destruct H as (H & HF). split; [|exact H].
        rewrite Forall_forall in *. intros z Hz. specialize (HF z Hz).
        destruct (Z.leb_spec (key x) (key z)); [exact HF|].
        destruct Hz as [->|Hz]; [lia|specialize (HY z Hz); cbn in HY; lia].
      * intros (HF & H). constructor; [exact H|].
        rewrite Forall_forall in *. intros z Hz. specialize (HF z Hz). cbn in HF.
        destruct (Z.leb_spec (key x) (key z)); [exact HF|].
        destruct Hz as [->|Hz]; [lia|specialize (HY z Hz); cbn in HY; lia].
    + split.
      * intros H. apply StronglySorted_inv in H. destruct H as (H & HF).
        apply IH in H; [|exact HS]. destruct H as (H1 & H2).
        assert (HF' : forall z, In z (x :: m) -> P y z).
        { rewrite Forall_forall in HF. intros z Hz. apply HF.
          eapply Permutation_in; [symmetry; apply insert_by_perm|exact Hz]. }
        split; [constructor|constructor].
        -- destruct (Z.leb_spec (key x) (key y)); [lia|]. apply HF'. now left.
        -- exact H1.
        -- exact H2.
        -- rewrite Forall_forall. intros z Hz. apply HF'. now right.
      * intros (HF & H). apply StronglySorted_inv in H. destruct H as (H & HF2).
        inversion HF as [|? ? HXY HF3]; subst.
        destruct (Z.leb_spec (key x) (key y)); [lia|].
        constructor; [apply IH; [exact HS|split; assumption]|].
        rewrite Forall_forall. intros z Hz.
        eapply Permutation_in in Hz; [|apply insert_by_perm].
        destruct Hz as [<-|Hz]; [exact HXY|]. rewrite Forall_forall in HF2. now apply HF2.
Qed.

Lemma sort_pairs {A} (key : A -> Z) (P : A -> A -> Prop) l :
  StronglySorted P (sort_by key l) <-> StronglySorted (ordered key P) l.
Proof.
  induction l as [|x l IH]; [split; constructor|].
  change (sort_by key (x :: l)) with (insert_by key x (sort_by key l)).
  rewrite insert_pairs by apply sort_by_sorted. rewrite IH. split.
  - intros (HF & H). constructor; [exact H|].
    rewrite Forall_forall in *. intros z Hz. apply HF.
    eapply Permutation_in; [symmetry; apply sort_by_perm|exact Hz].
  - intros H. apply StronglySorted_inv in H. destruct H as (H & HF). split; [|exact H].
    rewrite Forall_forall in *. intros z Hz. apply HF.
    eapply Permutation_in; [apply sort_by_perm|exact Hz].
Qed.

(** ** Construction *)

Lemma guard_bind {A} (b : bool) e (k : res A) : (_ <- guard b e ;; k) = if b then k else Err e.
Proof. destruct b; reflexivity. Qed.

Lemma check_overlaps_spec es : StronglySorted (fun a b => e_start a <= e_start b) es ->
  (check_overlaps es = Ok tt /\ StronglySorted before es) \/
  (check_overlaps es = Err EntityOverlapErr /\ ~ StronglySorted before es).
Proof.
  induction es as [|a es IH]; intros HS; [left; split; [reflexivity|constructor]|].
  apply StronglySorted_inv in HS. destruct HS as (HS & HA).
  destruct es as [|b es]; [left; split; [reflexivity|repeat constructor]|].
  change (check_overlaps (a :: b :: es)) with
    (_ <- guard (negb (overlap a b)) EntityOverlapErr ;; check_overlaps (b :: es)).
  rewrite guard_bind. unfold overlap.
  destruct (Z.ltb_spec (e_start b) (e_end a)) as [L|L]; cbn [negb].
  - right. split; [reflexivity|]. intros H. apply StronglySorted_inv in H.
    destruct H as (_ & H). inversion H; subst. unfold before in *. lia.
  - destruct (IH HS) as [(-> & H)|(-> & H)].
    + left. split; [reflexivity|]. constructor; [exact H|].
      apply StronglySorted_inv in HS. destruct HS as (_ & HB). unfold before.
      constructor; [exact L|]. rewrite Forall_forall in *. intros z Hz. specialize (HB z Hz). lia.
    + right. split; [reflexivity|]. intros C. apply H. now apply StronglySorted_inv in C.
Qed.

Lemma position_spec u e : reflect (e_value e = slice_z u (e_start e) (e_end e))
                                  (entity_position_correct u e).
Proof. unfold entity_position_correct. apply eqb_spec. Qed.

Lemma apart_ordered a b : apart a b <-> ordered e_start before a b.
Proof. reflexivity. Qed.

Lemma make_datum_cases u ints ents :
  let es := match ents with Some l => l | None => [] end in
  let is_ := match ints with Some l => l | None => [] end in
  let ok := Forall (fun e => e_value e = slice_z u (e_start e) (e_end e)) es in
  (make_datum u ints ents =
     Ok (mkDatum u (sort_by intent_hash is_) (sort_by e_start es)) /\ ok /\ StronglySorted apart es) \/
  (make_datum u ints ents = Err EntityPositionErr /\ ~ ok) \/
  (make_datum u ints ents = Err EntityOverlapErr /\ ok /\ ~ StronglySorted apart es).
Proof.
  intros es is_ ok. unfold make_datum.
  replace (match ents with Some l => sort_by e_start l | None => [] end) with (sort_by e_start es)
    by (subst es; now destruct ents).
  replace (match ints with Some l => sort_by intent_hash l | None => [] end)
    with (sort_by intent_hash is_) by (subst is_; now destruct ints).
  rewrite guard_bind.
  destruct (forallb _ _) eqn:HF.
  - assert (OK : ok).
    { unfold ok. apply Forall_forall. intros e HE. rewrite forallb_forall in HF.
      specialize (HF e). destruct (position_spec u e); [assumption|].
      enough (false = true) by discriminate. apply HF.
      eapply Permutation_in; [symmetry; apply sort_by_perm|exact HE]. }
    pose proof (sort_pairs e_start before es) as HP.
    destruct (check_overlaps_spec (sort_by e_start es) (sort_by_sorted _ _)) as [(-> & H)|(-> & H)].
    + left. split; [reflexivity|]. split; [exact OK|]. now apply HP.
    + right; right. split; [reflexivity|]. split; [exact OK|]. intros C. apply H. now apply HP.
  - right; left. split; [reflexivity|]. intros OK. unfold ok in OK. rewrite Forall_forall in OK.
    enough (forallb (entity_position_correct u) (sort_by e_start es) = true) by congruence.
    apply forallb_forall. intros e HE. specialize (OK e).
    destruct (position_spec u e) as [|N]; [reflexivity|]. exfalso; apply N, OK.
    eapply Permutation_in; [apply sort_by_perm|exact HE].
Qed.

Lemma make_datum_inv u ints ents d : make_datum u (Some ints) (Some ents) = Ok d ->
  d = mkDatum u (sort_by intent_hash ints) (sort_by e_start ents) /\
  Forall (fun e => e_value e = slice_z u (e_start e) (e_end e)) ents /\
  StronglySorted apart ents.
Proof.
  intros H. destruct (make_datum_cases u (Some ints) (Some ents)) as [(A & B)|[(A & _)|(A & _)]];
    rewrite H in A; [|discriminate..]. split; [congruence|exact B].
Qed.

Lemma make_datum_ok u ints ents :
  Forall (fun e => e_value e = slice_z u (e_start e) (e_end e)) ents ->
  StronglySorted apart ents ->
  make_datum u (Some ints) (Some ents) =
  Ok (mkDatum u (sort_by intent_hash ints) (sort_by e_start ents)).
Proof.
  intros H1 H2.
  destruct (make_datum_cases u (Some ints) (Some ents)) as [(A & B)|[(A & B)|(A & B & C)]];
    [exact A|contradiction..].
Qed.

(** what holds of every datum *)
Lemma is_datum_inv d : is_datum d ->
  Forall i32 (d_intents d) /\ Forall is_entity (d_entities d) /\
  StronglySorted (fun a b => intent_hash a <= intent_hash b) (d_intents d) /\
  StronglySorted (fun a b => e_start a <= e_start b) (d_entities d) /\
  StronglySorted before (d_entities d) /\
  Forall (fun e => e_value e = slice_z (d_utterance d) (e_start e) (e_end e)) (d_entities d).
Proof.
  intros (u & ints & ents & H & HI & HE). apply make_datum_inv in H. destruct H as (-> & HV & HA).
  cbn [d_intents d_entities d_utterance].
  split; [|split; [|split; [|split; [|split]]]].
  - eapply Permutation_Forall; [symmetry; apply sort_by_perm|].
    eapply Forall_impl; [|exact HI]. intros a. apply is_intent_iff.
  - eapply Permutation_Forall; [symmetry; apply sort_by_perm|exact HE].
  - apply sort_by_sorted.
  - apply sort_by_sorted.
  - now apply sort_pairs.
  - eapply Permutation_Forall; [symmetry; apply sort_by_perm|exact HV].
Qed.

(** pairwise, when no entity is empty: disjoint *)
Lemma apart_disjoint a b : e_start a < e_end a -> e_start b < e_end b ->
  (apart a b <-> forall i, ~ (covers a i /\ covers b i)).
Proof.
  intros HA HB. unfold apart, before, covers.
  destruct (Z.leb_spec (e_start a) (e_start b)); split.
  - intros H1 i. lia.
  - intros H1. specialize (H1 (e_start b)). lia.
  - intros H1 i. lia.
  - intros H1. specialize (H1 (e_start a)). lia.
Qed.

Lemma slice_text_at {A} (u : list A) i j : 0 <= i <= j -> j <= Z.of_nat (length u) ->
  u = (firstn (Z.to_nat i) u ++ slice_z u i j ++ skipn (Z.to_nat j) u)%list /\
  Z.of_nat (length (slice_z u i j)) = j - i.
Proof.
  intros H1 H2. unfold slice_z, adj.
  destruct (Z.ltb_spec i 0); [lia|]. destruct (Z.ltb_spec j 0); [lia|].
  rewrite !Nat.min_r by lia. unfold slice. split.
  - rewrite <- (firstn_skipn (Z.to_nat i) u) at 1. f_equal.
    rewrite <- (firstn_skipn (Z.to_nat j - Z.to_nat i) (skipn (Z.to_nat i) u)) at 1. f_equal.
    rewrite skipn_skipn_add. f_equal. lia.
  - rewrite firstn_length, skipn_length. lia.
Qed.

Lemma inside_text u e : inside u e -> e_value e = slice_z u (e_start e) (e_end e) ->
  text_at u (e_start e) (e_end e) (e_value e).
Proof.
  intros (H1 & H2) ->. destruct (slice_text_at u (e_start e) (e_end e)) as (E & L); [lia..|].
  eexists _, _. split; [exact E|]. rewrite firstn_length. lia.
Qed.

Lemma text_at_slice u i j v : 0 <= i <= j -> text_at u i j v ->
  v = slice_z u i j /\ j <= Z.of_nat (length u).
Proof.
  intros H (a & b & -> & LA & LV). rewrite !app_length. split; [|lia].
  unfold slice_z, adj. rewrite !app_length.
  destruct (Z.ltb_spec i 0); [lia|]. destruct (Z.ltb_spec j 0); [lia|].
  rewrite !Nat.min_r by lia. unfold slice.
  rewrite skipn_app, skipn_all2 by lia. replace (Z.to_nat i - length a)%nat with 0%nat by lia.
  cbn [skipn app]. rewrite firstn_app. replace (Z.to_nat j - Z.to_nat i - length v)%nat with 0%nat by lia.
  cbn. rewrite app_nil_r, firstn_all2 by lia. reflexivity.
Qed.

(** ** Equality *)

Lemma set_eqb_spec {A} `{Eqb A} (a b : list A) : reflect (same_set a b) (set_eqb a b).
Proof.
  unfold set_eqb, same_set. destruct (forallb _ a) eqn:HA; cbn.
  - destruct (forallb _ b) eqn:HB; constructor.
    + intros x. rewrite forallb_forall in HA, HB. split; intros HX.
      * now apply memb_In, HA. * now apply memb_In, HB.
    + intros C. enough (forallb (fun x => memb x a) b = true) by congruence.
      apply forallb_forall. intros x HX. now apply memb_In, C.
  - constructor. intros C. enough (forallb (fun x => memb x b) a = true) by congruence.
    apply forallb_forall. intros x HX. now apply memb_In, C.
Qed.

Lemma entity_eqb_spec a b : reflect (same_entity a b) (entity_eqb a b).
Proof.
  unfold entity_eqb, same_entity.
  destruct (Z.eqb_spec (e_label a) (e_label b)); cbn [andb]; [|constructor; tauto].
  destruct (eqb_spec (e_value a) (e_value b)); cbn [andb]; [|constructor; tauto].
  destruct (Z.eqb_spec (e_start a) (e_start b)); cbn [andb]; [|constructor; tauto].
  destruct (Z.eqb_spec (e_end a) (e_end b)); cbn [andb]; [|constructor; tauto].
  destruct (set_eqb_spec (e_replacements a) (e_replacements b)); constructor; tauto.
Qed.

Lemma same_entities_spec a b : reflect (Forall2 same_entity a b) (same_entities a b).
Proof.
  revert b; induction a as [|x a IH]; intros [|y b]; cbn; try (constructor; repeat constructor; inversion 1).
  destruct (entity_eqb_spec x y); cbn.
  - destruct (IH b); constructor; [now constructor|]. inversion 1; contradiction.
  - constructor. inversion 1; contradiction.
Qed.

Lemma datum_eqb_spec a b : reflect (same_datum a b) (datum_eqb a b).
Proof.
  unfold datum_eqb, same_datum, has_same_utterance_as, has_same_intents_as, has_same_entities_as.
  destruct (eqb_spec (d_utterance a) (d_utterance b)); cbn [andb]; [|constructor; tauto].
  destruct (set_eqb_spec (d_intents a) (d_intents b)); cbn [andb]; [|constructor; tauto].
  destruct (same_entities_spec (d_entities a) (d_entities b)); constructor; tauto.
Qed.

Lemma same_entity_refl a : same_entity a a.
Proof. unfold same_entity, same_set. intuition. Qed.
Lemma same_entity_sym a b : same_entity a b -> same_entity b a.
Proof. unfold same_entity, same_set. intuition; now apply H4. Qed.
Lemma same_entity_trans a b c : same_entity a b -> same_entity b c -> same_entity a c.
Proof.
  unfold same_entity, same_set. intros (A1 & A2 & A3 & A4 & A5) (B1 & B2 & B3 & B4 & B5).
  repeat (split; [congruence|]). intros x. now rewrite A5.
Qed.

Lemma Forall2_sym {A} (R : A -> A -> Prop) l m :
  (forall x y, R x y -> R y x) -> Forall2 R l m -> Forall2 R m l.
Proof. intros HR H. induction H; constructor; auto. Qed.

Lemma Forall2_trans' {A} (R : A -> A -> Prop) l m n :
  (forall x y z, R x y -> R y z -> R x z) -> Forall2 R l m -> Forall2 R m n -> Forall2 R l n.
Proof.
  intros HR H. revert n. induction H; intros n HN; inversion HN; subst; constructor; eauto.
Qed.

Lemma same_datum_equiv :
  (forall a, same_datum a a) /\ (forall a b, same_datum a b -> same_datum b a) /\
  (forall a b c, same_datum a b -> same_datum b c -> same_datum a c).
Proof.
  unfold same_datum, same_set. split; [|split].
  - intros a. split; [reflexivity|]. split; [reflexivity|].
    induction (d_entities a); constructor; auto using same_entity_refl.
  - intros a b (A1 & A2 & A3). split; [congruence|]. split; [intros x; now rewrite A2|].
    apply (Forall2_sym _ _ _ same_entity_sym A3).
  - intros a b c (A1 & A2 & A3) (B1 & B2 & B3). split; [congruence|].
    split; [intros x; now rewrite A2|]. eapply Forall2_trans'; eauto using same_entity_trans.
Qed.
