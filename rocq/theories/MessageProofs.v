(** Proofs about the messages of exceptions. *)

From Coq Require Import String QArith.
From Verif Require Import Py PyFacts Edit Ops Json JsonAscii Elements Pipe GroupObj Factory TextForms SpecText TextProofs
  SpecOps ListOpProofs SpecElements DatumProofs SpecOrdinal OrdinalProofs DatumTextProofs Messages SpecMessages.
From Coq Require Import List Lia Permutation.
Local Open Scope Z_scope.

Lemma first_at_cons {A} (P : A -> Prop) x l i y : first_at P (x :: l) i y <->
  (i = O /\ x = y /\ P x) \/ (~ P x /\ exists j, i = S j /\ first_at P l j y).
Proof.
  unfold first_at. split.
  - intros (H1 & H2 & H3). destruct i as [|i]; [left; cbn in H1; injection H1 as ->; auto|]. right.
    split; [exact (H3 O x ltac:(lia) eq_refl)|]. exists i. split; [reflexivity|]. split; [exact H1|]. split; [exact H2|].
    intros j z HJ HZ. exact (H3 (S j) z ltac:(lia) HZ).
  - intros [(-> & -> & H)|(HX & j & -> & H1 & H2 & H3)].
    + split; [reflexivity|]. split; [exact H|]. intros; lia.
    + split; [exact H1|]. split; [exact H2|]. intros [|k] z HK HZ; [cbn in HZ; injection HZ as <-; exact HX|]. exact (H3 k z ltac:(lia) HZ).
Qed.
Lemma first_at_nil {A} (P : A -> Prop) i y : ~ first_at P [] i y.
Proof. intros (H & _). destruct i; discriminate. Qed.

Lemma first_two_cons {A} (R : A -> A -> Prop) x y l i a b : first_two R (x :: y :: l) i a b <->
  (i = O /\ x = a /\ y = b /\ R x y) \/ (~ R x y /\ exists j, i = S j /\ first_two R (y :: l) j a b).
Proof.
  unfold first_two. split.
  - intros (H1 & H2 & H3 & H4). destruct i as [|i]; [left; cbn in H1, H2; injection H1 as ->; injection H2 as ->; auto|]. right.
    split; [exact (H4 O x y ltac:(lia) eq_refl eq_refl)|]. exists i. split; [reflexivity|]. split; [exact H1|]. split; [exact H2|]. split; [exact H3|].
    intros j c d HJ HC HD. exact (H4 (S j) c d ltac:(lia) HC HD).
  - intros [(-> & -> & -> & H)|(HX & j & -> & H1 & H2 & H3 & H4)].
    + split; [reflexivity|]. split; [reflexivity|]. split; [exact H|]. intros; lia.
    + split; [exact H1|]. split; [exact H2|]. split; [exact H3|]. intros [|k] c d HK HC HD.
      * cbn in HC, HD. injection HC as <-. injection HD as <-. exact HX.
      * exact (H4 k c d ltac:(lia) HC HD).
Qed.
Lemma first_two_short {A} (R : A -> A -> Prop) l i a b : (length l <= 1)%nat -> ~ first_two R l i a b.
Proof. intros L (_ & H & _). assert (S i < length l)%nat by (apply nth_error_Some; congruence). lia. Qed.

(** ** Datum *)

Definition misplaced (u : str) (e : entity) : Prop := e_value e <> slice_z u (e_start e) (e_end e).
Lemma placed_spec u e : entity_position_correct u e = true <-> ~ misplaced u e.
Proof.
  unfold entity_position_correct, misplaced. destruct (eqb_spec (e_value e) (slice_z u (e_start e) (e_end e))); split; try congruence.
  intros H. contradiction.
Qed.

Lemma text_from {A} (s : list A) : forall k a b, (a <= b)%nat ->
  map snd (filter (fun p => (a <=? fst p)%nat && (fst p <? b)%nat) (combine (seq k (length s)) s)) = slice s (a - k) (b - k).
Proof.
  induction s as [|x s IH]; intros k a b L; [unfold slice; now rewrite skipn_nil, firstn_nil|]. cbn [length seq combine filter fst].
  unfold slice in *. destruct (Nat.leb_spec a k) as [H|H]; cbn [andb].
  - replace (a - k)%nat with O by lia. destruct (Nat.ltb_spec k b) as [Q|Q]; cbn [map snd].
    + replace (b - k - 0)%nat with (S (b - S k)) by lia. cbn [skipn firstn]. f_equal. rewrite IH by exact L. replace (a - S k)%nat with O by lia. now rewrite Nat.sub_0_r.
    + rewrite IH by exact L. replace (b - S k)%nat with O by lia. replace (b - k)%nat with O by lia. reflexivity.
  - rewrite IH by exact L. replace (a - k)%nat with (S (a - S k)) by lia. cbn [skipn]. f_equal. lia.
Qed.
Lemma text_at_slice u a b : text_at u a b = slice_z u a b.
Proof.
  unfold text_at, slice_z. set (pa := if a <? 0 then a + _ else a). set (pb := if b <? 0 then b + _ else b).
  set (A := adj (length u) a). set (B := adj (length u) b).
  assert (HA : forall i, (i < length u)%nat -> (pa <=? Z.of_nat i) = (A <=? i)%nat).
  { intros i H. unfold pa, A, adj. apply Bool.eq_iff_eq_true. rewrite Z.leb_le, Nat.leb_le. destruct (Z.ltb_spec a 0); lia. }
  assert (HB : forall i, (i < length u)%nat -> (Z.of_nat i <? pb) = (i <? B)%nat).
  { intros i H. unfold pb, B, adj. apply Bool.eq_iff_eq_true. rewrite Z.ltb_lt, Nat.ltb_lt. destruct (Z.ltb_spec b 0); lia. }
  clearbody pa pb A B. destruct (Nat.le_gt_cases A B) as [L|L].
  - replace (slice u A B) with (slice u (A - 0) (B - 0)) by (now rewrite !Nat.sub_0_r). rewrite <- (text_from u 0 A B L). f_equal.
    apply filter_ext_in. intros (i & x) H. apply in_combine_l in H. apply in_seq in H. cbn [fst]. now rewrite HA, HB by lia.
  - unfold slice. replace (B - A)%nat with O by lia. cbn [firstn].
    rewrite (filter_ext_in _ (fun _ => false)); [now induction (combine _ _)|].
    intros (i & x) H. apply in_combine_l in H. apply in_seq in H. cbn [fst]. rewrite HA, HB by lia.
    destruct (Nat.leb_spec A i), (Nat.ltb_spec i B); cbn; lia || reflexivity.
Qed.
Lemma place_told u e : msg_entity_wrong_position u e = filled (place_parts u e) place_text.
Proof.
  unfold msg_entity_wrong_position, place_parts. rewrite <- text_at_slice. generalize (dump_int (e_start e)) (dump_int (e_end e)) (e_value e) (text_at u (e_start e) (e_end e)).
  intros a b c d. vm_compute. reflexivity.
Qed.
Lemma clash_told u a b : msg_entity_overlapping u a b = filled (overlap_parts u a b) overlap_text.
Proof.
  unfold msg_entity_overlapping, overlap_parts. generalize (dump_int (e_end a)) (dump_int (e_start b)) (e_value a) (e_value b).
  intros x y c d. vm_compute. reflexivity.
Qed.

Lemma position_told u es : match position_message u es with
  | None => forallb (entity_position_correct u) es = true
  | Some _ => forallb (entity_position_correct u) es = false
  end.
Proof.
  induction es as [|e es IH]; [reflexivity|]. cbn [position_message forallb]. destruct (entity_position_correct u e); [exact IH|reflexivity].
Qed.
Lemma position_first u es i e : first_at (misplaced u) es i e ->
  position_message u es = Some (Says EntityPositionErr (msg_entity_wrong_position u e)).
Proof.
  revert i. induction es as [|x es IH]; intros i H; [now apply first_at_nil in H|]. apply first_at_cons in H. cbn [position_message].
  destruct (entity_position_correct u x) eqn:P.
  - apply placed_spec in P. destruct H as [(_ & _ & H)|(_ & j & _ & H)]; [contradiction|]. exact (IH j H).
  - destruct H as [(_ & -> & _)|(H & _)]; [reflexivity|]. apply placed_spec in H. congruence.
Qed.
Lemma overlap_told es u : match overlap_message u es with
  | None => check_overlaps es = Ok tt
  | Some r => class_of r = EntityOverlapErr /\ check_overlaps es = Err EntityOverlapErr
  end.
Proof.
  induction es as [|x es IH]; [reflexivity|]. destruct es as [|y es]; [reflexivity|].
  change (overlap_message u (x :: y :: es)) with (if overlap x y then Some (Says EntityOverlapErr (msg_entity_overlapping u x y)) else overlap_message u (y :: es)).
  change (check_overlaps (x :: y :: es)) with (bind (guard (negb (overlap x y)) EntityOverlapErr) (fun _ => check_overlaps (y :: es))).
  destruct (overlap x y); [split; reflexivity|]. exact IH.
Qed.
Definition clash (a b : entity) : Prop := e_start b < e_end a.
Lemma overlap_first u es : forall i a b, first_two clash es i a b ->
  overlap_message u es = Some (Says EntityOverlapErr (msg_entity_overlapping u a b)).
Proof.
  induction es as [|x es IH]; intros i a b H; [exfalso; revert H; apply first_two_short; cbn; lia|].
  destruct es as [|y es]; [exfalso; revert H; apply first_two_short; cbn; lia|]. apply first_two_cons in H.
  change (overlap_message u (x :: y :: es)) with (if overlap x y then Some (Says EntityOverlapErr (msg_entity_overlapping u x y)) else overlap_message u (y :: es)).
  unfold overlap. destruct (Z.ltb_spec (e_start y) (e_end x)) as [L|L].
  - destruct H as [(_ & -> & -> & _)|(H & _)]; [reflexivity|]. exfalso. apply H. exact L.
  - destruct H as [(_ & _ & _ & H)|(_ & j & _ & H)]; [exfalso; unfold clash in H; lia|]. exact (IH j a b H).
Qed.

Theorem datum_messages u ints ents : exists m, stably_sorted e_start ents m /\
  tells (datum_message u (Some ents)) (make_datum u (Some ints) (Some ents)) /\
  (forall i e, first_at (fun e => e_value e <> text_at u (e_start e) (e_end e)) m i e ->
     datum_message u (Some ents) = Some (Says EntityPositionErr (filled (place_parts u e) place_text))) /\
  ((forall e, In e ents -> e_value e = text_at u (e_start e) (e_end e)) ->
   forall i a b, first_two (fun a b => e_start b < e_end a) m i a b ->
     datum_message u (Some ents) = Some (Says EntityOverlapErr (filled (overlap_parts u a b) overlap_text))).
Proof.
  exists (sort_by e_start ents). pose proof (sort_by_stable e_start ents) as HS. split; [exact HS|]. unfold datum_message. split; [|split].
  - unfold make_datum. pose proof (position_told u (sort_by e_start ents)) as HP. destruct (position_message u (sort_by e_start ents)) as [r|] eqn:E.
    + rewrite HP. cbn [guard bind tells]. revert E. generalize (sort_by e_start ents). induction l as [|x l IH]; [discriminate|]. cbn [position_message].
      destruct (entity_position_correct u x); [exact IH|]. intros E. injection E as <-. reflexivity.
    + rewrite HP. cbn [guard bind]. pose proof (overlap_told (sort_by e_start ents) u) as HO.
      destruct (overlap_message u (sort_by e_start ents)) as [r|]; [destruct HO as (C & ->); exact C|]. rewrite HO. exact I.
  - intros i e H. rewrite <- place_told. rewrite (position_first u _ i e); [reflexivity|]. clear - H. destruct H as (H1 & H2 & H3). split; [exact H1|].
    unfold misplaced. setoid_rewrite text_at_slice in H2. setoid_rewrite text_at_slice in H3. split; assumption.
  - intros HP i a b H. rewrite <- clash_told. rewrite (overlap_first u _ i a b H).
    assert (Q : position_message u (sort_by e_start ents) = None); [|now rewrite Q].
    pose proof (position_told u (sort_by e_start ents)) as T. destruct (position_message u (sort_by e_start ents)); [|reflexivity]. exfalso.
    assert (F : forallb (entity_position_correct u) (sort_by e_start ents) = true); [|congruence].
    apply forallb_forall. intros e HE. apply placed_spec. unfold misplaced. intros N. apply N. rewrite <- text_at_slice. apply HP.
    destruct HS as (P & _). eapply Permutation.Permutation_in; [apply Permutation.Permutation_sym; exact P|exact HE].
Qed.

(** the places can be read from the message *)
Theorem position_readable u e u' e' : msg_entity_wrong_position u e = msg_entity_wrong_position u' e' ->
  e_start e = e_start e' /\ e_end e = e_end e'.
Proof.
  unfold msg_entity_wrong_position. intros E. apply app_inv_head in E. apply app_inv_head in E.
  apply (split_at 32) in E; [|apply int_absent; lia|apply int_absent; lia]. destruct E as [E1 E]. apply int_same in E1.
  injection E as E. apply (split_at 32) in E; [|apply int_absent; lia|apply int_absent; lia]. destruct E as [E2 _]. apply int_same in E2. auto.
Qed.

(** ** Groups *)

Lemma disjoint_told {X} (st en : X -> nat) l : forall c, disjoint_message st en c l =
  if disjoint_from st en c l then None else Some (Says ValueErr (lit "overlapped")).
Proof. induction l as [|x l IH]; intros c; [reflexivity|]. cbn [disjoint_message disjoint_from]. destruct (st x <? c)%nat; [reflexivity|apply IH]. Qed.

Lemma values_told {A} t (l : list (item A)) : forall i, match values_message t i l with
  | None => forallb (fun y => Bool.eqb t (fst y)) l = true
  | Some r => class_of r = TypeErr /\ forallb (fun y => Bool.eqb t (fst y)) l = false
  end.
Proof.
  induction l as [|x l IH]; intros i; [reflexivity|]. cbn [values_message forallb].
  assert (Q : Bool.eqb (fst x) t = Bool.eqb t (fst x)) by (destruct (fst x), t; reflexivity). rewrite Q.
  destruct (Bool.eqb t (fst x)); [apply IH|split; reflexivity].
Qed.
Lemma values_first {A} t (l : list (item A)) : forall k i y, first_at (fun y => fst y <> t) l i y ->
  values_message t k l = Some (Says TypeErr (lit "the new_value of " ++ dump_nat (k + i) ++ lit "-th element is not a(an) " ++
                                             type_name (if t then TStr else TList))).
Proof.
  induction l as [|x l IH]; intros k i y H; [now apply first_at_nil in H|]. apply first_at_cons in H. cbn [values_message].
  destruct (Bool.eqb_spec (fst x) t) as [E|N].
  - destruct H as [(_ & _ & H)|(_ & j & -> & H)]; [contradiction|]. rewrite (IH (S k) j y H). now replace (S k + j)%nat with (k + S j)%nat by lia.
  - destruct H as [(-> & -> & _)|(H & _)]; [now rewrite Nat.add_0_r|contradiction].
Qed.

Theorem group_messages {A} {EA : Eqb A} (ord : list (item A) -> list (item A)) skip (g : rgroup A) :
  option_map class_of (rg_message ord skip g) = snd (rg_finish ord skip g) /\
  (forall x i y, nth_error (rg_items (fst (rg_finish ord skip g))) 0 = Some x -> snd (rg_finish ord skip g) = Some TypeErr ->
     first_at (fun y => fst y <> fst x) (rg_items (fst (rg_finish ord skip g))) i y ->
     rg_message ord skip g = Some (Says TypeErr (lit "the new_value of " ++ dump_nat i ++ lit "-th element is not a(an) " ++
                                                 (if fst x then lit "str" else lit "list")))) /\
  (snd (rg_finish ord skip g) = Some ValueErr -> rg_message ord skip g = Some (Says ValueErr (lit "overlapped"))).
Proof.
  unfold rg_message, rg_finish. destruct (ord (dedup (rg_items g))) as [|z l]; [cbn; repeat split; try reflexivity; try discriminate|].
  destruct skip; [cbn; repeat split; try reflexivity; try discriminate|].
  pose proof (values_told (fst z) (z :: l) 0) as T. destruct (values_message (fst z) 0 (z :: l)) as [r|] eqn:EV.
  - destruct T as (T & ->). cbn [fst snd rg_items option_map]. rewrite T. split; [reflexivity|]. split; [|discriminate].
    intros x i y HX _ H. cbn in HX. injection HX as <-. rewrite (values_first _ _ 0 i y H) in EV. rewrite <- EV. now destruct (fst z).
  - rewrite T. remember (sort_by (fun y : item A => Z.of_nat (i_start y)) (sort_by (fun y : item A => Z.of_nat (i_end y)) (z :: l))) as m eqn:EM.
    destruct m as [|w m].
    { exfalso. apply (f_equal (@length _)) in EM. rewrite !sort_by_length in EM. discriminate. }
    unfold validate_disjoint. rewrite disjoint_told. destruct (disjoint_from i_start i_end (i_end w) m); cbn; repeat split; try reflexivity; discriminate.
Qed.

Lemma contiguous_told l : forall s, contiguous_message s l =
  if contiguous_from s l then None else Some (Says ValueErr (lit "Spans should be contiguous.")).
Proof. induction l as [|n l IH]; intros s; [reflexivity|]. cbn [contiguous_message contiguous_from]. destruct (snd s =? fst n)%nat; [apply IH|reflexivity]. Qed.

Definition meets (m : list span) (R : span -> span -> Prop) : Prop :=
  exists i a b, nth_error m i = Some a /\ nth_error m (S i) = Some b /\ R a b.
Lemma meets_cons s l R : meets (s :: l) R <-> match l with [] => False | n :: _ => R s n end \/ meets l R.
Proof.
  unfold meets. split.
  - intros ([|i] & a & b & H1 & H2 & H3).
    + cbn in H1. injection H1 as ->. left. destruct l as [|n l]; [discriminate|]. cbn in H2. injection H2 as ->. exact H3.
    + right. exists i, a, b. auto.
  - intros [H|(i & a & b & H)]; [|exists (S i), a, b; exact H]. destruct l as [|n l]; [contradiction|]. exists O, s, n. auto.
Qed.
Lemma disjoint_meets l : forall s, disjoint_from fst snd (snd s) l = false <-> meets (s :: l) (fun a b => (fst b < snd a)%nat).
Proof.
  induction l as [|n l IH]; intros s.
  - split; [discriminate|]. intros (i & a & b & _ & H & _). destruct i as [|[|i]]; discriminate.
  - rewrite meets_cons. cbn [disjoint_from]. rewrite <- IH. destruct (Nat.ltb_spec (fst n) (snd s)); split; auto. intros [H1|H1]; [lia|exact H1].
Qed.
Lemma contiguous_meets l : forall s, contiguous_from s l = false <-> meets (s :: l) (fun a b => snd a <> fst b).
Proof.
  induction l as [|n l IH]; intros s.
  - split; [discriminate|]. intros (i & a & b & _ & H & _). destruct i as [|[|i]]; discriminate.
  - rewrite meets_cons. cbn [contiguous_from]. rewrite <- IH. destruct (Nat.eqb_spec (snd s) (fst n)); split; auto. intros [H1|H1]; [contradiction|exact H1].
Qed.

Theorem span_messages g : let m := sg_items (fst (sg_finish g)) in
  let overlaps := exists i a b, nth_error m i = Some a /\ nth_error m (S i) = Some b /\ (fst b < snd a)%nat in
  let gaps := exists i a b, nth_error m i = Some a /\ nth_error m (S i) = Some b /\ snd a <> fst b in
  let late := exists a, nth_error m 0 = Some a /\ fst a <> O in
  option_map class_of (sg_message g) = snd (sg_finish g) /\
  (sg_message g = Some (Says ValueErr (lit "overlapped")) <-> overlaps) /\
  (sg_message g = Some (Says ValueErr (lit "Spans should start from 0")) <-> ~ overlaps /\ late) /\
  (sg_message g = Some (Says ValueErr (lit "Spans should be contiguous.")) <-> ~ overlaps /\ ~ late /\ gaps).
Proof.
  unfold sg_message, sg_finish. destruct (sg_items g) as [|z l0] eqn:EG.
  { cbn [fst snd sg_items sort_by fold_right option_map]. split; [reflexivity|].
    split; [split; [discriminate|intros (i & a & b & H & _); destruct i; discriminate]|].
    split; [split; [discriminate|intros (_ & a & H & _); discriminate]|]. split; [discriminate|].
    intros (_ & _ & i & a & b & H & _). destruct i; discriminate. }
  remember (sort_by (fun e : span => Z.of_nat (snd e)) (z :: l0)) as m eqn:EM.
  destruct m as [|s l]; [exfalso; apply (f_equal (@length _)) in EM; rewrite sort_by_length in EM; discriminate|].
  unfold validate_disjoint, validate_contiguous. rewrite disjoint_told, contiguous_told.
  assert (N1 : lit "overlapped" <> lit "Spans should start from 0") by discriminate.
  assert (N2 : lit "overlapped" <> lit "Spans should be contiguous.") by discriminate.
  assert (N3 : lit "Spans should start from 0" <> lit "Spans should be contiguous.") by discriminate.
  pose proof (disjoint_meets l s) as HD. pose proof (contiguous_meets l s) as HC. unfold meets in HD, HC.
  assert (HL : (exists a, nth_error (s :: l) 0 = Some a /\ fst a <> O) <-> fst s <> O).
  { split; [intros (a & H & Ha); cbn in H; injection H as ->; exact Ha|intros H; exists s; auto]. }
  set (w3 := lit "overlapped") in *. set (w2 := lit "Spans should start from 0") in *. set (w1 := lit "Spans should be contiguous.") in *.
  clearbody w1 w2 w3.
  destruct (disjoint_from fst snd (snd s) l); cbn [guard bind].
  - destruct (Nat.eqb_spec (fst s) 0) as [E0|N0]; cbn [guard bind].
    + destruct (contiguous_from s l); cbn [guard bind fst snd sg_items option_map]; cbv zeta; (split; [reflexivity|]); rewrite <- HD, <- HC, HL;
        clear HD HC HL; intuition congruence.
    + cbn [fst snd sg_items option_map]. cbv zeta. split; [reflexivity|]. rewrite <- HD, <- HC, HL. clear HD HC HL. intuition congruence.
  - cbn [fst snd sg_items option_map]. cbv zeta. split; [reflexivity|]. rewrite <- HD, <- HC, HL. clear HD HC HL. intuition congruence.
Qed.

(** ** lst2str *)

Lemma tokens_told {A} (l : list (list A)) : forall g i, match tokens_message i l g with
  | None => lst2str_each l g = true
  | Some r => class_of r = ValueErr /\ lst2str_each l g = false
  end.
Proof.
  induction l as [|t l IH]; intros [|sp g] i; try reflexivity. cbn [tokens_message lst2str_each].
  destruct (length t =? snd sp - fst sp)%nat; [apply IH|split; reflexivity].
Qed.
Lemma tokens_first {A} (l : list (list A)) : forall g k i x,
  first_at (fun x : list A * span => length (fst x) <> (snd (snd x) - fst (snd x))%nat) (combine l g) i x ->
  tokens_message k l g = Some (Says ValueErr (dump_nat (k + i) ++ lit "-th element is not compatible.")).
Proof.
  induction l as [|t l IH]; intros [|sp g] k i x H; try now apply first_at_nil in H. cbn [combine] in H. apply first_at_cons in H.
  cbn [tokens_message fst snd] in *. destruct (Nat.eqb_spec (length t) (snd sp - fst sp)) as [E|N].
  - destruct H as [(_ & _ & H)|(_ & j & -> & H)]; [contradiction|]. rewrite (IH g (S k) j x H). now replace (S k + j)%nat with (k + S j)%nat by lia.
  - destruct H as [(-> & _ & _)|(H & _)]; [now rewrite Nat.add_0_r|contradiction].
Qed.
Theorem tokens_messages {A} (l : list (list A)) (g : list span) :
  tells (lst2str_message l g) (lst2str_apply l g) /\
  (length l <> length g -> lst2str_message l g = Some (Says ValueErr (lit "Input list and span group have different length."))) /\
  (length l = length g -> forall i x,
     first_at (fun x : list A * span => length (fst x) <> (snd (snd x) - fst (snd x))%nat) (combine l g) i x ->
     lst2str_message l g = Some (Says ValueErr (dump_nat i ++ lit "-th element is not compatible."))).
Proof.
  unfold lst2str_message, lst2str_apply. destruct (Nat.eqb_spec (length l) (length g)) as [E|N]; cbn [guard bind].
  - split; [|split; [contradiction|]].
    + pose proof (tokens_told l g 0) as T. destruct (tokens_message 0 l g); [destruct T as (T & ->); exact T|]. rewrite T. exact I.
    + intros _ i x H. exact (tokens_first l g 0 i x H).
  - split; [reflexivity|]. split; [reflexivity|]. intros; contradiction.
Qed.

(** ** Pipes *)

Theorem add_op_messages p o ck : option_map class_of (add_op_message p o ck) = snd (add_op p o ck) /\
  (forall s, last_opt (steps p) = Some s -> in_type o = TStr -> out_type s = TList -> add_op_message p o ck =
     Some (Says TypeErr (lit "InputType of the step op is not valid.Got <class 'str'>, but requires <class 'list'>"))) /\
  (forall s, last_opt (steps p) = Some s -> in_type o = TList -> out_type s = TStr -> add_op_message p o ck =
     Some (Says TypeErr (lit "InputType of the step op is not valid.Got <class 'list'>, but requires <class 'str'>"))) /\
  (forall name, ck = Some name -> snd (add_op p o ck) = Some KeyErr ->
     add_op_message p o ck = Some (Says KeyErr (lit "duplicated checkpoints: " ++ name))).
Proof.
  unfold add_op_message, add_op, pipe_output_type. destruct (last_opt (steps p)) as [s|].
  - destruct (in_type o) eqn:EI, (out_type s) eqn:EO; cbn [seqtype_eqb negb first_of fst snd option_map class_of].
    all: split; [destruct ck as [name|]; [destruct (dict_mem (checkpoints p) name)|]; reflexivity|].
    all: split; [intros s' H H1 H2; injection H as <-; try congruence; try reflexivity|].
    all: split; [intros s' H H1 H2; injection H as <-; try congruence; try reflexivity|].
    all: intros name -> ; try discriminate.
    all: destruct (dict_mem (checkpoints p) name); [reflexivity|discriminate].
  - cbn [first_of]. split; [destruct ck as [name|]; [destruct (dict_mem (checkpoints p) name)|]; reflexivity|].
    split; [discriminate|]. split; [discriminate|].
    intros name ->. destruct (dict_mem (checkpoints p) name); [reflexivity|discriminate].
Qed.

Theorem iadd_messages P p q : option_map class_of (iadd_message P p q) = snd (iadd p q) /\
  (steps p = [] \/ steps q = [] -> iadd_message P p q = Some (Says IndexErr (lit "Pipe is empty!"))) /\
  (pipe_output_type p = Ok TStr -> pipe_input_type q = Ok TList ->
     iadd_message P p q = Some (Says TypeErr (lit "input/output type of two pipes are not valid. <class 'str'> != <class 'list'>"))) /\
  (pipe_output_type p = Ok TList -> pipe_input_type q = Ok TStr ->
     iadd_message P p q = Some (Says TypeErr (lit "input/output type of two pipes are not valid. <class 'list'> != <class 'str'>"))) /\
  (snd (iadd p q) = Some KeyErr -> iadd_message P p q = Some (Says KeyErr (lit "duplicated checkpoints between: " ++
     repr P (JDict (map (fun kv => (fst kv, JInt (snd kv))) (checkpoints p))) ++ lit ", " ++
     repr P (JDict (map (fun kv => (fst kv, JInt (snd kv))) (checkpoints q)))))).
Proof.
  unfold iadd_message, iadd, pipe_output_type, pipe_input_type. destruct (last_opt (steps p)) as [s|] eqn:EL.
  - assert (NP : steps p <> []) by (intros H; rewrite H in EL; discriminate).
    destruct (steps q) as [|t l]; [cbn; repeat split; try reflexivity; try discriminate; congruence|].
    destruct (out_type s) eqn:EO, (in_type t) eqn:EI; cbn [seqtype_eqb negb].
    all: try (destruct (existsb (fun kv => dict_mem (checkpoints q) (fst kv)) (checkpoints p))); cbn [option_map snd class_of].
    all: repeat split; try reflexivity; try congruence; try (intros [H|H]; congruence).
  - assert (NP : steps p = []) by (destruct (steps p) as [|a l]; [reflexivity|discriminate]).
    cbn. repeat split; try reflexivity; try discriminate.
Qed.

(** ** Names that are looked up *)

Theorem checkpoint_messages ck coll name : tells (checkpoint_message ck coll name) (get_from_checkpoint ck coll name) /\
  (~ In name (map fst ck) -> checkpoint_message ck coll name = Some (Says KeyErr (name ++ lit " is not found."))).
Proof.
  unfold checkpoint_message, get_from_checkpoint. split.
  - destruct (dict_get ck name) as [i|]; [|reflexivity]. destruct (get_item coll i); [exact I|reflexivity].
  - intros H. apply dict_get_None in H. now rewrite H.
Qed.
Theorem factory_messages {C} (f : list (str * C)) name c : option_map class_of (register_message f name) = snd (fregister f name c) /\
  tells (lookup_message f name) (fget f name) /\
  (In name (map fst f) -> register_message f name = Some (Says KeyErr (name ++ lit " already exists."))) /\
  (~ In name (map fst f) -> lookup_message f name = Some (Says KeyErr (name ++ lit " is not registered"))).
Proof.
  unfold register_message, lookup_message, fregister, fget.
  assert (M : dict_mem f name = true <-> In name (map fst f)) by apply dict_mem_In.
  unfold dict_mem in *. destruct (dict_get f name); cbn [option_map class_of snd tells]; repeat split; auto; intros H; try tauto.
  exfalso. apply M in H. discriminate.
Qed.
Theorem index_messages what d i : tells (index_message what d i) (index2name d i) /\
  (~ In i (map snd d) -> index_message what d i = Some (Says KeyErr (what ++ lit " index " ++ dump_int i ++ lit " not found"))).
Proof.
  induction d as [|[n k] d (IH & IH')]; [split; reflexivity|]. cbn [index_message index2name map snd]. destruct (Z.eqb_spec i k) as [->|N].
  - split; [exact I|]. intros H. exfalso. apply H. now left.
  - split; [exact IH|]. intros H. apply IH'. intros H'. apply H. now right.
Qed.

(** ** Vocabularies and label maps *)

Theorem token2index_messages d unk : tells (token2index_message d unk) (make_token2index d unk) /\
  (token2index_message d unk = Some (Says ValueErr (lit "duplicated index")) <-> ~ NoDup (map snd d)) /\
  (token2index_message d unk = Some (Says ValueErr (lit "indices are not continuous.")) <-> d <> [] /\ NoDup (map snd d) /\ ~ continuous d) /\
  (token2index_message d unk = Some (Says KeyErr (lit "token2index should have token " ++ unk)) <->
     d <> [] /\ continuous d /\ ~ In unk (map fst d)) /\
  (token2index_message d unk = Some (Python ValueErr) <-> d = []).
Proof.
  pose proof (validate_iff d) as V. pose proof (dict_mem_In d unk) as HM.
  assert (ND : continuous d -> NoDup (map snd d)).
  { intros H. unfold continuous in H. eapply Permutation_NoDup; [apply Permutation_sym; exact H|].
    apply FinFun.Injective_map_NoDup; [intros a b; lia|apply seq_NoDup]. }
  assert (HD : (length d =? length (dedup (map snd d)))%nat = true <-> NoDup (map snd d)).
  { rewrite Nat.eqb_eq. split; intros H; [apply dedup_length_NoDup; now rewrite map_length|rewrite dedup_id by exact H; now rewrite map_length]. }
  assert (HE : dedup (map snd d) = [] <-> d = []).
  { split; [|intros ->; reflexivity]. destruct d as [|x d]; [reflexivity|]. intros H. exfalso.
    apply (in_nil (a := snd x)). rewrite <- H. apply in_dedup. now left. }
  unfold token2index_message, make_token2index, continuity_message in *. unfold validate_continuity in *.
  assert (N1 : lit "duplicated index" <> lit "indices are not continuous.") by discriminate.
  set (w1 := lit "duplicated index") in *. set (w2 := lit "indices are not continuous.") in *. set (w3 := lit "token2index should have token ").
  clearbody w1 w2 w3.
  destruct (length d =? length (dedup (map snd d)))%nat; cbn [negb guard bind] in *.
  - destruct (dedup (map snd d)) as [|i is]; [|destruct (_ && _)]; cbn [guard bind first_of] in *.
    + assert (Q : d = []) by now apply HE. rewrite Q in *. cbn. repeat split; try reflexivity; try discriminate; try tauto; try (intros H; exfalso; apply H; constructor).
    + assert (C : d <> [] /\ continuous d) by now apply V. destruct (dict_mem d unk); cbn [guard bind tells class_of]; (split; [reflexivity || exact I|]); intuition congruence.
    + assert (C : d <> [] /\ ~ continuous d).
      { split; [intros Q; apply HE in Q; discriminate|]. intros C. assert (H : d <> []) by (intros Q; apply HE in Q; discriminate).
        assert (X : Err ValueErr = Ok tt) by (apply V; auto). discriminate. }
      cbn [tells class_of]. split; [reflexivity|]. intuition congruence.
  - cbn [first_of tells class_of]. split; [reflexivity|].
    assert (X : ~ NoDup (map snd d)) by (intros H; apply HD in H; discriminate). assert (Y : d <> []) by (intros ->; apply X; constructor). intuition congruence.
Qed.

Theorem ordinal_messages i2i e2i ne : tells (ordinal_message i2i e2i ne) (make_ordinal i2i e2i ne) /\
  (ordinal_message i2i e2i ne = Some (Says ValueErr (lit "Intent mapping is not valid.")) <-> ~ indices (map snd i2i)) /\
  (ordinal_message i2i e2i ne = Some (Says ValueErr (lit "Entity mapping is not valid.")) <->
     indices (map snd i2i) /\ ~ indices (map snd (dict_set e2i not_entity ne))).
Proof.
  unfold ordinal_message, make_ordinal. change NOT_ENTITY_NAME with not_entity.
  assert (N1 : lit "Intent mapping is not valid." <> lit "Entity mapping is not valid.") by discriminate.
  set (w1 := lit "Intent mapping is not valid.") in *. set (w2 := lit "Entity mapping is not valid.") in *. clearbody w1 w2.
  destruct (valid_mapping_spec i2i); destruct (valid_mapping_spec (dict_set e2i not_entity ne)); cbn [first_of guard bind tells class_of];
    (split; [reflexivity || exact I|]); intuition congruence.
Qed.
