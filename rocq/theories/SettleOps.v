(** What a second trip through one operator does (C93). *)

From Coq Require Import String.
From Verif Require Import Py PyFacts Edit Labels SpecEdit SpecLabels SpecSeg SpecRuns SpecWords SpecScan SpecOps SpecHash
  EditProofs LabelProofs EditApiProofs SegProofs RunsProofs WordProofs TrieProofs Ops OpProofs StrOpProofs ScanProofs ListOpProofs
  TokProofs HashProofs AlignProofs OpLaws Pipe SpecTrip SpecSettle SettleSegs.
From Coq Require Import List Lia.

(** ** Labels that follow a pair of functions *)

Definition follows (E : env) (a : aligner) (n m : nat) (F G : list Z -> list Z) : Prop :=
  (forall l, length l = n -> align a l = Ok (F l) /\ length (F l) = m) /\
  (forall l, length l <> n -> align a l = Err ValueErr) /\
  (forall l l', align_inverse E a l = Ok l' -> length l = m /\ l' = G l /\ length l' = n).

Lemma maps_follows E o x y F G y0 a : maps E o any_labels x y F G -> transform_op E o x = Ok (y0, a) ->
  follows E a (pseq_length x) (pseq_length y0) F G.
Proof.
  intros M T. destruct (maps_inv _ _ _ _ _ _ _ _ _ M T) as [-> (A1 & A2 & A3 & A4)].
  split; [intros l L; now apply A1|]. split; [exact A2|].
  intros l l' H. destruct (Nat.eq_dec (length l) (pseq_length y)) as [L|L]; [|rewrite (A4 l L) in H; discriminate].
  destruct (A3 l L I) as (Q1 & Q2). rewrite Q1 in H. injection H as <-. auto.
Qed.

Definition soft1 E a := forall c l m l', align a l = Ok m -> align_inverse E a (mask c m) = Ok l' ->
  exists m', align a l' = Ok m' /\ mask c m' = mask c m.
Definition returns1 E a := forall m l', align_inverse E a m = Ok l' -> align a l' = Ok m.
Definition lossless1 E a := forall l m l', align a l = Ok m -> align_inverse E a m = Ok l' -> l' = l.
Definition gentle1 E a := forall c, exists b, forall z m, align a z = Ok m ->
  (forall l', align_inverse E a (mask c m) = Ok l' -> l' = mask b z) /\
  exists m', align a (mask b z) = Ok m' /\ mask c m' = mask c m.

Lemma align_length E a n m F G l r : follows E a n m F G -> align a l = Ok r -> length l = n /\ r = F l.
Proof.
  intros (A1 & A2 & _) H. destruct (Nat.eq_dec (length l) n) as [L|L]; [|rewrite (A2 l L) in H; discriminate].
  split; [exact L|]. destruct (A1 l L) as (Q & _). congruence.
Qed.

Lemma follows_soft E a n m F G : follows E a n m F G ->
  (forall c l, length l = n -> mask c (F (G (mask c (F l)))) = mask c (F l)) -> soft1 E a.
Proof.
  intros H HF c l r l' H1 H2. destruct (align_length _ _ _ _ _ _ _ _ H H1) as (L & ->).
  destruct H as (A1 & _ & A3). destruct (A3 _ _ H2) as (_ & -> & L').
  destruct (A1 _ L') as (Q & _). exists (F (G (mask c (F l)))). split; [exact Q|now apply HF].
Qed.
Lemma follows_returns E a n m F G : follows E a n m F G ->
  (forall l, length l = m -> F (G l) = l) -> returns1 E a.
Proof.
  intros (A1 & _ & A3) HF r l' H. destruct (A3 _ _ H) as (L & -> & L'). destruct (A1 _ L') as (Q & _).
  now rewrite Q, HF.
Qed.
Lemma follows_lossless E a n m F G : follows E a n m F G ->
  (forall l, length l = n -> G (F l) = l) -> lossless1 E a.
Proof.
  intros H HF l r l' H1 H2. destruct (align_length _ _ _ _ _ _ _ _ H H1) as (L & ->).
  destruct H as (_ & _ & A3). destruct (A3 _ _ H2) as (_ & -> & _). now apply HF.
Qed.
Lemma follows_gentle E a n m F G : follows E a n m F G ->
  (forall c, exists b, forall l, length l = n -> G (mask c (F l)) = mask b l /\ mask c (F (mask b l)) = mask c (F l)) ->
  gentle1 E a.
Proof.
  intros H HF c. destruct (HF c) as (b & HB). exists b. intros z r H1.
  destruct (align_length _ _ _ _ _ _ _ _ H H1) as (L & ->). destruct (HB z L) as (B1 & B2).
  destruct H as (A1 & _ & A3). split.
  - intros l' H2. destruct (A3 _ _ H2) as (_ & -> & _). exact B1.
  - exists (F (mask b z)). split; [|exact B2]. apply A1. now rewrite mask_length.
Qed.
Lemma returns_soft E a : returns1 E a -> soft1 E a.
Proof. intros H c l m l' _ H2. exists (mask c m). split; [exact (H _ _ H2)|apply mask_twice]. Qed.
Lemma gentle_soft E a : gentle1 E a -> soft1 E a.
Proof.
  intros H c l m l' H1 H2. destruct (H c) as (b & HB). destruct (HB l m H1) as (B1 & m' & B2 & B3).
  exists m'. rewrite (B1 l' H2). auto.
Qed.

(** ** Rules *)

Lemma mode_nil : mode [] = 0%Z.
Proof. reflexivity. Qed.
Lemma by_entity_zero l k : Forall (fun x => x = 0%Z) l -> by_entity_mode l k = repeat 0%Z k.
Proof.
  intros H. unfold by_entity_mode. replace (filter (fun x : Z => negb (x =? 0)%Z) l) with (@nil Z); [reflexivity|].
  induction H as [|x l -> _ IH]; [reflexivity|]. cbn [filter]. exact IH.
Qed.

Lemma around_entity x n k : 0 < n -> by_entity_mode (0%Z :: repeat x n ++ [0%Z]) k = repeat x k.
Proof.
  intros H. unfold by_entity_mode. cbn [filter Z.eqb negb]. rewrite filter_app. cbn [filter Z.eqb negb]. rewrite app_nil_r.
  exact (by_entity_mode_repeat x n k H).
Qed.

Lemma sizes_by_mode {A} (sg : list (seg A)) : sizes by_mode sg.
Proof. intros o v ls _ _. apply repeat_length. Qed.
Lemma sizes_by_entity {A} (sg : list (seg A)) : sizes by_entity_mode sg.
Proof. intros o v ls _ _. apply repeat_length. Qed.
Lemma sizes_by_zero {A} (sg : list (seg A)) : sizes by_zero sg.
Proof. intros o v ls _ _. apply repeat_length. Qed.
Lemma back_by_mode {A} (sg : list (seg A)) : back_sizes by_mode sg.
Proof. intros o v ls _ _. apply repeat_length. Qed.
Lemma back_by_entity {A} (sg : list (seg A)) : back_sizes by_entity_mode sg.
Proof. intros o v ls _ _. apply repeat_length. Qed.
Lemma back_by_zero {A} (sg : list (seg A)) : back_sizes by_zero sg.
Proof. intros o v ls _ _. apply repeat_length. Qed.

Lemma rewrites_follows E o s sg h k y a : rewrites E o s sg h k -> transform_op E o (SStr s) = Ok (y, a) ->
  follows E a (length (olds sg)) (pseq_length y) (relabel h sg) (relabel k (swap sg)).
Proof. intros (O & M) T. rewrite O. exact (maps_follows _ _ _ _ _ _ _ _ M T). Qed.

Lemma rewrites_soft E o s sg h k y a : rewrites E o s sg h k -> sizes h sg -> back_sizes k sg -> softly h k sg ->
  transform_op E o (SStr s) = Ok (y, a) -> soft1 E a.
Proof.
  intros R S B ST T. apply (follows_soft _ _ _ _ _ _ (rewrites_follows _ _ _ _ _ _ _ _ R T)).
  intros c l L. now apply relabel_soft.
Qed.
Lemma rewrites_gentle E o s sg h k y a : rewrites E o s sg h k -> sizes h sg -> gentle h k sg ->
  transform_op E o (SStr s) = Ok (y, a) -> gentle1 E a.
Proof.
  intros R S G T. apply (follows_gentle _ _ _ _ _ _ (rewrites_follows _ _ _ _ _ _ _ _ R T)).
  now apply relabel_gentle.
Qed.
Lemma restores_lossless E o x y a : restores E o x -> transform_op E o x = Ok (y, a) ->
  (forall l, length l <> pseq_length x -> align a l = Err ValueErr) -> lossless1 E a.
Proof.
  intros R T HE l m l' H1 H2. destruct (Nat.eq_dec (length l) (pseq_length x)) as [L|L]; [|rewrite (HE l L) in H1; discriminate].
  destruct (R y a T l L) as (m' & Q1 & Q2). congruence.
Qed.

(** Two blanks around: what was kept of the labels inside comes back. *)
Lemma gentle_spaced cls s : gentle (around same) by_entity_mode (spaced cls s).
Proof.
  intros o v HI c. apply spaced_In in HI. destruct HI as (d & -> & -> & _). exists (fun _ => c 1).
  intros ls HL. destruct ls as [|x [|]]; try discriminate. cbn [length app blank around same mask].
  split; [|now destruct (c 1)].
  destruct (c 0), (c 2); apply (entity_mode_around (if c 1 then x else 0%Z)).
Qed.
Lemma gentle_words ps : gentle (around same) without_ends (word_spaced ps).
Proof.
  intros o v HI c. destruct (word_spaced_In _ _ _ HI) as (-> & _). exists (fun i => c (S i)).
  intros ls HL. unfold around, same, without_ends. cbn [app mask tl]. rewrite !mask_app. split.
  - rewrite <- HL. rewrite <- (mask_length (fun i => c (S i)) ls) at 1. apply firstn_app_exact.
  - cbn [mask]. f_equal. rewrite !mask_length. f_equal. clear. generalize (fun i => c (S i)). clear c. intros c.
    revert c. induction ls as [|x l IH]; intros c; [reflexivity|]. cbn [mask]. rewrite IH. now destruct (c 0).
Qed.
Lemma gentle_zero {A} (sg : list (seg A)) : gentle by_zero by_zero sg.
Proof.
  intros o v HI c. exists (fun _ => false). intros ls HL. rewrite mask_none, HL. split; reflexivity.
Qed.

Lemma masked_In c x n i : i < n -> c i = true -> In x (mask c (repeat x n)).
Proof.
  revert c i. induction n as [|n IH]; intros c i L H; [lia|]. cbn [repeat mask]. destruct i as [|i].
  - left. now rewrite H.
  - right. apply (IH (fun j => c (S j)) i); [lia|exact H].
Qed.

Lemma mode_masked c x n k :
  by_entity_mode (mask c (repeat x n)) k = repeat (if existsb c (seq 0 n) then x else 0%Z) k.
Proof.
  assert (H : Forall (fun y => y = 0%Z) (mask c (repeat x n)) \/ (x <> 0%Z /\ existsb c (seq 0 n) = true)).
  { destruct (Z.eq_dec x 0) as [->|NX].
    - left. rewrite mask_zeros. rewrite Forall_forall. intros y HY. now apply repeat_spec in HY.
    - destruct (existsb c (seq 0 n)) eqn:EB; [now right|left].
      assert (HC : forall i, i < n -> c i = false).
      { intros i L. destruct (c i) eqn:EC; [|reflexivity]. assert (existsb c (seq 0 n) = true); [|congruence].
        apply existsb_exists. exists i. split; [apply in_seq; lia|exact EC]. }
      rewrite (mask_ext c (fun _ => false)) by (rewrite repeat_length; auto). rewrite mask_none.
      rewrite Forall_forall. intros y HY. now apply repeat_spec in HY. }
  destruct H as [H|(NX & EB)].
  - rewrite (by_entity_zero _ _ H). destruct (existsb c (seq 0 n)) eqn:EB; [|reflexivity].
    apply existsb_exists in EB. destruct EB as (i & HI & EC). apply in_seq in HI.
    rewrite Forall_forall in H. f_equal. symmetry. apply H.
    apply (masked_In c x n i); [lia|exact EC].
  - rewrite EB. unfold by_entity_mode. f_equal.
    assert (HF : forall l, (forall y, In y l -> y = x \/ y = 0%Z) ->
      exists j, filter (fun y : Z => negb (y =? 0)%Z) l = repeat x j /\ (In x l -> 0 < j)).
    { clear -NX. induction l as [|y l IH]; intros H; [exists 0; split; [reflexivity|intros []]|].
      destruct IH as (j & E1 & E2); [intros; apply H; now right|]. cbn [filter].
      destruct (H y (or_introl eq_refl)) as [-> | ->].
      - destruct (Z.eqb_spec x 0); [congruence|]. exists (S j). cbn [negb repeat]. rewrite E1. split; [reflexivity|lia].
      - exists j. cbn [Z.eqb negb]. split; [exact E1|]. intros [Q|Q]; [congruence|auto]. }
    destruct (HF (mask c (repeat x n))) as (j & E1 & E2).
    { clear. revert c. induction n as [|n IH]; intros c y; [intros []|]. cbn [repeat mask].
      intros [<-|HI]; [destruct (c 0); auto|]. now apply IH in HI. }
    rewrite E1. apply mode_repeat. apply E2.
    apply existsb_exists in EB. destruct EB as (i & HI & EC). apply in_seq in HI.
    apply (masked_In c x n i); [lia|exact EC].
Qed.

(** One label for the whole piece. *)
Lemma mask_ends c n x : existsb c (seq 0 n) = false -> mask c (repeat x n) = repeat 0%Z n.
Proof.
  intros EB. rewrite (mask_ext c (fun _ => false)); [now rewrite mask_none, repeat_length|].
  intros i L. rewrite repeat_length in L. destruct (c i) eqn:EC; [|reflexivity].
  assert (existsb c (seq 0 n) = true); [|congruence]. apply existsb_exists. exists i. split; [apply in_seq; lia|exact EC].
Qed.
Lemma softly_numbers (sg : list (seg Z)) : nonempty_olds sg -> softly by_mode by_entity_mode sg.
Proof.
  intros NO o v HI c ls HL. unfold by_mode at 2. rewrite mode_masked.
  assert (0 < length o) by (pose proof (NO o v HI); destruct o; [congruence|cbn; lia]).
  rewrite by_mode_repeat by assumption. unfold by_mode.
  destruct (existsb c (seq 0 (length v))) eqn:EB; [reflexivity|]. now rewrite mask_zeros, mask_ends.
Qed.
Lemma entity_around (x y : Z) ls k : (x = 0 -> y = 0 -> by_entity_mode (x :: ls ++ [y]) k = by_entity_mode ls k)%Z.
Proof.
  intros -> ->. unfold by_entity_mode. cbn [filter Z.eqb negb]. rewrite filter_app. cbn [filter Z.eqb negb]. now rewrite app_nil_r.
Qed.
Lemma softly_around (sg : list (seg Z)) : nonempty_olds sg -> softly (around by_mode) by_entity_mode sg.
Proof.
  intros NO o v HI c ls HL. unfold around. set (n := length v - 2).
  assert (0 < length o) by (pose proof (NO o v HI); destruct o; [congruence|cbn; lia]).
  assert (EM : forall x, mask c (0%Z :: repeat x n ++ [0%Z]) =
    0%Z :: mask (fun i => c (S i)) (repeat x n) ++ [0%Z]).
  { intros x. cbn [mask]. rewrite mask_app. cbn [mask]. destruct (c 0), (c (S (length (repeat x n) + 0))); reflexivity. }
  unfold by_mode at 2. rewrite EM, entity_around, mode_masked by reflexivity. rewrite by_mode_repeat by assumption.
  unfold by_mode. rewrite !EM.
  destruct (existsb (fun i => c (S i)) (seq 0 n)) eqn:EB; [reflexivity|]. now rewrite mask_zeros, mask_ends.
Qed.
Lemma softly_entity {A} (sg : list (seg A)) : softly by_entity_mode by_entity_mode sg.
Proof.
  intros o v HI c ls HL. unfold by_entity_mode at 3. rewrite mode_masked. unfold by_entity_mode at 2.
  destruct o as [|d o].
  - destruct ls; [|discriminate]. cbn [filter]. change (mode []) with 0%Z. reflexivity.
  - rewrite by_entity_mode_repeat by (cbn; lia).
    destruct (existsb c (seq 0 (length v))) eqn:EB; [reflexivity|]. now rewrite mask_zeros, mask_ends.
Qed.

(** One token, any number of pieces. *)
Lemma gentle_pieces {A} (sg : list (seg A)) : (forall o v, In (o, Some v) sg -> length o = 1) ->
  gentle by_mode by_entity_mode sg.
Proof.
  intros H1 o v HI c. exists (fun _ => existsb c (seq 0 (length v))). intros ls HL. rewrite (H1 o v HI) in *.
  destruct ls as [|x [|]]; try discriminate. cbn [mask].
  assert (HM : forall z, by_mode [z] (length v) = repeat z (length v)).
  { intros z. unfold by_mode. f_equal. exact (mode_repeat z 1 ltac:(lia)). }
  rewrite !HM, mode_masked. split; [reflexivity|].
  destruct (existsb c (seq 0 (length v))) eqn:EB; [reflexivity|]. rewrite mask_zeros.
  rewrite (mask_ext c (fun _ => false)); [now rewrite mask_none, repeat_length|].
  intros i L. rewrite repeat_length in L. destruct (c i) eqn:EC; [|reflexivity].
  assert (existsb c (seq 0 (length v)) = true); [|congruence]. apply existsb_exists. exists i. split; [apply in_seq; lia|exact EC].
Qed.

(** ** Aligners of replaced pieces, whether or not the pieces touch *)

Lemma str_follows E sg fwd bwd h k : ord_ok (ord_c E) -> rule_ok fwd h sg -> rule_ok bwd k (swap sg) -> sized bwd ->
  (forall n, bwd [] n = Ok (repeat 0%Z n)) ->
  follows E (AStr (olds sg) (grp 0 sg) (length (apply (olds sg) (grp 0 sg))) fwd bwd) (length (olds sg))
    (length (news sg)) (relabel h sg) (relabel k (swap sg)).
Proof.
  intros HO RF RB HS B0. rewrite apply_grp. split; [|split].
  - intros l L. pose proof (relabel_length h fwd sg l RF L) as LR.
    split; [|exact LR]. unfold align. cbn [input_length output_length align_raw].
    rewrite L, Nat.eqb_refl. cbn [guard bind]. rewrite (propagate_grp _ _ _ _ RF L). cbn [bind].
    now rewrite LR, Nat.eqb_refl.
  - intros l L. unfold align. cbn [input_length]. now rewrite (proj2 (Nat.eqb_neq _ _) L).
  - intros l l' H. unfold align_inverse in H. cbn [input_length output_length align_inverse_raw] in H.
    destruct (Nat.eqb_spec (length l) (length (news sg))) as [L|L]; [|discriminate]. cbn [guard bind] in H.
    destruct (x <- inverse (ord_c E) (olds sg) (grp 0 sg) ;; propagate l x bwd) as [r|e] eqn:ER; [|discriminate].
    cbn [bind] in H. apply (inverse_propagate_any bwd B0 (ord_c E) k sg l r HO RB HS L) in ER. subst r.
    destruct (Nat.eqb_spec (length (relabel k (swap sg) l)) (length (olds sg))) as [L2|L2]; [|discriminate].
    cbn [guard bind] in H. injection H as <-. auto.
Qed.
Lemma lst_follows E sg fwd bwd h k : ord_ok (ord_e E) -> rule_ok fwd h sg -> rule_ok bwd k (swap sg) -> sized bwd ->
  (forall n, bwd [] n = Ok (repeat 0%Z n)) ->
  follows E (ALst (olds sg) (grp 0 sg) (length (apply (olds sg) (grp 0 sg))) fwd bwd) (length (olds sg))
    (length (news sg)) (relabel h sg) (relabel k (swap sg)).
Proof.
  intros HO RF RB HS B0. rewrite apply_grp. split; [|split].
  - intros l L. pose proof (relabel_length h fwd sg l RF L) as LR.
    split; [|exact LR]. unfold align. cbn [input_length output_length align_raw].
    rewrite L, Nat.eqb_refl. cbn [guard bind]. rewrite (propagate_grp _ _ _ _ RF L). cbn [bind].
    now rewrite LR, Nat.eqb_refl.
  - intros l L. unfold align. cbn [input_length]. now rewrite (proj2 (Nat.eqb_neq _ _) L).
  - intros l l' H. unfold align_inverse in H. cbn [input_length output_length align_inverse_raw] in H.
    destruct (Nat.eqb_spec (length l) (length (news sg))) as [L|L]; [|discriminate]. cbn [guard bind] in H.
    destruct (x <- inverse (ord_e E) (olds sg) (grp 0 sg) ;; propagate l x bwd) as [r|e] eqn:ER; [|discriminate].
    cbn [bind] in H. apply (inverse_propagate_any bwd B0 (ord_e E) k sg l r HO RB HS L) in ER. subst r.
    destruct (Nat.eqb_spec (length (relabel k (swap sg) l)) (length (olds sg))) as [L2|L2]; [|discriminate].
    cbn [guard bind] in H. injection H as <-. auto.
Qed.

Lemma except_nil n : except_ne [] n = Ok (repeat 0%Z n).
Proof. reflexivity. Qed.

Lemma replace_follows E p b find s sg y a : ord_ok (ord_c E) -> re_compile E p = Some find -> in_bounds find ->
  replaced find (fun _ => b) s 0 sg -> transform_op E (ReplaceAwithB p b) (SStr s) = Ok (y, a) ->
  olds sg = s /\ y = SStr (news sg) /\
  follows E a (length s) (length (news sg)) (relabel by_entity_mode sg) (relabel by_entity_mode (swap sg)).
Proof.
  intros HO HC HB HR H.
  pose proof (scan_group_replaced E find _ s sg HO HB HR) as HG.
  assert (ES : olds sg = s) by exact (replaced_ge find (fun _ => b) HB s 0 sg ltac:(lia) HR).
  unfold transform_op in H. cbn [type_of input_type seqtype_eqb guard bind transform_str] in H.
  rewrite HC in H. unfold str_result in H. rewrite HG in H.
  cbn [bind fst type_of output_type seqtype_eqb guard] in H. injection H as <- <-.
  split; [exact ES|]. rewrite <- ES. split; [now rewrite apply_grp|].
  apply (str_follows E sg except_ne except_ne by_entity_mode by_entity_mode HO);
    [apply rule_except|apply rule_except|exact sized_except|exact except_nil].
Qed.

Lemma subwords_follows E v u m ts y a : ord_ok (ord_e E) ->
  transform_op E (SpanSubwords v u m) (SLst (map ETok ts)) = Ok (y, a) ->
  exists outs sg, Forall2 (subwords v u m) ts outs /\ y = SLst (concat outs) /\ news sg = concat outs /\
    sg = map (fun to : str * list elem =>
                  ([ETok (fst to)], if eqb (snd to) [ETok (fst to)] then None else Some (snd to)))
             (combine ts outs) /\
    length (olds sg) = length ts /\
    follows E a (length ts) (length (concat outs)) (relabel by_mode sg) (relabel by_entity_mode (swap sg)).
Proof.
  intros HO H. destruct (subwords_rewrites E v u m ts HO) as (outs & HS & sg & EO & EN & HG & ESG).
  exists outs, sg. split; [exact HS|].
  unfold transform_op in H. cbn [type_of input_type seqtype_eqb guard bind transform_lst] in H.
  unfold lst_result in H. rewrite HG in H. cbn [bind fst type_of output_type seqtype_eqb guard] in H.
  injection H as <- <-. rewrite <- EO, apply_grp, EN.
  split; [reflexivity|]. split; [reflexivity|]. split; [exact ESG|].
  assert (LO : length (olds sg) = length ts) by (now rewrite EO, map_length).
  split; [exact LO|]. rewrite <- LO. rewrite <- EN at 2. rewrite <- EN, <- (apply_grp sg) at 1.
  apply (lst_follows E sg get_most_common except_ne by_mode by_entity_mode HO);
    [|apply rule_except|exact sized_except|exact except_nil].
  apply rule_most_common. intros o w HI. rewrite ESG in HI. apply in_map_iff in HI.
  destruct HI as (to & Q & _). inversion Q. discriminate.
Qed.

(** ** The operators without pieces *)

Lemma mask_mask c d l : mask c (mask d l) = mask (fun i => c i && d i) l.
Proof.
  revert c d. induction l as [|x l IH]; intros c d; [reflexivity|]. cbn [mask]. rewrite IH. now destruct (c 0), (d 0).
Qed.

Lemma gentle_keep n : forall c : nat -> bool, exists b, forall l, length l = n ->
  keep (mask c (keep l)) = mask b l /\ mask c (keep (mask b l)) = mask c (keep l).
Proof. intros c. exists c. intros l _. split; [reflexivity|apply mask_twice]. Qed.

Lemma gentle_strip p n q : forall c : nat -> bool, exists b, forall l, length l = p + n + q ->
  repeat 0%Z p ++ mask c (firstn n (skipn p l)) ++ repeat 0%Z q = mask b l /\
  mask c (firstn n (skipn p (mask b l))) = mask c (firstn n (skipn p l)).
Proof.
  intros c. exists (cat p (fun _ => false) (cat n c (fun _ => false))). intros l L.
  assert (EM : mask (cat p (fun _ => false) (cat n c (fun _ => false))) l =
    repeat 0%Z p ++ mask c (firstn n (skipn p l)) ++ repeat 0%Z q).
  { rewrite mask_cat by lia. rewrite mask_cat by (rewrite skipn_length; lia).
    rewrite !mask_none. rewrite firstn_length, !skipn_length. f_equal; [f_equal; lia|]. f_equal. f_equal. lia. }
  split; [now rewrite EM|]. rewrite EM.
  rewrite (skipn_app_len p) by apply repeat_length.
  rewrite (firstn_app_len n) by (rewrite mask_length, firstn_length, skipn_length; lia). apply mask_twice.
Qed.

Lemma zero_where_mask p s l : length l = length s ->
  zero_where p s l = mask (fun i => match nth_error s i with Some c => negb (p c) | None => true end) l.
Proof.
  revert l. induction s as [|c s IH]; intros [|x l] L; try discriminate; [reflexivity|].
  unfold zero_where in *. cbn [combine map fst snd mask nth_error]. rewrite IH by (now injection L).
  f_equal. now destruct (p c).
Qed.

Lemma gentle_zero_where p s : forall c : nat -> bool, exists b, forall l, length l = length s ->
  zero_where p s (mask c (zero_where p s l)) = mask b l /\
  mask c (zero_where p s (mask b l)) = mask c (zero_where p s l).
Proof.
  intros c. set (q := fun i => match nth_error s i with Some c => negb (p c) | None => true end).
  exists (fun i => q i && c i && q i). intros l L.
  rewrite (zero_where_mask p s l L). fold q.
  rewrite zero_where_mask by (now rewrite !mask_length). fold q.
  rewrite zero_where_mask by (now rewrite !mask_length). fold q. rewrite !mask_mask. split; [reflexivity|].
  apply mask_ext. intros i _. destruct (c i), (q i); reflexivity.
Qed.

Lemma gentle_pad m n : forall c : nat -> bool, exists b, forall l, length l = n ->
  firstn n (mask c (firstn m l ++ repeat 0%Z (m - n))) ++ repeat 0%Z (n - m) = mask b l /\
  mask c (firstn m (mask b l) ++ repeat 0%Z (m - n)) = mask c (firstn m l ++ repeat 0%Z (m - n)).
Proof.
  intros c. destruct (Nat.le_gt_cases m n) as [L|L].
  - exists (cat m c (fun _ => false)). intros l LL.
    replace (m - n) with 0 by lia. cbn [repeat]. rewrite !app_nil_r.
    rewrite mask_cat by lia.
    assert (LF : length (mask c (firstn m l)) = m) by (rewrite mask_length, firstn_length; lia).
    rewrite (firstn_all2 (n := n) (mask c (firstn m l))) by lia.
    rewrite mask_none, skipn_length. split; [now rewrite LL|].
    rewrite (firstn_app_len _ _ _ LF). apply mask_twice.
  - exists c. intros l LL. replace (n - m) with 0 by lia. cbn [repeat]. rewrite !app_nil_r.
    rewrite (firstn_all2 (n := m) l) by lia. rewrite (firstn_all2 (n := m) (mask c l)) by (rewrite mask_length; lia).
    rewrite !mask_app, !mask_zeros. rewrite (firstn_app_len n) by (now rewrite mask_length).
    split; [reflexivity|]. now rewrite mask_twice.
Qed.

Lemma gentle_soseos n : forall c : nat -> bool, exists b, forall l, length l = n ->
  firstn n (tl (mask c (0%Z :: l ++ [0%Z]))) = mask b l /\
  mask c (0%Z :: mask b l ++ [0%Z]) = mask c (0%Z :: l ++ [0%Z]).
Proof.
  intros c. exists (fun i => c (S i)). intros l L. cbn [mask tl]. rewrite !mask_app.
  rewrite (firstn_app_len n) by (now rewrite mask_length). split; [reflexivity|].
  now rewrite mask_twice, mask_length.
Qed.
Lemma gentle_end n : forall c : nat -> bool, exists b, forall l, length l = n ->
  firstn n (mask c (l ++ [0%Z])) = mask b l /\ mask c (mask b l ++ [0%Z]) = mask c (l ++ [0%Z]).
Proof.
  intros c. exists c. intros l L. rewrite !mask_app.
  rewrite (firstn_app_len n) by (now rewrite mask_length). split; [reflexivity|]. now rewrite mask_twice, mask_length.
Qed.
