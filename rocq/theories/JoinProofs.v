(** Proofs for C98: annotated texts, their labels and the pieces of a pipe. *)

From Verif Require Import Py PyFacts Elements Json Ops Pipe SpecElements DatumProofs PackProofs PackErrors SettleDatum ExpandProofs ElementsLaws SpecGlue SpecJoin.
From Coq Require Import List Lia Permutation Sorted.
Import ListNotations.
Local Open Scope Z_scope.

Lemma sorted_app {A} (R : A -> A -> Prop) l m : StronglySorted R l -> StronglySorted R m ->
  (forall x y, In x l -> In y m -> R x y) -> StronglySorted R (l ++ m).
Proof.
  intros HL HM H. induction HL as [|x l HL IH HF]; [exact HM|]. cbn [app]. constructor.
  - apply IH. intros a b HA HB. apply H; [now right|exact HB].
  - apply Forall_app. split; [exact HF|]. apply Forall_forall. intros y HY. apply H; [now left|exact HY].
Qed.

Lemma join_sorted u1 es1 es2 : StronglySorted before es1 -> StronglySorted before es2 ->
  Forall (inside u1) es1 -> Forall (fun e => 0 <= e_start e) es2 ->
  StronglySorted before (join_entities (Z.of_nat (length u1)) es1 es2).
Proof.
  intros S1 S2 I1 I2. apply sorted_app; [exact S1| |].
  - apply StronglySorted_map. eapply StronglySorted_impl; [|exact S2].
    unfold before, moved. cbn. intros. lia.
  - intros x y HX HY. apply in_map_iff in HY. destruct HY as (z & <- & HZ).
    rewrite Forall_forall in I1, I2. specialize (I1 x HX). specialize (I2 z HZ).
    unfold before, inside, moved in *. cbn. lia.
Qed.

Lemma text_at_l u v i j w : text_at u i j w -> text_at (u ++ v) i j w.
Proof. intros (a & b & -> & H). exists a, (b ++ v). now rewrite <- !app_assoc. Qed.
Lemma text_at_r u v i j w : text_at v i j w ->
  text_at (u ++ v) (i + Z.of_nat (length u)) (j + Z.of_nat (length u)) w.
Proof.
  intros (a & b & -> & H1 & H2). exists (u ++ a), b. rewrite <- !app_assoc, app_length. split; [reflexivity|]. lia.
Qed.

Lemma inside_l u v e : inside u e -> inside (u ++ v) e.
Proof. unfold inside. rewrite app_length. lia. Qed.
Lemma inside_r u v e : inside v e -> inside (u ++ v) (moved (Z.of_nat (length u)) e).
Proof. unfold inside, moved. cbn. rewrite app_length. lia. Qed.

Lemma join_inside u1 u2 es1 es2 : Forall (inside u1) es1 -> Forall (inside u2) es2 ->
  Forall (inside (u1 ++ u2)) (join_entities (Z.of_nat (length u1)) es1 es2).
Proof.
  intros I1 I2. apply Forall_app. split.
  - eapply Forall_impl; [|exact I1]. intros e. apply inside_l.
  - apply Forall_map. eapply Forall_impl; [|exact I2]. intros e. apply inside_r.
Qed.

Lemma sorted_starts es : Forall (fun e => e_start e <= e_end e) es -> StronglySorted before es ->
  StronglySorted (fun a b => e_start a <= e_start b) es /\ StronglySorted SpecElements.apart es.
Proof.
  intros HF HS. induction HS as [|x l HS IH HB]; [split; constructor|].
  inversion HF; subst. destruct IH as (I1 & I2); [assumption|]. split; constructor; try assumption.
  - eapply Forall_impl; [|exact HB]. unfold before. cbn. lia.
  - eapply Forall_impl; [|exact HB]. unfold SpecElements.apart. intros e HE.
    destruct (Z.leb_spec (e_start x) (e_start e)); [exact HE|]. unfold before in HE. lia.
Qed.

(** The constructor takes the two texts together. *)
Theorem joined_made d1 d2 ints : at_home d1 -> at_home d2 -> Forall i32 ints ->
  Z.of_nat (length (d_utterance d1 ++ d_utterance d2)) < 2 ^ 31 ->
  exists d, make_datum (d_utterance d1 ++ d_utterance d2) (Some ints)
      (Some (join_entities (Z.of_nat (length (d_utterance d1))) (d_entities d1) (d_entities d2))) = Ok d /\
    at_home d /\ joined d1 d2 d /\ same_set (d_intents d) ints.
Proof.
  intros (H1 & I1) (H2 & I2) HI HL.
  pose proof (is_datum_inv d1 H1) as (_ & A2 & _ & _ & A5 & A6).
  pose proof (is_datum_inv d2 H2) as (_ & B2 & _ & _ & B5 & B6).
  set (es := join_entities _ _ _).
  assert (IN : Forall (inside (d_utterance d1 ++ d_utterance d2)) es) by now apply join_inside.
  assert (SB : StronglySorted before es).
  { apply join_sorted; try assumption. eapply Forall_impl; [|exact I2]. unfold inside. cbn. lia. }
  destruct (sorted_starts es) as (SS & SA); [eapply Forall_impl; [|exact IN]; unfold inside; cbn; lia|exact SB|].
  assert (VAL : Forall (fun e => e_value e = slice_z (d_utterance d1 ++ d_utterance d2) (e_start e) (e_end e)) es).
  { rewrite Forall_forall in A6, B6, I1, I2. apply Forall_app. split.
    - apply Forall_forall. intros e HE. pose proof (I1 e HE) as J. apply text_at_slice; [destruct J; lia|].
      apply text_at_l. apply inside_text; [exact J|now apply A6].
    - apply Forall_map. apply Forall_forall. intros e HE. pose proof (I2 e HE) as J.
      unfold moved. cbn [e_value e_start e_end]. apply text_at_slice; [destruct J; lia|].
      apply text_at_r. apply inside_text; [exact J|now apply B6]. }
  pose proof (make_datum_ok _ ints _ VAL SA) as M. rewrite (sort_by_id _ _ SS) in M.
  eexists. split; [exact M|]. split; [|split; [split; reflexivity|]].
  - split; [|exact IN]. exists (d_utterance d1 ++ d_utterance d2), ints, es. split; [exact M|]. split.
    + eapply Forall_impl; [|exact HI]. intros i. apply is_intent_iff.
    + apply Forall_app. split; [exact A2|]. apply Forall_map. rewrite Forall_forall in *.
      intros e HE. specialize (B2 e HE). apply is_entity_iff in B2. destruct B2 as (E1 & E2 & E3 & E4).
      pose proof (I2 e HE) as J. unfold inside in J. rewrite app_length in HL.
      apply is_entity_iff. unfold moved. cbn. unfold i32 in *. repeat split; try lia. exact E4.
  - cbn [d_intents]. intros x. split; apply Permutation_in; [|symmetry]; apply sort_by_perm.
Qed.

(** ** Labels *)

Lemma labelled_join k es1 es2 i x : 0 <= i -> Forall (fun e => e_end e <= k) es1 -> Forall (fun e => 0 <= e_start e) es2 ->
  (i < k -> labelled es1 i x -> labelled (join_entities k es1 es2) i x) /\
  (k <= i -> labelled es2 (i - k) x -> labelled (join_entities k es1 es2) i x).
Proof.
  intros I0 H1 H2. rewrite Forall_forall in H1, H2. unfold join_entities, labelled, covers. split; intros HK [(e & HE & HC & HL)|(HN & ->)].
  - left. exists e. rewrite in_app_iff. auto.
  - right. split; [|reflexivity]. intros e HE. apply in_app_iff in HE. destruct HE as [HE|HE]; [now apply HN|].
    apply in_map_iff in HE. destruct HE as (z & <- & HZ). specialize (H2 z HZ). unfold moved. cbn. lia.
  - left. exists (moved k e). rewrite in_app_iff, in_map_iff. split; [right; now exists e|].
    unfold moved. cbn. split; [lia|exact HL].
  - right. split; [|reflexivity]. intros e HE. apply in_app_iff in HE. destruct HE as [HE|HE].
    + specialize (H1 e HE). lia.
    + apply in_map_iff in HE. destruct HE as (z & <- & HZ). specialize (HN z HZ). unfold moved. cbn. lia.
Qed.

Theorem joined_labels d1 d2 d : at_home d1 -> at_home d2 -> is_datum d -> joined d1 d2 d ->
  exists l1 l2, unpack_datum d1 = Ok (d_utterance d1, d_intents d1, l1) /\
    unpack_datum d2 = Ok (d_utterance d2, d_intents d2, l2) /\
    unpack_datum d = Ok (d_utterance d, d_intents d, l1 ++ l2) /\
    length l1 = length (d_utterance d1) /\ length l2 = length (d_utterance d2).
Proof.
  intros (H1 & I1) (H2 & I2) HD (JU & JE).
  destruct (unpack_inside d1 H1 I1) as (l1 & U1 & L1 & P1). destruct (unpack_inside d2 H2 I2) as (l2 & U2 & L2 & P2).
  assert (IN : Forall (inside (d_utterance d)) (d_entities d)) by (rewrite JU, JE; now apply join_inside).
  destruct (unpack_inside d HD IN) as (l & U & L & P). exists l1, l2.
  split; [exact U1|]. split; [exact U2|]. split; [|split; assumption]. rewrite U. do 2 f_equal.
  pose proof (is_datum_inv d HD) as (_ & _ & _ & _ & SB & _).
  apply at_nth_ext; [rewrite L, app_length, JU, app_length; lia|]. intros i HI.
  set (k := Z.of_nat (length (d_utterance d1))) in *.
  destruct (labelled_join k (d_entities d1) (d_entities d2) i (at_ (l1 ++ l2) i)) as (J1 & J2); [lia| | |].
  { eapply Forall_impl; [|exact I1]. unfold inside. cbn. lia. }
  { eapply Forall_impl; [|exact I2]. unfold inside. cbn. lia. }
  rewrite L, JU, app_length in HI.
  apply (labelled_unique (d_entities d) i); [exact SB|apply P; rewrite JU, app_length; lia|]. rewrite JE.
  destruct (Z.ltb_spec i k).
  - apply J1; [assumption|]. rewrite at_app_l by (rewrite L1; lia). apply P1. lia.
  - apply J2; [assumption|]. rewrite at_app_r by (rewrite L1; lia). rewrite L1. apply P2. lia.
Qed.

(** ** Through a pipe *)

Theorem joined_transform E p d1 d2 d y1 i1 m1 als1 coll1 y2 i2 m2 als2 coll2 :
  at_home d1 -> at_home d2 -> is_datum d -> joined d1 d2 d ->
  glued_pipe E p (SStr (d_utterance d1)) (SStr (d_utterance d2)) ->
  transform E p d1 = Ok (y1, i1, m1, als1, coll1) -> transform E p d2 = Ok (y2, i2, m2, als2, coll2) ->
  exists als coll, transform E p d = Ok (glue y1 y2, d_intents d, m1 ++ m2, als, coll) /\
    forall l1 l2, length l1 = pseq_length y1 -> length l2 = pseq_length y2 ->
      align_inverse_all E als (l1 ++ l2) = both (align_inverse_all E als1 l1) (align_inverse_all E als2 l2).
Proof.
  intros H1 H2 HD J G T1 T2. destruct (joined_labels d1 d2 d H1 H2 HD J) as (l1 & l2 & U1 & U2 & U & L1 & L2).
  unfold transform in *. rewrite U1 in T1. rewrite U2 in T2. rewrite U. cbn [bind] in *.
  destruct (transform_sequence E p (SStr (d_utterance d1))) as [[[z1 a1] c1]|] eqn:S1; [|discriminate].
  destruct (transform_sequence E p (SStr (d_utterance d2))) as [[[z2 a2] c2]|] eqn:S2; [|discriminate].
  cbn [bind] in *. destruct (align_all a1 l1) as [n1|] eqn:A1; [|discriminate].
  destruct (align_all a2 l2) as [n2|] eqn:A2; [|discriminate]. cbn [bind] in *.
  injection T1 as -> _ -> -> ->. injection T2 as -> _ -> -> ->.
  destruct (G _ _ _ _ _ _ S1 S2) as (als & coll & S & AL). exists als, coll.
  destruct J as (JU & _). rewrite JU. cbn [glue] in S. rewrite S. cbn [bind].
  destruct (AL l1 l2) as (F & _). rewrite F by assumption. rewrite A1, A2. cbn [both bind]. split; [reflexivity|].
  intros k1 k2. apply AL.
Qed.

(** ** Back to annotated texts *)

Lemma run_join l1 l2 s t l : ~ across l1 l2 ->
  (run (l1 ++ l2) s t l <-> run l1 s t l \/
     run l2 (s - Z.of_nat (length l1)) (t - Z.of_nat (length l1)) l).
Proof.
  intros NA. set (k := Z.of_nat (length l1)).
  assert (AL : forall i, 0 <= i < k -> at_ (l1 ++ l2) i = at_ l1 i) by (intros; now apply at_app_l).
  assert (AR : forall i, k <= i -> at_ (l1 ++ l2) i = at_ l2 (i - k)) by (intros; now apply at_app_r).
  assert (CUT : 0 < k -> 0 < Z.of_nat (length l2) -> at_ l1 (k - 1) <> 0 -> at_ l1 (k - 1) = at_ l2 0 -> False).
  { intros K1 K2 N Q. apply NA. destruct (exists_last' l1) as [->|(a & x & ->)]; [cbn in K1; lia|].
    destruct l2 as [|y b]; [cbn in K2; lia|]. exists a, x, b. unfold at_ in *. cbn [nth Z.to_nat] in Q.
    unfold k in *. rewrite app_length in *. cbn [length] in *.
    rewrite app_nth2 in * by lia. replace (Z.to_nat _ - length a)%nat with 0%nat in * by lia. cbn in *. subst. auto. }
  unfold run. rewrite app_length, Nat2Z.inj_add. fold k. split.
  - intros (A & B & C & D & F & G).
    destruct (Z_le_gt_dec t k) as [TK|TK].
    + left. split; [exact A|]. split; [exact TK|]. split; [exact C|]. split; [|split].
      * intros i HI. rewrite <- AL by lia. now apply D.
      * destruct F as [F|F]; [now left|]. destruct (Z.eq_dec s 0); [now left|right]. now rewrite <- AL by lia.
      * destruct (Z.eq_dec t k); [now left|right]. destruct G as [G|G]; [lia|]. now rewrite <- AL by lia.
    + destruct (Z_le_gt_dec k s) as [SK|SK].
      * right. split; [lia|]. split; [lia|]. split; [exact C|]. split; [|split].
        -- intros i HI. rewrite <- (D (i + k)) by lia. rewrite AR by lia. f_equal. lia.
        -- destruct (Z.eq_dec s k); [left; lia|right]. destruct F as [F|F]; [lia|].
           rewrite AR in F by lia. now replace (s - k - 1) with (s - 1 - k) by lia.
        -- destruct G as [G|G]; [left; lia|right]. now rewrite <- AR by lia.
      * exfalso. pose proof (D (k - 1) ltac:(lia)) as D1. pose proof (D k ltac:(lia)) as D2.
        rewrite AL in D1 by lia. rewrite AR in D2 by lia. replace (k - k) with 0 in D2 by lia.
        apply CUT; [lia|lia|congruence|congruence].
  - intros [(A & B & C & D & F & G)|(A & B & C & D & F & G)].
    + split; [exact A|]. split; [lia|]. split; [exact C|]. split; [|split].
      * intros i HI. rewrite AL by lia. now apply D.
      * destruct F as [F|F]; [now left|]. destruct (Z.eq_dec s 0); [now left|right]. now rewrite AL by lia.
      * destruct (Z.eq_dec t k) as [->|N].
        -- destruct (Z.eq_dec (Z.of_nat (length l2)) 0); [left; lia|right]. rewrite AR by lia.
           replace (k - k) with 0 by lia. intros Q. pose proof (D (k - 1) ltac:(lia)). apply CUT; [lia|lia|congruence|congruence].
        -- right. destruct G as [G|G]; [lia|]. now rewrite AL by lia.
    + split; [lia|]. split; [lia|]. split; [exact C|]. split; [|split].
      * intros i HI. rewrite AR by lia. apply D. lia.
      * destruct (Z.eq_dec s 0); [now left|right]. destruct (Z.eq_dec s k) as [->|N].
        -- rewrite AL by lia. intros Q. pose proof (D 0 ltac:(lia)) as D0. apply CUT; [lia|lia|congruence|congruence].
        -- rewrite AR by lia. destruct F as [F|F]; [lia|]. now replace (s - 1 - k) with (s - k - 1) by lia.
      * destruct G as [G|G]; [left; lia|right]. now rewrite AR by lia.
Qed.

Lemma pack_ok_inv u ints ls d : pack_to_datum u ints ls = Ok d ->
  length u = length ls /\ u <> [] /\ Forall i32 ints /\ (forall s t l, run ls s t l -> i32 t /\ i32 l) /\
  is_datum d /\ d_utterance d = u /\ same_set (d_intents d) ints /\ Forall (inside u) (d_entities d) /\
  StronglySorted before (d_entities d) /\
  forall e, In e (d_entities d) <->
    exists s t l, run ls s t l /\ e = mkEntity l (slice_z u s t) s t [].
Proof.
  intros H. destruct (Nat.eq_dec (length u) (length ls)) as [L|L]; [|rewrite pack_mismatch in H by exact L; discriminate].
  destruct (fits_i32_dec ints ls) as [(I1 & I2)|N]; [|rewrite pack_overflow in H by assumption; discriminate].
  assert (NU : u <> []).
  { intros ->. destruct ls; [|discriminate]. rewrite pack_empty in H by exact I1. discriminate. }
  destruct (pack_spec u ints ls L NU I1 I2) as (d' & P & HD & HU & HS & _ & IN & HV & HR & SB).
  rewrite H in P. injection P as <-. do 9 (split; [assumption|]).
  intros e. split.
  - intros HE. exists (e_start e), (e_end e), (e_label e). split; [apply HR; now exists e|].
    destruct (HV e HE) as (V1 & V2). rewrite Forall_forall in IN. destruct (IN e HE) as (J1 & _).
    apply text_at_slice in V2; [|exact J1]. destruct e as [el ev es et er]. cbn in *. now destruct V2; subst.
  - intros (s & t & l & R & ->). apply HR in R. destruct R as (e & HE & <- & <- & <-).
    destruct (HV e HE) as (V1 & V2). rewrite Forall_forall in IN. destruct (IN e HE) as (J1 & _).
    apply text_at_slice in V2; [|exact J1]. destruct V2 as (V2 & _).
    rewrite <- V2, <- V1. destruct e; exact HE.
Qed.

Lemma slice_l (u v : str) i j : 0 <= i <= j -> j <= Z.of_nat (length u) -> slice_z (u ++ v) i j = slice_z u i j.
Proof.
  intros H1 H2. symmetry. destruct (slice_text_at u i j H1 H2) as (Q & L).
  apply text_at_slice; [exact H1|]. apply text_at_l. eexists _, _. split; [exact Q|]. rewrite firstn_length. lia.
Qed.
Lemma slice_r (u v : str) i j : 0 <= i <= j -> j <= Z.of_nat (length v) ->
  slice_z (u ++ v) (i + Z.of_nat (length u)) (j + Z.of_nat (length u)) = slice_z v i j.
Proof.
  intros H1 H2. symmetry. destruct (slice_text_at v i j H1 H2) as (Q & L).
  apply text_at_slice; [lia|]. apply text_at_r. eexists _, _. split; [exact Q|]. rewrite firstn_length. lia.
Qed.

Theorem joined_pack u1 u2 i1 i2 ints l1 l2 d1 d2 :
  pack_to_datum u1 i1 l1 = Ok d1 -> pack_to_datum u2 i2 l2 = Ok d2 -> Forall i32 ints ->
  Z.of_nat (length (u1 ++ u2)) < 2 ^ 31 ->
  exists d, pack_to_datum (u1 ++ u2) ints (l1 ++ l2) = Ok d /\ at_home d /\ same_set (d_intents d) ints /\
    (joined d1 d2 d <-> ~ across l1 l2).
Proof.
  intros P1 P2 HI HL.
  destruct (pack_ok_inv _ _ _ _ P1) as (L1 & N1 & _ & F1 & D1 & U1 & _ & IN1 & SB1 & E1).
  destruct (pack_ok_inv _ _ _ _ P2) as (L2 & N2 & _ & F2 & D2 & U2 & _ & IN2 & SB2 & E2).
  assert (LL : length (u1 ++ u2) = length (l1 ++ l2)) by (rewrite !app_length; lia).
  assert (NU : u1 ++ u2 <> []) by (intros Q; apply app_eq_nil in Q; tauto).
  assert (FI : forall s t l, run (l1 ++ l2) s t l -> i32 t /\ i32 l).
  { intros s t l R. destruct R as (A & B & C & D & _ & _). split; [unfold i32; rewrite <- LL in B; lia|].
    assert (Q : at_ (l1 ++ l2) s = l) by (apply D; lia).
    destruct (Z.ltb_spec s (Z.of_nat (length l1))).
    - rewrite at_app_l in Q by lia. destruct (runs_exist l1 s) as (s' & t' & R & _); [lia|congruence|].
      rewrite <- Q. now apply F1 in R.
    - rewrite at_app_r in Q by lia. destruct (runs_exist l2 (s - Z.of_nat (length l1))) as (s' & t' & R & _).
      { rewrite app_length in B. lia. }
      { congruence. }
      rewrite <- Q. now apply F2 in R. }
  destruct (pack_spec (u1 ++ u2) ints (l1 ++ l2) LL NU HI FI) as (d & P & HD & HU & HS & _ & IN & _).
  exists d. split; [exact P|]. split; [split; [exact HD|now rewrite HU]|]. split; [exact HS|].
  destruct (pack_ok_inv _ _ _ _ P) as (_ & _ & _ & _ & _ & _ & _ & _ & SB & EE).
  set (k := Z.of_nat (length u1)).
  assert (K : Z.of_nat (length l1) = k) by (unfold k; now rewrite L1).
  unfold joined. rewrite HU, U1, U2. split.
  - intros (_ & JE) (a & l & b & -> & -> & NL).
    destruct (runs_exist (a ++ [l]) (k - 1)) as (s & t & R & ST).
    { rewrite app_length in K. cbn in K. rewrite app_length. cbn. lia. }
    { unfold at_. rewrite app_length in K. cbn in K. rewrite app_nth2 by lia.
      now replace (Z.to_nat (k - 1) - length a)%nat with 0%nat by lia. }
    assert (AT : at_ (a ++ [l]) (k - 1) = l).
    { unfold at_. rewrite app_length in K. cbn in K. rewrite app_nth2 by lia.
      now replace (Z.to_nat (k - 1) - length a)%nat with 0%nat by lia. }
    rewrite AT in R. assert (TK : t = k) by (destruct R as (_ & B & _); lia). subst t.
    assert (HE : In (mkEntity l (slice_z u1 s k) s k []) (d_entities d1)) by (apply E1; now exists s, k, l).
    assert (HX : In (mkEntity l (slice_z u1 s k) s k []) (d_entities d)).
    { rewrite JE. apply in_app_iff. now left. }
    apply EE in HX. destruct HX as (s' & t' & l' & R' & Q). injection Q as <- _ <- <-.
    destruct R' as (_ & B & _ & _ & _ & [G|G]).
    + rewrite app_length in G. cbn [length] in G. lia.
    + apply G. rewrite at_app_r by lia. now rewrite K, Z.sub_diag.
  - intros NA. split; [reflexivity|].
    assert (NE : forall u ls dd, (forall e, In e (d_entities dd) <->
       exists s t l, run ls s t l /\ e = mkEntity l (slice_z u s t) s t []) ->
       Forall (fun e => 0 <= e_start e < e_end e /\ e_end e <= Z.of_nat (length ls)) (d_entities dd)).
    { intros u ls dd H. apply Forall_forall. intros e HE. apply H in HE. destruct HE as (s & t & l & R & ->).
      destruct R as (R & R2 & _). cbn. lia. }
    pose proof (NE _ _ _ EE) as Q. pose proof (NE _ _ _ E1) as Q1. pose proof (NE _ _ _ E2) as Q2. clear NE.
    assert (SJ : StronglySorted before (join_entities k (d_entities d1) (d_entities d2))).
    { apply join_sorted; try assumption. eapply Forall_impl; [|exact Q2]. cbn. lia. }
    apply (sorted_perm_unique before); [|exact SB|exact SJ|].
    { intros x y HX HY. rewrite Forall_forall in Q. specialize (Q x HX) as QX. specialize (Q y HY).
      unfold before. lia. }
    apply NoDup_Permutation.
    { apply sorted_NoDup; [|exact SB]. eapply Forall_impl; [|exact Q]. cbn. lia. }
    { apply sorted_NoDup; [|exact SJ]. apply Forall_app. split.
      - eapply Forall_impl; [|exact Q1]. cbn. lia.
      - apply Forall_map. eapply Forall_impl; [|exact Q2]. cbn. lia. }
    intros e. rewrite EE. unfold join_entities. rewrite in_app_iff, in_map_iff. split.
    + intros (s & t & l & R & ->). apply run_join in R; [|exact NA]. rewrite K in R. destruct R as [R|R].
      * left. apply E1. exists s, t, l. split; [exact R|]. destruct R as (R1 & R2 & _).
        f_equal. apply slice_l; lia.
      * right. exists (mkEntity l (slice_z u2 (s - k) (t - k)) (s - k) (t - k) []). split.
        -- unfold moved. cbn. destruct R as (R1 & R2 & _).
           rewrite <- (slice_r u1 u2 (s - k) (t - k)) by lia. fold k. f_equal; try lia. f_equal; lia.
        -- apply E2. now exists (s - k), (t - k), l.
    + intros [HE|(z & <- & HE)].
      * apply E1 in HE. destruct HE as (s & t & l & R & ->). exists s, t, l.
        split; [apply run_join; [exact NA|now left]|]. destruct R as (R1 & R2 & _).
        f_equal. symmetry. apply slice_l; lia.
      * apply E2 in HE. destruct HE as (s & t & l & R & ->). exists (s + k), (t + k), l. split.
        -- apply run_join; [exact NA|right]. rewrite K. now replace (s + k - k) with s by lia; replace (t + k - k) with t by lia.
        -- unfold moved. cbn. destruct R as (R1 & R2 & _). f_equal. symmetry. apply slice_r; lia.
Qed.
