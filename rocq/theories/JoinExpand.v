(** Proofs for C98: the expansions of two annotated texts put together, and the whole way through a pipe. *)

From Verif Require Import Py PyFacts Elements Json Ops Pipe SpecElements DatumProofs PackProofs ExpandProofs ElementsLaws SpecGlue SpecJoin JoinProofs.
From Coq Require Import List Lia Permutation Sorted.
Import ListNotations.
Local Open Scope Z_scope.

Lemma flat_map_flat_map {A B C} (f : B -> list C) (g : A -> list B) l :
  flat_map f (flat_map g l) = flat_map (fun x => flat_map f (g x)) l.
Proof. induction l as [|x l IH]; [reflexivity|]. cbn. now rewrite flat_map_app, IH. Qed.

Lemma choices_app {A} (cs1 cs2 : list (list A)) :
  choices (cs1 ++ cs2) = flat_map (fun b => map (fun a => a ++ b) (choices cs1)) (choices cs2).
Proof.
  induction cs1 as [|it cs1 IH]; cbn [app choices].
  - induction (choices cs2) as [|x l IHl]; [reflexivity|]. cbn [flat_map map app] in *. now rewrite <- IHl.
  - rewrite IH, flat_map_flat_map. apply flat_map_ext. intros b. rewrite !flat_map_concat_map, map_map, concat_map, map_map.
    f_equal. apply map_ext. intros t. now rewrite map_map.
Qed.

Lemma n_choices_app {A} (cs1 cs2 : list (list A)) : n_choices (cs1 ++ cs2) = n_choices cs1 * n_choices cs2.
Proof. induction cs1 as [|it cs1 IH]; [cbn [app]; unfold n_choices at 2; cbn [map fold_right]; lia|]. cbn [app]. rewrite !n_choices_cons, IH. lia. Qed.

Lemma rebuilt_text_right (u1 u2 : str) es : forall pos vs, Forall (fun e => 0 <= e_start e /\ 0 <= e_end e) es ->
  rebuilt_text (u1 ++ u2) (pos + length u1) (map (moved (Z.of_nat (length u1))) es) vs = rebuilt_text u2 pos es vs.
Proof.
  assert (SK : forall pos, skipn (pos + length u1) (u1 ++ u2) = skipn pos u2).
  { intros pos. rewrite skipn_app, skipn_all2 by lia. now replace (pos + length u1 - length u1)%nat with pos by lia. }
  induction es as [|e es IH]; intros pos vs HF; [apply SK|]. inversion HF as [|? ? (H1 & H2) HF']; subst.
  cbn [map rebuilt_text]. destruct vs as [|v vs]; [apply SK|]. rewrite SK. cbn [moved e_start e_end]. f_equal.
  - f_equal. lia.
  - f_equal. replace (Z.to_nat (e_end e + Z.of_nat (length u1))) with (Z.to_nat (e_end e) + length u1)%nat by lia.
    now apply IH.
Qed.

Lemma rebuilt_text_cross (u1 u2 : str) es pos vs : (pos <= length u1)%nat -> Forall (fun e => 0 <= e_start e /\ 0 <= e_end e) es ->
  rebuilt_text (u1 ++ u2) pos (map (moved (Z.of_nat (length u1))) es) vs = skipn pos u1 ++ rebuilt_text u2 0 es vs.
Proof.
  intros HP HF.
  assert (SK : skipn pos (u1 ++ u2) = skipn pos u1 ++ u2).
  { rewrite skipn_app. now replace (pos - length u1)%nat with 0%nat by lia. }
  destruct es as [|e es]; [exact SK|]. inversion HF as [|? ? (H1 & H2) HF']; subst.
  cbn [map rebuilt_text]. destruct vs as [|v vs]; [exact SK|]. rewrite SK. cbn [moved e_start e_end skipn].
  rewrite firstn_app, skipn_length, firstn_all2 by (rewrite skipn_length; lia). rewrite <- app_assoc. f_equal. f_equal.
  - f_equal. lia.
  - f_equal. replace (Z.to_nat (e_end e + Z.of_nat (length u1))) with (Z.to_nat (e_end e) + length u1)%nat by lia.
    now apply rebuilt_text_right.
Qed.

Lemma rebuilt_text_join (u1 u2 : str) es2 vs2 : Forall (fun e => 0 <= e_start e /\ 0 <= e_end e) es2 -> forall es1 pos vs1,
  (pos <= length u1)%nat -> Forall (fun e => 0 <= e_start e <= Z.of_nat (length u1) /\ 0 <= e_end e <= Z.of_nat (length u1)) es1 ->
  length vs1 = length es1 ->
  rebuilt_text (u1 ++ u2) pos (join_entities (Z.of_nat (length u1)) es1 es2) (vs1 ++ vs2) =
  rebuilt_text u1 pos es1 vs1 ++ rebuilt_text u2 0 es2 vs2.
Proof.
  intros HF2. induction es1 as [|e es1 IH]; intros pos vs1 HP HF HL.
  - destruct vs1; [|discriminate]. now apply rebuilt_text_cross.
  - destruct vs1 as [|v vs1]; [discriminate|]. inversion HF as [|? ? (H1 & H2) HF']; subst.
    unfold join_entities in *. cbn [app rebuilt_text]. rewrite <- !app_assoc. f_equal; [|f_equal].
    + rewrite skipn_app, firstn_app, skipn_length.
      replace (Z.to_nat (e_start e) - pos - (length u1 - pos))%nat with 0%nat by lia. now rewrite firstn_O, app_nil_r.
    + apply IH; [lia|exact HF'|now injection HL].
Qed.

Lemma rebuilt_entities_shift k es : forall shift vs,
  rebuilt_entities shift (map (moved k) es) vs = map (moved (shift + k)) (rebuilt_entities 0 es vs) /\
  forall a, rebuilt_entities (a + shift) es vs = map (moved shift) (rebuilt_entities a es vs).
Proof.
  assert (G : forall es shift a vs, rebuilt_entities (a + shift) es vs = map (moved shift) (rebuilt_entities a es vs)).
  { clear. induction es as [|e es IH]; intros shift a vs; [reflexivity|]. destruct vs as [|v vs]; [reflexivity|].
    cbn [rebuilt_entities map]. rewrite <- IH. f_equal; [unfold moved; cbn; f_equal; lia|f_equal; lia]. }
  intros shift vs. split; [|intros; apply G]. rewrite <- G. cbn [Z.add].
  revert shift vs. induction es as [|e es IH]; intros shift vs; [reflexivity|]. destruct vs as [|v vs]; [reflexivity|].
  cbn [map rebuilt_entities moved e_start e_end e_label]. rewrite IH. f_equal; [f_equal; lia|f_equal; lia].
Qed.

Lemma rebuilt_entities_join (u1 : str) es2 vs2 : forall es1 pos shift vs1,
  Forall (inside u1) es1 -> Forall (fun e => Z.of_nat pos <= e_start e) es1 -> StronglySorted before es1 -> (pos <= length u1)%nat ->
  length vs1 = length es1 ->
  rebuilt_entities shift (join_entities (Z.of_nat (length u1)) es1 es2) (vs1 ++ vs2) =
  rebuilt_entities shift es1 vs1 ++
  map (moved (Z.of_nat (length (rebuilt_text u1 pos es1 vs1)) + Z.of_nat pos + shift)) (rebuilt_entities 0 es2 vs2).
Proof.
  induction es1 as [|e es1 IH]; intros pos shift vs1 HF HP HS HL LV.
  - destruct vs1; [|discriminate]. unfold join_entities. cbn [app rebuilt_entities rebuilt_text].
    rewrite (proj1 (rebuilt_entities_shift _ es2 shift vs2)). rewrite skipn_length. f_equal. f_equal. lia.
  - destruct vs1 as [|v vs1]; [discriminate|]. inversion HF as [|? ? (H1 & H2) HF']; subst. inversion HP as [|? ? H3 HP']; subst.
    apply StronglySorted_inv in HS. destruct HS as (HS & HB).
    unfold join_entities in *. cbn [app rebuilt_entities rebuilt_text]. f_equal.
    rewrite (IH (Z.to_nat (e_end e))); [|exact HF'| |exact HS|lia|now injection LV].
    2:{ eapply Forall_impl; [|exact HB]. unfold before. cbn. lia. }
    f_equal. f_equal. f_equal. rewrite !app_length, firstn_length, skipn_length. lia.
Qed.

Lemma rebuilt_joined d1 d2 d vs1 vs2 : at_home d1 -> at_home d2 -> joined d1 d2 d ->
  length vs1 = length (d_entities d1) ->
  joined (rebuilt d1 vs1) (rebuilt d2 vs2) (rebuilt d (vs1 ++ vs2)).
Proof.
  intros (H1 & I1) (H2 & I2) (JU & JE) L1. unfold joined, rebuilt. cbn [d_utterance d_entities]. rewrite JU, JE.
  pose proof (is_datum_inv d1 H1) as (_ & _ & _ & _ & SB & _).
  assert (F2 : Forall (fun e => 0 <= e_start e /\ 0 <= e_end e) (d_entities d2)).
  { eapply Forall_impl; [|exact I2]. unfold inside. cbn. lia. }
  split.
  - apply rebuilt_text_join; [exact F2|lia| |exact L1]. eapply Forall_impl; [|exact I1]. unfold inside. cbn. lia.
  - rewrite (rebuilt_entities_join _ _ _ _ 0); [|exact I1| |exact SB|lia|exact L1].
    + unfold join_entities. f_equal. f_equal. f_equal. cbn [Z.of_nat]. lia.
    + eapply Forall_impl; [|exact I1]. unfold inside. cbn. lia.
Qed.

Lemma expand_any d io cs : at_home d -> Forall2 (candidates io) (d_entities d) cs ->
  (forall vs, In vs (choices cs) -> Z.of_nat (length (d_utterance (rebuilt d vs))) < 2 ^ 31) -> n_choices cs <= 2 ^ 31 ->
  exists ds, expand_by_entities d None io = Ok ds /\ map d_utterance ds = map (fun vs => d_utterance (rebuilt d vs)) (choices cs) /\
    map d_entities ds = map (fun vs => d_entities (rebuilt d vs)) (choices cs).
Proof.
  intros (HD & HI) HC HB HN. destruct (d_entities d) eqn:Q.
  - inversion HC; subst. exists [d]. split; [now apply expand_plain|]. cbn. unfold rebuilt. rewrite Q. split; reflexivity.
  - exists (map (rebuilt d) (choices cs)). split.
    + apply expand_all; rewrite ?Q; try assumption. discriminate.
    + rewrite !map_map. split; reflexivity.
Qed.

Lemma Forall2_app_split {A B} (R : A -> B -> Prop) l1 : forall l2 m, Forall2 R (l1 ++ l2) m ->
  exists m1 m2, m = m1 ++ m2 /\ Forall2 R l1 m1 /\ Forall2 R l2 m2.
Proof.
  induction l1 as [|x l1 IH]; intros l2 m H; [exists [], m; auto|]. inversion H as [|? y ? m' HR HF]; subst.
  destruct (IH _ _ HF) as (m1 & m2 & -> & F1 & F2). exists (y :: m1), m2. auto.
Qed.

Lemma Forall2_same_length {A B} {R : A -> B -> Prop} {l m} : Forall2 R l m -> length l = length m.
Proof. induction 1; cbn; congruence. Qed.

Lemma by_fields l : forall ds : list datum, map d_utterance ds = map fst l -> map d_entities ds = map snd l ->
  Forall2 (fun d (x : str * list entity) => d_utterance d = fst x /\ d_entities d = snd x) ds l.
Proof.
  induction l as [|x l IH]; intros [|d ds] H1 H2; try discriminate; constructor.
  - injection H1. injection H2. auto.
  - injection H1. injection H2. intros. apply IH; assumption.
Qed.

Lemma n_choices_one io es : forall cs, Forall2 (candidates io) es cs -> 1 <= n_choices cs.
Proof.
  intros cs H. enough (0 < n_choices cs) by lia. apply n_choices_pos.
  induction H as [|e cand es cs HC _ IH]; constructor; [|exact IH].
  destruct (candidates_exist io e) as (c & Hc & Nc). now rewrite (candidates_unique io e _ _ HC Hc).
Qed.

Theorem joined_expand d1 d2 d io cs : at_home d1 -> at_home d2 -> is_datum d -> joined d1 d2 d ->
  Forall2 (candidates io) (d_entities d) cs ->
  (forall vs, In vs (choices cs) -> Z.of_nat (length (d_utterance (rebuilt d vs))) < 2 ^ 31) -> n_choices cs <= 2 ^ 31 ->
  exists ds1 ds2 ds, expand_by_entities d1 None io = Ok ds1 /\ expand_by_entities d2 None io = Ok ds2 /\
    expand_by_entities d None io = Ok ds /\
    Forall2 (fun x xs => joined (fst xs) (snd xs) x) ds (pairs ds1 ds2).
Proof.
  intros H1 H2 HD J HC HB HN.
  assert (AH : at_home d). { split; [exact HD|]. destruct J as (-> & ->), H1, H2. now apply join_inside. }
  destruct (expand_any d io cs AH HC HB HN) as (ds & X & XU & XE).
  pose proof J as (_ & JE). rewrite JE in HC. apply Forall2_app_split in HC. destruct HC as (cs1 & cs2' & -> & C1 & C2).
  assert (C2' : Forall2 (candidates io) (d_entities d2) cs2').
  { clear - C2. remember (map _ _) as l eqn:Q. revert Q. generalize (d_entities d2).
    induction C2 as [|e c l cs HC _ IH]; intros [|x es] Q; try discriminate; constructor.
    - injection Q as -> _. exact HC.
    - injection Q as _ ->. now apply IH. }
  assert (LEN : forall vs1, In vs1 (choices cs1) -> length vs1 = length (d_entities d1)).
  { intros vs1 HI. apply in_choices in HI. rewrite (Forall2_same_length HI). symmetry. apply (Forall2_same_length C1). }
  assert (SPLIT : forall vs1 vs2, In vs1 (choices cs1) -> In vs2 (choices cs2') -> In (vs1 ++ vs2) (choices (cs1 ++ cs2')) /\
     joined (rebuilt d1 vs1) (rebuilt d2 vs2) (rebuilt d (vs1 ++ vs2))).
  { intros vs1 vs2 I1 I2. split; [|now apply rebuilt_joined; auto].
    rewrite choices_app. apply in_flat_map. exists vs2. split; [exact I2|]. now apply (in_map (fun a => a ++ vs2)). }
  pose proof (n_choices_one _ _ _ C1) as N1. pose proof (n_choices_one _ _ _ C2') as N2. rewrite n_choices_app in HN.
  assert (S1 : exists v1, In v1 (choices cs1)).
  { pose proof (choices_length cs1) as Q. destruct (choices cs1) as [|v ?]; [cbn in Q; lia|exists v; now left]. }
  assert (S2 : exists v2, In v2 (choices cs2')).
  { pose proof (choices_length cs2') as Q. destruct (choices cs2') as [|v ?]; [cbn in Q; lia|exists v; now left]. }
  destruct S1 as (v1 & V1), S2 as (v2 & V2).
  destruct (expand_any d1 io cs1) as (ds1 & X1 & XU1 & XE1); [exact H1|exact C1| |nia|].
  { intros vs HV. destruct (SPLIT vs v2 HV V2) as (I & JJ & _). specialize (HB _ I). rewrite JJ, app_length in HB. lia. }
  destruct (expand_any d2 io cs2') as (ds2 & X2 & XU2 & XE2); [exact H2|exact C2'| |nia|].
  { intros vs HV. destruct (SPLIT v1 vs V1 HV) as (I & JJ & _). specialize (HB _ I). rewrite JJ, app_length in HB. lia. }
  exists ds1, ds2, ds. split; [exact X1|]. split; [exact X2|]. split; [exact X|].
  set (fld := fun (d : datum) vs => (d_utterance (rebuilt d vs), d_entities (rebuilt d vs))).
  assert (B : Forall2 (fun x f => d_utterance x = fst f /\ d_entities x = snd f) ds (map (fld d) (choices (cs1 ++ cs2')))).
  { apply by_fields; rewrite map_map; assumption. }
  assert (B1 : Forall2 (fun x f => d_utterance x = fst f /\ d_entities x = snd f) ds1 (map (fld d1) (choices cs1))).
  { apply by_fields; rewrite map_map; assumption. }
  assert (B2 : Forall2 (fun x f => d_utterance x = fst f /\ d_entities x = snd f) ds2 (map (fld d2) (choices cs2'))).
  { apply by_fields; rewrite map_map; assumption. }
  assert (ONE : forall vs1 vs2 x x1 x2, In vs1 (choices cs1) -> In vs2 (choices cs2') ->
    d_utterance x = fst (fld d (vs1 ++ vs2)) /\ d_entities x = snd (fld d (vs1 ++ vs2)) ->
    d_utterance x1 = fst (fld d1 vs1) /\ d_entities x1 = snd (fld d1 vs1) ->
    d_utterance x2 = fst (fld d2 vs2) /\ d_entities x2 = snd (fld d2 vs2) -> joined x1 x2 x).
  { intros vs1 vs2 x x1 x2 I1 I2 (A1 & A2) (A3 & A4) (A5 & A6). destruct (SPLIT vs1 vs2 I1 I2) as (_ & JJ).
    unfold joined, fld in *. cbn [fst snd] in *. now rewrite A1, A2, A3, A4, A5, A6. }
  rewrite choices_app in B. clearbody fld. clear - B B1 B2 ONE. unfold pairs.
  assert (IN2 : incl (choices cs2') (choices cs2')) by apply incl_refl. revert IN2 ds ds2 B B2.
  generalize (choices cs2') at 1 3 4. induction l as [|vs2 l IH]; intros HI ds ds2 B B2.
  - cbn in *. inversion B; inversion B2; subst. constructor.
  - cbn [flat_map map] in *. inversion B2 as [|x2 ? ds2' ? HX2 B2' E1 E2]; subst. cbn [flat_map].
    rewrite map_app in B. apply Forall2_app_inv_r in B. destruct B as (da & db & BA & BB & ->).
    apply Forall2_app; [|apply IH; [|exact BB|exact B2']].
    2:{ intros z HZ. apply HI. now right. }
    assert (HV2 : In vs2 (choices cs2')) by (apply HI; now left). clear IH HI BB B2 B2' db.
    rewrite map_map in BA.
    assert (IN1 : incl (choices cs1) (choices cs1)) by apply incl_refl. revert IN1 da ds1 BA B1.
    generalize (choices cs1) at 1 3 4. induction l0 as [|vs1 l0 IH]; intros HI da ds1 BA B1.
    + cbn in *. inversion BA; inversion B1; subst. constructor.
    + cbn [map] in *. inversion BA as [|x ? da' ? HX BA']; subst. inversion B1 as [|x1 ? ds1' ? HX1 B1']; subst. cbn [map].
      constructor.
      * cbn [fst snd]. apply (ONE vs1 vs2); auto. apply HI. now left.
      * apply IH; [|exact BA'|exact B1']. intros z HZ. apply HI. now right.
Qed.

(** ** The whole way *)

Lemma both_ok {a b : res (list Z)} {x y} : a = Ok x -> b = Ok y -> both a b = Ok (x ++ y).
Proof. intros -> ->. reflexivity. Qed.

(** Labels [l1], [l2] of the parts taken back and packed, and the same with the whole. *)
Theorem joined_round_trip E p d1 d2 d y1 i1 m1 als1 coll1 y2 i2 m2 als2 coll2 l1 l2 b1 b2 e1 e2 :
  at_home d1 -> at_home d2 -> is_datum d -> joined d1 d2 d ->
  glued_pipe E p (SStr (d_utterance d1)) (SStr (d_utterance d2)) ->
  transform E p d1 = Ok (y1, i1, m1, als1, coll1) -> transform E p d2 = Ok (y2, i2, m2, als2, coll2) ->
  length l1 = pseq_length y1 -> length l2 = pseq_length y2 ->
  align_inverse_all E als1 l1 = Ok b1 -> align_inverse_all E als2 l2 = Ok b2 ->
  pack_to_datum (d_utterance d1) i1 b1 = Ok e1 -> pack_to_datum (d_utterance d2) i2 b2 = Ok e2 ->
  Z.of_nat (length (d_utterance d)) < 2 ^ 31 ->
  exists als coll e, transform E p d = Ok (glue y1 y2, d_intents d, m1 ++ m2, als, coll) /\
    align_inverse_all E als (l1 ++ l2) = Ok (b1 ++ b2) /\
    pack_to_datum (d_utterance d) (d_intents d) (b1 ++ b2) = Ok e /\
    (joined e1 e2 e <-> ~ across b1 b2).
Proof.
  intros H1 H2 HD J G T1 T2 L1 L2 B1 B2 P1 P2 HL.
  destruct (joined_transform E p d1 d2 d _ _ _ _ _ _ _ _ _ _ H1 H2 HD J G T1 T2) as (als & coll & T & AL).
  exists als, coll. pose proof (is_datum_inv d HD) as (HI & _). pose proof J as (JU & _). rewrite JU in *.
  destruct (joined_pack _ _ _ _ (d_intents d) _ _ _ _ P1 P2 HI HL) as (e & P & _ & _ & JJ).
  exists e. split; [exact T|]. split; [|split; [exact P|exact JJ]].
  rewrite (AL l1 l2 L1 L2). now apply both_ok.
Qed.
