(** Raw data through a pipe and back: proofs (C113). *)

From Coq Require Import String Sorted Permutation.
From Verif Require Import Py PyFacts Json SpecOps Ops Elements Pipe SpecPipe SpecElements SpecBert SpecTrip SpecOrdinal SpecSettle SpecJoin
  DatumProofs PackProofs OrdinalProofs JoinProofs SettleDatum SameProofs SpecRawTrip.
From Coq Require Import List Lia.
Import ListNotations.
Local Open Scope Z_scope.

Lemma usual_facts o : usual o -> is_dict (intent2index o) /\ is_dict (entity2index o) /\
  NoDup (map snd (intent2index o)) /\ NoDup (map snd (entity2index o)) /\ (forall n i, In (n, i) (entity2index o) -> 0 < i).
Proof.
  intros (HO & _ & HZ & HN). pose proof (ordinal_NoDup o HO HN) as ND.
  apply is_ordinal_inv in HO. destruct HO as (D1 & D2 & (V1 & _) & (V & W)).
  rewrite others_none in V, W by exact HN. rewrite HZ in V, W.
  do 4 (split; [assumption|]). intros n i HI. inversion V as [|? ? V0 _]; subst. inversion W as [|? ? _ W']; subst.
  assert (IN : In i (map snd (entity2index o))) by (apply in_map_iff; now exists (n, i)).
  rewrite Forall_forall in W'. specialize (W' i IN). assert (i <> 0) by (intros ->; contradiction). lia.
Qed.

Lemma name_unique (m : list (str * Z)) n n' i : NoDup (map snd m) -> In (n, i) m -> In (n', i) m -> n = n'.
Proof. intros ND H H'. apply (index2name_In _ _ _ ND) in H, H'. congruence. Qed.
Lemma index_unique (m : list (str * Z)) n i i' : is_dict m -> In (n, i) m -> In (n, i') m -> i = i'.
Proof. intros ND H H'. apply (lookup_In _ _ _ ND) in H, H'. congruence. Qed.

Lemma raw_made o u names es d : usual o -> Forall (fun r => i32 (w_start r) /\ i32 (w_end r)) es ->
  machanize o (raw_datum u names es) = Ok d ->
  is_datum d /\ all_known o names es /\ exists names', Permutation names' names /\
    d = mkDatum u (map (index_of (intent2index o)) names') (map (described (entity2index o) u) (sort_by w_start es)).
Proof.
  intros HU HI E. pose proof HU as (HO & HS & _). destruct (is_ordinal_inv o HO) as (D1 & D2 & V1 & _).
  destruct (machanize_cases o u names es HO HS HI) as [((K1 & K2) & HA & d0 & _ & _ & E0 & ID & _)|[(_ & _ & C)|(_ & C)]];
    [|congruence..].
  assert (d0 = d) as -> by congruence. clear E0.
  split; [exact ID|]. split; [split; assumption|].
  rewrite (machanize_known o u names es D1 D2 HS HI (conj K1 K2)) in E.
  rewrite make_datum_ok in E; [|apply described_position|now apply (raw_apart_map (entity2index o) u)].
  exists (sort_by (index_of (intent2index o)) names). split; [apply sort_by_perm|].
  injection E as <-. f_equal.
  - rewrite (sort_by_map (index_of (intent2index o)) intent_hash names).
    rewrite (sort_by_ext _ (index_of (intent2index o)) names); [reflexivity|].
    intros n HN. rewrite Forall_forall in K1. apply hash_nonneg, index_nonneg; auto.
  - now rewrite (sort_by_map (described (entity2index o) u) e_start es).
Qed.

Lemma Forall2_left {A B} (R : A -> B -> Prop) l m : Forall2 R l m -> forall x, In x l -> exists y, In y m /\ R x y.
Proof.
  induction 1 as [|a b l m H F IH]; intros x HX; [destruct HX|]. destruct HX as [<- |HX].
  - exists b. split; [now left|exact H].
  - destruct (IH x HX) as (y & Y1 & Y2). exists y. split; [now right|exact Y2].
Qed.
Lemma Forall2_right {A B} (R : A -> B -> Prop) l m : Forall2 R l m -> forall y, In y m -> exists x, In x l /\ R x y.
Proof.
  induction 1 as [|a b l m H F IH]; intros y HY; [destruct HY|]. destruct HY as [<- |HY].
  - exists a. split; [now left|exact H].
  - destruct (IH y HY) as (x & X1 & X2). exists x. split; [now right|exact X2].
Qed.

Lemma in_sorted es r : In r (sort_by w_start es) <-> In r es.
Proof. split; apply Permutation_in; [|symmetry]; apply sort_by_perm. Qed.

Theorem raw_legible_iff o u names es d : usual o -> Forall (fun r => i32 (w_start r) /\ i32 (w_end r)) es ->
  machanize o (raw_datum u names es) = Ok d -> (legible d <-> raw_legible u es).
Proof.
  intros HU HI E. destruct (raw_made o u names es d HU HI E) as (ID & (_ & K2) & names' & _ & ED).
  destruct (usual_facts o HU) as (_ & D2 & _ & ND & POS). unfold legible, raw_legible.
  assert (UD : d_utterance d = u) by now rewrite ED.
  assert (ENT : d_entities d = map (described (entity2index o) u) (sort_by w_start es)) by now rewrite ED.
  rewrite UD, ENT. clear ED. rewrite Forall_forall in K2. split.
  - intros (_ & HN & HF & HT). split; [exact HN|]. split.
    + apply Forall_forall. intros r HR. rewrite Forall_forall in HF.
      specialize (HF (described (entity2index o) u r) ltac:(apply in_map, in_sorted, HR)).
      unfold inside in HF. cbn [described e_start e_end e_label] in HF. lia.
    + intros a b HA HB HE EN.
      apply (HT (described (entity2index o) u a) (described (entity2index o) u b)); try (apply in_map, in_sorted; assumption); [exact HE|].
      cbn [described e_label]. now rewrite EN.
  - intros (HN & HF & HT). split; [exact ID|]. split; [exact HN|]. split.
    + apply Forall_forall. intros e HE. apply in_map_iff in HE. destruct HE as (r & <- & HR). apply (proj1 (in_sorted es r)) in HR.
      rewrite Forall_forall in HF. specialize (HF r HR). unfold inside. cbn [described e_start e_end e_label].
      pose proof (POS _ _ (index_of_In _ _ D2 (K2 r HR))). lia.
    + intros a b HA HB HE EL. apply in_map_iff in HA, HB. destruct HA as (ra & <- & HA), HB as (rb & <- & HB).
      apply (proj1 (in_sorted es ra)) in HA. apply (proj1 (in_sorted es rb)) in HB. apply (HT ra rb HA HB HE).
      cbn [described e_label] in EL. pose proof (index_of_In _ _ D2 (K2 ra HA)) as IA. pose proof (index_of_In _ _ D2 (K2 rb HB)) as IB.
      rewrite EL in IA. exact (name_unique _ _ _ _ ND IA IB).
Qed.

Lemma strs_inj a b : map JStr a = map JStr b -> a = b.
Proof.
  revert b. induction a as [|x a IH]; intros [|y b] H; try discriminate; [reflexivity|]. injection H as -> H. f_equal. now apply IH.
Qed.
Lemma raw_entity_inj a b : raw_entity a = raw_entity b -> a = b.
Proof.
  destruct a as [n s t r], b as [n' s' t' r']. unfold raw_entity. cbn [w_name w_start w_end w_replacements].
  destruct r as [|x r], r' as [|x' r']; cbn [app]; intros H; try discriminate.
  - injection H as -> -> ->. reflexivity.
  - injection H as -> -> -> -> H. apply strs_inj in H. now subst.
Qed.
Lemma raws_inj a b : map raw_entity a = map raw_entity b -> a = b.
Proof.
  revert b. induction a as [|x a IH]; intros [|y b] H; try discriminate; [reflexivity|]. cbn [map] in H.
  assert (H1 : raw_entity x = raw_entity y) by congruence. assert (H2 : map raw_entity a = map raw_entity b) by congruence.
  f_equal; [now apply raw_entity_inj|now apply IH].
Qed.
Lemma raw_datum_inj u a b es fs : raw_datum u a es = raw_datum u b fs -> a = b /\ es = fs.
Proof.
  unfold raw_datum. intros H.
  assert (H0 : map JStr a = map JStr b).
  { apply (f_equal (fun j => match j with JDict (_ :: (_, JDict [(_, JList l)]) :: _) => l | _ => [] end)) in H. exact H. }
  split; [now apply strs_inj|]. apply raws_inj.
  destruct es as [|x es], fs as [|y fs]; [reflexivity|discriminate|discriminate|].
  apply (f_equal (fun j => match j with JDict (_ :: _ :: (_, JList l) :: _) => l | _ => [] end)) in H. exact H.
Qed.

Lemma sorted_unique (es es2 : list raw) : stably_sorted w_start es es2 -> es2 = sort_by w_start es.
Proof.
  intros (_ & H2 & H3). destruct (sort_by_stable w_start es) as (_ & S2 & S3).
  apply (stable_unique w_start); [exact H2|exact S2|]. intros k. now rewrite H3, S3.
Qed.

Theorem raw_trip E p ord o u names es d : reorders ord -> usual o -> Forall (fun r => i32 (w_start r) /\ i32 (w_end r)) es ->
  machanize o (raw_datum u names es) = Ok d -> (raw_returns E p ord o u names es <-> recovered E p d).
Proof.
  intros HO HU HI EM. destruct (raw_made o u names es d HU HI EM) as (ID & (K1 & K2) & names0 & PN & ED).
  destruct (usual_facts o HU) as (D1 & D2 & ND1 & ND2 & POS). rewrite Forall_forall in K1, K2.
  assert (UD : d_utterance d = u) by now rewrite ED.
  assert (INT : forall i, In i (d_intents d) <-> exists n, In n names /\ i = index_of (intent2index o) n).
  { intros i. rewrite ED. cbn [d_intents]. rewrite in_map_iff. split.
    - intros (n & <- & HN). exists n. split; [|reflexivity]. eapply Permutation_in; [exact PN|exact HN].
    - intros (n & HN & ->). exists n. split; [reflexivity|]. eapply Permutation_in; [symmetry; exact PN|exact HN]. }
  assert (ENT : d_entities d = map (described (entity2index o) u) (sort_by w_start es)) by now rewrite ED.
  split.
  - intros (d0 & y & ints & m & als & coll & ls & e & names' & es2 & E0 & E1 & E2 & E3 & E4 & SN & SE).
    assert (d0 = d) as -> by congruence. apply sorted_unique in SE. subst es2.
    destruct (pack_ok_inv u ints ls e E3) as (_ & _ & _ & _ & _ & PU & _ & _ & _ & PE).
    assert (KE : known o e).
    { destruct (known_dec o e) as [K|K]; [exact K|]. rewrite (humanize_unknown ord o e K) in E4. discriminate. }
    destruct (humanize_known ord o e HO KE) as (names1 & es1 & E5 & F1 & F2). rewrite PU in E5.
    assert (E6 : raw_datum u names' (map bare_raw (sort_by w_start es)) = raw_datum u names1 es1) by congruence.
    apply raw_datum_inj in E6. destruct E6 as (-> & <-).
    exists y, ints, m, als, coll, ls, e. rewrite UD. split; [exact E1|]. split; [exact E2|]. split; [exact E3|].
    split; [exact PU|]. split.
    + intros i. rewrite INT. split.
      * intros HE. destruct (Forall2_left _ _ _ F1 i HE) as (n & HN & NI). exists n. split; [now apply SN|].
        apply (index_unique _ _ _ _ D1 NI). apply index_of_In; [exact D1|]. now exists i.
      * intros (n & HN & ->). apply SN in HN. destruct (Forall2_right _ _ _ F1 n HN) as (i & HE & NI).
        rewrite (index_unique _ _ _ _ D1 (index_of_In _ _ D1 (ex_intro _ i NI)) NI). exact HE.
    + rewrite ENT, map_map.
      assert (VAL : Forall (fun f => e_value f = slice_z u (e_start f) (e_end f)) (d_entities e)).
      { apply Forall_forall. intros f HF. apply PE in HF. destruct HF as (s & t & l & _ & ->). reflexivity. }
      clear - F2 VAL D2. remember (sort_by w_start es) as l eqn:EL. clear EL.
      remember (d_entities e) as fs eqn:EF. clear EF. revert fs VAL F2.
      induction l as [|r l IH]; intros fs VAL F2; inversion F2 as [|f r0 fs' l0 HF F2']; subst; [reflexivity|].
      inversion VAL as [|? ? V1 V2]; subst. cbn [map]. f_equal; [|now apply IH].
      destruct HF as (N1 & N2 & N3 & N4). cbn [bare_raw w_name w_start w_end w_replacements] in *. apply Permutation_nil in N4.
      destruct f as [fl fv fs0 ft fr]. cbn [e_label e_value e_start e_end e_replacements] in *. subst.
      unfold bare_entity, described. cbn [e_label e_value e_start e_end e_replacements]. f_equal.
      apply (index_unique _ _ _ _ D2 N1). apply index_of_In; [exact D2|]. now exists fl.
  - intros (y & ints & m & als & coll & ls & e & E1 & E2 & E3 & PU & SI & EE). rewrite UD in *.
    assert (KE : known o e).
    { split.
      - apply Forall_forall. intros i HE. apply SI, INT in HE. destruct HE as (n & HN & ->).
        exists n. apply index_of_In; [exact D1|now apply K1].
      - rewrite EE, ENT, map_map. apply Forall_forall. intros x HX. apply in_map_iff in HX. destruct HX as (r & <- & HR).
        apply (proj1 (in_sorted es r)) in HR. cbn. exists (w_name r). apply index_of_In; [exact D2|now apply K2]. }
    destruct (humanize_known ord o e HO KE) as (names1 & es1 & E5 & F1 & F2).
    assert (ES : es1 = map bare_raw (sort_by w_start es)).
    { rewrite EE, ENT, map_map in F2. assert (KS : forall r, In r (sort_by w_start es) -> known_name (entity2index o) (w_name r)).
      { intros r HR. apply K2. now apply in_sorted. }
      clear - F2 KS D2 ND2. revert es1 KS F2. generalize (sort_by w_start es). induction l as [|r l IH]; intros fs KS F2;
        inversion F2 as [|? f ? fs' HF F2']; subst; [reflexivity|]. cbn [map]. f_equal.
      - destruct HF as (N1 & N2 & N3 & N4). destruct f as [fn fs0 ft fr]. cbn in *. subst.
        symmetry in N4. apply Permutation_nil in N4. subst. unfold bare_raw. f_equal.
        apply (name_unique _ _ _ _ ND2 N1). apply index_of_In; [exact D2|]. apply KS. now left.
      - apply IH; [|exact F2']. intros x HX. apply KS. now right. }
    exists d, y, ints, m, als, coll, ls, e, names1, (sort_by w_start es).
    split; [exact EM|]. split; [exact E1|]. split; [exact E2|]. split; [exact E3|]. rewrite E5, PU, ES.
    split; [reflexivity|]. split; [|apply sort_by_stable].
    intros n. split.
    + intros HN. destruct (Forall2_right _ _ _ F1 n HN) as (i & HE & NI). apply SI, INT in HE. destruct HE as (n' & HN' & ->).
      now rewrite (name_unique _ _ _ _ ND1 NI (index_of_In _ _ D1 (K1 n' HN'))).
    + intros HN. assert (HE : In (index_of (intent2index o) n) (d_intents e)) by (apply SI, INT; eauto).
      destruct (Forall2_left _ _ _ F1 _ HE) as (n' & HN' & NI).
      now rewrite (name_unique _ _ _ _ ND1 (index_of_In _ _ D1 (K1 n HN)) NI).
Qed.

Lemma raw_tokens o u names es d k : usual o -> Forall (fun r => i32 (w_start r) /\ i32 (w_end r)) es ->
  machanize o (raw_datum u names es) = Ok d -> raw_legible u es ->
  (Forall (on_tokens k (d_utterance d)) (d_entities d) <-> Forall (raw_on_tokens k u) es).
Proof.
  intros HU HI E (_ & HL & _). destruct (raw_made o u names es d HU HI E) as (_ & (_ & K2) & names' & _ & ->).
  destruct (usual_facts o HU) as (_ & D2 & _ & _ & POS). cbn [d_utterance d_entities]. rewrite !Forall_forall in *. split.
  - intros H r HR. specialize (H (described (entity2index o) u r) ltac:(apply in_map, in_sorted, HR)).
    destruct H as (_ & _ & H). exact H.
  - intros H e HE. apply in_map_iff in HE. destruct HE as (r & <- & HR). apply (proj1 (in_sorted es r)) in HR.
    split; [exact (POS _ _ (index_of_In _ _ D2 (K2 r HR)))|]. split; [apply (HL r HR)|exact (H r HR)].
Qed.

Theorem raw_bert E f ord o u names es d p : python E -> letters E -> accents_fit E f u -> basic_pipe E = Ok p \/ full_pipe E = Ok p ->
  reorders ord -> usual o -> Forall (fun r => i32 (w_start r) /\ i32 (w_end r)) es -> raw_legible u es ->
  machanize o (raw_datum u names es) = Ok d ->
  (raw_returns E p ord o u names es <-> Forall (raw_on_tokens (by_punct_cjk E) u) es).
Proof.
  intros PY LE AC HP HO HU HI HL EM. rewrite (raw_trip E p ord o u names es d HO HU HI EM).
  assert (UD : d_utterance d = u).
  { destruct (raw_made o u names es d HU HI EM) as (_ & _ & n & _ & ->). reflexivity. }
  rewrite (bert_datum E f d p PY LE); [|now rewrite UD|exact HP|now apply (raw_legible_iff o u names es d)].
  now apply (raw_tokens o u names es d).
Qed.

Theorem raw_word_piece E ord o u names es d p : python E -> word_piece_pipe E = Ok p ->
  reorders ord -> usual o -> Forall (fun r => i32 (w_start r) /\ i32 (w_end r)) es -> raw_legible u es ->
  machanize o (raw_datum u names es) = Ok d ->
  (raw_returns E p ord o u names es <-> Forall (raw_on_tokens (by_space E) u) es).
Proof.
  intros PY HP HO HU HI HL EM. rewrite (raw_trip E p ord o u names es d HO HU HI EM).
  rewrite (word_piece_exact E d p PY HP); [|now apply (raw_legible_iff o u names es d)].
  now apply (raw_tokens o u names es d).
Qed.

Theorem raw_nonzero E p ord o u names es r i : reorders ord -> is_ordinal o -> raw_returns E p ord o u names es ->
  In r es -> In (w_name r, i) (entity2index o) -> i <> 0.
Proof.
  intros HO HU (d & y & ints & m & als & coll & ls & e & names' & es2 & _ & _ & _ & E3 & E4 & _ & (PS & _)) HR HI.
  destruct (is_ordinal_inv o HU) as (_ & D2 & _).
  destruct (pack_ok_inv u ints ls e E3) as (_ & _ & _ & _ & _ & PU & _ & _ & _ & PE).
  assert (KE : known o e).
  { destruct (known_dec o e) as [K|K]; [exact K|]. rewrite (humanize_unknown ord o e K) in E4. discriminate. }
  destruct (humanize_known ord o e HO KE) as (names1 & es1 & E5 & _ & F2). rewrite PU in E5.
  assert (E6 : raw_datum u names' (map bare_raw es2) = raw_datum u names1 es1) by congruence.
  apply raw_datum_inj in E6. destruct E6 as (_ & <-).
  destruct (Forall2_right _ _ _ F2 (bare_raw r)) as (f & HF & (N & _)); [apply in_map, (Permutation_in _ PS), HR|].
  apply PE in HF. destruct HF as (s & t & l & (_ & _ & HL & _) & ->). cbn [bare_raw w_name e_label] in N.
  now rewrite (index_unique _ _ _ _ D2 HI N).
Qed.

(** 0 is the index of a name that never comes back. *)
Theorem raw_other_zero o : is_ordinal o -> ~ In not_entity (map fst (entity2index o)) -> not_entity_index o <> 0 ->
  exists name, In (name, 0) (entity2index o) /\
  forall E p ord u names es r, reorders ord -> In r es -> w_name r = name -> ~ raw_returns E p ord o u names es.
Proof.
  intros HU HN HZ. destruct (is_ordinal_inv o HU) as (_ & _ & _ & V). rewrite others_none in V by exact HN.
  assert (IN : In 0 (not_entity_index o :: map snd (entity2index o))).
  { apply indices_perm in V. apply (Permutation_in 0 (Permutation_sym V)), in_zrange. cbn [length]. lia. }
  destruct IN as [C|IN]; [contradiction|]. apply in_map_iff in IN. destruct IN as ([name z] & EZ & IN). cbn [snd] in EZ. subst z.
  exists name. split; [exact IN|]. intros E p ord u names es r HO HR HW RR.
  apply (raw_nonzero E p ord o u names es r 0 HO HU RR HR); [now rewrite HW|reflexivity].
Qed.
