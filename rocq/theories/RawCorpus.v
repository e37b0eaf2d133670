(** Data sets that give their own OrdinalLabel: proofs (C113). *)

From Coq Require Import String Sorted Permutation.
From Verif Require Import Py PyFacts Json SpecOps Ops Elements Pipe SpecPipe SpecElements SpecBert SpecTrip SpecOrdinal SpecSettle
  OrdinalProofs LearnProofs SpecRawTrip RawTripProofs.
From Coq Require Import List Lia.
Import ListNotations.
Local Open Scope Z_scope.

Lemma raw_row u names es : row (raw_datum u names es) names (map w_name es).
Proof.
  unfold raw_datum. eexists _, _. split; [reflexivity|]. split; [reflexivity|]. split; [reflexivity|].
  destruct es as [|r es]; [left; split; reflexivity|]. right. exists (map raw_entity (r :: es)). split; [reflexivity|].
  remember (r :: es) as l eqn:EL. clear EL. induction l as [|x l IH]; cbn [map]; constructor; [|exact IH].
  eexists. split; [reflexivity|]. reflexivity.
Qed.

Lemma raw_data_corpus xs : corpus (raw_data xs) (concat (map s_names xs)) (concat (map (fun x => map w_name (s_entities x)) xs)).
Proof.
  eexists _, (map raw_sample xs), (map s_names xs), (map (fun x => map w_name (s_entities x)) xs).
  split; [reflexivity|]. split; [reflexivity|]. rewrite !map_length. do 2 (split; [reflexivity|]). split; [|split; reflexivity].
  intros k v a b. rewrite !nth_error_map. destruct (nth_error xs k) as [x|]; cbn [option_map]; [|discriminate].
  intros [= <-] [= <-] [= <-]. apply raw_row.
Qed.

Lemma known_fst (m : list (str * Z)) n : known_name m n <-> In n (map fst m).
Proof.
  unfold known_name. rewrite in_map_iff. split.
  - intros (i & H). now exists (n, i).
  - intros ([k i] & <- & H). now exists i.
Qed.
Lemma first_seen_length l : (length (first_seen [] l) <= length l)%nat.
Proof. apply NoDup_incl_length; [apply first_seen_NoDup|]. intros x H. now apply first_seen_In in H. Qed.
Lemma names_concat xs : concat (map (fun x => map w_name (s_entities x)) xs) = map w_name (concat (map s_entities xs)).
Proof. rewrite concat_map, map_map. reflexivity. Qed.

Theorem data_learned xs : sound_data xs -> exists o, from_raw_dictionary (raw_data xs) 0 = Ok o /\ usual o /\
  (forall n, known_name (intent2index o) n <-> exists x, In x xs /\ In n (s_names x)) /\
  (forall n, known_name (entity2index o) n <-> exists x r, In x xs /\ In r (s_entities x) /\ n = w_name r).
Proof.
  intros (HX & L1 & L2). rewrite Forall_forall in HX.
  set (ints := concat (map s_names xs)) in *. set (ents := concat (map (fun x => map w_name (s_entities x)) xs)).
  assert (IE : forall n, In n ents <-> exists x r, In x xs /\ In r (s_entities x) /\ n = w_name r).
  { intros n. unfold ents. rewrite in_concat. split.
    - intros (l & HL & HN). apply in_map_iff in HL. destruct HL as (x & <- & HI). apply in_map_iff in HN.
      destruct HN as (r & <- & HR). eauto.
    - intros (x & r & HI & HR & ->). exists (map w_name (s_entities x)). split; [|now apply in_map].
      apply in_map_iff. eauto. }
  assert (NE : ~ In not_entity ents).
  { intros H. apply IE in H. destruct H as (x & r & HI & HR & EN). destruct (HX x HI) as (_ & _ & N & _).
    apply N. rewrite EN. now apply in_map. }
  assert (L2' : Z.of_nat (length ents) < 2 ^ 31) by (unfold ents; now rewrite names_concat, map_length).
  destruct (from_raw_cases (raw_data xs) ints ents 0 (raw_data_corpus xs)) as [(o & EO & HO & HZ & F1 & V1 & F2 & V2 & _)|(_ & C)].
  2:{ exfalso. apply C. left. split; [exact NE|lia]. }
  assert (NN : ~ In not_entity (map fst (entity2index o))).
  { rewrite F2. intros H. now apply first_seen_In in H. }
  exists o. split; [exact EO|]. split; [|split].
  - split; [exact HO|]. split; [|split; [exact HZ|exact NN]].
    destruct (is_ordinal_inv o HO) as (_ & _ & (_ & I1) & (_ & I2)). rewrite others_none in I2 by exact NN.
    inversion I2 as [|? ? _ I2']; subst. split.
    + eapply Forall_impl; [|exact I1]. intros z. cbv beta. rewrite V1, counting_length.
      pose proof (first_seen_length ints). unfold i32. change (2 ^ 31) with 2147483648 in *. lia.
    + eapply Forall_impl; [|exact I2']. intros z. cbv beta. cbn [length]. rewrite V2, counting_length.
      pose proof (first_seen_length ents).
      unfold i32. change (2 ^ 31) with 2147483648 in *. lia.
  - intros n. rewrite known_fst, F1, first_seen_In. unfold ints. rewrite in_concat. split.
    + intros ((l & HL & HN) & _). apply in_map_iff in HL. destruct HL as (x & <- & HI). eauto.
    + intros (x & HI & HN). split; [|intros []]. exists (s_names x). split; [now apply in_map|exact HN].
  - intros n. rewrite known_fst, F2, first_seen_In, IE. split; [now intros (H & _)|]. intros H. split; [exact H|intros []].
Qed.

Lemma data_accepted xs o x : sound_data xs -> from_raw_dictionary (raw_data xs) 0 = Ok o -> In x xs ->
  usual o /\ Forall (fun r => i32 (w_start r) /\ i32 (w_end r)) (s_entities x) /\
  exists d, machanize o (raw_sample x) = Ok d /\ legible d.
Proof.
  intros HD EO HI. destruct (data_learned xs HD) as (o' & EO' & HU & K1 & K2). assert (o' = o) as -> by congruence.
  destruct HD as (HX & _). rewrite Forall_forall in HX. destruct (HX x HI) as (HL & HA & _ & HT).
  assert (I : Forall (fun r => i32 (w_start r) /\ i32 (w_end r)) (s_entities x)).
  { destruct HL as (_ & HF & _). eapply Forall_impl; [|exact HF]. intros r. cbv beta. unfold i32.
    change (2 ^ 31) with 2147483648 in *. lia. }
  split; [exact HU|]. split; [exact I|].
  destruct (machanize_cases o (s_text x) (s_names x) (s_entities x) (proj1 HU) (proj1 (proj2 HU)) I)
    as [(_ & _ & d & _ & _ & ED & _)|[(_ & C & _)|(C & _)]].
  - exists d. split; [exact ED|]. now apply (raw_legible_iff o (s_text x) (s_names x) (s_entities x) d HU I ED).
  - contradiction.
  - exfalso. apply C. split; apply Forall_forall.
    + intros n HN. apply K1. eauto.
    + intros r HR. apply K2. eauto.
Qed.

Theorem data_made xs o : sound_data xs -> from_raw_dictionary (raw_data xs) 0 = Ok o ->
  Forall (fun x => exists d, machanize o (raw_sample x) = Ok d /\ legible d) xs.
Proof. intros HD EO. apply Forall_forall. intros x HI. now apply (data_accepted xs o x). Qed.

Theorem data_bert E f ord xs o x p : python E -> letters E -> accents_fit E f (s_text x) -> basic_pipe E = Ok p \/ full_pipe E = Ok p ->
  reorders ord -> sound_data xs -> from_raw_dictionary (raw_data xs) 0 = Ok o -> In x xs ->
  (raw_returns E p ord o (s_text x) (s_names x) (s_entities x) <-> Forall (raw_on_tokens (by_punct_cjk E) (s_text x)) (s_entities x)).
Proof.
  intros PY LE AC HP HO HD EO HI. destruct (data_accepted xs o x HD EO HI) as (HU & I & d & ED & _).
  apply (raw_bert E f ord o _ _ _ d p PY LE AC HP HO HU I); [|exact ED].
  destruct HD as (HX & _). rewrite Forall_forall in HX. apply (HX x HI).
Qed.

Theorem data_word_piece E ord xs o x p : python E -> word_piece_pipe E = Ok p ->
  reorders ord -> sound_data xs -> from_raw_dictionary (raw_data xs) 0 = Ok o -> In x xs ->
  (raw_returns E p ord o (s_text x) (s_names x) (s_entities x) <-> Forall (raw_on_tokens (by_space E) (s_text x)) (s_entities x)).
Proof.
  intros PY HP HO HD EO HI. destruct (data_accepted xs o x HD EO HI) as (HU & I & d & ED & _).
  apply (raw_word_piece E ord o _ _ _ d p PY HP HO HU I); [|exact ED].
  destruct HD as (HX & _). rewrite Forall_forall in HX. apply (HX x HI).
Qed.

(** ** Any index for no entity, and any positions *)

Lemma counting_values skip n : NoDup (counting skip n) /\ Forall (fun i => 0 <= i <= Z.of_nat n) (counting skip n).
Proof.
  unfold counting. set (l := filter _ _).
  assert (H : NoDup l /\ forall i, In i l -> 0 <= i <= Z.of_nat n).
  { unfold l. split.
    - apply NoDup_filter, FinFun.Injective_map_NoDup; [intros a b E; lia|apply seq_NoDup].
    - intros i HI. apply filter_In in HI. destruct HI as (HI & _). apply in_map_iff in HI. destruct HI as (k & <- & HK).
      apply in_seq in HK. lia. }
  destruct H as (ND & HF). rewrite <- (firstn_skipn n l) in ND, HF. split.
  - clear HF. revert ND. generalize (firstn n l) (skipn n l). induction l0 as [|a l0 IH]; intros m ND; [constructor|].
    cbn [app] in ND. inversion ND as [|? ? N ND']; subst. constructor; [|now apply (IH m)]. intros C. apply N, in_or_app. now left.
  - apply Forall_forall. intros i HI. apply HF, in_or_app. now left.
Qed.

Lemma data_facts xs ne o : few_names xs -> from_raw_dictionary (raw_data xs) ne = Ok o ->
  is_ordinal o /\ small o /\ NoDup (map snd (entity2index o)) /\ forall x, In x xs -> all_known o (s_names x) (s_entities x).
Proof.
  intros (L1 & L2) EO.
  destruct (from_raw_cases (raw_data xs) _ _ ne (raw_data_corpus xs)) as [(o' & EO' & HO & HZ & F1 & V1 & F2 & V2 & _)|(C & _)]; [|congruence].
  assert (o' = o) as -> by congruence. split; [exact HO|]. split; [|split].
  - split; [rewrite V1|rewrite V2]; (eapply Forall_impl; [|apply counting_values]); intros z; cbv beta; unfold i32.
    + pose proof (first_seen_length (concat (map s_names xs))). change (2 ^ 31) with 2147483648 in *. lia.
    + pose proof (first_seen_length (concat (map (fun x => map w_name (s_entities x)) xs))) as H. rewrite names_concat, map_length in *.
      change (2 ^ 31) with 2147483648 in *. lia.
  - rewrite V2. apply counting_values.
  - intros x HI. split; apply Forall_forall.
    + intros n HN. rewrite known_fst, F1, first_seen_In. split; [|intros []]. apply in_concat. exists (s_names x).
      split; [now apply in_map|exact HN].
    + intros r HR. rewrite known_fst, F2, first_seen_In. split; [|intros []]. apply in_concat. exists (map w_name (s_entities x)).
      split; [apply in_map_iff; eauto|now apply in_map].
Qed.

Theorem data_accepts xs ne o x : few_names xs -> from_raw_dictionary (raw_data xs) ne = Ok o -> In x xs ->
  Forall (fun r => i32 (w_start r) /\ i32 (w_end r)) (s_entities x) ->
  (StronglySorted raw_apart (s_entities x) /\ exists d, machanize o (raw_sample x) = Ok d) \/
  (~ StronglySorted raw_apart (s_entities x) /\ machanize o (raw_sample x) = Err EntityOverlapErr).
Proof.
  intros HF EO HI I. destruct (data_facts xs ne o HF EO) as (HO & HS & _ & HK).
  destruct (machanize_cases o (s_text x) (s_names x) (s_entities x) HO HS I) as [(_ & HA & d & _ & _ & ED & _)|[(_ & HA & E)|(C & _)]].
  - left. split; [exact HA|]. now exists d.
  - right. now split.
  - destruct (C (HK x HI)).
Qed.

Theorem data_round ord xs ne o x d : reorders ord -> few_names xs -> from_raw_dictionary (raw_data xs) ne = Ok o -> In x xs ->
  Forall (fun r => i32 (w_start r) /\ i32 (w_end r)) (s_entities x) -> machanize o (raw_sample x) = Ok d ->
  exists names es es', humanize ord o d = Ok (raw_datum (s_text x) names es') /\
    Permutation (s_names x) names /\ stably_sorted w_start (s_entities x) es /\ Forall2 same_raw es es'.
Proof.
  intros HR HF EO HI I ED. destruct (data_facts xs ne o HF EO) as (HO & HS & ND & HK).
  destruct (humanize_machanize ord o (s_text x) (s_names x) (s_entities x) d HR HO HS ND I ED) as (names & es & es' & H1 & (H2 & _) & H3 & H4).
  exists names, es, es'. now split.
Qed.
