(** Property theorems C111 (expanding expanded data) and C112 (the overlap ratio as a distance).
    The concrete cases that meet the hypotheses are in [MetricWitness.v]. *)

From Coq Require Import QArith Permutation.
From Verif Require Import Py Elements SpecElements SpecRound SpecJoin SpecMetric ExpandMore RatioMore MetricWitness.
From Coq Require Import List.
Import ListNotations.
Local Open Scope Z_scope.

(** C111: expanding expanded data *)
Theorem C111_home : forall d s io ds r, is_datum d -> expand_by_entities d s io = Ok ds -> In r ds ->
  at_home r /\ Forall (fun e => e_replacements e = []) (d_entities r) /\ d_intents r = d_intents d /\
  map e_label (d_entities r) = map e_label (d_entities d).
Proof. exact expanded_home. Qed.
Print Assumptions C111_home.

Theorem C111_again : forall d s io ds r io', is_datum d -> expand_by_entities d s io = Ok ds -> In r ds ->
  expand_by_entities r None io' = Ok [r].
Proof. exact expanded_again. Qed.
Print Assumptions C111_again.

Theorem C111_sampled_again : forall d s io ds r s' io', is_datum d -> d_entities d <> [] -> expand_by_entities d s io = Ok ds -> In r ds ->
  Forall i32 (s' 1) -> expand_by_entities r (Some s') io' = Ok (map (fun _ => r) (s' 1)).
Proof. exact expanded_sampled. Qed.
Print Assumptions C111_sampled_again.

Theorem C111_second_round : forall data s io dss io', Forall is_datum data ->
  mapM (fun d => expand_by_entities d s io) data = Ok dss ->
  mapM (fun d => expand_by_entities d None io') (concat dss) = Ok (map (fun d => [d]) (concat dss)).
Proof. exact second_round. Qed.
Print Assumptions C111_second_round.

Theorem C111_unique_entities : forall ord data io dss, (forall l, Permutation (ord l) l) -> Forall is_datum data ->
  mapM (fun d => expand_by_entities d None io) data = Ok dss ->
  forall l, In l (get_unique_entities ord (concat dss)) <-> In l (get_unique_entities ord data).
Proof. exact same_labels_set. Qed.
Print Assumptions C111_unique_entities.

Theorem C111_original : forall d io ds, at_home d -> d_entities d <> [] -> expand_by_entities d None io = Ok ds ->
  (In (mkDatum (d_utterance d) (d_intents d) (map bare_entity (d_entities d))) ds <->
   forall e, In e (d_entities d) -> io = true \/ e_replacements e = [] \/ In (e_value e) (e_replacements e)).
Proof. exact original_among. Qed.
Print Assumptions C111_original.

Theorem C111_possible : forall d io cs, at_home d -> d_entities d <> [] -> Forall2 (candidates io) (d_entities d) cs ->
  ((exists ds, expand_by_entities d None io = Ok ds) <->
   n_choices cs <= 2 ^ 31 /\ forall vs, In vs (choices cs) -> Z.of_nat (length (d_utterance (rebuilt d vs))) < 2 ^ 31) /\
  forall s e, expand_by_entities d s io = Err e -> e = OverflowErr.
Proof. exact expand_possible. Qed.
Print Assumptions C111_possible.

Theorem C111_original_refuted : exists d ds, at_home d /\ expand_by_entities d None false = Ok ds /\ ds <> [] /\
  forall r, In r ds -> d_utterance r <> d_utterance d.
Proof. exact original_refuted. Qed.
Print Assumptions C111_original_refuted.

Theorem C111_sampled_labels_refuted : exists d s ds, at_home d /\ expand_by_entities d (Some s) true = Ok ds /\
  get_unique_entities (fun l => l) ds = [] /\ get_unique_entities (fun l => l) [d] = [1; 2].
Proof. exact sampled_labels_refuted. Qed.
Print Assumptions C111_sampled_labels_refuted.

(** C112: one minus the overlap ratio is a distance *)
Theorem C112_triangle : forall fl d1 d2 d3 rate p q s, exact fl -> is_datum d1 -> is_datum d2 -> is_datum d3 -> (0 <= rate <= 2)%Q ->
  entity_overlapping_ratio fl d1 d2 rate = Ok p -> entity_overlapping_ratio fl d2 d3 rate = Ok q ->
  entity_overlapping_ratio fl d1 d3 rate = Ok s -> (1 - s <= (1 - p) + (1 - q))%Q.
Proof. exact ratio_triangle. Qed.
Print Assumptions C112_triangle.

Theorem C112_triangle_rounded : forall fl d1 d2 d3 rate p q s, to_nearest fl -> is_datum d1 -> is_datum d2 -> is_datum d3 -> in01 rate ->
  Z.of_nat (length (d_utterance d1)) <= 2 ^ 53 ->
  entity_overlapping_ratio fl d1 d2 rate = Ok p -> entity_overlapping_ratio fl d2 d3 rate = Ok q ->
  entity_overlapping_ratio fl d1 d3 rate = Ok s ->
  (1 - s <= (1 - p) + (1 - q) + 3 * (inject_Z (Z.of_nat (length (d_utterance d1)) + 6) * (1 # 2 ^ 54)))%Q.
Proof. exact ratio_triangle_near. Qed.
Print Assumptions C112_triangle_rounded.

Theorem C112_rate : forall fl d1 d2 rate rate' r r', rounding fl -> is_datum d1 -> is_datum d2 -> (rate <= rate')%Q ->
  entity_overlapping_ratio fl d1 d2 rate = Ok r -> entity_overlapping_ratio fl d1 d2 rate' = Ok r' -> (r' <= r)%Q.
Proof. exact ratio_rate. Qed.
Print Assumptions C112_rate.

Theorem C112_annotation : forall fl d1 e1 d2 rate, is_datum d1 -> is_datum e1 -> is_datum d2 ->
  d_utterance d1 = d_utterance e1 -> same_annotation d1 e1 ->
  entity_overlapping_ratio fl d1 d2 rate = entity_overlapping_ratio fl e1 d2 rate.
Proof. exact ratio_annotation. Qed.
Print Assumptions C112_annotation.

Theorem C112_counts : forall fl d1 d2 rate, exact fl -> at_home d1 -> at_home d2 ->
  d_utterance d1 = d_utterance d2 -> d_utterance d1 <> [] ->
  exists l1 l2 r, unpack_datum d1 = Ok (d_utterance d1, d_intents d1, l1) /\ unpack_datum d2 = Ok (d_utterance d2, d_intents d2, l2) /\
    entity_overlapping_ratio fl d1 d2 rate = Ok r /\
    (r == 1 - (inject_Z (places one_sided l1 l2) + rate * inject_Z (places two_labels l1 l2)) /
              inject_Z (Z.of_nat (length (d_utterance d1))))%Q.
Proof. exact ratio_counts. Qed.
Print Assumptions C112_counts.

Theorem C112_high_rate_refuted : exists d1 d2 d3 rate p q s, is_datum d1 /\ is_datum d2 /\ is_datum d3 /\ (2 < rate)%Q /\
  entity_overlapping_ratio (fun q => q) d1 d2 rate = Ok p /\ entity_overlapping_ratio (fun q => q) d2 d3 rate = Ok q /\
  entity_overlapping_ratio (fun q => q) d1 d3 rate = Ok s /\ ~ (1 - s <= (1 - p) + (1 - q))%Q.
Proof. exact high_rate_refuted. Qed.
Print Assumptions C112_high_rate_refuted.

Theorem C112_negative_rate_refuted : exists d1 d2 d3 rate p q s, is_datum d1 /\ is_datum d2 /\ is_datum d3 /\ (rate < 0)%Q /\
  entity_overlapping_ratio (fun q => q) d1 d2 rate = Ok p /\ entity_overlapping_ratio (fun q => q) d2 d3 rate = Ok q /\
  entity_overlapping_ratio (fun q => q) d1 d3 rate = Ok s /\ ~ (1 - s <= (1 - p) + (1 - q))%Q.
Proof. exact negative_rate_refuted. Qed.
Print Assumptions C112_negative_rate_refuted.
