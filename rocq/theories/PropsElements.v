(** Property theorems C45-C51, C56, C57 (datums, ordinal labels).  The concrete cases that meet
    the hypotheses are in [ElementsWitness.v] and [RatioWitness.v]. *)

From Coq Require Import String QArith Sorted.
From Verif Require Import Py Json SpecOps Elements SpecElements DatumProofs PackProofs ExpandProofs
  RatioProofs SpecOrdinal OrdinalProofs LearnProofs ElementsLaws SpecRound DoubleProofs RatioRound PackErrors
  ElementsWitness RatioWitness.
From Coq Require Import List.
Local Open Scope Z_scope.

(** C45 *)
Theorem C45_invariant : forall u ints ents d, make_datum u (Some ints) (Some ents) = Ok d ->
  d_utterance d = u /\
  stably_sorted (fun l => if l =? -1 then -2 else l) ints (d_intents d) /\
  stably_sorted e_start ents (d_entities d) /\
  (forall e, In e (d_entities d) -> e_value e = slice_z u (e_start e) (e_end e)) /\
  StronglySorted before (d_entities d).
Proof. exact datum_invariant. Qed.
Print Assumptions C45_invariant.

Theorem C45_value_is_text : forall d e, is_datum d -> In e (d_entities d) -> inside (d_utterance d) e ->
  text_at (d_utterance d) (e_start e) (e_end e) (e_value e).
Proof. exact datum_text. Qed.
Print Assumptions C45_value_is_text.

Theorem C45_disjoint : forall d i j a b c, is_datum d -> nth_error (d_entities d) i = Some a ->
  nth_error (d_entities d) j = Some b -> covers a c -> covers b c -> i = j.
Proof. exact datum_disjoint. Qed.
Print Assumptions C45_disjoint.

Theorem C45_outcomes : forall u ints ents,
  let placed := Forall (fun e => e_value e = slice_z u (e_start e) (e_end e)) ents in
  ((exists d, make_datum u (Some ints) (Some ents) = Ok d) <-> placed /\ StronglySorted apart ents) /\
  (make_datum u (Some ints) (Some ents) = Err EntityPositionErr <-> ~ placed) /\
  (make_datum u (Some ints) (Some ents) = Err EntityOverlapErr <-> placed /\ ~ StronglySorted apart ents).
Proof. exact datum_outcomes. Qed.
Print Assumptions C45_outcomes.

Theorem C45_any_order_accepted : forall u ints ents,
  Forall (fun e => inside u e /\ e_start e < e_end e /\ text_at u (e_start e) (e_end e) (e_value e)) ents ->
  (forall i j a b c, nth_error ents i = Some a -> nth_error ents j = Some b ->
     covers a c -> covers b c -> i = j) ->
  exists d, make_datum u (Some ints) (Some ents) = Ok d.
Proof. exact datum_accepted. Qed.
Print Assumptions C45_any_order_accepted.

Theorem C45_defaults : forall u, make_datum u None None = Ok (mkDatum u [] []) /\
  make_datum u (Some []) (Some []) = Ok (mkDatum u [] []).
Proof. exact datum_defaults. Qed.
Print Assumptions C45_defaults.

Theorem C45_entity : forall l v s t r, i32 l -> i32 s -> i32 t -> exists e,
  make_entity l v s t r = Ok e /\ e_label e = l /\ e_value e = v /\ e_start e = s /\ e_end e = t /\
  NoDup (e_replacements e) /\
  same_set (e_replacements e) (match r with Some r => r | None => [] end).
Proof. exact entity_made. Qed.
Print Assumptions C45_entity.

Theorem C45_entity_overflow : forall l v s t r, ~ (i32 l /\ i32 s /\ i32 t) ->
  make_entity l v s t r = Err OverflowErr.
Proof. exact entity_overflow. Qed.
Print Assumptions C45_entity_overflow.

Theorem C45_queries : forall d, (has_intents d = true <-> d_intents d <> []) /\ (has_entities d = true <-> d_entities d <> []) /\
  forall e, no_replacements e = true <-> e_replacements e = [].
Proof. exact queries. Qed.
Print Assumptions C45_queries.

Theorem C45_positions_refuted : exists d1 d2 d3 e1 e2 e3,
  is_datum d1 /\ d_entities d1 = [e1] /\ 0 <= e_start e1 <= e_end e1 /\
    Z.of_nat (length (d_utterance d1)) < e_end e1 /\
  is_datum d2 /\ d_entities d2 = [e2] /\ e_start e2 < 0 /\
  is_datum d3 /\ d_entities d3 = [e3] /\ e_end e3 < e_start e3.
Proof. exact positions_refuted. Qed.
Print Assumptions C45_positions_refuted.

Theorem C45_order_of_empty_refuted : exists u a b d, is_entity a /\ is_entity b /\
  make_datum u (Some []) (Some [a; b]) = Ok d /\
  make_datum u (Some []) (Some [b; a]) = Err EntityOverlapErr.
Proof. exact order_refuted. Qed.
Print Assumptions C45_order_of_empty_refuted.

(** C46 *)
Theorem C46_unpack : forall d, is_datum d -> Forall (inside (d_utterance d)) (d_entities d) ->
  exists ls, unpack_datum d = Ok (d_utterance d, d_intents d, ls) /\
    length ls = length (d_utterance d) /\
    forall i, 0 <= i < Z.of_nat (length (d_utterance d)) -> labelled (d_entities d) i (at_ ls i).
Proof. exact unpack_inside. Qed.
Print Assumptions C46_unpack.

Theorem C46_label_is_unique : forall d i l m, is_datum d ->
  labelled (d_entities d) i l -> labelled (d_entities d) i m -> l = m.
Proof. exact (fun d i l m H => labelled_unique _ i l m (proj1 (proj2 (proj2 (proj2 (proj2 (is_datum_inv d H))))))). Qed.
Print Assumptions C46_label_is_unique.

Theorem C46_unpack_succeeds : forall d,
  ((exists r, unpack_datum d = Ok r) <->
   Forall (fun e => e_start e < e_end e -> - Z.of_nat (length (d_utterance d)) <= e_start e /\
                    e_end e <= Z.of_nat (length (d_utterance d))) (d_entities d)) /\
  (forall x, unpack_datum d = Err x -> x = IndexErr).
Proof. exact unpack_succeeds. Qed.
Print Assumptions C46_unpack_succeeds.

Theorem C46_pack : forall u ints ls, length u = length ls -> u <> [] -> Forall i32 ints ->
  (forall s t l, run ls s t l -> i32 t /\ i32 l) ->
  exists d, pack_to_datum u ints ls = Ok d /\ is_datum d /\
    d_utterance d = u /\ same_set (d_intents d) ints /\ NoDup (d_intents d) /\
    Forall (inside u) (d_entities d) /\
    (forall e, In e (d_entities d) -> e_replacements e = [] /\ text_at u (e_start e) (e_end e) (e_value e)) /\
    (forall s t l, run ls s t l <->
       exists e, In e (d_entities d) /\ e_start e = s /\ e_end e = t /\ e_label e = l) /\
    StronglySorted before (d_entities d).
Proof. exact pack_spec. Qed.
Print Assumptions C46_pack.

Theorem C46_unpack_pack : forall u ints ls, length u = length ls -> u <> [] -> Forall i32 ints ->
  (forall s t l, run ls s t l -> i32 t /\ i32 l) ->
  exists d is_, pack_to_datum u ints ls = Ok d /\ unpack_datum d = Ok (u, is_, ls) /\
    same_set is_ ints /\ NoDup is_.
Proof. exact unpack_pack. Qed.
Print Assumptions C46_unpack_pack.

Theorem C46_pack_unpack : forall d, is_datum d -> d_utterance d <> [] ->
  Forall (fun e => inside (d_utterance d) e /\ e_start e < e_end e /\ e_label e <> 0) (d_entities d) ->
  (forall a b, In a (d_entities d) -> In b (d_entities d) -> e_end a = e_start b -> e_label a <> e_label b) ->
  exists u is_ ls d', unpack_datum d = Ok (u, is_, ls) /\ pack_to_datum u is_ ls = Ok d' /\
    d_utterance d' = d_utterance d /\ same_set (d_intents d') (d_intents d) /\
    d_entities d' = map bare_entity (d_entities d).
Proof. exact pack_unpack. Qed.
Print Assumptions C46_pack_unpack.

Theorem C46_pack_overflow : forall u ints ls, length u = length ls ->
  ~ (Forall i32 ints /\ forall s t l, run ls s t l -> i32 t /\ i32 l) ->
  pack_to_datum u ints ls = Err OverflowErr.
Proof. exact pack_overflow. Qed.
Print Assumptions C46_pack_overflow.

Theorem C46_lengths_differ : forall u ints ls, length u <> length ls ->
  pack_to_datum u ints ls = Err ValueErr.
Proof. exact pack_mismatch. Qed.
Print Assumptions C46_lengths_differ.

Theorem C46_empty : forall ints, Forall i32 ints -> pack_to_datum [] ints [] = Err IndexErr.
Proof. exact pack_empty. Qed.
Print Assumptions C46_empty.

Theorem C46_unpack_any_datum_refuted : exists d, is_datum d /\ unpack_datum d = Err IndexErr.
Proof. exact unpack_refuted. Qed.
Print Assumptions C46_unpack_any_datum_refuted.

Theorem C46_negative_start_refuted : exists d e ls, is_datum d /\ d_entities d = [e] /\
  e_value e = txt "b" /\ unpack_datum d = Ok (txt "ab", [], ls) /\ ls = [1; 1].
Proof. exact unpack_negative_refuted. Qed.
Print Assumptions C46_negative_start_refuted.

Theorem C46_pack_unpack_refuted : exists d u is_ ls d', is_datum d /\
  Forall (inside (d_utterance d)) (d_entities d) /\
  unpack_datum d = Ok (u, is_, ls) /\ pack_to_datum u is_ ls = Ok d' /\
  length (d_entities d) = 4%nat /\ length (d_entities d') = 1%nat.
Proof. exact pack_unpack_refuted. Qed.
Print Assumptions C46_pack_unpack_refuted.

(** C47 *)
Theorem C47_all_combinations : forall d io cs, is_datum d -> Forall (inside (d_utterance d)) (d_entities d) ->
  d_entities d <> [] -> Forall2 (candidates io) (d_entities d) cs ->
  (forall vs, In vs (choices cs) -> Z.of_nat (length (d_utterance (rebuilt d vs))) < 2 ^ 31) ->
  n_choices cs <= 2 ^ 31 ->
  expand_by_entities d None io = Ok (map (rebuilt d) (choices cs)).
Proof. exact expand_all. Qed.
Print Assumptions C47_all_combinations.

Theorem C47_sampled : forall d io sample cs, is_datum d -> Forall (inside (d_utterance d)) (d_entities d) ->
  d_entities d <> [] -> Forall2 (candidates io) (d_entities d) cs ->
  (forall vs, In vs (choices cs) -> Z.of_nat (length (d_utterance (rebuilt d vs))) < 2 ^ 31) ->
  Forall i32 (sample (n_choices cs)) ->
  expand_by_entities d (Some sample) io =
  Ok (map (fun k => rebuilt d (nth (Z.to_nat (k mod n_choices cs)) (choices cs) []))
          (sample (n_choices cs))).
Proof. exact expand_sampled. Qed.
Print Assumptions C47_sampled.

Theorem C47_no_entities : forall d s io, d_entities d = [] -> expand_by_entities d s io = Ok [d].
Proof. exact expand_plain. Qed.
Print Assumptions C47_no_entities.

Theorem C47_candidates : forall io e cs, NoDup (e_replacements e) -> candidates io e cs ->
  Z.of_nat (length cs) = match e_replacements e with
                         | [] => 1
                         | r => Z.of_nat (length r) + (if io then 1 else 0)
                         end /\
  ((io = true -> ~ In (e_value e) (e_replacements e)) -> NoDup cs) /\
  forall v, In v cs <-> In v (e_replacements e) \/
                        (v = e_value e /\ (io = true \/ e_replacements e = [])).
Proof. exact candidates_count. Qed.
Print Assumptions C47_candidates.

Theorem C47_number : forall d cs, is_datum d -> Forall2 (candidates true) (d_entities d) cs ->
  n_choices cs = fold_right Z.mul 1 (map n_replacements (d_entities d)).
Proof. exact expand_number. Qed.
Print Assumptions C47_number.

Theorem C47_candidates_exist : forall io e, exists cs, candidates io e cs /\ cs <> [].
Proof. exact candidates_exist. Qed.
Print Assumptions C47_candidates_exist.

Theorem C47_candidates_unique : forall io e a b, candidates io e a -> candidates io e b -> a = b.
Proof. exact candidates_unique. Qed.
Print Assumptions C47_candidates_unique.

Theorem C47_combinations : forall (cs : list (list str)) c,
  (In c (choices cs) <-> Forall2 (fun x it => In x it) c cs) /\
  Z.of_nat (length (choices cs)) = n_choices cs.
Proof. exact (fun cs c => conj (in_choices cs c) (choices_length cs)). Qed.
Print Assumptions C47_combinations.

Theorem C47_each_once : forall d cs, Forall (@NoDup str) cs -> length cs = length (d_entities d) ->
  NoDup (map (rebuilt d) (choices cs)).
Proof. exact expand_distinct. Qed.
Print Assumptions C47_each_once.

Theorem C47_results : forall d vs, is_datum d -> Forall (inside (d_utterance d)) (d_entities d) ->
  length vs = length (d_entities d) ->
  d_intents (rebuilt d vs) = d_intents d /\
  map e_label (d_entities (rebuilt d vs)) = map e_label (d_entities d) /\
  map e_value (d_entities (rebuilt d vs)) = vs /\
  Forall (fun e => e_replacements e = [] /\ inside (d_utterance (rebuilt d vs)) e /\
                   text_at (d_utterance (rebuilt d vs)) (e_start e) (e_end e) (e_value e))
         (d_entities (rebuilt d vs)) /\
  (Z.of_nat (length (d_utterance (rebuilt d vs))) < 2 ^ 31 -> is_datum (rebuilt d vs)).
Proof. exact rebuilt_law. Qed.
Print Assumptions C47_results.

Theorem C47_original_values : forall d, is_datum d -> Forall (inside (d_utterance d)) (d_entities d) ->
  rebuilt d (map e_value (d_entities d)) =
  mkDatum (d_utterance d) (d_intents d) (map bare_entity (d_entities d)).
Proof. exact rebuilt_same. Qed.
Print Assumptions C47_original_values.

Theorem C47_each_once_refuted : exists d a b, is_datum d /\ Forall (inside (d_utterance d)) (d_entities d) /\
  expand_by_entities d None true = Ok [a; b] /\ a = b.
Proof. exact expand_twice_refuted. Qed.
Print Assumptions C47_each_once_refuted.

(** C48 *)
Theorem C48_kth : forall A (its : list (list A)) k, Forall (fun it => it <> []) its -> i32 k ->
  exists c, get_kth_combination its k = Ok c /\
    nth_error (choices its) (Z.to_nat (k mod n_choices its)) = Some c.
Proof. exact (fun A => @kth_choice A). Qed.
Print Assumptions C48_kth.

Theorem C48_digits : forall A (its : list (list A)) k c i it, get_kth_combination its k = Ok c ->
  nth_error its i = Some it ->
  nth_error c i = nth_error it (Z.to_nat ((k / n_choices (firstn i its)) mod Z.of_nat (length it))).
Proof. exact (fun A => @kth_digits A). Qed.
Print Assumptions C48_digits.

Theorem C48_bijection : forall A (its : list (list A)), Forall (fun it => it <> []) its ->
  Forall (@NoDup A) its -> n_choices its <= 2 ^ 31 -> forall c,
  Forall2 (fun x it => In x it) c its ->
  exists k, 0 <= k < n_choices its /\ get_kth_combination its k = Ok c /\
    forall k', 0 <= k' < n_choices its -> get_kth_combination its k' = Ok c -> k' = k.
Proof. exact (fun A => @kth_bijection A). Qed.
Print Assumptions C48_bijection.

Theorem C48_all : forall A (its : list (list A)), Forall (fun it => it <> []) its -> n_choices its <= 2 ^ 31 ->
  mapM (get_kth_combination its) (zrange 0 (n_choices its)) = Ok (choices its).
Proof. exact (fun A => @kth_all A). Qed.
Print Assumptions C48_all.

Theorem C48_product : forall A (its : list (list A)) c,
  In c (choices its) <-> Forall2 (fun x it => In x it) c its.
Proof. exact (fun A => @in_choices A). Qed.
Print Assumptions C48_product.

Theorem C48_overflow : forall A (its : list (list A)) k, ~ i32 k ->
  get_kth_combination its k = Err OverflowErr.
Proof. exact (fun A => @kth_overflow A). Qed.
Print Assumptions C48_overflow.

Theorem C48_empty_iterable : forall A (its : list (list A)) k, In [] its -> i32 k ->
  get_kth_combination its k = Err ZeroDivisionErr.
Proof. exact (fun A => @kth_empty A). Qed.
Print Assumptions C48_empty_iterable.

(** C49 *)
Theorem C49_partition : forall d io, is_datum d -> Forall (inside (d_utterance d)) (d_entities d) ->
  exists ps parts labels, partition_by_entities d io = (parts, labels) /\
    cut_into (d_utterance d) (d_entities d) ps /\
    labels = map (fun p => option_map e_label (fst p)) ps /\
    Forall2 (fun (p : piece) part => match fst p with
                                     | None => part = [snd p]
                                     | Some e => candidates io e part
                                     end) ps parts.
Proof. exact partition_spec. Qed.
Print Assumptions C49_partition.

Theorem C49_outside_refuted : exists d parts labels, is_datum d /\
  partition_by_entities d true = (parts, labels) /\ In [[]] parts.
Proof. exact expand_outside_refuted. Qed.
Print Assumptions C49_outside_refuted.

(** C50 *)
Theorem C50_value : forall fl d1 d2 rate, exact fl -> is_datum d1 -> is_datum d2 ->
  d_utterance d1 = d_utterance d2 -> d_utterance d1 <> [] ->
  exists r qs, entity_overlapping_ratio fl d1 d2 rate = Ok r /\ costs rate d1 d2 qs /\
    (r == 1 - sum qs / inject_Z (Z.of_nat (length (d_utterance d1))))%Q.
Proof. exact ratio_exact. Qed.
Print Assumptions C50_value.

Theorem C50_value_rounded : forall fl d1 d2 rate, rounding fl -> (rate == 0 \/ rate == 1)%Q -> is_datum d1 -> is_datum d2 ->
  d_utterance d1 = d_utterance d2 -> d_utterance d1 <> [] ->
  Z.of_nat (length (d_utterance d1)) <= 2 ^ 53 ->
  exists r qs, entity_overlapping_ratio fl d1 d2 rate = Ok r /\ costs rate d1 d2 qs /\
    (r == fl (1 - fl (sum qs / inject_Z (Z.of_nat (length (d_utterance d1))))))%Q.
Proof. exact ratio_count. Qed.
Print Assumptions C50_value_rounded.

Theorem C50_value_near : forall fl d1 d2 rate, to_nearest fl -> in01 rate -> is_datum d1 -> is_datum d2 ->
  d_utterance d1 = d_utterance d2 -> d_utterance d1 <> [] ->
  Z.of_nat (length (d_utterance d1)) <= 2 ^ 53 ->
  exists r qs, entity_overlapping_ratio fl d1 d2 rate = Ok r /\ costs rate d1 d2 qs /\
    almost (length (d_utterance d1)) r (1 - sum qs / inject_Z (Z.of_nat (length (d_utterance d1)))).
Proof. exact ratio_near. Qed.
Print Assumptions C50_value_near.

Theorem C50_one_means_identical_rounded : forall fl d1 d2 rate r, to_nearest fl -> in01 rate -> is_datum d1 -> is_datum d2 ->
  let n := Z.of_nat (length (d_utterance d1)) in n <= 2 ^ 53 ->
  (inject_Z (n * (n + 6)) * (1 # 2 ^ 54) < rate)%Q ->
  entity_overlapping_ratio fl d1 d2 rate = Ok r -> (r == 1)%Q -> same_annotation d1 d2.
Proof. exact ratio_one_near. Qed.
Print Assumptions C50_one_means_identical_rounded.

Theorem C50_tiny_rate_refuted : exists fl d1 d2 rate r, to_nearest fl /\ in01 rate /\ ~ (rate == 0)%Q /\
  is_datum d1 /\ is_datum d2 /\ entity_overlapping_ratio fl d1 d2 rate = Ok r /\ (r == 1)%Q /\ ~ same_annotation d1 d2.
Proof. exact tiny_rate_refuted. Qed.
Print Assumptions C50_tiny_rate_refuted.

Theorem C50_doubles : forall fl, to_nearest fl -> rounding fl.
Proof. exact nearest_rounding. Qed.
Print Assumptions C50_doubles.

Theorem C50_binary64 : to_nearest binary64.
Proof. exact binary64_nearest. Qed.
Print Assumptions C50_binary64.

Theorem C50_costs_unique : forall rate d1 d2 p q, is_datum d1 -> is_datum d2 ->
  costs rate d1 d2 p -> costs rate d1 d2 q -> p = q.
Proof. exact costs_unique. Qed.
Print Assumptions C50_costs_unique.

Theorem C50_range : forall fl d1 d2 rate r, rounding fl -> is_datum d1 -> is_datum d2 -> in01 rate ->
  Z.of_nat (length (d_utterance d1)) <= 2 ^ 53 ->
  entity_overlapping_ratio fl d1 d2 rate = Ok r -> in01 r.
Proof. exact ratio_range. Qed.
Print Assumptions C50_range.

Theorem C50_identical : forall fl d1 d2 rate, rounding fl -> is_datum d1 -> is_datum d2 ->
  d_utterance d1 = d_utterance d2 -> d_utterance d1 <> [] -> same_annotation d1 d2 ->
  exists r, entity_overlapping_ratio fl d1 d2 rate = Ok r /\ (r == 1)%Q.
Proof. exact ratio_same. Qed.
Print Assumptions C50_identical.

Theorem C50_one_means_identical : forall fl d1 d2 rate r, exact fl -> is_datum d1 -> is_datum d2 -> in01 rate -> ~ (rate == 0)%Q ->
  entity_overlapping_ratio fl d1 d2 rate = Ok r -> (r == 1)%Q -> same_annotation d1 d2.
Proof. exact ratio_one. Qed.
Print Assumptions C50_one_means_identical.

Theorem C50_same_annotation : forall d, is_datum d -> same_annotation d d.
Proof. exact same_annotation_refl. Qed.
Print Assumptions C50_same_annotation.

Theorem C50_symmetric : forall fl d1 d2 rate, is_datum d1 -> is_datum d2 ->
  entity_overlapping_ratio fl d1 d2 rate = entity_overlapping_ratio fl d2 d1 rate.
Proof. exact ratio_sym. Qed.
Print Assumptions C50_symmetric.

Theorem C50_errors : forall fl d1 d2 rate, is_datum d1 -> is_datum d2 ->
  (d_utterance d1 <> d_utterance d2 ->
   entity_overlapping_ratio fl d1 d2 rate = Err DifferentUtteranceErr) /\
  (d_utterance d1 = d_utterance d2 -> d_utterance d1 = [] ->
   entity_overlapping_ratio fl d1 d2 rate = Err ZeroDivisionErr).
Proof. exact ratio_errors. Qed.
Print Assumptions C50_errors.

Theorem C50_labels : forall d, is_datum d -> exists ls, expand_entity_to_list d = Ok ls /\
  length ls = length (d_utterance d) /\
  forall i, 0 <= i < Z.of_nat (length (d_utterance d)) -> labelled (d_entities d) i (at_ ls i).
Proof. exact expand_labels. Qed.
Print Assumptions C50_labels.

Theorem C50_same_labels_as_unpack : forall d, is_datum d -> Forall (inside (d_utterance d)) (d_entities d) ->
  exists ls, expand_entity_to_list d = Ok ls /\
    unpack_datum d = Ok (d_utterance d, d_intents d, ls).
Proof. exact expand_is_unpack. Qed.
Print Assumptions C50_same_labels_as_unpack.

(** C51 *)
Theorem C51_construction : forall i2i e2i ne, is_dict e2i ->
  (make_ordinal i2i e2i ne = Ok (mkOrdinal i2i e2i ne) /\
   indices (map snd i2i) /\ indices (ne :: map snd (others e2i))) \/
  (make_ordinal i2i e2i ne = Err ValueErr /\
   ~ (indices (map snd i2i) /\ indices (ne :: map snd (others e2i)))).
Proof. exact make_ordinal_cases. Qed.
Print Assumptions C51_construction.

Theorem C51_humanize : forall ord o d, reorders ord -> known o d ->
  exists names es, humanize ord o d = Ok (raw_datum (d_utterance d) names es) /\
    Forall2 (named (intent2index o)) (d_intents d) names /\
    Forall2 (raw_of (entity2index o)) (d_entities d) es.
Proof. exact humanize_known. Qed.
Print Assumptions C51_humanize.

Theorem C51_humanize_unknown : forall ord o d, ~ known o d -> humanize ord o d = Err KeyErr.
Proof. exact humanize_unknown. Qed.
Print Assumptions C51_humanize_unknown.

Theorem C51_machanize : forall o u names es, is_ordinal o -> small o ->
  Forall (fun r => i32 (w_start r) /\ i32 (w_end r)) es ->
  (all_known o names es /\ StronglySorted raw_apart es /\ exists d ints ents,
     machanize o (raw_datum u names es) = Ok d /\ is_datum d /\ d_utterance d = u /\
     Forall2 (fun n i => named (intent2index o) i n) names ints /\
     stably_sorted (fun i => i) ints (d_intents d) /\
     Forall2 (entity_of (entity2index o) u) es ents /\
     stably_sorted e_start ents (d_entities d)) \/
  (all_known o names es /\ ~ StronglySorted raw_apart es /\
     machanize o (raw_datum u names es) = Err EntityOverlapErr) \/
  (~ all_known o names es /\ machanize o (raw_datum u names es) = Err KeyErr).
Proof. exact machanize_cases. Qed.
Print Assumptions C51_machanize.

Theorem C51_machanize_humanize : forall ord o d, reorders ord -> is_ordinal o -> is_datum d -> known o d ->
  exists raw d', humanize ord o d = Ok raw /\ machanize o raw = Ok d' /\
    d_utterance d' = d_utterance d /\ d_intents d' = d_intents d /\
    Forall2 same_entity (d_entities d) (d_entities d').
Proof. exact machanize_humanize. Qed.
Print Assumptions C51_machanize_humanize.

Theorem C51_humanize_machanize : forall ord o u names es d, reorders ord -> is_ordinal o -> small o ->
  NoDup (map snd (entity2index o)) ->
  Forall (fun r => i32 (w_start r) /\ i32 (w_end r)) es ->
  machanize o (raw_datum u names es) = Ok d ->
  exists names' es2 es', humanize ord o d = Ok (raw_datum u names' es') /\
    stably_sorted (index_of (intent2index o)) names names' /\
    stably_sorted w_start es es2 /\ Forall2 same_raw es2 es'.
Proof. exact humanize_machanize. Qed.
Print Assumptions C51_humanize_machanize.

Theorem C51_distinct_indices : forall o, is_ordinal o -> ~ In not_entity (map fst (entity2index o)) ->
  NoDup (map snd (entity2index o)).
Proof. exact ordinal_NoDup. Qed.
Print Assumptions C51_distinct_indices.

Theorem C51_from_raw_dictionary : forall r ints ents ne, corpus r ints ents ->
  (exists o, from_raw_dictionary r ne = Ok o /\ is_ordinal o /\ not_entity_index o = ne /\
     map fst (intent2index o) = first_seen [] ints /\
     map snd (intent2index o) = counting None (length (first_seen [] ints)) /\
     map fst (entity2index o) = first_seen [] ents /\
     map snd (entity2index o) = counting (Some ne) (length (first_seen [] ents)) /\
     learns ne ents) \/
  (from_raw_dictionary r ne = Err ValueErr /\ ~ learns ne ents).
Proof. exact from_raw_cases. Qed.
Print Assumptions C51_from_raw_dictionary.

Theorem C51_collision_refuted : exists o u es d j, is_ordinal o /\ small o /\
  Forall (fun r => i32 (w_start r) /\ i32 (w_end r)) es /\
  machanize o (raw_datum u [] es) = Ok d /\ humanize (fun l => l) o d = Ok j /\
  forall es', j = raw_datum u [] es' -> ~ Forall2 same_raw es es'.
Proof. exact collision_refuted. Qed.
Print Assumptions C51_collision_refuted.

Theorem C51_learned_collision_refuted : exists r ne o i, from_raw_dictionary r ne = Ok o /\
  In (not_entity, i) (entity2index o) /\ i <> not_entity_index o.
Proof. exact learned_collision_refuted. Qed.
Print Assumptions C51_learned_collision_refuted.

(** C56 *)
Theorem C56_entity_equality : forall a b, entity_eqb a b = true <-> same_entity a b.
Proof. exact entity_equal. Qed.
Print Assumptions C56_entity_equality.

Theorem C56_datum_equality : forall a b, datum_eqb a b = true <-> same_datum a b.
Proof. exact datum_equal. Qed.
Print Assumptions C56_datum_equality.

Theorem C56_entity_equivalence : (forall a, entity_eqb a a = true) /\ (forall a b, entity_eqb a b = entity_eqb b a) /\
  (forall a b c, entity_eqb a b = true -> entity_eqb b c = true -> entity_eqb a c = true).
Proof. exact entity_equivalence. Qed.
Print Assumptions C56_entity_equivalence.

Theorem C56_datum_equivalence : (forall a, datum_eqb a a = true) /\ (forall a b, datum_eqb a b = datum_eqb b a) /\
  (forall a b c, datum_eqb a b = true -> datum_eqb b c = true -> datum_eqb a c = true).
Proof. exact datum_equivalence. Qed.
Print Assumptions C56_datum_equivalence.

Theorem C56_any_order : forall u ints ints' ents ents' d d',
  make_datum u (Some ints) (Some ents) = Ok d -> make_datum u (Some ints') (Some ents') = Ok d' ->
  same_set ints ints' -> Permutation ents ents' -> NoDup (map e_start ents) ->
  datum_eqb d d' = true.
Proof. exact datum_order. Qed.
Print Assumptions C56_any_order.

Theorem C56_dict_round_trip : forall ord u e, reorders ord -> is_entity e ->
  e_value e = slice_z u (e_start e) (e_end e) ->
  exists e', entity_from_dict (entity_to_dict ord e) u = Ok e' /\ same_entity e e'.
Proof. exact entity_dict_round_trip. Qed.
Print Assumptions C56_dict_round_trip.

Theorem C56_dict : forall ord e, exists m, entity_to_dict ord e = JDict m /\
  dict_get m (txt "label") = Some (JInt (e_label e)) /\
  dict_get m (txt "start") = Some (JInt (e_start e)) /\
  dict_get m (txt "end") = Some (JInt (e_end e)) /\
  dict_get m (txt "replacements") =
    match e_replacements e with [] => None | r => Some (JList (map JStr (ord r))) end /\
  map fst m = ([txt "label"; txt "start"; txt "end"] ++
               match e_replacements e with [] => [] | _ => [txt "replacements"] end)%list.
Proof. exact entity_dict_keys. Qed.
Print Assumptions C56_dict.

Theorem C56_copy_intents : forall d, is_datum d -> copy_intents d = Ok (d_intents d).
Proof. exact copy_intents_same. Qed.
Print Assumptions C56_copy_intents.

(** C57 *)
Theorem C57_unique_entities : forall ord data, (forall l, Permutation (ord l) l) ->
  NoDup (get_unique_entities ord data) /\
  forall l, In l (get_unique_entities ord data) <->
            exists d e, In d data /\ In e (d_entities d) /\ e_label e = l.
Proof. exact unique_entities. Qed.
Print Assumptions C57_unique_entities.
