(** Property theorems C01-C13 (edit layer and label propagation).  The concrete cases that
    meet the hypotheses are in [EditWitness.v]. *)

From Verif Require Import Py Edit Labels SpecEdit SpecLabels EditProofs SpanProofs LabelProofs
  EditApiProofs EditWitness.
From Coq Require Import Sorted.

(** C01 *)
Theorem C01_apply_is_splicing : forall (A : Type) (EA : Eqb A) (s : list A) (g : list (repl A)),
  group_in 0 (length s) g -> apply s g = splice_all s g.
Proof. exact (fun A EA s g => apply_splice g s). Qed.
Print Assumptions C01_apply_is_splicing.

Theorem C01_outside_elements_kept : forall (A : Type) (EA : Eqb A) (s : list A) (g : list (repl A)) p,
  group_in 0 (length s) g -> p < length s -> untouched g p ->
  nth_error (apply s g) (Z.to_nat (Z.of_nat p + net_growth g p)) = nth_error s p.
Proof. exact apply_untouched. Qed.
Print Assumptions C01_outside_elements_kept.

Theorem C01_new_values_in_place : forall (A : Type) (EA : Eqb A) (s : list A) g1 (r : repl A) g2,
  group_in 0 (length s) (g1 ++ r :: g2) ->
  let k := Z.to_nat (Z.of_nat (r_start r) + total_growth g1) in
  slice (apply s (g1 ++ r :: g2)) k (k + length (r_new r)) = r_new r.
Proof. exact apply_new_value. Qed.
Print Assumptions C01_new_values_in_place.

Theorem C01_length : forall (A : Type) (EA : Eqb A) (s : list A) (g : list (repl A)),
  group_in 0 (length s) g ->
  Z.of_nat (length (apply s g)) = (Z.of_nat (length s) + total_growth g)%Z.
Proof. exact apply_length_growth. Qed.
Print Assumptions C01_length.

(** C02 *)
Theorem C02_inverse_undoes : forall (A : Type) (EA : Eqb A) ord (s : list A) (g : list (repl A)),
  ord_ok ord -> group_in 0 (length s) g -> no_touching_deletions g ->
  exists h, inverse ord s g = Ok h /\ group_in 0 (length (apply s g)) h /\
            apply (apply s g) h = s.
Proof. exact @inverse_undoes. Qed.
Print Assumptions C02_inverse_undoes.

Theorem C02_unguarded_refuted_assertion : exists (s : str) g,
  group_in 0 (length s) g /\ inverse ord_id s g = Err AssertionErr.
Proof. exact (ex_intro _ [5; 5]%Z (ex_intro _ _ inverse_assertion_witness)). Qed.
Print Assumptions C02_unguarded_refuted_assertion.

Theorem C02_unguarded_refuted_order : exists (s : str) g ord h,
  ord_ok ord /\ group_in 0 (length s) g /\ inverse ord s g = Ok h /\ apply (apply s g) h <> s.
Proof. exact inverse_order_refuted. Qed.
Print Assumptions C02_unguarded_refuted_order.

(** In general [inverse] raises nothing but AssertionError, exactly when two of the restored
    pieces coincide in place and content; it never loses a piece silently. *)
Theorem C02_inverse_total : forall (A : Type) (EA : Eqb A) ord (s : list A) (g : list (repl A)),
  ord_ok ord -> group_in 0 (length s) g ->
  (no_touching_deletions g -> inverse ord s g = Ok (undo s g)) /\
  (NoDup (undo s g) -> exists h, inverse ord s g = Ok h /\ Permutation h (undo s g)) /\
  (~ NoDup (undo s g) -> inverse ord s g = Err AssertionErr).
Proof. exact inverse_value. Qed.
Print Assumptions C02_inverse_total.

(** C03 *)
Theorem C03_inverse_inverse : forall (A : Type) (EA : Eqb A) ord1 ord2 (s : list A) (g h : list (repl A)),
  ord_ok ord1 -> ord_ok ord2 -> group_in 0 (length s) g -> no_touching_deletions g ->
  inverse ord1 s g = Ok h -> no_touching_deletions h ->
  inverse ord2 (apply s g) h = Ok g.
Proof. exact @inverse_inverse. Qed.
Print Assumptions C03_inverse_inverse.

(** C04, C06 *)
Theorem C04_add_all_accepts : forall (A : Type) (EA : Eqb A) ord (l : list (Z * Z * list A)),
  ord_ok ord ->
  (~ Forall tuple_in_range l -> radd_all ord l = Err OverflowErr) /\
  (Forall tuple_in_range l ->
   let d := map as_repl (filter proper l) in
   (pairwise_ok d ->
    exists g, radd_all ord l = Ok g /\ NoDup g /\ (forall r, In r g <-> In r d) /\
              StronglySorted pos_le g /\
              (forall n, (forall r, In r d -> r_end r <= n) -> group_in 0 n g)) /\
   (~ pairwise_ok d -> radd_all ord l = Err ValueErr)).
Proof. exact @radd_all_spec. Qed.
Print Assumptions C04_add_all_accepts.

(** C05 *)
Theorem C05_order_irrelevant : forall (A : Type) (EA : Eqb A) ord1 ord2 (l1 l2 : list (Z * Z * list A)),
  ord_ok ord1 -> ord_ok ord2 -> (forall t, In t l1 <-> In t l2) ->
  distinct_positions (map as_repl (filter proper l1)) ->
  radd_all ord1 l1 = radd_all ord2 l2.
Proof. exact @radd_all_order_irrelevant. Qed.
Print Assumptions C05_order_irrelevant.

Theorem C05_same_position_refuted : exists (l : list (Z * Z * str)) ord1 ord2 g1 g2 s,
  ord_ok ord1 /\ ord_ok ord2 /\ radd_all ord1 l = Ok g1 /\ radd_all ord2 l = Ok g2 /\
  group_in 0 (length s) g1 /\ group_in 0 (length s) g2 /\ apply s g1 <> apply s g2.
Proof. exact order_dependence_refuted. Qed.
Print Assumptions C05_same_position_refuted.

(** C06 *)
Theorem C06_reversed_replacement_dropped :
  forall (A : Type) (EA : Eqb A) ord (l1 l2 : list (Z * Z * list A)) s e v,
  (0 <= e)%Z -> (e < s)%Z -> (s < 2 ^ 32)%Z ->
  radd_all ord (l1 ++ (s, e, v) :: l2) = radd_all ord (l1 ++ l2).
Proof. exact @radd_all_reversed. Qed.
Print Assumptions C06_reversed_replacement_dropped.

Theorem C06_reversed_span_dropped : forall l1 l2 s e,
  (0 <= e)%Z -> (e < s)%Z -> (s < 2 ^ 32)%Z ->
  sadd_all (l1 ++ (s, e) :: l2) = sadd_all (l1 ++ l2).
Proof. exact sadd_all_reversed. Qed.
Print Assumptions C06_reversed_span_dropped.

(** C07 *)
Theorem C07_spans_partition : forall (A : Type) (l : list (Z * Z)) g (s : list A),
  sadd_all l = Ok g ->
  exists n, tiles 0 g n /\
  (g = [] -> str2lst_apply s g = Err IndexErr) /\
  (g <> [] -> length s = n -> exists ts, str2lst_apply s g = Ok ts /\ length ts = length g /\
                concat ts = s /\ lst2str_apply ts g = Ok s) /\
  (g <> [] -> length s <> n -> str2lst_apply s g = Err ValueErr).
Proof. exact @sadd_all_partition. Qed.
Print Assumptions C07_spans_partition.

Theorem C07_add_all_accepts : forall l,
  (~ Forall pair_in_range l -> sadd_all l = Err OverflowErr) /\
  (Forall pair_in_range l ->
   (exists g n, sadd_all l = Ok g /\ Permutation g (map as_span (filter proper_pair l)) /\ tiles 0 g n) \/
   sadd_all l = Err ValueErr).
Proof. exact sadd_all_accepts. Qed.
Print Assumptions C07_add_all_accepts.

Theorem C07_joining : forall (A : Type) (ts : list (list A)) (g : list span),
  (map (@length A) ts = map (fun sp => snd sp - fst sp) g -> lst2str_apply ts g = Ok (concat ts)) /\
  (map (@length A) ts <> map (fun sp => snd sp - fst sp) g -> lst2str_apply ts g = Err ValueErr).
Proof. exact @lst2str_exact. Qed.
Print Assumptions C07_joining.

Theorem C07_tilings_accepted : forall l g n,
  tiles 0 g n -> (Z.of_nat n < 2 ^ 32)%Z ->
  (l = g \/ (Forall (fun sp => fst sp < snd sp) g /\ Permutation l g)) ->
  sadd_all (map zspan l) = Ok g.
Proof. exact sadd_all_tiles. Qed.
Print Assumptions C07_tilings_accepted.

Theorem C07_zero_width_order_refuted : exists l1 l2 g,
  Permutation l1 l2 /\ sadd_all l1 = Ok g /\ sadd_all l2 = Err ValueErr.
Proof. exact span_order_refuted. Qed.
Print Assumptions C07_zero_width_order_refuted.

(** C08 *)
Theorem C08_gen_span_group : forall (A : Type) (EA : Eqb A) (s : list A) (tokens : list (list A)),
  (s <> concat tokens -> gen_span_group s tokens = Err ValueErr) /\
  (s = concat tokens -> exists g, gen_span_group s tokens = Ok g /\
     tiles 0 g (length s) /\ length g = length tokens /\
     map (fun sp => firstn (snd sp - fst sp) (skipn (fst sp) s)) g = tokens /\
     (tokens <> [] -> str2lst_apply s g = Ok tokens)).
Proof. exact gen_span_group_full. Qed.
Print Assumptions C08_gen_span_group.

(** C09 *)
Theorem C09_gen_replacement_group : forall (A : Type) (EA : Eqb A) ord (s : list A) tokens,
  ord_ok ord ->
  (~ occurs_in_order tokens s -> gen_replacement_group ord s tokens = Err ValueErr) /\
  (occurs_in_order tokens s ->
   exists g, gen_replacement_group ord s tokens = Ok g /\ group_in 0 (length s) g /\
     no_touching_deletions g /\ (forall r, In r g -> r_new r = []) /\
     apply s g = concat tokens).
Proof. exact gen_replacement_group_full. Qed.
Print Assumptions C09_gen_replacement_group.

(** C10 *)
Theorem C10_propagate : forall (A : Type) (EA : Eqb A) (f : transducer) labels (g : list (repl A)) (s : list A) out,
  sized f -> group_in 0 (length s) g -> length labels = length s ->
  propagate labels g f = Ok out ->
  length out = length (apply s g) /\
  (forall p, p < length s -> untouched g p ->
     nth_error out (Z.to_nat (Z.of_nat p + net_growth g p)) = nth_error labels p) /\
  (forall g1 r g2, g = g1 ++ r :: g2 ->
     let k := Z.to_nat (Z.of_nat (r_start r) + total_growth g1) in
     f (slice labels (r_start r) (r_end r)) (length (r_new r))
     = Ok (slice out k (k + length (r_new r)))).
Proof. exact @propagate_positions. Qed.
Print Assumptions C10_propagate.

Theorem C10_propagate_total : forall (A : Type) labels (g : list (repl A)) (f : transducer),
  sized f -> (forall ls k, exists out, f ls k = Ok out) -> group_in 0 (length labels) g ->
  exists g', transduced f labels g g' /\ propagate labels g f = Ok (splice_all labels g').
Proof. exact propagate_succeeds. Qed.
Print Assumptions C10_propagate_total.

(** C11 *)
Theorem C11_get_most_common : forall labels size,
  (labels = [] -> get_most_common labels size = Err IndexErr) /\
  (labels <> [] ->
   exists x, get_most_common labels size = Ok (repeat x size) /\ first_mode x labels).
Proof. exact get_most_common_full. Qed.
Print Assumptions C11_get_most_common.

Theorem C11_get_most_common_except_not_entity : forall labels size,
  ((forall l, In l labels -> l = 0%Z) /\
   get_most_common_except_not_entity labels size = Ok (repeat 0%Z size)) \/
  (exists x, x <> 0%Z /\ get_most_common_except_not_entity labels size = Ok (repeat x size) /\
     first_mode x (filter (fun l => negb (l =? 0)%Z) labels)).
Proof. exact get_most_common_except_spec. Qed.
Print Assumptions C11_get_most_common_except_not_entity.

Theorem C11_default_transducer : forall labels size,
  (labels = [] -> get_most_common_label labels size = Ok (repeat 0%Z size)) /\
  (labels <> [] -> u32_labels labels ->
   get_most_common_label labels size = get_most_common labels size).
Proof. exact default_transducer_full. Qed.
Print Assumptions C11_default_transducer.

Theorem C11_first_mode_unique : forall x y l, first_mode x l -> first_mode y l -> x = y.
Proof. exact first_mode_unique. Qed.
Print Assumptions C11_first_mode_unique.

(** C12 *)
Theorem C12_reduce_expand : forall labels g n,
  tiles 0 g n -> length g = length labels -> u32_labels labels ->
  Forall (fun sp => fst sp < snd sp) g ->
  exists l, expand_by_span_group labels g = Ok l /\ length l = n /\
    reduce_by_span_group l g get_most_common_label = Ok labels.
Proof. exact reduce_expand. Qed.
Print Assumptions C12_reduce_expand.

Theorem C12_expand_reduce : forall labels g,
  tiles 0 g (length labels) -> u32_labels labels ->
  exists t l, reduce_by_span_group labels g get_most_common_label = Ok t /\
    length t = length g /\ u32_labels t /\
    expand_by_span_group t g = Ok l /\
    (l = labels <-> forall sp, In sp g -> constant_on labels sp).
Proof. exact expand_reduce. Qed.
Print Assumptions C12_expand_reduce.

Theorem C12_incompatible : forall labels g n f, tiles 0 g n ->
  (g <> [] -> length labels <> n -> reduce_by_span_group labels g f = Err ValueErr) /\
  (length labels <> length g -> expand_by_span_group labels g = Err ValueErr).
Proof. exact reduce_expand_incompatible. Qed.
Print Assumptions C12_incompatible.

(** The token label is the first most common label of the token's characters. *)
Theorem C12_reduce_values : forall labels g,
  tiles 0 g (length labels) -> u32_labels labels -> Forall (fun sp => fst sp < snd sp) g ->
  exists t, reduce_by_span_group labels g get_most_common_label = Ok t /\
    Forall2 (fun sp x => first_mode x (firstn (snd sp - fst sp) (skipn (fst sp) labels))) g t.
Proof. exact reduce_values. Qed.
Print Assumptions C12_reduce_values.

(** C13 (spans; whole operators are in [PropsLaws.v]) *)
Theorem C13_forward_zeroes : forall labels g,
  tiles 0 g (length labels) ->
  exists t, reduce_by_span_group labels g get_most_common_label = Ok t /\
    Forall2 (fun sp x => let ls := firstn (snd sp - fst sp) (skipn (fst sp) labels) in
      (~ u32_labels ls -> x = 0%Z) /\ (u32_labels ls -> ls <> [] -> first_mode x ls)) g t.
Proof. exact reduce_overflow. Qed.
Print Assumptions C13_forward_zeroes.

Theorem C13_inverse_raises : forall labels g,
  length g = length labels -> ~ u32_labels labels ->
  expand_by_span_group labels g = Err OverflowErr.
Proof. exact expand_overflow. Qed.
Print Assumptions C13_inverse_raises.
