(** The edit layer as seen through [add_all]; positions of edited pieces. *)

From Verif Require Import Py PyFacts Edit Labels SpecEdit SpecLabels EditProofs SpanProofs LabelProofs.
From Coq Require Import Sorted.

Lemma to_u32_ok z : (0 <= z < 2 ^ 32)%Z -> to_u32 z = Ok (Z.to_nat z).
Proof. intros H. unfold to_u32. assert (u32b z = true) as -> by now apply u32b_spec. reflexivity. Qed.

Lemma to_u32_err z : ~ (0 <= z < 2 ^ 32)%Z -> to_u32 z = Err OverflowErr.
Proof.
  intros H. unfold to_u32. destruct (u32b z) eqn:E; [|reflexivity].
  apply u32b_spec in E. contradiction.
Qed.

Section A.
Context {A : Type} {EA : Eqb A}.

Lemma radd_each_ok (l : list (Z * Z * list A)) g :
  Forall tuple_in_range l ->
  radd_each g l = Ok (g ++ map as_repl (filter proper l)).
Proof.
  revert g; induction l as [|[[s e] v] l IH]; intros g F.
  - cbn. now rewrite app_nil_r.
  - inversion F as [|? ? (R1 & R2) F']; subst. cbn [fst snd] in R1, R2.
    cbn [radd_each]. unfold radd_py. rewrite !to_u32_ok by assumption. cbn [bind].
    rewrite IH by exact F'. unfold radd. cbn [filter proper fst snd].
    unfold proper at 2; cbn [fst snd].
    destruct (Z.leb_spec s e) as [L|L].
    + destruct (Nat.ltb_spec (Z.to_nat e) (Z.to_nat s)); [lia|].
      cbn [map]. now rewrite <- app_assoc.
    + destruct (Nat.ltb_spec (Z.to_nat e) (Z.to_nat s)); [reflexivity|lia].
Qed.

Lemma radd_each_err (l : list (Z * Z * list A)) g :
  ~ Forall tuple_in_range l -> radd_each g l = Err OverflowErr.
Proof.
  revert g; induction l as [|[[s e] v] l IH]; intros g F.
  - exfalso; apply F; constructor.
  - cbn [radd_each]. unfold radd_py.
    destruct (u32b s) eqn:Es.
    + apply u32b_spec in Es. rewrite to_u32_ok by exact Es. cbn [bind].
      destruct (u32b e) eqn:Ee.
      * apply u32b_spec in Ee. rewrite to_u32_ok by exact Ee. cbn [bind]. apply IH.
        intros F'. apply F. constructor; [split; assumption|exact F'].
      * rewrite to_u32_err; [reflexivity|]. rewrite <- u32b_spec, Ee. discriminate.
    + rewrite to_u32_err; [reflexivity|]. rewrite <- u32b_spec, Es. discriminate.
Qed.

Lemma as_repl_wf (l : list (Z * Z * list A)) :
  Forall tuple_in_range l -> Forall well_formed (map as_repl (filter proper l)).
Proof.
  intros F. rewrite Forall_forall in *. intros r Hr.
  apply in_map_iff in Hr. destruct Hr as ([[s e] v] & <- & Ht).
  apply filter_In in Ht. destruct Ht as (Ht & P). unfold proper in P. cbn in P.
  apply Z.leb_le in P. unfold well_formed, as_repl; cbn. specialize (F _ Ht).
  unfold tuple_in_range in F; cbn in F. lia.
Qed.

Lemma radd_all_spec ord (l : list (Z * Z * list A)) :
  ord_ok ord ->
  (~ Forall tuple_in_range l -> radd_all ord l = Err OverflowErr) /\
  (Forall tuple_in_range l ->
   let d := map as_repl (filter proper l) in
   (pairwise_ok d ->
    exists g, radd_all ord l = Ok g /\ NoDup g /\ (forall r, In r g <-> In r d) /\
              StronglySorted pos_le g /\
              (forall n, (forall r, In r d -> r_end r <= n) -> group_in 0 n g)) /\
   (~ pairwise_ok d -> radd_all ord l = Err ValueErr)).
Proof.
  intros HO. split.
  - intros N. unfold radd_all. now rewrite radd_each_err.
  - intros F d. unfold radd_all. rewrite radd_each_ok by exact F. cbn [bind app].
    fold d. pose proof (as_repl_wf l F) as W. fold d in W.
    destruct (rdone_cases ord d HO W) as [(E & P)|(E & P)].
    + split; [|contradiction]. intros _.
      destruct (rdone_ok ord d _ HO W E) as (G1 & G2 & G3 & G4 & G5).
      eexists; split; [exact E|]. auto.
    + split; [contradiction|]. intros _; exact E.
Qed.

Lemma radd_all_reversed ord (l1 l2 : list (Z * Z * list A)) s e v :
  (0 <= e)%Z -> (e < s)%Z -> (s < 2 ^ 32)%Z ->
  radd_all ord (l1 ++ (s, e, v) :: l2) = radd_all ord (l1 ++ l2).
Proof.
  intros H1 H2 H3. unfold radd_all. f_equal.
  assert (Q : forall g, radd_each g ((s, e, v) :: l2) = radd_each g l2).
  { intros g. cbn [radd_each]. unfold radd_py. rewrite !to_u32_ok by lia. cbn [bind].
    unfold radd. destruct (Nat.ltb_spec (Z.to_nat e) (Z.to_nat s)); [reflexivity|lia]. }
  generalize (@nil (repl A)). induction l1 as [|[[s' e'] v'] l1 IH]; intros g; cbn [app].
  - apply Q.
  - cbn [radd_each]. destruct (radd_py g s' e' v'); cbn [bind]; auto.
Qed.

Lemma sadd_all_reversed l1 l2 s e :
  (0 <= e)%Z -> (e < s)%Z -> (s < 2 ^ 32)%Z ->
  sadd_all (l1 ++ (s, e) :: l2) = sadd_all (l1 ++ l2).
Proof.
  intros H1 H2 H3. unfold sadd_all. f_equal.
  assert (Q : forall g, sadd_each g ((s, e) :: l2) = sadd_each g l2).
  { intros g. cbn [sadd_each]. unfold sadd_py. rewrite !to_u32_ok by lia. cbn [bind].
    unfold sadd. destruct (Nat.ltb_spec (Z.to_nat e) (Z.to_nat s)); [reflexivity|lia]. }
  generalize (@nil span). induction l1 as [|[s' e'] l1 IH]; intros g; cbn [app].
  - apply Q.
  - cbn [sadd_each]. destruct (sadd_py g s' e'); cbn [bind]; auto.
Qed.

Lemma in_range_perm (l1 l2 : list (Z * Z * list A)) :
  (forall t, In t l1 <-> In t l2) -> Forall tuple_in_range l1 -> Forall tuple_in_range l2.
Proof. intros H F. rewrite Forall_forall in *. intros t Ht. apply F, H, Ht. Qed.

Lemma radd_all_order_irrelevant ord1 ord2 (l1 l2 : list (Z * Z * list A)) :
  ord_ok ord1 -> ord_ok ord2 -> (forall t, In t l1 <-> In t l2) ->
  distinct_positions (map as_repl (filter proper l1)) ->
  radd_all ord1 l1 = radd_all ord2 l2.
Proof.
  intros O1 O2 P D. unfold radd_all.
  destruct (forallb (fun t => u32b (fst (fst t)) && u32b (snd (fst t))) l1) eqn:E.
  - assert (F : Forall tuple_in_range l1).
    { rewrite Forall_forall. rewrite forallb_forall in E. intros t Ht. specialize (E t Ht).
      apply andb_true_iff in E. destruct E as (E1 & E2).
      apply u32b_spec in E1. apply u32b_spec in E2. split; assumption. }
    rewrite radd_each_ok by exact F. rewrite radd_each_ok by (eapply in_range_perm; eauto).
    cbn [bind app]. apply rdone_order_irrelevant; auto.
    intros r. rewrite !in_map_iff. split; intros (t & <- & Ht); exists t; split; auto;
      apply filter_In in Ht; apply filter_In; split; try tauto; apply P; tauto.
  - assert (F : ~ Forall tuple_in_range l1).
    { intros F. rewrite <- not_true_iff_false in E. apply E. apply forallb_forall.
      rewrite Forall_forall in F. intros t Ht. destruct (F t Ht) as (F1 & F2).
      apply andb_true_iff. split; apply u32b_spec; assumption. }
    rewrite radd_each_err by exact F. rewrite radd_each_err; [reflexivity|].
    intros F'. apply F. eapply in_range_perm; [|exact F']. intros t; symmetry; apply P.
Qed.

(** ** Where a new value lands *)

Lemma new_value_from (s : list A) g1 r g2 lo :
  group_in lo (length s) (g1 ++ r :: g2) ->
  (0 <= Z.of_nat (r_start r - lo) + total_growth g1)%Z /\
  slice (concat (transform_pieces s lo (g1 ++ r :: g2)))
        (Z.to_nat (Z.of_nat (r_start r - lo) + total_growth g1))
        (Z.to_nat (Z.of_nat (r_start r - lo) + total_growth g1) + length (r_new r)) = r_new r.
Proof.
  revert lo; induction g1 as [|a g1 IH]; intros lo H; cbn [app group_in] in H.
  - destruct H as (H1 & H2 & H3). pose proof (group_in_bound _ _ _ H3).
    cbn [app transform_pieces concat total_growth fold_right]. split; [lia|].
    rewrite Z.add_0_r, Nat2Z.id. unfold slice at 1.
    rewrite skipn_app_len by (apply slice_length; lia).
    replace (r_start r - lo + length (r_new r) - (r_start r - lo)) with (length (r_new r)) by lia.
    apply firstn_app_exact.
  - destruct H as (H1 & H2 & H3). pose proof (group_in_bound _ _ _ H3).
    destruct (IH _ H3) as (I1 & I2).
    assert (B : r_end a <= r_start r).
    { eapply group_in_In in H3; [destruct H3 as (Q & _); exact Q|].
      apply in_app_iff; right; left; reflexivity. }
    cbn [app transform_pieces concat].
    assert (LS : length (slice s lo (r_start a)) = r_start a - lo) by (apply slice_length; lia).
    assert (E : total_growth (a :: g1) =
      (total_growth g1 + Z.of_nat (length (r_new a)) - Z.of_nat (r_end a - r_start a))%Z)
      by reflexivity.
    rewrite E. split; [lia|].
    set (k := Z.to_nat (Z.of_nat (r_start r - r_end a) + total_growth g1)) in *.
    replace (Z.to_nat (Z.of_nat (r_start r - lo) +
       (total_growth g1 + Z.of_nat (length (r_new a)) - Z.of_nat (r_end a - r_start a))))
      with (length (slice s lo (r_start a) ++ r_new a) + k)
      by (rewrite app_length, LS; unfold k; lia).
    rewrite app_assoc. unfold slice at 1. rewrite <- skipn_skipn_add, skipn_app_exact.
    unfold slice in I2. rewrite <- I2 at 2. f_equal. lia.
Qed.

Lemma new_value_at (s : list A) g1 r g2 :
  group_in 0 (length s) (g1 ++ r :: g2) ->
  let k := Z.to_nat (Z.of_nat (r_start r) + total_growth g1) in
  slice (splice_all s (g1 ++ r :: g2)) k (k + length (r_new r)) = r_new r.
Proof.
  intros H k. rewrite <- apply_splice by exact H. unfold apply.
  destruct (new_value_from s g1 r g2 0 H) as (_ & E). rewrite Nat.sub_0_r in E. exact E.
Qed.

Lemma splice_length (s : list A) g :
  group_in 0 (length s) g ->
  Z.of_nat (length (splice_all s g)) = (Z.of_nat (length s) + total_growth g)%Z.
Proof.
  intros H. rewrite <- apply_splice by exact H. unfold apply.
  rewrite transform_length by exact H.
  enough (E : forall lo, group_in lo (length s) g ->
    Z.of_nat (out_len (length s) lo g) = (Z.of_nat (length s - lo) + total_growth g)%Z).
  { rewrite E by exact H. rewrite Nat.sub_0_r. reflexivity. }
  clear H. induction g as [|r g IH]; intros lo H; cbn [out_len group_in] in *.
  - cbn. lia.
  - destruct H as (H1 & H2 & H3). pose proof (group_in_bound _ _ _ H3).
    specialize (IH _ H3). cbn [total_growth fold_right]. fold (total_growth g). lia.
Qed.

End A.

Lemma total_growth_same {A B} (g : list (repl A)) (g' : list (repl B)) :
  Forall2 (fun r r' => r_start r' = r_start r /\ r_end r' = r_end r /\
                       length (r_new r') = length (r_new r)) g g' ->
  total_growth g' = total_growth g /\ (forall p, net_growth g' p = net_growth g p) /\
  (forall p, untouched g p -> untouched g' p).
Proof.
  intros H; induction H as [|r r' g g' (E1 & E2 & E3) H (I1 & I2 & I3)].
  - split; [reflexivity|split; [reflexivity|]]. intros p U x [].
  - split; [|split].
    + cbn. unfold total_growth in I1. rewrite I1, E1, E2, E3. reflexivity.
    + intros p. cbn. specialize (I2 p). unfold net_growth in I2. rewrite I2, E1, E2, E3.
      reflexivity.
    + intros p U x [<-|Hx].
      * rewrite E1, E2. apply U. left; reflexivity.
      * apply I3; auto. intros y Hy. apply U. right; exact Hy.
Qed.

(** The positional reading of label propagation. *)
Lemma propagate_positions {A} `{HE : Eqb A} (f : transducer) labels (g : list (repl A)) (s : list A) out :
  sized f -> group_in 0 (length s) g -> length labels = length s ->
  propagate labels g f = Ok out ->
  length out = length (apply s g) /\
  (forall p, p < length s -> untouched g p ->
     nth_error out (Z.to_nat (Z.of_nat p + net_growth g p)) = nth_error labels p) /\
  (forall g1 r g2, g = g1 ++ r :: g2 ->
     let k := Z.to_nat (Z.of_nat (r_start r) + total_growth g1) in
     f (slice labels (r_start r) (r_end r)) (length (r_new r))
     = Ok (slice out k (k + length (r_new r)))).
Proof.
  intros HF HG HL HP. rewrite <- HL in HG.
  destruct (propagate_ok labels g f out HF HG HP) as ((g' & T & ->) & L).
  pose proof (transduced_group_in _ _ _ _ _ _ T HG) as HG'.
  pose proof (transduced_lengths _ _ _ _ HF T) as TL.
  destruct (total_growth_same _ _ TL) as (G1 & G2 & G3).
  split; [|split].
  - rewrite L. unfold apply. rewrite HL in HG. rewrite transform_length by exact HG. now rewrite HL.
  - intros p HP' U. rewrite <- G2. apply splice_untouched; auto. lia.
  - intros g1 r g2 E k. subst g.
    apply Forall2_app_inv_l in T. destruct T as (g1' & t & T1 & T2 & ->).
    inversion T2 as [|? r' ? g2' (E1 & E2 & E3) T3]; subst.
    pose proof (new_value_at labels g1' r' g2' HG') as V. cbn zeta in V.
    pose proof (transduced_lengths _ _ _ _ HF T1) as TL1.
    destruct (total_growth_same _ _ TL1) as (G1' & _ & _).
    assert (LN : length (r_new r') = length (r_new r)) by (eapply HF; eauto).
    rewrite E1, G1', LN in V. unfold k. rewrite V. exact E3.
Qed.

(** ** expand after reduce *)

Lemma slice_constant {A} (l : list A) sp x :
  fst sp <= snd sp -> snd sp <= length l ->
  (slice l (fst sp) (snd sp) = repeat x (snd sp - fst sp) <->
   forall i, fst sp <= i < snd sp -> nth_error l i = Some x).
Proof.
  intros H1 H2. split.
  - intros E i Hi.
    replace i with (fst sp + (i - fst sp)) by lia.
    rewrite <- (nth_error_slice l (fst sp) (snd sp)) by lia. rewrite E.
    apply nth_error_repeat. lia.
  - intros H. apply (nth_ext _ _ x x).
    + rewrite repeat_length. apply slice_length; lia.
    + intros n Hn. rewrite slice_length in Hn by lia.
      rewrite nth_repeat. apply nth_error_nth.
      rewrite nth_error_slice by lia. apply H. lia.
Qed.

Lemma app_eq_app_length {A} (a b c d : list A) :
  length a = length c -> a ++ b = c ++ d -> a = c /\ b = d.
Proof.
  revert c; induction a as [|x a IH]; intros [|y c] L E; try discriminate; cbn in *.
  - auto.
  - injection E as -> E. destruct (IH c) as (-> & ->); auto.
Qed.

Lemma expand_reduce_spread labels g lo :
  tiles lo g (length labels) ->
  (spread (map (fun sp => token_label (slice labels (fst sp) (snd sp))) g) g = skipn lo labels <->
   forall sp, In sp g ->
     slice labels (fst sp) (snd sp) =
     repeat (token_label (slice labels (fst sp) (snd sp))) (snd sp - fst sp)).
Proof.
  revert lo; induction g as [|[s e] g IH]; intros lo T.
  - cbn in *. subst lo. rewrite skipn_all. split; [intros _ sp []|reflexivity].
  - cbn [tiles] in T. destruct T as (-> & T2 & T3). pose proof (tiles_end_ge _ _ _ T3) as B.
    cbn [map spread fst snd]. rewrite <- (slice_skipn labels lo e) by lia.
    split.
    + intros E. apply app_eq_app_length in E.
      2:{ rewrite repeat_length, slice_length by lia. reflexivity. }
      destruct E as (E1 & E2). intros sp [<-|Hsp]; cbn [fst snd]; [now symmetry|].
      apply (IH e T3); auto.
    + intros H. f_equal.
      * symmetry. apply (H (lo, e)). left; reflexivity.
      * apply (IH e T3). intros sp Hsp. apply H. right; exact Hsp.
Qed.

(** Each token label of [reduce] is one of the labels of the token. *)
Lemma first_mode_In x l : first_mode x l -> In x l.
Proof. intros (l1 & l2 & -> & _). apply in_app_iff. right; left; reflexivity. Qed.

Lemma In_firstn_In {A} n (l : list A) x : In x (firstn n l) -> In x l.
Proof. intros H. rewrite <- (firstn_skipn n l). apply in_app_iff. auto. Qed.

Lemma In_skipn_In {A} n (l : list A) x : In x (skipn n l) -> In x l.
Proof. intros H. rewrite <- (firstn_skipn n l). apply in_app_iff. auto. Qed.

Lemma u32_slice l i j : u32_labels l -> u32_labels (slice l i j).
Proof.
  unfold u32_labels. rewrite !Forall_forall. intros H x Hx. apply H.
  unfold slice in Hx. apply In_firstn_In in Hx. apply In_skipn_In in Hx. exact Hx.
Qed.

Lemma token_label_u32 l : u32_labels l -> (0 <= token_label l < 2 ^ 32)%Z.
Proof.
  intros U. destruct l as [|x l]; [cbn; lia|].
  unfold token_label. unfold u32_labels in U. rewrite Forall_forall in U. apply U.
  apply first_mode_In, count_most_common_spec; [discriminate|].
  unfold u32_labels. now rewrite Forall_forall.
Qed.

Lemma tiles_In lo g n sp : tiles lo g n -> In sp g -> lo <= fst sp /\ fst sp <= snd sp /\ snd sp <= n.
Proof.
  intros T H. destruct (tiles_sorted _ _ _ T) as (F & _). rewrite Forall_forall in F. auto.
Qed.

Lemma token_label_const l x : l <> [] -> u32_labels l -> (forall y, In y l -> y = x) ->
  token_label l = x.
Proof.
  intros N U H. destruct l as [|y l]; [congruence|]. unfold token_label.
  apply (first_mode_unique _ _ (y :: l)).
  - now apply count_most_common_spec.
  - now apply first_mode_const.
Qed.

Lemma expand_reduce labels g :
  tiles 0 g (length labels) -> u32_labels labels ->
  exists t l, reduce_by_span_group labels g get_most_common_label = Ok t /\
    length t = length g /\ u32_labels t /\
    expand_by_span_group t g = Ok l /\
    (l = labels <-> forall sp, In sp g -> constant_on labels sp).
Proof.
  intros T U.
  set (t := map (fun sp => token_label (slice labels (fst sp) (snd sp))) g).
  assert (UT : u32_labels t).
  { unfold u32_labels, t. rewrite Forall_forall. intros x Hx. apply in_map_iff in Hx.
    destruct Hx as (sp & <- & _). apply token_label_u32. now apply u32_slice. }
  assert (LT : length t = length g) by (unfold t; apply map_length).
  exists t, (spread t g). split; [now apply (reduce_spec _ _ (length labels))|].
  split; [exact LT|]. split; [exact UT|].
  split; [now apply (expand_spec _ _ (length labels))|].
  pose proof (expand_reduce_spread labels g 0 T) as E. cbn [skipn] in E. fold t in E.
  rewrite E. clear E. split.
  - intros H sp Hsp i j Hi Hj. destruct (tiles_In _ _ _ _ T Hsp) as (_ & B1 & B2).
    specialize (H sp Hsp). rewrite (slice_constant labels sp _ B1 B2) in H.
    rewrite (H i), (H j); auto.
  - intros H sp Hsp. specialize (H sp Hsp). destruct (tiles_In _ _ _ _ T Hsp) as (_ & B1 & B2).
    rewrite (slice_constant labels sp _ B1 B2). intros i Hi.
    destruct (nth_error labels i) as [x|] eqn:Ex.
    2:{ apply nth_error_None in Ex. lia. }
    f_equal. symmetry. apply token_label_const.
    + intros E. apply (f_equal (@length Z)) in E. rewrite slice_length in E by auto. cbn in E. lia.
    + now apply u32_slice.
    + intros y Hy. apply In_nth_error in Hy. destruct Hy as (k & Hk).
      assert (LK : k < snd sp - fst sp).
      { rewrite <- (slice_length labels) by auto. apply nth_error_Some. rewrite Hk. discriminate. }
      rewrite nth_error_slice in Hk by exact LK.
      assert (EQ : nth_error labels (fst sp + k) = nth_error labels i) by (apply H; lia).
      congruence.
Qed.

(** A token with a label outside the unsigned range is labelled 0. *)
Lemma token_label_overflow l : ~ u32_labels l -> token_label l = 0%Z.
Proof.
  intros N. destruct l as [|x l]; [reflexivity|]. unfold token_label, count_and_get_most_common.
  destruct (forallb u32b (x :: l)) eqn:E; [|reflexivity].
  exfalso. apply N. now apply u32_labels_b.
Qed.

Lemma reduce_incompatible labels g n f :
  tiles 0 g n -> g <> [] -> length labels <> n ->
  reduce_by_span_group labels g f = Err ValueErr.
Proof.
  intros T N L. unfold reduce_by_span_group. destruct g as [|sp g]; [congruence|].
  replace ((length (sp :: g) =? 0) && (length labels =? 0)) with false by reflexivity.
  cbn [last_opt]. rewrite (tiles_last _ _ _ _ T).
  destruct (Nat.eqb_spec (length labels) n); [contradiction|]. reflexivity.
Qed.

Lemma expand_incompatible labels g :
  length labels <> length g -> expand_by_span_group labels g = Err ValueErr.
Proof.
  intros L. unfold expand_by_span_group.
  destruct (Nat.eqb_spec (length g) (length labels)); [congruence|]. reflexivity.
Qed.

(** Which strings [str2lst.apply] accepts, through [add_all]. *)
Lemma sadd_all_partition {A} l g (s : list A) :
  sadd_all l = Ok g ->
  exists n, tiles 0 g n /\
  (g = [] -> str2lst_apply s g = Err IndexErr) /\
  (g <> [] -> length s = n -> exists ts, str2lst_apply s g = Ok ts /\ length ts = length g /\
                concat ts = s /\ lst2str_apply ts g = Ok s) /\
  (g <> [] -> length s <> n -> str2lst_apply s g = Err ValueErr).
Proof.
  intros E. destruct (sadd_all_ok _ _ E) as (n & T). exists n. split; [exact T|].
  split; [|split].
  - intros ->. reflexivity.
  - intros N L. destruct (str2lst_apply_ok s g n T N) as (H & _).
    destruct (H L) as (ts & H1 & H2 & H3). exists ts. repeat split; auto.
    apply (lst2str_str2lst s g n ts T H1).
  - intros N L. destruct (str2lst_apply_ok s g n T N) as (_ & H). auto.
Qed.

Lemma sadd_each_ok g l :
  Forall (fun p : Z * Z => (0 <= fst p /\ fst p <= snd p /\ snd p < 2 ^ 32)%Z) l ->
  sadd_each g l = Ok (g ++ map (fun p => (Z.to_nat (fst p), Z.to_nat (snd p))) l).
Proof.
  revert g; induction l as [|[s e] l IH]; intros g F.
  - cbn. now rewrite app_nil_r.
  - inversion F as [|? ? R F']; subst. cbn [fst snd] in R. cbn [sadd_each].
    unfold sadd_py. rewrite !to_u32_ok by lia. cbn [bind]. unfold sadd.
    destruct (Nat.ltb_spec (Z.to_nat e) (Z.to_nat s)); [lia|].
    rewrite IH by exact F'. cbn [map fst snd]. now rewrite <- app_assoc.
Qed.

(** What [SpanGroup.add_all] accepts. *)
Lemma sadd_each_range g l :
  Forall pair_in_range l -> sadd_each g l = Ok (g ++ map as_span (filter proper_pair l)).
Proof.
  revert g; induction l as [|[s e] l IH]; intros g F.
  - cbn. now rewrite app_nil_r.
  - inversion F as [|? ? R F']; subst. unfold pair_in_range in R. cbn [fst snd] in R.
    cbn [sadd_each filter]. unfold sadd_py. rewrite !to_u32_ok by lia. cbn [bind]. rewrite IH by exact F'.
    unfold sadd, proper_pair. cbn [fst snd].
    destruct (Nat.ltb_spec (Z.to_nat e) (Z.to_nat s)), (Z.leb_spec s e); try lia; cbn [map];
      [reflexivity|]. rewrite <- app_assoc. reflexivity.
Qed.

Lemma sadd_each_overflow g l : ~ Forall pair_in_range l -> sadd_each g l = Err OverflowErr.
Proof.
  revert g; induction l as [|[s e] l IH]; intros g N; [exfalso; apply N; constructor|].
  cbn [sadd_each]. unfold sadd_py, to_u32.
  destruct (u32b s) eqn:Es; [|reflexivity]. destruct (u32b e) eqn:Ee; [|reflexivity].
  cbn [bind]. apply IH. intros F. apply N. constructor; [|exact F].
  unfold u32b in *. apply andb_prop in Es, Ee. unfold pair_in_range, two32 in *. cbn [fst snd].
  destruct Es as [E1 E2], Ee as [E3 E4]. apply Z.leb_le in E1, E3. apply Z.ltb_lt in E2, E4. lia.
Qed.

Lemma sdone_outcomes l : (exists g, sdone l = Ok g) \/ sdone l = Err ValueErr.
Proof.
  destruct l as [|sp l]; [left; eexists; reflexivity|]. unfold sdone.
  set (l2 := sort_by _ _).
  assert (N : l2 <> []).
  { intros E. assert (P : Permutation l2 (sp :: l)) by apply sort_by_perm. rewrite E in P.
    apply Permutation_nil in P. discriminate. }
  clearbody l2. destruct l2 as [|a l2]; [contradiction|]. cbn.
  destruct (disjoint_from _ _ _ _); cbn; [|now right].
  destruct (fst a =? 0); cbn; [|now right].
  destruct (contiguous_from a l2); cbn; [left; eexists; reflexivity|now right].
Qed.

Lemma sadd_all_accepts l :
  (~ Forall pair_in_range l -> sadd_all l = Err OverflowErr) /\
  (Forall pair_in_range l ->
   (exists g n, sadd_all l = Ok g /\ Permutation g (map as_span (filter proper_pair l)) /\ tiles 0 g n) \/
   sadd_all l = Err ValueErr).
Proof.
  split.
  - intros N. unfold sadd_all. now rewrite sadd_each_overflow.
  - intros F. unfold sadd_all. rewrite sadd_each_range by exact F. cbn [bind app].
    set (d := map as_span _).
    assert (W : Forall span_wf d).
    { unfold d. rewrite Forall_map, Forall_forall. intros [s e] H. apply filter_In in H as [H P].
      rewrite Forall_forall in F. specialize (F _ H). unfold pair_in_range in F. unfold proper_pair in P.
      apply Z.leb_le in P. unfold span_wf, as_span. cbn [fst snd] in *. lia. }
    destruct (sdone_outcomes d) as [[g E]|E]; [left|now right].
    destruct (sdone_ok _ _ W E) as (P & n & T). exists g, n. auto.
Qed.

(** What [lst2str.apply] accepts. *)
Lemma lst2str_exact {A} (ts : list (list A)) (g : list span) :
  (map (@length A) ts = map (fun sp => snd sp - fst sp) g -> lst2str_apply ts g = Ok (concat ts)) /\
  (map (@length A) ts <> map (fun sp => snd sp - fst sp) g -> lst2str_apply ts g = Err ValueErr).
Proof.
  assert (G : forall ts : list (list A), forall g : list span, length ts = length g ->
    (lst2str_each ts g = true <-> map (@length A) ts = map (fun sp => snd sp - fst sp) g)).
  { clear. induction ts as [|t ts IH]; intros [|sp g] H; cbn in *; try discriminate; [tauto|].
    injection H as H. rewrite andb_true_iff, IH by exact H. rewrite Nat.eqb_eq. split.
    - intros [-> ->]. reflexivity.
    - intros E. injection E as E1 E2. auto. }
  unfold lst2str_apply. destruct (Nat.eqb_spec (length ts) (length g)) as [E|E].
  - cbn [guard bind]. specialize (G ts g E). destruct (lst2str_each ts g).
    + split; [reflexivity|]. intros N. exfalso. now apply N, G.
    + split; [|reflexivity]. intros H. apply G in H. discriminate.
  - split; [|reflexivity]. intros H. exfalso. apply E.
    rewrite <- (map_length (@length A) ts), H. apply map_length.
Qed.

Lemma sadd_all_tiles l g n :
  tiles 0 g n -> (Z.of_nat n < 2 ^ 32)%Z ->
  (l = g \/ (Forall (fun sp => fst sp < snd sp) g /\ Permutation l g)) ->
  sadd_all (map zspan l) = Ok g.
Proof.
  intros T B H. unfold sadd_all.
  assert (P : Permutation l g) by (destruct H as [->|(_ & P)]; auto).
  rewrite sadd_each_ok.
  2:{ rewrite Forall_forall. intros p Hp. apply in_map_iff in Hp. destruct Hp as (sp & <- & Hsp).
      apply (Permutation_in _ P) in Hsp. destruct (tiles_In _ _ _ _ T Hsp) as (_ & B1 & B2).
      unfold zspan; cbn. lia. }
  cbn [bind app]. rewrite map_map.
  replace (map _ l) with l.
  2:{ rewrite <- (map_id l) at 1. apply map_ext. intros [a b]. unfold zspan; cbn.
      now rewrite !Nat2Z.id. }
  destruct H as [->|(P1 & _)].
  - now apply (sdone_tiles g n).
  - now apply (sdone_perm_positive l g n).
Qed.

Lemma apply_untouched (A : Type) (EA : Eqb A) (s : list A) (g : list (repl A)) p :
  group_in 0 (length s) g -> p < length s -> untouched g p ->
  nth_error (apply s g) (Z.to_nat (Z.of_nat p + net_growth g p)) = nth_error s p.
Proof. intros HG HP HU. rewrite apply_splice by exact HG. now apply splice_untouched. Qed.

Lemma apply_new_value (A : Type) (EA : Eqb A) (s : list A) g1 (r : repl A) g2 :
  group_in 0 (length s) (g1 ++ r :: g2) ->
  let k := Z.to_nat (Z.of_nat (r_start r) + total_growth g1) in
  slice (apply s (g1 ++ r :: g2)) k (k + length (r_new r)) = r_new r.
Proof. intros HG. rewrite apply_splice by exact HG. now apply new_value_at. Qed.

Lemma apply_length_growth (A : Type) (EA : Eqb A) (s : list A) (g : list (repl A)) :
  group_in 0 (length s) g ->
  Z.of_nat (length (apply s g)) = (Z.of_nat (length s) + total_growth g)%Z.
Proof. intros HG. rewrite apply_splice by exact HG. now apply splice_length. Qed.

Lemma gen_span_group_full (A : Type) (EA : Eqb A) (s : list A) (tokens : list (list A)) :
  (s <> concat tokens -> gen_span_group s tokens = Err ValueErr) /\
  (s = concat tokens -> exists g, gen_span_group s tokens = Ok g /\
     tiles 0 g (length s) /\ length g = length tokens /\
     map (fun sp => firstn (snd sp - fst sp) (skipn (fst sp) s)) g = tokens /\
     (tokens <> [] -> str2lst_apply s g = Ok tokens)).
Proof.
  split; [apply gen_span_group_err|]. intros E. exists (offsets 0 tokens).
  pose proof (gen_span_group_ok s tokens E) as G. split; [exact G|].
  split; [rewrite E; apply (offsets_tiles 0)|].
  split; [apply offsets_length|]. split.
  - rewrite E. apply (offsets_slices [] tokens).
  - intros N. now apply gen_span_group_apply.
Qed.

Lemma gap_chain_new {A} lo n (g : list (repl A)) r : gap_chain lo n g -> In r g -> r_new r = [].
Proof.
  revert lo; induction g as [|a g IH]; intros lo H I; [destruct I|].
  cbn in H. destruct H as (H1 & H2 & H3 & H4 & H5). destruct I as [<-|I]; eauto.
Qed.

Lemma gen_replacement_group_full (A : Type) (EA : Eqb A) ord (s : list A) tokens :
  ord_ok ord ->
  (~ occurs_in_order tokens s -> gen_replacement_group ord s tokens = Err ValueErr) /\
  (occurs_in_order tokens s ->
   exists g, gen_replacement_group ord s tokens = Ok g /\ group_in 0 (length s) g /\
     no_touching_deletions g /\ (forall r, In r g -> r_new r = []) /\
     apply s g = concat tokens).
Proof.
  intros HO. destruct (gen_replacement_group_iff ord s tokens HO) as (H1 & H2).
  split; [exact H2|]. intros O. destruct (H1 O) as (g & E). exists g.
  destruct (gen_replacement_group_ok ord s tokens g HO E) as (C & AP).
  split; [exact E|]. split; [apply gap_chain_group_in; [exact C|lia]|].
  split; [eapply gap_chain_no_touching; eauto|]. split; [|exact AP].
  intros r Hr. eapply gap_chain_new; eauto.
Qed.

Lemma propagate_succeeds (A : Type) labels (g : list (repl A)) (f : transducer) :
  sized f -> (forall ls k, exists out, f ls k = Ok out) -> group_in 0 (length labels) g ->
  exists g', transduced f labels g g' /\ propagate labels g f = Ok (splice_all labels g').
Proof.
  intros HF HT HG. destruct (transduced_exists labels g f HT) as (g' & T).
  exists g'. split; [exact T|]. now apply propagate_total.
Qed.

Lemma get_most_common_full labels size :
  (labels = [] -> get_most_common labels size = Err IndexErr) /\
  (labels <> [] ->
   exists x, get_most_common labels size = Ok (repeat x size) /\ first_mode x labels).
Proof. split; [intros ->; reflexivity|apply get_most_common_spec]. Qed.

Lemma default_transducer_full labels size :
  (labels = [] -> get_most_common_label labels size = Ok (repeat 0%Z size)) /\
  (labels <> [] -> u32_labels labels ->
   get_most_common_label labels size = get_most_common labels size).
Proof. split; [intros ->; reflexivity|apply get_most_common_label_agrees]. Qed.

Lemma reduce_expand_incompatible labels g n f : tiles 0 g n ->
  (g <> [] -> length labels <> n -> reduce_by_span_group labels g f = Err ValueErr) /\
  (length labels <> length g -> expand_by_span_group labels g = Err ValueErr).
Proof.
  intros T. split; [intros; eapply reduce_incompatible; eauto|apply expand_incompatible].
Qed.

Lemma Forall2_map_r {A B} (R : A -> B -> Prop) (f : A -> B) l :
  (forall x, In x l -> R x (f x)) -> Forall2 R l (map f l).
Proof.
  induction l as [|x l IH]; intros H; cbn; constructor.
  - apply H; left; auto.
  - apply IH. intros y Hy; apply H; right; auto.
Qed.

Lemma reduce_values labels g :
  tiles 0 g (length labels) -> u32_labels labels -> Forall (fun sp => fst sp < snd sp) g ->
  exists t, reduce_by_span_group labels g get_most_common_label = Ok t /\
    Forall2 (fun sp x => first_mode x (firstn (snd sp - fst sp) (skipn (fst sp) labels))) g t.
Proof.
  intros T U P. rewrite (reduce_spec _ _ _ T eq_refl). eexists; split; [reflexivity|].
  apply Forall2_map_r. intros sp Hsp. destruct (tiles_In _ _ _ _ T Hsp) as (_ & B1 & B2).
  rewrite Forall_forall in P. specialize (P _ Hsp).
  pose proof (slice_length labels _ _ B1 B2) as L.
  pose proof (u32_slice labels (fst sp) (snd sp) U) as US.
  change (firstn (snd sp - fst sp) (skipn (fst sp) labels)) with (slice labels (fst sp) (snd sp)).
  destruct (slice labels (fst sp) (snd sp)) as [|x m] eqn:E; [cbn in L; lia|].
  unfold token_label. apply count_most_common_spec; [discriminate|exact US].
Qed.

Lemma reduce_overflow labels g :
  tiles 0 g (length labels) ->
  exists t, reduce_by_span_group labels g get_most_common_label = Ok t /\
    Forall2 (fun sp x => let ls := firstn (snd sp - fst sp) (skipn (fst sp) labels) in
      (~ u32_labels ls -> x = 0%Z) /\ (u32_labels ls -> ls <> [] -> first_mode x ls)) g t.
Proof.
  intros T. rewrite (reduce_spec _ _ _ T eq_refl). eexists; split; [reflexivity|].
  apply Forall2_map_r. intros sp Hsp ls. split; [apply token_label_overflow|]. subst ls.
  change (firstn (snd sp - fst sp) (skipn (fst sp) labels)) with (slice labels (fst sp) (snd sp)).
  intros US N. destruct (slice labels (fst sp) (snd sp)) as [|x m] eqn:E; [congruence|].
  unfold token_label. apply count_most_common_spec; [discriminate|exact US].
Qed.

Lemma inv_rec_undo {A} (s : list A) g lo olo n :
  group_in lo n g ->
  inv_rec s lo olo g = undo_from s (Z.of_nat olo - Z.of_nat lo) g.
Proof.
  revert lo olo; induction g as [|r g IH]; intros lo olo H; [reflexivity|].
  cbn [group_in] in H. destruct H as (H1 & H2 & H3). cbn [inv_rec undo_from]. cbn zeta.
  replace (Z.to_nat (Z.of_nat (r_start r) + (Z.of_nat olo - Z.of_nat lo)))
    with (olo + (r_start r - lo)) by lia.
  f_equal. rewrite (IH _ _ H3). f_equal. lia.
Qed.

Lemma inv_list_undo {A} {EA : Eqb A} (s : list A) g n : group_in 0 n g -> inv_list s g = undo s g.
Proof. intros H. rewrite inv_list_rec. apply (inv_rec_undo s g 0 0 n H). Qed.

Lemma inverse_value (A : Type) (EA : Eqb A) ord (s : list A) (g : list (repl A)) :
  ord_ok ord -> group_in 0 (length s) g ->
  (no_touching_deletions g -> inverse ord s g = Ok (undo s g)) /\
  (NoDup (undo s g) -> exists h, inverse ord s g = Ok h /\ Permutation h (undo s g)) /\
  (~ NoDup (undo s g) -> inverse ord s g = Err AssertionErr).
Proof.
  intros HO HG. rewrite <- (inv_list_undo s g _ HG). split; [|split].
  - intros N. now apply inverse_strict.
  - intros N. destruct (inverse_total ord s g HO HG) as [(_ & H)|(N' & _)]; [exact H|contradiction].
  - intros N. destruct (inverse_total ord s g HO HG) as [(N' & _)|(_ & H)]; [contradiction|exact H].
Qed.
