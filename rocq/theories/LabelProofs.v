(** Proofs about label propagation. *)

From Verif Require Import Py PyFacts Edit Labels SpecEdit SpecLabels EditProofs SpanProofs.

Lemma nth_error_skipn {A} n (l : list A) k : nth_error (skipn n l) k = nth_error l (n + k).
Proof.
  revert l; induction n as [|n IH]; intros l; cbn; [reflexivity|].
  destruct l; [now destruct k|]. apply IH.
Qed.

(** ** Untouched positions of a spliced list *)

Lemma net_growth_before {A} (g : list (repl A)) lo n p :
  group_in lo n g -> p < lo -> net_growth g p = 0%Z.
Proof.
  revert lo; induction g as [|r g IH]; cbn; intros lo H HP; [reflexivity|].
  destruct H as (H1 & H2 & H3).
  destruct (Nat.leb_spec (r_end r) p); [lia|]. apply (IH (r_end r)); [assumption|lia].
Qed.

Lemma untouched_from {A} (s : list A) g lo p :
  group_in lo (length s) g -> untouched g p -> lo <= p -> p < length s ->
  (0 <= Z.of_nat (p - lo) + net_growth g p)%Z /\
  nth_error (concat (transform_pieces s lo g)) (Z.to_nat (Z.of_nat (p - lo) + net_growth g p))
  = nth_error s p.
Proof.
  revert lo; induction g as [|r g IH]; intros lo H HU HL HP.
  - cbn [transform_pieces concat net_growth fold_right]. rewrite app_nil_r.
    split; [lia|]. rewrite Z.add_0_r, Nat2Z.id.
    rewrite nth_error_skipn. f_equal. lia.
  - cbn [group_in] in H. destruct H as (H1 & H2 & H3).
    pose proof (group_in_bound _ _ _ H3) as HB.
    cbn [transform_pieces concat].
    assert (LS : length (slice s lo (r_start r)) = r_start r - lo) by (apply slice_length; lia).
    destruct (HU r (or_introl eq_refl)) as [HR|HR].
    + assert (E0 : net_growth (r :: g) p = 0%Z).
      { cbn. destruct (Nat.leb_spec (r_end r) p); [lia|].
        apply (net_growth_before g (r_end r) (length s)); [assumption|lia]. }
      rewrite E0, Z.add_0_r, Nat2Z.id. split; [lia|].
      rewrite nth_error_app1 by lia. rewrite nth_error_slice by lia. f_equal; lia.
    + assert (E0 : net_growth (r :: g) p =
        (net_growth g p + Z.of_nat (length (r_new r)) - Z.of_nat (r_end r - r_start r))%Z).
      { cbn. destruct (Nat.leb_spec (r_end r) p); [reflexivity|lia]. }
      destruct (IH (r_end r) H3) as (I1 & I2); auto.
      { intros r' Hr'. apply HU. right; exact Hr'. }
      rewrite E0. split; [lia|].
      replace (Z.to_nat (Z.of_nat (p - lo) +
         (net_growth g p + Z.of_nat (length (r_new r)) - Z.of_nat (r_end r - r_start r))))
        with ((r_start r - lo) + (length (r_new r) +
               Z.to_nat (Z.of_nat (p - r_end r) + net_growth g p))) by lia.
      rewrite <- LS at 1. rewrite nth_error_app2, Nat.add_comm, Nat.add_sub by lia.
      rewrite nth_error_app2, Nat.add_comm, Nat.add_sub by lia. exact I2.
Qed.

Lemma splice_untouched {A} (s : list A) g p :
  group_in 0 (length s) g -> untouched g p -> p < length s ->
  nth_error (splice_all s g) (Z.to_nat (Z.of_nat p + net_growth g p)) = nth_error s p.
Proof.
  intros HG HU HP. rewrite <- apply_splice by exact HG. unfold apply.
  pose proof (untouched_from s g 0 p HG HU ltac:(lia) HP) as (_ & E).
  rewrite Nat.sub_0_r in E. exact E.
Qed.

(** ** propagate *)

Fixpoint prop_rec {A} (labels : list Z) (lo : nat) (g : list (repl A)) (f : transducer)
  : res (list Z) :=
  match g with
  | [] => Ok (skipn lo labels)
  | r :: g =>
      new <- f (slice labels (r_start r) (r_end r)) (length (r_new r)) ;;
      rest <- prop_rec labels (r_end r) g f ;;
      Ok (slice labels lo (r_start r) ++ new ++ rest)
  end.

Lemma setslice_step {A} (out v : list A) o k :
  o <= length out -> length v = k ->
  o + k <= length (setslice out o (o + k) v) /\
  firstn (o + k) (setslice out o (o + k) v) = firstn o out ++ v.
Proof.
  intros HO HV. unfold setslice.
  assert (L : length (firstn o out) = o) by (rewrite firstn_length; lia).
  split.
  - rewrite !app_length, L. lia.
  - rewrite app_assoc. apply firstn_app_len. rewrite app_length; lia.
Qed.

Lemma propagate_loop_rec {A} labels (g : list (repl A)) f i o out :
  sized f -> group_in i (length labels) g -> o <= length out ->
  propagate_loop labels g f i o out =
  (rest <- prop_rec labels i g f ;; Ok (firstn o out ++ rest)).
Proof.
  intros HF. revert i o out; induction g as [|r g IH]; intros i o out HG HO.
  - reflexivity.
  - cbn [group_in] in HG. destruct HG as (H1 & H2 & H3).
    pose proof (group_in_bound _ _ _ H3) as HB.
    cbn [propagate_loop prop_rec]. cbn zeta.
    destruct (f (slice labels (r_start r) (r_end r)) (length (r_new r))) as [new|e] eqn:EF;
      [|reflexivity]. cbn [bind].
    assert (LN : length new = length (r_new r)) by (eapply HF; eauto).
    destruct (setslice_step out (slice labels i (r_start r)) o (r_start r - i) HO) as (S1 & S2).
    { apply slice_length; lia. }
    set (out1 := setslice out o (o + (r_start r - i)) (slice labels i (r_start r))) in *.
    destruct (setslice_step out1 new (o + (r_start r - i)) (length (r_new r)) S1 LN) as (S3 & S4).
    rewrite IH by assumption. rewrite S4, S2.
    destruct (prop_rec labels (r_end r) g f) as [rest|e]; [|reflexivity].
    cbn [bind]. now rewrite <- !app_assoc.
Qed.

Lemma propagate_rec {A} labels (g : list (repl A)) f :
  sized f -> group_in 0 (length labels) g -> propagate labels g f = prop_rec labels 0 g f.
Proof.
  intros HF HG. unfold propagate. rewrite propagate_loop_rec by (auto; lia).
  cbn [firstn app]. destruct (prop_rec labels 0 g f); reflexivity.
Qed.

Lemma transduced_group_in {A} f labels (g : list (repl A)) g' lo n :
  transduced f labels g g' -> group_in lo n g -> group_in lo n g'.
Proof.
  intros H; revert lo; induction H as [|r r' g g' (E1 & E2 & _) H IH]; intros lo HG; cbn in *; auto.
  rewrite E1, E2. destruct HG as (H1 & H2 & H3). auto.
Qed.

Lemma prop_rec_ok {A} labels (g : list (repl A)) f lo out :
  prop_rec labels lo g f = Ok out ->
  exists g', transduced f labels g g' /\ out = concat (transform_pieces labels lo g').
Proof.
  revert lo out; induction g as [|r g IH]; intros lo out H.
  - cbn in H. injection H as <-. exists []. split; [constructor|]. cbn. now rewrite app_nil_r.
  - cbn [prop_rec] in H. inv_bind H. inv_bind H. injection H as <-.
    destruct (IH _ _ E0) as (g' & T & ->).
    exists (mkR (r_start r) (r_end r) a :: g'). split; [|reflexivity].
    constructor; auto.
Qed.

Lemma prop_rec_complete {A} labels (g : list (repl A)) f lo g' :
  transduced f labels g g' ->
  prop_rec labels lo g f = Ok (concat (transform_pieces labels lo g')).
Proof.
  intros H; revert lo; induction H as [|r r' g g' (E1 & E2 & E3) H IH]; intros lo.
  - cbn. now rewrite app_nil_r.
  - cbn [prop_rec transform_pieces concat]. unfold slice in *. rewrite E3. cbn [bind].
    rewrite IH. cbn [bind]. now rewrite E1, E2.
Qed.

Lemma transduced_lengths {A} f labels (g : list (repl A)) g' :
  sized f -> transduced f labels g g' ->
  Forall2 (fun r r' => r_start r' = r_start r /\ r_end r' = r_end r /\
                       length (r_new r') = length (r_new r)) g g'.
Proof.
  intros HF H; induction H as [|r r' g g' (E1 & E2 & E3) H IH]; constructor; auto.
  repeat split; auto. eapply HF; eauto.
Qed.

Lemma out_len_same {A B} (g : list (repl A)) (g' : list (repl B)) n lo :
  Forall2 (fun r r' => r_start r' = r_start r /\ r_end r' = r_end r /\
                       length (r_new r') = length (r_new r)) g g' ->
  out_len n lo g' = out_len n lo g.
Proof.
  intros H; revert lo; induction H as [|r r' g g' (E1 & E2 & E3) H IH]; intros lo; cbn; auto.
  rewrite E1, E2, E3, IH. reflexivity.
Qed.

Lemma propagate_ok {A} labels (g : list (repl A)) f out :
  sized f -> group_in 0 (length labels) g -> propagate labels g f = Ok out ->
  (exists g', transduced f labels g g' /\ out = splice_all labels g') /\
  length out = out_len (length labels) 0 g.
Proof.
  intros HF HG HP. rewrite propagate_rec in HP by assumption.
  destruct (prop_rec_ok _ _ _ _ _ HP) as (g' & T & E).
  pose proof (transduced_group_in _ _ _ _ _ _ T HG) as HG'.
  split.
  - exists g'; split; auto. now rewrite <- apply_splice.
  - rewrite E, transform_length by exact HG'. apply out_len_same.
    eapply transduced_lengths; eauto.
Qed.

Lemma propagate_total {A} labels (g : list (repl A)) f g' :
  sized f -> group_in 0 (length labels) g -> transduced f labels g g' ->
  propagate labels g f = Ok (splice_all labels g').
Proof.
  intros HF HG T. rewrite propagate_rec by assumption.
  rewrite (prop_rec_complete labels g f 0 g' T). f_equal. symmetry.
  rewrite <- apply_splice; [reflexivity|]. eapply transduced_group_in; eauto.
Qed.

Lemma transduced_exists {A} labels (g : list (repl A)) (f : transducer) :
  (forall ls k, exists out, f ls k = Ok out) ->
  exists g', transduced f labels g g'.
Proof.
  intros HF. induction g as [|r g (g' & IH)].
  - exists []; constructor.
  - destruct (HF (firstn (r_end r - r_start r) (skipn (r_start r) labels)) (length (r_new r)))
      as (out & E).
    exists (mkR (r_start r) (r_end r) out :: g'). constructor; auto.
Qed.

(** ** Transducers *)

Lemma occ_pos x l : In x l <-> 0 < occ x l.
Proof. unfold occ. apply count_occ_In. Qed.

Fixpoint firsts (seen l : list Z) : list Z :=
  match l with
  | [] => []
  | x :: l => if memb x seen then firsts seen l else x :: firsts (seen ++ [x]) l
  end.

Definition cnt (l : list Z) (k : Z) : Z * Z := (k, Z.of_nat (occ k l)).

Lemma counter_add_in l x ks :
  NoDup ks -> In x ks ->
  counter_add (map (cnt l) ks) x = map (cnt (l ++ [x])) ks.
Proof.
  induction ks as [|k ks IH]; intros HN HI; [destruct HI|].
  inversion HN as [|? ? N1 N2]; subst. cbn [map cnt counter_add].
  destruct (Z.eqb_spec x k) as [->|NE].
  - f_equal.
    + unfold cnt, occ. rewrite count_occ_app. cbn. destruct (Z.eq_dec k k); [|congruence].
      f_equal. lia.
    + apply map_ext_in. intros k' Hk'. unfold cnt, occ. rewrite count_occ_app. cbn.
      destruct (Z.eq_dec k k'); [subst; contradiction|]. now rewrite Nat.add_0_r.
  - destruct HI as [->|HI]; [congruence|]. f_equal; [|apply IH; auto].
    unfold cnt, occ. rewrite count_occ_app. cbn.
    destruct (Z.eq_dec x k); [congruence|]. now rewrite Nat.add_0_r.
Qed.

Lemma counter_add_notin l x ks :
  ~ In x ks -> ~ In x l ->
  counter_add (map (cnt l) ks) x = map (cnt (l ++ [x])) (ks ++ [x]).
Proof.
  intros H1 H2. induction ks as [|k ks IH].
  - cbn. unfold cnt, occ. rewrite count_occ_app.
    apply (count_occ_not_In Z.eq_dec) in H2. rewrite H2. cbn.
    destruct (Z.eq_dec x x); [reflexivity|congruence].
  - cbn [map cnt counter_add app].
    destruct (Z.eqb_spec x k) as [->|NE]; [exfalso; apply H1; left; auto|].
    f_equal.
    + unfold cnt, occ. rewrite count_occ_app. cbn.
      destruct (Z.eq_dec x k); [congruence|]. now rewrite Nat.add_0_r.
    + apply IH. intros HI; apply H1; right; auto.
Qed.

Lemma counter_fold l l0 ks :
  NoDup ks -> (forall x, In x ks <-> In x l0) ->
  exists ks', fold_left counter_add l (map (cnt l0) ks) = map (cnt (l0 ++ l)) (ks ++ ks') /\
    ks' = firsts ks l /\ NoDup (ks ++ ks').
Proof.
  revert l0 ks; induction l as [|x l IH]; intros l0 ks HN HI.
  - exists []. cbn. rewrite !app_nil_r. auto.
  - cbn [fold_left firsts]. destruct (memb x ks) eqn:EM.
    + apply memb_In in EM. rewrite counter_add_in by auto.
      destruct (IH (l0 ++ [x]) ks HN) as (ks' & E1 & E2 & E3).
      { intros y. rewrite HI, in_app_iff. cbn. split; [tauto|].
        intros [|[<-|[]]]; auto. now apply HI. }
      exists ks'. rewrite E1, <- app_assoc. split; [reflexivity|split; assumption].
    + assert (NI : ~ In x ks) by (rewrite <- memb_In, EM; discriminate).
      rewrite counter_add_notin; [|exact NI|now rewrite <- HI].
      assert (ND : NoDup (ks ++ [x])).
      { clear -HN NI. induction ks as [|k ks IH]; cbn.
        - repeat constructor; auto.
        - inversion HN; subst. constructor.
          + rewrite in_app_iff. cbn. intros [H|[->|[]]]; [contradiction|]. apply NI; left; auto.
          + apply IH; auto. intros H; apply NI; right; auto. }
      destruct (IH (l0 ++ [x]) (ks ++ [x]) ND) as (ks' & E1 & E2 & E3).
      { intros y. rewrite !in_app_iff, HI. reflexivity. }
      exists (x :: ks'). rewrite <- (app_assoc l0), <- (app_assoc ks) in E1. rewrite <- app_assoc in E3. cbn [app] in *.
      split; [exact E1|split; [now rewrite E2|exact E3]].
Qed.

Lemma counter_spec l : counter l = map (cnt l) (firsts [] l) /\ NoDup (firsts [] l).
Proof.
  unfold counter.
  destruct (counter_fold l [] []) as (ks' & E1 & E2 & E3); [constructor|tauto|].
  cbn in *. subst ks'. auto.
Qed.

(** Splitting [firsts] at an element splits the list at its first occurrence. *)
Lemma firsts_split seen l f1 x f2 :
  firsts seen l = f1 ++ x :: f2 ->
  exists l1 l2, l = l1 ++ x :: l2 /\ (forall y, In y l1 -> In y seen \/ In y f1) /\ ~ In x seen.
Proof.
  revert seen f1; induction l as [|z l IH]; intros seen f1 H.
  - destruct f1; discriminate.
  - cbn in H. destruct (memb z seen) eqn:EM.
    + apply memb_In in EM. destruct (IH _ _ H) as (l1 & l2 & -> & H1 & H2).
      exists (z :: l1), l2. repeat split; auto. intros y [<-|Hy]; auto.
    + assert (NM : ~ In z seen) by (rewrite <- memb_In, EM; discriminate).
      destruct f1 as [|z' f1].
      * injection H as -> H. exists [], l. repeat split; auto; intros y [].
      * injection H as -> H. destruct (IH _ _ H) as (l1 & l2 & -> & H1 & H2).
        exists (z' :: l1), l2. repeat split; auto.
        -- intros y [<-|Hy]; [right; left; auto|].
           destruct (H1 y Hy) as [Q|Q]; [|right; right; auto].
           apply in_app_iff in Q. destruct Q as [Q|[<-|[]]]; auto. right; left; auto.
        -- intros Q; apply H2, in_app_iff; auto.
Qed.

Lemma firsts_In seen l x : In x l -> In x seen \/ In x (firsts seen l).
Proof.
  revert seen; induction l as [|z l IH]; intros seen H; [destruct H|]. cbn.
  destruct (memb z seen) eqn:EM.
  - apply memb_In in EM. destruct H as [<-|H]; auto.
  - destruct H as [<-|H]; [right; left; auto|].
    destruct (IH (seen ++ [z]) H) as [Q|Q]; [|right; right; auto].
    apply in_app_iff in Q. destruct Q as [Q|[<-|[]]]; auto. right; left; auto.
Qed.

(** The head of a stable sort. *)
Lemma sort_by_hd {A} (key : A -> Z) l x t :
  sort_by key l = x :: t ->
  exists l1 l2, l = l1 ++ x :: l2 /\ (forall y, In y l -> (key x <= key y)%Z) /\
                (forall y, In y l1 -> (key x < key y)%Z).
Proof.
  revert x t; induction l as [|a l IH]; intros x t H; [discriminate|].
  cbn in H. change (fold_right (insert_by key) [] l) with (sort_by key l) in H.
  destruct (sort_by key l) as [|b m] eqn:ES.
  - cbn in H. injection H as <- <-. pose proof (sort_by_length key l) as L. rewrite ES in L.
    destruct l; [|discriminate]. exists [], []. repeat split; auto.
    + intros y [<-|[]]; lia.
    + intros y [].
  - cbn in H. destruct (IH b m eq_refl) as (l1 & l2 & -> & H1 & H2).
    destruct (Z.leb_spec (key a) (key b)) as [L|L].
    + injection H as <- <-. exists [], (l1 ++ b :: l2). repeat split; auto.
      * intros y [<-|Hy]; [lia|]. specialize (H1 y Hy); lia.
      * intros y [].
    + injection H as <- <-. exists (a :: l1), l2. repeat split; auto.
      * intros y [<-|Hy]; [lia|]. apply H1, Hy.
      * intros y [<-|Hy]; [lia|]. apply H2, Hy.
Qed.

Lemma first_mode_of_split l f1 x f2 :
  firsts [] l = f1 ++ x :: f2 ->
  (forall y, In y (firsts [] l) -> occ y l <= occ x l) ->
  (forall y, In y f1 -> occ y l < occ x l) ->
  first_mode x l.
Proof.
  intros E H1 H2. destruct (firsts_split [] l f1 x f2 E) as (l1 & l2 & EL & H3 & _).
  exists l1, l2. repeat split; auto.
  - intros y. destruct (in_dec Z.eq_dec y l) as [I|N].
    + destruct (firsts_In [] l y I) as [[]|Q]. auto.
    + apply (count_occ_not_In Z.eq_dec) in N. unfold occ at 1. lia.
  - intros y Hy. destruct (H3 y Hy) as [[]|Q]. auto.
Qed.

Lemma get_most_common_spec labels size :
  labels <> [] ->
  exists x, get_most_common labels size = Ok (repeat x size) /\ first_mode x labels.
Proof.
  intros N. unfold get_most_common.
  destruct (counter_spec labels) as (EC & _). rewrite EC.
  destruct (sort_by (fun kv : Z * Z => (- snd kv)%Z) (map (cnt labels) (firsts [] labels)))
    as [|[k n] t] eqn:ES.
  - exfalso. pose proof (sort_by_length (fun kv : Z * Z => (- snd kv)%Z)
      (map (cnt labels) (firsts [] labels))) as L.
    rewrite ES, map_length in L. destruct labels as [|x labels]; [congruence|]. discriminate L.
  - exists k; split; auto.
    apply sort_by_hd in ES. destruct ES as (c1 & c2 & E & H1 & H2).
    apply map_eq_app in E. destruct E as (f1 & f2' & E & E1 & E2).
    destruct f2' as [|k' f2]; [discriminate|]. cbn in E2. unfold cnt in E2 at 1.
    injection E2 as -> En E2.
    apply (first_mode_of_split labels f1 k f2 E).
    + intros y Hy. assert (Q : In (cnt labels y) (map (cnt labels) (firsts [] labels)))
        by now apply in_map.
      specialize (H1 _ Q). cbn in H1. lia.
    + intros y Hy. assert (Q : In (cnt labels y) c1) by (subst c1; now apply in_map).
      specialize (H2 _ Q). cbn in H2. lia.
Qed.

Lemma first_mode_unique x y l : first_mode x l -> first_mode y l -> x = y.
Proof.
  intros (a1 & a2 & E1 & H1 & H2) (b1 & b2 & E2 & H3 & H4).
  destruct (Z.eq_dec x y) as [|N]; auto. exfalso.
  pose proof (H1 y) as Q1. pose proof (H3 x) as Q2. assert (Q : occ x l = occ y l) by lia.
  assert (NX : ~ In x b1) by (intros I; apply H4 in I; lia).
  assert (NY : ~ In y a1) by (intros I; apply H2 in I; lia).
  rewrite E1 in E2. clear -E2 NX NY N. revert b1 E2 NX; induction a1 as [|z a1 IH]; intros b1 E NX.
  - destruct b1 as [|w b1]; injection E; intros; subst; [congruence|]. apply NX; left; auto.
  - destruct b1 as [|w b1]; injection E as -> E.
    + apply NY; left; auto.
    + eapply IH; eauto.
      * intros I; apply NY; right; auto.
      * intros I; apply NX; right; auto.
Qed.

Lemma max_scan_spec c mk mv :
  (forall kv, In kv c -> (snd kv <= mv)%Z) /\ max_scan c mk mv = mk \/
  exists c1 k n c2, c = c1 ++ (k, n) :: c2 /\ max_scan c mk mv = k /\ (mv < n)%Z /\
    (forall kv, In kv c -> (snd kv <= n)%Z) /\ (forall kv, In kv c1 -> (snd kv < n)%Z).
Proof.
  revert mk mv; induction c as [|[k n] c IH]; intros mk mv; cbn.
  - left; split; auto. intros kv [].
  - destruct (Z.ltb_spec mv n) as [L|L].
    + right. destruct (IH k n) as [(H1 & H2)|(c1 & k' & n' & c2 & -> & H2 & H3 & H4 & H5)].
      * exists [], k, n, c. repeat split; auto.
        -- intros kv [<-|Hkv]; cbn; [lia|auto].
        -- intros kv [].
      * exists ((k, n) :: c1), k', n', c2. repeat split; auto; try lia.
        -- intros kv [<-|Hkv]; cbn; [lia|auto].
        -- intros kv [<-|Hkv]; cbn; [lia|auto].
    + destruct (IH mk mv) as [(H1 & H2)|(c1 & k' & n' & c2 & -> & H2 & H3 & H4 & H5)].
      * left; split; auto. intros kv [<-|Hkv]; cbn; [lia|auto].
      * right. exists ((k, n) :: c1), k', n', c2. repeat split; auto.
        -- intros kv [<-|Hkv]; cbn; [lia|auto].
        -- intros kv [<-|Hkv]; cbn; [lia|auto].
Qed.

Lemma u32_labels_b l : u32_labels l <-> forallb u32b l = true.
Proof.
  rewrite forallb_forall. unfold u32_labels. rewrite Forall_forall.
  split; intros H x Hx; specialize (H x Hx); apply u32b_spec; exact H.
Qed.

Lemma count_most_common_spec labels :
  labels <> [] -> u32_labels labels -> first_mode (count_and_get_most_common labels) labels.
Proof.
  intros N U. unfold count_and_get_most_common. apply u32_labels_b in U. rewrite U.
  destruct (counter_spec labels) as (EC & _). rewrite EC.
  destruct (max_scan_spec (map (cnt labels) (firsts [] labels)) 0 0)
    as [(H1 & _)|(c1 & k & n & c2 & E & -> & H3 & H4 & H5)].
  - exfalso. destruct labels as [|x labels]; [congruence|].
    assert (Q : In (cnt (x :: labels) x) (map (cnt (x :: labels)) (firsts [] (x :: labels)))).
    { apply in_map. left; reflexivity. }
    specialize (H1 _ Q). cbn [cnt snd] in H1.
    assert (0 < occ x (x :: labels)) by (apply occ_pos; left; auto). lia.
  - apply map_eq_app in E. destruct E as (f1 & f2' & E & E1 & E2).
    destruct f2' as [|k' f2]; [discriminate|]. cbn in E2. unfold cnt in E2 at 1.
    injection E2 as -> En E2.
    apply (first_mode_of_split labels f1 k f2 E).
    + intros y Hy. assert (Q : In (cnt labels y) (map (cnt labels) (firsts [] labels)))
        by now apply in_map.
      specialize (H4 _ Q). cbn in H4. lia.
    + intros y Hy. assert (Q : In (cnt labels y) c1) by (subst c1; now apply in_map).
      specialize (H5 _ Q). cbn in H5. lia.
Qed.

Lemma get_most_common_label_agrees labels size :
  labels <> [] -> u32_labels labels ->
  get_most_common_label labels size = get_most_common labels size.
Proof.
  intros N U. destruct (get_most_common_spec labels size N) as (x & E & M).
  rewrite E. unfold get_most_common_label. destruct labels as [|y labels]; [congruence|].
  do 2 f_equal. apply (first_mode_unique _ _ _ (count_most_common_spec _ N U) M).
Qed.

Lemma get_most_common_except_spec labels size :
  ((forall l, In l labels -> l = 0%Z) /\
   get_most_common_except_not_entity labels size = Ok (repeat 0%Z size)) \/
  (exists x, x <> 0%Z /\ get_most_common_except_not_entity labels size = Ok (repeat x size) /\
     first_mode x (filter (fun l => negb (l =? 0)%Z) labels)).
Proof.
  unfold get_most_common_except_not_entity, NOT_ENTITY.
  destruct (filter (fun l => negb (l =? 0)%Z) labels) as [|y m] eqn:EF.
  - left. split; [|reflexivity]. intros l Hl.
    destruct (Z.eq_dec l 0) as [|N]; auto. exfalso.
    assert (Q : In l (filter (fun l => negb (l =? 0)%Z) labels)).
    { apply filter_In. split; auto. destruct (Z.eqb_spec l 0); [contradiction|reflexivity]. }
    rewrite EF in Q. destruct Q.
  - right. destruct (get_most_common_spec (y :: m) size ltac:(discriminate)) as (x & E & M).
    exists x. repeat split; auto.
    destruct M as (l1 & l2 & EL & _).
    assert (Q : In x (filter (fun l => negb (l =? 0)%Z) labels)).
    { rewrite EF, EL. apply in_app_iff; right; left; auto. }
    apply filter_In in Q. destruct Q as (_ & Q). destruct (Z.eqb_spec x 0); [discriminate|auto].
Qed.

Lemma sized_most_common : sized get_most_common.
Proof.
  intros ls k out H. unfold get_most_common in H.
  destruct (sort_by _ (counter ls)) as [|[x n] t]; [discriminate|].
  injection H as <-. apply repeat_length.
Qed.

Lemma sized_not_entity : sized get_not_entity.
Proof. intros ls k out H. injection H as <-. apply repeat_length. Qed.

Lemma sized_except : sized get_most_common_except_not_entity.
Proof.
  intros ls k out H. unfold get_most_common_except_not_entity in H.
  destruct (filter _ ls); [apply (sized_not_entity _ _ _ H)|apply (sized_most_common _ _ _ H)].
Qed.

Lemma sized_default : sized get_most_common_label.
Proof. intros ls k out H. injection H as <-. apply repeat_length. Qed.

Lemma total_not_entity ls k : exists out, get_not_entity ls k = Ok out.
Proof. eexists; reflexivity. Qed.

Lemma total_except ls k : exists out, get_most_common_except_not_entity ls k = Ok out.
Proof.
  destruct (get_most_common_except_spec ls k) as [(_ & E)|(x & _ & E & _)]; eauto.
Qed.

Lemma total_default ls k : exists out, get_most_common_label ls k = Ok out.
Proof. eexists; reflexivity. Qed.

Lemma repeat_const (l : list Z) x : (forall y, In y l -> y = x) -> l = repeat x (length l).
Proof.
  induction l as [|y l IH]; intros H; cbn; [reflexivity|].
  f_equal; [apply H; left; auto|]. apply IH. intros z Hz; apply H; right; auto.
Qed.

Lemma first_mode_const x l : l <> [] -> (forall y, In y l -> y = x) -> first_mode x l.
Proof.
  intros N H. destruct l as [|y l]; [congruence|].
  assert (y = x) as -> by (apply H; left; auto).
  exists [], l. repeat split; auto.
  - intros y. destruct (Z.eq_dec y x) as [->|NE]; [lia|].
    assert (NI : ~ In y (x :: l)) by (intros I; apply NE, H, I).
    apply (count_occ_not_In Z.eq_dec) in NI. unfold occ at 1. lia.
  - intros z [].
Qed.

Lemma most_common_repeat x n k :
  0 < n -> get_most_common (repeat x n) k = Ok (repeat x k).
Proof.
  intros H. destruct (get_most_common_spec (repeat x n) k) as (y & E & M).
  - destruct n; [lia|discriminate].
  - rewrite E. do 2 f_equal.
    apply (first_mode_unique _ _ _ M), first_mode_const.
    + destruct n; [lia|discriminate].
    + intros z Hz. apply repeat_spec in Hz. exact Hz.
Qed.

Lemma count_repeat x n : 0 < n -> (0 <= x < 2 ^ 32)%Z ->
  count_and_get_most_common (repeat x n) = x.
Proof.
  intros H U.
  assert (N : repeat x n <> []) by (destruct n; [lia|discriminate]).
  assert (C : forall z, In z (repeat x n) -> z = x) by (intros z Hz; now apply repeat_spec in Hz).
  apply (first_mode_unique _ _ (repeat x n)).
  - apply count_most_common_spec; auto. unfold u32_labels. rewrite Forall_forall.
    intros z Hz. rewrite (C z Hz). exact U.
  - now apply first_mode_const.
Qed.

Lemma except_repeat x n k :
  0 < n -> get_most_common_except_not_entity (repeat x n) k = Ok (repeat x k).
Proof.
  intros H. unfold get_most_common_except_not_entity, NOT_ENTITY.
  destruct (Z.eqb_spec x 0) as [->|NE].
  - replace (filter (fun l => negb (l =? 0)%Z) (repeat 0%Z n)) with (@nil Z); [reflexivity|].
    clear H. induction n; cbn; auto.
  - rewrite filter_all.
    + destruct (repeat x n) eqn:E; [destruct n; [lia|discriminate]|].
      rewrite <- E. now apply most_common_repeat.
    + intros y Hy. apply repeat_spec in Hy. subst. apply Z.eqb_neq in NE. now rewrite NE.
Qed.

(** ** reduce and expand *)

Definition token_label (l : list Z) : Z :=
  match l with [] => 0%Z | _ => count_and_get_most_common l end.

Lemma setslice_one {A} (out : list A) i x :
  i <= length out ->
  S i <= length (setslice out i (S i) [x]) /\
  firstn (S i) (setslice out i (S i) [x]) = firstn i out ++ [x] /\
  forall k, skipn (S i + k) (setslice out i (S i) [x]) = skipn (S i + k) out.
Proof.
  intros H. unfold setslice. replace (Nat.max i (S i)) with (S i) by lia.
  assert (LF : length (firstn i out ++ [x]) = S i).
  { rewrite app_length, firstn_length. cbn. lia. }
  rewrite app_assoc. split; [|split].
  - rewrite app_length. lia.
  - now apply firstn_app_len.
  - intros k. rewrite <- skipn_skipn_add.
    rewrite (skipn_app_len (S i) (firstn i out ++ [x])) by exact LF.
    apply skipn_skipn_add.
Qed.

Lemma reduce_loop_spec labels g i out :
  i <= length out ->
  reduce_loop labels g get_most_common_label i out =
  Ok (firstn i out ++ map (fun sp => token_label (slice labels (fst sp) (snd sp))) g
      ++ skipn (i + length g) out).
Proof.
  revert i out; induction g as [|sp g IH]; intros i out HL.
  - cbn. rewrite Nat.add_0_r. now rewrite firstn_skipn.
  - cbn [reduce_loop map length].
    change (get_most_common_label (slice labels (fst sp) (snd sp)) 1)
      with (Ok [token_label (slice labels (fst sp) (snd sp))]). cbn [bind].
    set (x := token_label _).
    destruct (setslice_one out i x HL) as (L1 & L2 & L3).
    rewrite IH by exact L1. rewrite L2, L3, <- app_assoc. cbn [app].
    rewrite Nat.add_succ_r. reflexivity.
Qed.

Lemma reduce_spec labels g n :
  tiles 0 g n -> length labels = n ->
  reduce_by_span_group labels g get_most_common_label
  = Ok (map (fun sp => token_label (slice labels (fst sp) (snd sp))) g).
Proof.
  intros T E. unfold reduce_by_span_group.
  destruct g as [|sp g].
  - cbn in T. subst n. destruct labels; [reflexivity|discriminate].
  - replace ((length (sp :: g) =? 0) && (length labels =? 0)) with false by reflexivity.
    cbn [last_opt]. rewrite (tiles_last _ _ _ _ T), E, Nat.eqb_refl. cbn [guard bind].
    rewrite reduce_loop_spec by lia. cbn [firstn app]. f_equal.
    rewrite skipn_all2 by (rewrite repeat_length; lia). rewrite app_nil_r.
    reflexivity.
Qed.

Lemma expand_loop_spec g labels lo n out :
  tiles lo g n -> length g = length labels -> length out = n -> u32_labels labels ->
  expand_loop g labels out = Ok (firstn lo out ++ spread labels g).
Proof.
  revert labels lo out; induction g as [|[s e] g IH]; intros labels lo out T L LO U.
  - cbn in T. subst lo. destruct labels; [|discriminate]. cbn. rewrite app_nil_r.
    now rewrite <- LO, firstn_all.
  - destruct labels as [|x labels]; [discriminate|].
    cbn [tiles] in T. destruct T as (-> & T2 & T3).
    pose proof (tiles_end_ge _ _ _ T3) as HB.
    inversion U as [|? ? U1 U2]; subst.
    cbn [expand_loop spread fst snd].
    assert (UB : u32b x = true) by (apply u32b_spec; exact U1). rewrite UB. cbn [guard bind].
    set (out' := setslice out lo e (repeat x (e - lo))).
    assert (E1 : length out' = length out).
    { unfold out', setslice. rewrite !app_length, firstn_length, repeat_length, skipn_length. lia. }
    assert (E2 : firstn e out' = firstn lo out ++ repeat x (e - lo)).
    { unfold out', setslice. rewrite app_assoc. apply firstn_app_len.
      rewrite app_length, firstn_length, repeat_length. lia. }
    rewrite (IH labels e out') by (auto; try congruence; cbn in L; lia).
    now rewrite E2, <- app_assoc.
Qed.

Lemma expand_spec labels g n :
  tiles 0 g n -> length g = length labels -> u32_labels labels ->
  expand_by_span_group labels g = Ok (spread labels g).
Proof.
  intros T L U. unfold expand_by_span_group. rewrite L, Nat.eqb_refl. cbn [guard bind].
  destruct g as [|sp g].
  - destruct labels; [reflexivity|discriminate].
  - cbn [last_opt]. rewrite (tiles_last _ _ _ _ T).
    apply (expand_loop_spec (sp :: g) labels 0 n); auto. apply repeat_length.
Qed.

Lemma expand_loop_overflow g labels out :
  length g = length labels -> ~ u32_labels labels -> expand_loop g labels out = Err OverflowErr.
Proof.
  revert labels out; induction g as [|sp g IH]; intros labels out L U;
    destruct labels as [|x labels]; try discriminate.
  - exfalso; apply U; constructor.
  - cbn [expand_loop]. destruct (u32b x) eqn:E; cbn [guard bind]; [|reflexivity].
    apply IH; [cbn in L; lia|]. intros U'. apply U. constructor; auto. now apply u32b_spec.
Qed.

Lemma expand_overflow labels g :
  length g = length labels -> ~ u32_labels labels ->
  expand_by_span_group labels g = Err OverflowErr.
Proof.
  intros L U. unfold expand_by_span_group. rewrite L, Nat.eqb_refl. cbn [guard bind].
  destruct g as [|sp g].
  - destruct labels; [|discriminate]. exfalso; apply U; constructor.
  - cbn [last_opt]. now apply expand_loop_overflow.
Qed.

Lemma spread_length labels g lo n :
  tiles lo g n -> length g = length labels -> length (spread labels g) = n - lo.
Proof.
  revert labels lo; induction g as [|[s e] g IH]; intros labels lo T L.
  - cbn in T. destruct labels; [cbn; lia|discriminate].
  - destruct labels as [|x labels]; [discriminate|].
    cbn [tiles] in T. destruct T as (-> & T2 & T3). pose proof (tiles_end_ge _ _ _ T3).
    cbn [spread]. rewrite app_length, repeat_length, (IH labels e) by (auto; cbn in L; lia). lia.
Qed.

Lemma spread_slices labels g lo n pre :
  tiles lo g n -> length g = length labels -> length pre = lo ->
  map (fun sp => slice (pre ++ spread labels g) (fst sp) (snd sp)) g =
  map (fun '(x, sp) => repeat x (snd sp - fst sp)) (combine labels g).
Proof.
  revert labels lo pre; induction g as [|[s e] g IH]; intros labels lo pre T L P.
  - destruct labels; reflexivity.
  - destruct labels as [|x labels]; [discriminate|].
    cbn [tiles] in T. destruct T as (-> & T2 & T3).
    cbn [spread map combine fst snd]. f_equal.
    + unfold slice. rewrite skipn_app_len by exact P. apply firstn_app_len, repeat_length.
    + rewrite app_assoc. apply (IH labels e); auto.
      rewrite app_length, repeat_length. lia.
Qed.

(** Reducing what was expanded gives the token labels back (for non-empty tokens). *)
Lemma reduce_expand labels g n :
  tiles 0 g n -> length g = length labels -> u32_labels labels ->
  Forall (fun sp => fst sp < snd sp) g ->
  exists l, expand_by_span_group labels g = Ok l /\ length l = n /\
    reduce_by_span_group l g get_most_common_label = Ok labels.
Proof.
  intros T L U P. exists (spread labels g).
  split; [now apply (expand_spec _ _ n)|].
  assert (LN : length (spread labels g) = n) by (rewrite (spread_length _ _ 0 n); auto; lia).
  split; [exact LN|]. rewrite (reduce_spec _ _ n) by auto. f_equal.
  rewrite <- (map_map (fun sp : span => slice (spread labels g) (fst sp) (snd sp)) token_label).
  pose proof (spread_slices labels g 0 n [] T L eq_refl) as SS. cbn [app] in SS.
  unfold span in *. rewrite SS.
  rewrite map_map. clear T LN SS. revert labels L U; induction g as [|sp g IH]; intros labels L U.
  - destruct labels; [reflexivity|discriminate].
  - destruct labels as [|x labels]; [discriminate|]. cbn [combine map].
    inversion U as [|? ? U1 U2]; subst. inversion P as [|? ? P1 P2]; subst.
    f_equal.
    + unfold token_label. destruct (repeat x (snd sp - fst sp)) eqn:E.
      * destruct (snd sp - fst sp) eqn:E'; [lia|discriminate].
      * rewrite <- E. apply count_repeat; auto. lia.
    + apply IH; auto.
Qed.
