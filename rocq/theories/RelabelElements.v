(** Renaming the entity labels of datums (C75). *)

From Coq Require Import QArith.
From Verif Require Import Py PyFacts Edit Labels SpecLabels LabelProofs Ops SpecOps ClosureProofs
  Json Elements SpecElements Pipe SpecRelabel RelabelProofs.
From Coq Require Import List Lia.
Local Open Scope Z_scope.

Lemma upd_map (f : Z -> Z) l n x : upd (map f l) n (f x) = map f (upd l n x).
Proof. revert n. induction l as [|y l IH]; intros [|n]; cbn; try reflexivity. now rewrite IH. Qed.

Lemma set_item_map f (l : list Z) i x : set_item (map f l) i (f x) = renamed f (set_item l i x).
Proof.
  unfold set_item. rewrite map_length. cbv zeta. destruct (_ && _); [|reflexivity]. cbn [renamed]. now rewrite upd_map.
Qed.

Lemma foldM_map {A} (f : Z -> Z) (g h : list Z -> A -> res (list Z)) xs :
  (forall l x, In x xs -> h (map f l) x = renamed f (g l x)) ->
  forall l, foldM h xs (map f l) = renamed f (foldM g xs l).
Proof.
  induction xs as [|x xs IH]; intros H l; cbn [foldM]; [reflexivity|].
  rewrite H by now left. destruct (g l x); cbn [renamed bind]; [|reflexivity].
  apply IH. intros m y Hy. apply H. now right.
Qed.

Lemma foldM_over_map {A B C} (h : B -> A) (g : C -> A -> res C) xs : forall c,
  foldM g (map h xs) c = foldM (fun c x => g c (h x)) xs c.
Proof. induction xs as [|x xs IH]; intros c; cbn [foldM map]; [reflexivity|]. destruct (g c (h x)); cbn [bind]; auto. Qed.

Theorem unpack_blind f d : f 0 = 0 ->
  unpack_datum (rename_datum f d) =
  match unpack_datum d with Ok (u, is_, l) => Ok (u, is_, map f l) | Err e => Err e end.
Proof.
  intros Z0. unfold unpack_datum, rename_datum. cbn [d_utterance d_intents d_entities].
  rewrite foldM_over_map.
  replace (repeat 0 (length (d_utterance d))) with (map f (repeat 0 (length (d_utterance d)))) at 1
    by (rewrite <- repeat_map; now rewrite Z0).
  rewrite (foldM_map f write_entity (fun c x => write_entity c (rename_entity f x))).
  - destruct (foldM write_entity _ _); reflexivity.
  - intros l e _. unfold write_entity, rename_entity. cbn [e_start e_end e_label].
    rewrite (foldM_map f (fun l i => set_item l i (e_label e)) (fun l i => set_item l i (f (e_label e)))).
    + reflexivity.
    + intros m i _. apply set_item_map.
Qed.

(** ** make_datum *)

Lemma insert_by_map2 {A B} (h : A -> B) (k : A -> Z) (k' : B -> Z) x l : (forall a, k' (h a) = k a) ->
  insert_by k' (h x) (map h l) = map h (insert_by k x l).
Proof.
  intros K. induction l as [|y l IH]; [reflexivity|]. cbn [insert_by map]. rewrite !K.
  destruct (_ <=? _); [reflexivity|]. cbn [map]. now rewrite IH.
Qed.
Lemma sort_entities_map f l : sort_by e_start (map (rename_entity f) l) = map (rename_entity f) (sort_by e_start l).
Proof.
  unfold sort_by. induction l as [|x l IH]; [reflexivity|]. cbn [map fold_right]. rewrite IH.
  now apply insert_by_map2.
Qed.

Lemma check_overlaps_map f l : check_overlaps (map (rename_entity f) l) = check_overlaps l.
Proof.
  induction l as [|x [|y l] IH]; [reflexivity|reflexivity|].
  change (check_overlaps (map (rename_entity f) (x :: y :: l))) with
    (_ <- guard (negb (overlap x y)) EntityOverlapErr ;; check_overlaps (map (rename_entity f) (y :: l))).
  rewrite IH. reflexivity.
Qed.

Lemma forallb_map {A B} (h : A -> B) (p : B -> bool) l : forallb p (map h l) = forallb (fun x => p (h x)) l.
Proof. induction l; cbn; congruence. Qed.

Theorem make_datum_blind f u ints es :
  make_datum u ints (Some (map (rename_entity f) es)) = renamed_datum f (make_datum u ints (Some es)).
Proof.
  unfold make_datum. cbv zeta. rewrite sort_entities_map, check_overlaps_map, forallb_map.
  change (fun x => entity_position_correct u (rename_entity f x)) with (entity_position_correct u).
  destruct (guard _ _); cbn [bind]; [|reflexivity]. destruct (check_overlaps _); reflexivity.
Qed.

(** ** pack_to_datum *)

Section pack.
  Context (f : Z -> Z) (all : list Z) (I : forall x y, In x (0 :: all) -> In y (0 :: all) -> f x = f y -> x = y)
    (Z0 : f 0 = 0).

  Lemma start_indices_map : forall l i c, incl l all -> In c all ->
    start_indices_from i (f c) (map f l) = start_indices_from i c l.
  Proof.
    induction l as [|x l IH]; intros i c L C; cbn [start_indices_from map]; [reflexivity|].
    assert (Hx : In x all) by (apply L; now left). assert (L' : incl l all) by (intros z Hz; apply L; now right).
    destruct (Z.eqb_spec x c) as [->|N].
    - rewrite Z.eqb_refl. cbn [negb]. now apply IH.
    - destruct (Z.eqb_spec (f x) (f c)) as [E|_]; [apply I in E; [contradiction|now right|now right]|].
      cbn [negb]. f_equal. now apply IH.
  Qed.

  Lemma get_item_map {A B} (h : A -> B) l i :
    get_item (map h l) i = match get_item l i with Ok x => Ok (h x) | Err e => Err e end.
  Proof.
    unfold get_item. rewrite map_length. cbv zeta. destruct (_ && _); [|reflexivity].
    rewrite nth_error_map. destruct (nth_error l _); reflexivity.
  Qed.
  Lemma get_item_In {A} (l : list A) i x : get_item l i = Ok x -> In x l.
  Proof.
    unfold get_item. destruct (_ && _); [|discriminate]. destruct (nth_error l _) eqn:E; [|discriminate].
    intros [= <-]. eapply nth_error_In, E.
  Qed.

  Lemma meaningful_map : forall n l idx i j, incl l all ->
    meaningful_loop n (map f l) idx i j = meaningful_loop n l idx i j.
  Proof.
    induction n as [|n IH]; intros l idx i j L; cbn [meaningful_loop]; [reflexivity|].
    destruct (get_item idx _) as [ind|]; cbn [bind]; [|reflexivity].
    rewrite get_item_map. destruct (get_item l ind) as [x|] eqn:G; cbn [bind]; [|reflexivity].
    apply get_item_In in G. apply L in G.
    assert ((f x =? 0) = (x =? 0)) as ->.
    { destruct (Z.eqb_spec x 0) as [->|N]; [now rewrite Z0|]. apply Z.eqb_neq. intros E. apply N.
      apply I; [now right|now left|congruence]. }
    destruct (negb _); now apply IH.
  Qed.

  Lemma meaningful_starts_map l : incl l all ->
    get_meaningful_start_indices (map f l) = get_meaningful_start_indices l.
  Proof.
    intros L. unfold get_meaningful_start_indices, get_start_indices.
    destruct l as [|x l]; [reflexivity|]. cbn [map bind].
    change (f x :: map f l) with (map f (x :: l)).
    rewrite start_indices_map by (auto; apply L; now left). now apply meaningful_map.
  Qed.
End pack.

Lemma mapM_map_res {A B} (f : A -> res B) (g : A -> res B) (h : B -> B) l :
  (forall x, In x l -> g x = match f x with Ok y => Ok (h y) | Err e => Err e end) ->
  mapM g l = match mapM f l with Ok m => Ok (map h m) | Err e => Err e end.
Proof.
  induction l as [|x l IH]; intros H; cbn [mapM]; [reflexivity|].
  rewrite H by now left. destruct (f x); cbn [bind]; [|reflexivity].
  rewrite IH by (intros y Hy; apply H; now right). destruct (mapM f l); reflexivity.
Qed.

Lemma to_i32_ok x : - 2 ^ 31 <= x < 2 ^ 31 -> to_i32 x = Ok x.
Proof.
  change (2 ^ 31) with 2147483648. intros H. unfold to_i32, i32b.
  destruct (Z.leb_spec (-2147483648) x), (Z.ltb_spec x 2147483648); cbn; try reflexivity; lia.
Qed.

Lemma make_entity_map f x v i j r : - 2 ^ 31 <= x < 2 ^ 31 -> - 2 ^ 31 <= f x < 2 ^ 31 ->
  make_entity (f x) v i j r = match make_entity x v i j r with Ok e => Ok (rename_entity f e) | Err e => Err e end.
Proof.
  intros H F. unfold make_entity. rewrite (to_i32_ok x H), (to_i32_ok (f x) F). cbn [bind].
  destruct (to_i32 i); cbn [bind]; [|reflexivity]. destruct (to_i32 j); reflexivity.
Qed.

Theorem pack_blind f u ints l : int_renaming f l ->
  pack_to_datum u ints (map f l) = renamed_datum f (pack_to_datum u ints l).
Proof.
  intros (Z0 & I & R). unfold pack_to_datum. rewrite map_length.
  destruct (guard _ _); cbn [bind]; [|reflexivity].
  destruct (mapM make_intent _) as [is_|]; cbn [bind]; [|reflexivity].
  rewrite <- map_rev. rewrite !(meaningful_starts_map f l I Z0).
  2,3: intros z Hz; first [exact Hz | now apply in_rev].
  destruct (get_meaningful_start_indices l) as [st|]; cbn [bind]; [|reflexivity].
  destruct (get_meaningful_start_indices (rev l)) as [en|]; cbn [bind]; [|reflexivity].
  rewrite (mapM_map_res (pack_entity u l) (pack_entity u (map f l)) (rename_entity f)).
  - destruct (mapM (pack_entity u l) _) as [es|]; cbn [bind]; [|reflexivity]. apply make_datum_blind.
  - intros [s t] _. unfold pack_entity. rewrite get_item_map.
    destruct (get_item l s) as [x|] eqn:G; cbn [bind]; [|reflexivity].
    apply get_item_In in G. apply R in G. now apply make_entity_map.
Qed.

(** ** expand_by_entities *)

Lemma partition_map f u incl_ : forall es st,
  partition_loop u incl_ st (map (rename_entity f) es) =
  (fst (partition_loop u incl_ st es), map (option_map f) (snd (partition_loop u incl_ st es))).
Proof.
  induction es as [|e es IH]; intros st; cbn [partition_loop map].
  - destruct (negb _); reflexivity.
  - cbn [rename_entity e_start e_value e_replacements e_end e_label].
    change (no_replacements (rename_entity f e)) with (no_replacements e).
    rewrite IH. destruct (partition_loop u incl_ (e_end e) es) as [parts labels]. cbn [fst snd].
    rewrite map_app. cbn [map option_map]. destruct (negb _); reflexivity.
Qed.

Lemma partition_labels u incl_ es : forall st x, In (Some x) (snd (partition_loop u incl_ st es)) -> In x (map e_label es).
Proof.
  induction es as [|e es IH]; intros st x; cbn [partition_loop map].
  - destruct (negb _); cbn; intuition discriminate.
  - specialize (IH (e_end e) x). destruct (partition_loop u incl_ (e_end e) es) as [parts labels]. cbn [snd] in *.
    rewrite in_app_iff. intros [H|[H|H]].
    + destruct (negb _); [destruct H as [H|[]]; discriminate|destruct H].
    + injection H as ->. now left.
    + right. auto.
Qed.

Lemma aggregate_map f : forall segs labels pointer,
  (forall x, In (Some x) labels -> - 2 ^ 31 <= x < 2 ^ 31 /\ - 2 ^ 31 <= f x < 2 ^ 31) ->
  aggregate_entities pointer segs (map (option_map f) labels) =
  match aggregate_entities pointer segs labels with Ok es => Ok (map (rename_entity f) es) | Err e => Err e end.
Proof.
  induction segs as [|s segs IH]; intros labels p H; [reflexivity|].
  destruct labels as [|l labels]; [reflexivity|]. cbn [map aggregate_entities].
  assert (H' : forall x, In (Some x) labels -> - 2 ^ 31 <= x < 2 ^ 31 /\ - 2 ^ 31 <= f x < 2 ^ 31)
    by (intros x Hx; apply H; now right).
  destruct l as [x|]; cbn [option_map].
  - destruct (H x) as [Hx Hf]; [now left|]. rewrite (make_entity_map f x) by assumption.
    destruct (make_entity x _ _ _ _) as [e|]; cbn [bind]; [|reflexivity].
    destruct (to_i32 _) as [q|]; cbn [bind]; [|reflexivity]. rewrite IH by exact H'.
    destruct (aggregate_entities q segs labels); reflexivity.
  - cbn [bind]. destruct (to_i32 _) as [q|]; cbn [bind]; [|reflexivity]. rewrite IH by exact H'.
    destruct (aggregate_entities q segs labels); reflexivity.
Qed.

Theorem expand_blind f d s o : int_renaming f (entity_labels d) ->
  expand_by_entities (rename_datum f d) s o = renamed_datums f (expand_by_entities d s o).
Proof.
  intros (_ & _ & R). unfold expand_by_entities, has_entities, partition_by_entities.
  cbn [rename_datum d_entities d_utterance]. rewrite map_length. 
  destruct (Nat.ltb 0 _) eqn:N; cbn [negb].
  2:{ cbn [renamed_datums map]. reflexivity. }
  rewrite partition_map.
  pose proof (partition_labels (d_utterance d) o (d_entities d) 0) as PL.
  destruct (partition_loop _ _ _ _) as [parts labels]. cbn [fst snd] in *.
  rewrite (mapM_map_res (expand_one d parts labels) _ (rename_datum f)).
  - destruct (mapM _ _); reflexivity.
  - intros k _. unfold expand_one. change (copy_intents (rename_datum f d)) with (copy_intents d).
    destruct (get_kth_combination parts k) as [segs|]; cbn [bind]; [|reflexivity].
    rewrite (aggregate_map f) by (intros x Hx; apply R, PL, Hx).
    destruct (aggregate_entities 0 segs labels) as [es|]; cbn [bind]; [|reflexivity].
    destruct (copy_intents d) as [is_|]; cbn [bind]; [|reflexivity]. apply make_datum_blind.
Qed.

(** ** entity_overlapping_ratio *)

Lemma expand_loop_rename f n : forall u i es acc, f 0 = 0 ->
  Elements.expand_loop n u i (map (rename_entity f) es) (map f acc) = renamed f (Elements.expand_loop n u i es acc).
Proof.
  induction n as [|n IH]; intros u i es acc Z0; cbn [Elements.expand_loop]; [reflexivity|].
  destruct (u <=? i); [reflexivity|]. destruct es as [|e es]; cbn [map].
  - rewrite <- (IH u (i + 1) [] (acc ++ [0]) Z0). rewrite map_app. cbn [map]. now rewrite Z0.
  - cbn [rename_entity e_start e_end e_label].
    destruct (_ && _); [|destruct (_ <=? _)].
    + rewrite <- (IH u (i + 1) (e :: es) (acc ++ [e_label e]) Z0). rewrite map_app. reflexivity.
    + now apply IH.
    + rewrite <- (IH u (i + 1) (e :: es) (acc ++ [0]) Z0). rewrite map_app. cbn [map]. now rewrite Z0.
Qed.

Lemma expand_loop_In n : forall u i es acc r, Elements.expand_loop n u i es acc = Ok r ->
  forall x, In x r -> In x acc \/ x = 0 \/ In x (map e_label es).
Proof.
  induction n as [|n IH]; intros u i es acc r; cbn [Elements.expand_loop]; [discriminate|].
  destruct (u <=? i); [intros [= <-]; auto|]. destruct es as [|e es].
  - intros H x Hx. specialize (IH _ _ _ _ _ H x Hx). rewrite in_app_iff in IH. cbn in *. intuition.
  - destruct (_ && _); [|destruct (_ <=? _)]; intros H x Hx; specialize (IH _ _ _ _ _ H x Hx);
      rewrite ?in_app_iff in IH; cbn in *; intuition.
Qed.

Lemma penalty_map f all x y rate : f 0 = 0 ->
  (forall x y, In x (0 :: all) -> In y (0 :: all) -> f x = f y -> x = y) ->
  In x (0 :: all) -> In y (0 :: all) -> penalty_on (f x) (f y) rate = penalty_on x y rate.
Proof.
  intros Z0 I Hx Hy. unfold penalty_on.
  assert (forall a b, In a (0 :: all) -> In b (0 :: all) -> (f a =? f b) = (a =? b)) as E.
  { intros a b Ha Hb. destruct (Z.eqb_spec a b) as [->|N]; [apply Z.eqb_refl|].
    apply Z.eqb_neq. intros H. apply N. now apply I. }
  pose proof (E x 0 Hx (or_introl eq_refl)) as Ex. pose proof (E y 0 Hy (or_introl eq_refl)) as Ey.
  rewrite Z0 in Ex, Ey. rewrite E, Ex, Ey by assumption. reflexivity.
Qed.

Theorem ratio_blind f fl d1 d2 rate : f 0 = 0 ->
  (forall x y, In x (0 :: entity_labels d1 ++ entity_labels d2) -> In y (0 :: entity_labels d1 ++ entity_labels d2) ->
     f x = f y -> x = y) ->
  entity_overlapping_ratio fl (rename_datum f d1) (rename_datum f d2) rate = entity_overlapping_ratio fl d1 d2 rate.
Proof.
  intros Z0 I. unfold entity_overlapping_ratio.
  change (has_same_utterance_as (rename_datum f d1) (rename_datum f d2)) with (has_same_utterance_as d1 d2).
  destruct (guard _ _); cbn [bind]; [|reflexivity].
  unfold expand_entity_to_list. cbn [rename_datum d_utterance d_entities]. rewrite !map_length.
  change (@nil Z) with (map f []) at 1 2.
  rewrite !(expand_loop_rename f) by exact Z0. cbn [map].
  destruct (Elements.expand_loop _ _ 0 (d_entities d1) []) as [l1|] eqn:E1; cbn [renamed bind]; [|reflexivity].
  destruct (Elements.expand_loop _ _ 0 (d_entities d2) []) as [l2|] eqn:E2; cbn [renamed bind]; [|reflexivity].
  assert (H1 : forall x, In x l1 -> In x (0 :: entity_labels d1 ++ entity_labels d2)).
  { intros x Hx. destruct (expand_loop_In _ _ _ _ _ _ E1 x Hx) as [[]|[->|H]]; [now left|].
    right. apply in_app_iff. now left. }
  assert (H2 : forall x, In x l2 -> In x (0 :: entity_labels d1 ++ entity_labels d2)).
  { intros x Hx. destruct (expand_loop_In _ _ _ _ _ _ E2 x Hx) as [[]|[->|H]]; [now left|].
    right. apply in_app_iff. now right. }
  clear E1 E2.
  assert (S : forall p, fold_left (fun p xy => fl (p + penalty_on (fst xy) (snd xy) rate)%Q) (combine (map f l1) (map f l2)) p =
    fold_left (fun p xy => fl (p + penalty_on (fst xy) (snd xy) rate)%Q) (combine l1 l2) p).
  { revert l2 H2. induction l1 as [|x l1 IH]; intros l2 H2 p; [reflexivity|]. destruct l2 as [|y l2]; [reflexivity|].
    cbn [map combine fold_left fst snd].
    rewrite (penalty_map f (entity_labels d1 ++ entity_labels d2)); [|exact Z0|exact I|apply H1; now left|apply H2; now left].
    apply IH; intros z Hz; [apply H1|apply H2]; now right. }
  rewrite S. reflexivity.
Qed.

(** ** Whole pipes on datums *)

Theorem transform_datum_blind E p f d : renaming f (entity_labels d) ->
  transform E p (rename_datum f d) =
  match transform E p d with
  | Ok (y, is_, l, als, coll) => Ok (y, is_, map f l, als, coll)
  | Err e => Err e
  end.
Proof.
  intros R. unfold transform. rewrite (unpack_blind f d (proj1 R)).
  destruct (unpack_datum d) as [[[u is_] l]|] eqn:U; cbn [bind]; [|reflexivity].
  destruct (transform_sequence E p (SStr u)) as [[[y als] coll]|] eqn:T; cbn [bind]; [|reflexivity].
  destruct (pipe_blind E p _ _ _ _ T f l) as [-> _].
  - eapply renaming_incl; [|exact R].
    unfold unpack_datum in U. destruct (foldM write_entity _ _) as [l'|] eqn:F; [|discriminate].
    injection U as <- <- <-. unfold entity_labels.
    assert (G : forall es m r, foldM write_entity es m = Ok r -> forall x, In x r -> In x m \/ In x (map e_label es)).
    { clear. induction es as [|e es IH]; intros m r; cbn [foldM]; [intros [= <-]; auto|].
      destruct (write_entity m e) as [m'|] eqn:W; cbn [bind]; [|discriminate]. intros H x Hx.
      destruct (IH _ _ H x Hx) as [Hm|]; [|cbn; auto]. unfold write_entity in W.
      assert (In x m \/ x = e_label e) as D; [|cbn; intuition].
      revert m W Hm. induction (zrange _ _) as [|i is_ IHi]; intros m W Hm; cbn [foldM] in W; [injection W as ->; auto|].
      unfold set_item in W at 1. destruct (_ && _); cbn [bind] in W; [|discriminate].
      destruct (IHi _ W Hm) as [Hu|]; [|auto].
      revert Hu. clear. generalize (Z.to_nat (if i <? 0 then i + Z.of_nat (length m) else i)). 
      induction m as [|y m IHm]; intros [|n]; cbn; intuition. destruct (IHm _ H); auto. }
    intros x Hx. destruct (G _ _ _ F x Hx) as [H|H]; [|now right]. left. now apply repeat_spec in H.
  - destruct (align_all als l); reflexivity.
Qed.
