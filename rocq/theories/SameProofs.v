(** Proofs about the use of equal objects (C103). *)

From Coq Require Import String QArith Sorted.
From Verif Require Import Py PyFacts Json SpecOps Edit Ops Pipe Elements SpecElements DatumProofs PackProofs ExpandProofs SpecOrdinal
  OrdinalProofs RatioProofs ElementsLaws SpecSame.
From Coq Require Import List Permutation Lia.
Import ListNotations.
Local Open Scope Z_scope.

(** ** Lists and sets *)

Lemma agree_impl {A} (R T : A -> A -> Prop) a b : (forall x y, R x y -> T x y) -> agree R a b -> agree T a b.
Proof. intros H K. destruct K; constructor; auto. Qed.
Lemma agree_eq {A} (a b : res A) : a = b -> agree eq a b.
Proof. intros ->. destruct b; now constructor. Qed.

Lemma agree_mapM {A B} (f g : A -> res B) (R : B -> B -> Prop) l :
  (forall x, In x l -> agree R (f x) (g x)) -> agree (Forall2 R) (mapM f l) (mapM g l).
Proof.
  induction l as [|x l IH]; intros H; [repeat constructor|]. cbn [mapM].
  destruct (H x (or_introl eq_refl)) as [a b K|e]; [|constructor]. cbn [bind].
  destruct (IH (fun y Y => H y (or_intror Y))) as [c d G|e]; [|constructor]. cbn [bind]. constructor. now constructor.
Qed.

Lemma same_set_perm {A} (l m : list A) : NoDup l -> NoDup m -> same_set l m -> Permutation l m.
Proof. intros. now apply NoDup_Permutation. Qed.

Lemma same_set_sort l m key : same_set l m -> same_set (sort_by key l) (@sort_by Z key m).
Proof.
  intros H x. pose proof (sort_by_perm key l) as P. pose proof (sort_by_perm key m) as Q. split; intros K.
  - apply (Permutation_in x (Permutation_sym Q)), H, (Permutation_in x P K).
  - apply (Permutation_in x (Permutation_sym P)), H, (Permutation_in x Q K).
Qed.

Lemma insert_by_Forall2 {A} (R : A -> A -> Prop) key x y l m : (forall a b, R a b -> key a = key b) -> R x y ->
  Forall2 R l m -> Forall2 R (insert_by key x l) (insert_by key y m).
Proof.
  intros K H F. induction F as [|a b l m AB F IH]; cbn [insert_by]; [repeat constructor; assumption|].
  rewrite (K _ _ H), (K _ _ AB). destruct (_ <=? _); constructor; auto.
Qed.
Lemma sort_by_Forall2 {A} (R : A -> A -> Prop) key l m : (forall a b, R a b -> key a = key b) ->
  Forall2 R l m -> Forall2 R (sort_by key l) (sort_by key m).
Proof.
  intros K F. unfold sort_by. induction F as [|a b l m AB F IH]; cbn [fold_right]; [constructor|].
  now apply insert_by_Forall2.
Qed.

Lemma stable_unique {A} (key : A -> Z) m m' :
  StronglySorted (fun a b => key a <= key b) m -> StronglySorted (fun a b => key a <= key b) m' ->
  (forall k, filter (fun x => key x =? k) m = filter (fun x => key x =? k) m') -> m = m'.
Proof.
  revert m'. induction m as [|x m IH]; intros [|y m'] HS HS' H; [reflexivity| | |].
  - specialize (H (key y)). cbn [filter] in H. now rewrite Z.eqb_refl in H.
  - specialize (H (key x)). cbn [filter] in H. now rewrite Z.eqb_refl in H.
  - inversion HS as [|? ? SM FM]; subst. inversion HS' as [|? ? SM' FM']; subst. rewrite Forall_forall in FM, FM'.
    assert (KX : key y <= key x).
    { assert (IN : In x (filter (fun z => key z =? key x) (y :: m'))).
      { rewrite <- H. cbn [filter]. rewrite Z.eqb_refl. now left. }
      apply filter_In in IN. destruct IN as [[<- |IN] _]; [lia|]. now apply FM'. }
    assert (KY : key x <= key y).
    { assert (IN : In y (filter (fun z => key z =? key y) (x :: m))).
      { rewrite H. cbn [filter]. rewrite Z.eqb_refl. now left. }
      apply filter_In in IN. destruct IN as [[<- |IN] _]; [lia|]. now apply FM. }
    assert (K : key x = key y) by lia.
    assert (x = y) as ->.
    { specialize (H (key x)). cbn [filter] in H. rewrite Z.eqb_refl in H.
      destruct (Z.eqb_spec (key y) (key x)); [congruence|lia]. }
    f_equal. apply IH; [assumption|assumption|]. intros k. specialize (H k). cbn [filter] in H.
    destruct (key y =? k); [congruence|exact H].
Qed.
Lemma stably_sorted_is {A} (key : A -> Z) l m : stably_sorted key l m -> m = sort_by key l.
Proof.
  intros (_ & HS & HF). destruct (sort_by_stable key l) as (_ & HS' & HF').
  apply (stable_unique key); [exact HS|exact HS'|]. intros k. now rewrite HF, HF'.
Qed.

(** ** Datum *)

Lemma equal_same a b : equal a b <-> same_datum a b.
Proof. unfold equal. symmetry. apply reflect_iff, datum_eqb_spec. Qed.
Lemma equal_entities_same a b : equal_entities a b <-> same_entity a b.
Proof. unfold equal_entities. symmetry. apply reflect_iff, entity_eqb_spec. Qed.

Lemma Forall2_equal l m : Forall2 equal_entities l m <-> Forall2 same_entity l m.
Proof. split; intros F; induction F; constructor; auto; now apply equal_entities_same. Qed.

Theorem datum_from_equal u ints ints' es es' : same_set ints ints' -> Forall2 equal_entities es es' ->
  agree equal (make_datum u (Some ints) (Some es)) (make_datum u (Some ints') (Some es')).
Proof.
  intros HI HE. apply Forall2_equal in HE. unfold make_datum.
  pose proof (sort_by_Forall2 same_entity e_start es es' (fun a b K => proj1 (proj2 (proj2 K))) HE) as HS.
  assert (E1 : forallb (entity_position_correct u) (sort_by e_start es) = forallb (entity_position_correct u) (sort_by e_start es')).
  { induction HS as [|a b l m (A & B & C & D & _) F IH]; [reflexivity|]. cbn [forallb]. rewrite IH.
    unfold entity_position_correct. now rewrite B, C, D. }
  rewrite E1. destruct (forallb _ (sort_by e_start es')); [|constructor]. cbn [guard bind].
  assert (E2 : check_overlaps (sort_by e_start es) = check_overlaps (sort_by e_start es')).
  { clear -HS. induction HS as [|a b l m AB F IH]; [reflexivity|]. inversion F as [|c d l' m' CD F']; subst; [reflexivity|].
    destruct AB as (_ & _ & _ & D & _), CD as (_ & _ & C & _ & _).
    change (check_overlaps (a :: c :: l')) with (_ <- guard (negb (overlap a c)) EntityOverlapErr ;; check_overlaps (c :: l')).
    change (check_overlaps (b :: d :: m')) with (_ <- guard (negb (overlap b d)) EntityOverlapErr ;; check_overlaps (d :: m')).
    rewrite IH. unfold overlap. now rewrite C, D. }
  rewrite E2. destruct (check_overlaps (sort_by e_start es')); [|constructor]. cbn [bind]. constructor. apply equal_same.
  split; [reflexivity|]. split; [now apply same_set_sort|exact HS].
Qed.

(** ** unpack, pack, transform *)

Theorem unpack_equal d d' : equal d d' ->
  agree (fun '(u, i, l) '(u', i', l') => u = u' /\ same_set i i' /\ l = l') (unpack_datum d) (unpack_datum d').
Proof.
  intros H. apply equal_same in H. destruct H as (HU & HI & HE). unfold unpack_datum. rewrite <- HU.
  assert (E : forall acc, foldM write_entity (d_entities d) acc = foldM write_entity (d_entities d') acc).
  { induction HE as [|a b l m (A & _ & C & D & _) F IH]; intros acc; [reflexivity|]. cbn [foldM].
    assert (W : write_entity acc a = write_entity acc b) by (unfold write_entity; now rewrite A, C, D).
    rewrite W. destruct (write_entity acc b); [apply IH|reflexivity]. }
  rewrite E. destruct (foldM write_entity (d_entities d') _); constructor. auto.
Qed.

Theorem transform_equal E p d d' : equal d d' ->
  agree (fun '(o, i, l, a, c) '(o', i', l', a', c') => o = o' /\ same_set i i' /\ l = l' /\ a = a' /\ c = c')
    (transform E p d) (transform E p d').
Proof.
  intros H. unfold transform. destruct (unpack_equal d d' H) as [[[u i] l] [[u' i'] l'] (-> & HI & ->)|e]; [|constructor].
  cbn [bind]. destruct (transform_sequence E p (SStr u')) as [[[o a] c]|]; [|constructor]. cbn [bind].
  destruct (align_all a l'); constructor. auto.
Qed.

Theorem pack_same u i i' l : same_set i i' -> pack_to_datum u i l = pack_to_datum u i' l.
Proof.
  intros H. unfold pack_to_datum.
  assert (E : sort_by (fun x => x) (dedup i) = sort_by (fun x => x) (dedup i')).
  { apply (sorted_perm_unique Z.le); [intros; lia|apply sort_by_sorted|apply sort_by_sorted|].
    rewrite !sort_by_perm. apply same_set_perm; try apply NoDup_dedup. intros x. now rewrite !in_dedup. }
  now rewrite E.
Qed.

(** ** partition, expansion, ratio, labels *)

Lemma sorted_strs_same l m : Permutation l m -> sorted_strs l = sorted_strs m.
Proof.
  intros P. apply (sorted_perm_unique str_le).
  - intros x y _ _. apply str_le_antisym.
  - apply sorted_strs_sorted.
  - apply sorted_strs_sorted.
  - now rewrite !sorted_strs_perm.
Qed.

Definition sets (d : datum) : Prop := Forall (fun e => NoDup (e_replacements e)) (d_entities d).
Lemma datum_sets d : is_datum d -> sets d.
Proof.
  intros H. apply is_datum_inv in H. destruct H as (_ & H & _). eapply Forall_impl; [|exact H].
  intros e HE. apply is_entity_iff in HE. tauto.
Qed.

Theorem partition_equal d d' io : is_datum d -> is_datum d' -> equal d d' ->
  partition_by_entities d io = partition_by_entities d' io.
Proof.
  intros HD HD' H. apply equal_same in H. destruct H as (HU & _ & HE). apply datum_sets in HD, HD'.
  unfold sets in *. unfold partition_by_entities. rewrite <- HU. generalize 0.
  induction HE as [|a b l m (A & B & C & D & S') F IH]; intros start; [reflexivity|].
  inversion HD as [|? ? NA NL]; subst. inversion HD' as [|? ? NB NM]; subst.
  pose proof (same_set_perm _ _ NA NB S') as P. cbn [partition_loop].
  unfold no_replacements. rewrite (Permutation_length P), (sorted_strs_same _ _ P), A, B, C, D.
  now rewrite (IH NL NM).
Qed.

Theorem expand_equal d d' sample io : is_datum d -> is_datum d' -> equal d d' ->
  agree (Forall2 equal) (expand_by_entities d sample io) (expand_by_entities d' sample io).
Proof.
  intros HD HD' H. pose proof (partition_equal d d' io HD HD' H) as PE. pose proof H as H'.
  apply equal_same in H'. destruct H' as (HU & HI & HE).
  unfold expand_by_entities. assert (E : has_entities d = has_entities d').
  { unfold has_entities. f_equal. clear -HE. induction HE; cbn; congruence. }
  rewrite <- E. destruct (has_entities d); cbn [negb]; [|constructor; constructor; [exact H|constructor]].
  rewrite <- PE. destruct (partition_by_entities d io) as [parts labels]. apply agree_mapM. intros k _. unfold expand_one.
  destruct (get_kth_combination parts k) as [segs|]; [|constructor]. cbn [bind].
  destruct (aggregate_entities 0 segs labels) as [es|]; [|constructor]. cbn [bind].
  rewrite !copy_intents_same by assumption. cbn [bind]. apply datum_from_equal; [exact HI|].
  apply Forall2_equal. clear. induction es; constructor; auto. apply same_entity_refl.
Qed.

Theorem ratio_equal fl a a' b b' rate : equal a a' -> equal b b' ->
  entity_overlapping_ratio fl a b rate = entity_overlapping_ratio fl a' b' rate.
Proof.
  assert (G : forall fuel n l m acc ind, Forall2 same_entity l m -> expand_loop fuel n ind l acc = expand_loop fuel n ind m acc).
  { induction fuel as [|fuel IH]; intros n l m acc ind F; [reflexivity|]. cbn [expand_loop].
    destruct (n <=? ind); [reflexivity|]. inversion F as [|x y l' m' XY F']; subst; [now apply IH|].
    pose proof XY as (A & _ & C & D & _). rewrite A, C, D.
    destruct ((_ <=? ind) && _); [now apply IH|]. destruct (_ <=? ind); now apply IH. }
  assert (X : forall d d', equal d d' -> d_utterance d = d_utterance d' /\ expand_entity_to_list d = expand_entity_to_list d').
  { intros d d' H. apply equal_same in H. destruct H as (HU & _ & HE). split; [exact HU|].
    unfold expand_entity_to_list. rewrite <- HU.
    assert (L : length (d_entities d) = length (d_entities d')) by (clear -HE; induction HE; cbn; congruence).
    rewrite <- L. apply G. exact HE. }
  intros H K. destruct (X _ _ H) as [U1 L1], (X _ _ K) as [U2 L2].
  unfold entity_overlapping_ratio, has_same_utterance_as. now rewrite U1, U2, L1, L2.
Qed.

Theorem unique_equal ord ord' data data' : (forall l, Permutation (ord l) l) -> (forall l, Permutation (ord' l) l) ->
  Forall2 equal data data' -> Permutation (get_unique_entities ord data) (get_unique_entities ord' data').
Proof.
  intros O O' F. unfold get_unique_entities. rewrite O, O'.
  enough (flat_map (fun d => map e_label (d_entities d)) data = flat_map (fun d => map e_label (d_entities d)) data') as -> by reflexivity.
  induction F as [|a b l m H F IH]; [reflexivity|]. cbn [flat_map]. rewrite IH. f_equal.
  apply equal_same in H. destruct H as (_ & _ & HE). clear -HE. induction HE as [|x y l m (A & _) F IH]; [reflexivity|].
  cbn [map]. now rewrite A, IH.
Qed.

(** ** Dictionaries *)

Theorem to_dict_equal ord ord' e e' : reorders ord -> reorders ord' -> is_entity e -> is_entity e' -> equal_entities e e' ->
  same_dict (entity_to_dict ord e) (entity_to_dict ord' e').
Proof.
  intros O O' HE HE' H. apply equal_entities_same in H. destruct H as (A & B & C & D & S').
  apply is_entity_iff in HE, HE'. pose proof (same_set_perm _ _ (proj2 (proj2 (proj2 HE))) (proj2 (proj2 (proj2 HE'))) S') as P.
  unfold entity_to_dict, no_replacements. rewrite (Permutation_length P), A, C, D.
  destruct (Nat.eqb _ 0); [now left|]. right. do 5 eexists. split; [|split; reflexivity].
  exact (Permutation_trans (O _) (Permutation_trans P (Permutation_sym (O' _)))).
Qed.

Definition got {A} (d : A) (r : res A) : A := match r with Ok x => x | Err _ => d end.

Lemma mapM_got {A B} (d : B) (f : A -> res B) l : (forall x, In x l -> exists y, f x = Ok y) ->
  mapM f l = Ok (map (fun x => got d (f x)) l).
Proof.
  intros H. apply mapM_ok. apply Forall_forall. intros x HX. destruct (H x HX) as (y & ->). reflexivity.
Qed.

Lemma index_known m i : known_index m i -> exists n, index2name m i = Ok n.
Proof.
  intros (n & H). induction m as [|[k j] m IH]; [destruct H|]. cbn [index2name].
  destruct (Z.eqb_spec i j); [eauto|]. apply IH. destruct H as [[= <- <-]|H]; [congruence|exact H].
Qed.
Lemma known_index_dec m i : {known_index m i} + {~ known_index m i}.
Proof.
  destruct (in_dec Z.eq_dec i (map snd m)) as [H|H].
  - left. apply in_map_iff in H. destruct H as ([n j] & <- & H). now exists n.
  - right. intros (n & K). apply H. exact (in_map snd _ _ K).
Qed.
Lemma known_dec o d : known o d \/ ~ known o d.
Proof.
  unfold known.
  destruct (Forall_dec (known_index (intent2index o)) (known_index_dec _) (d_intents d)) as [H|H]; [|right; tauto].
  destruct (Forall_dec (fun e => known_index (entity2index o) (e_label e)) (fun e => known_index_dec _ _) (d_entities d)) as [K|K];
    [left|right]; tauto.
Qed.

Lemma known_equal o d d' : equal d d' -> known o d -> known o d'.
Proof.
  intros H (K1 & K2). apply equal_same in H. destruct H as (_ & HI & HE). rewrite Forall_forall in K1. split.
  - apply Forall_forall. intros x HX. apply K1, HI, HX.
  - clear -HE K2. induction HE as [|a b l m (A & _) F IH]; inversion K2; subst; constructor; auto. now rewrite <- A.
Qed.

Lemma equal_sym a b : equal a b -> equal b a.
Proof.
  unfold equal. destruct datum_equivalence as (_ & H & _). now rewrite (H b a).
Qed.

(** the name and the raw form that humanize gives *)
Lemma humanize_is ord o d : reorders ord -> known o d ->
  humanize ord o d = Ok (raw_datum (d_utterance d) (map (fun i => got [] (index2name (intent2index o) i)) (d_intents d))
    (map (fun e => mkRaw (got [] (index2name (entity2index o) (e_label e))) (e_start e) (e_end e) (ord (e_replacements e))) (d_entities d))).
Proof.
  intros O (K1 & K2). rewrite Forall_forall in K1, K2. unfold humanize.
  rewrite (mapM_got []) by (intros x HX; apply index_known, K1, HX). cbn [bind].
  assert (E : mapM (humanize_entity ord o) (d_entities d) = Ok (map raw_entity
    (map (fun e => mkRaw (got [] (index2name (entity2index o) (e_label e))) (e_start e) (e_end e) (ord (e_replacements e))) (d_entities d)))).
  { rewrite map_map. apply mapM_ok. apply Forall_forall. intros e HX. unfold humanize_entity.
    destruct (index_known _ _ (K2 e HX)) as (n & ->). cbn [bind got]. unfold raw_entity, no_replacements.
    cbn [w_name w_start w_end w_replacements]. do 3 f_equal. pose proof (O (e_replacements e)) as P.
    destruct (e_replacements e) as [|x l]; cbn [length Nat.eqb].
    - apply Permutation_sym, Permutation_nil in P. now rewrite P.
    - destruct (ord (x :: l)); [|reflexivity]. now apply Permutation_nil in P. }
  unfold has_entities. destruct (d_entities d) as [|e es]; [reflexivity|].
  cbn [length Nat.ltb Nat.leb]. rewrite E. reflexivity.
Qed.

Theorem humanize_equal ord ord' o d d' : reorders ord -> reorders ord' -> equal d d' ->
  agree same_raw_datum (humanize ord o d) (humanize ord' o d').
Proof.
  intros O O' H. destruct (known_dec o d) as [K|K].
  - rewrite (humanize_is ord o d O K), (humanize_is ord' o d' O' (known_equal o d d' H K)). constructor.
    apply equal_same in H. destruct H as (HU & HI & HE). rewrite <- HU. do 5 eexists.
    split; [reflexivity|]. split; [reflexivity|]. split.
    + intros n. rewrite !in_map_iff. split; intros (i & E & HX); exists i; (split; [exact E|now apply HI]).
    + clear -HE O O'. induction HE as [|a b l m (A & _ & C & D & S') F IH]; cbn [map]; constructor; [|exact IH].
      unfold same_raw. cbn [w_name w_start w_end w_replacements]. rewrite A. do 3 (split; [congruence|]).
      intros x. split; intros HX.
      * apply (Permutation_in x (Permutation_sym (O' _))), S', (Permutation_in x (O _) HX).
      * apply (Permutation_in x (Permutation_sym (O _))), S', (Permutation_in x (O' _) HX).
  - rewrite (humanize_unknown ord o d K), (humanize_unknown ord' o d'); [constructor|].
    intros K'. apply K. exact (known_equal o d' d (equal_sym _ _ H) K').
Qed.

Theorem machanize_equal o u ns ns' es es' : is_ordinal o -> small o ->
  Forall (fun r => i32 (w_start r) /\ i32 (w_end r)) es -> same_set ns ns' -> Forall2 same_raw es es' ->
  agree equal (machanize o (raw_datum u ns es)) (machanize o (raw_datum u ns' es')).
Proof.
  intros HO SM SI HN HE.
  assert (SI' : Forall (fun r => i32 (w_start r) /\ i32 (w_end r)) es').
  { clear -SI HE. induction HE as [|a b l m (A & B & C & _) F IH]; inversion SI; subst; constructor; auto. now rewrite <- B, <- C. }
  assert (AK : all_known o ns es <-> all_known o ns' es').
  { unfold all_known. rewrite !(Forall_forall _ ns), !(Forall_forall _ ns'). split; intros (K1 & K2); split.
    - intros x HX. apply K1, HN, HX.
    - clear -HE K2. induction HE as [|a b l m (A & _) F IH]; inversion K2; subst; constructor; auto. now rewrite <- A.
    - intros x HX. apply K1, HN, HX.
    - clear -HE K2. induction HE as [|a b l m (A & _) F IH]; inversion K2; subst; constructor; auto. now rewrite A. }
  assert (AP : StronglySorted raw_apart es <-> StronglySorted raw_apart es').
  { assert (G : forall a b l m, same_raw a b -> Forall2 same_raw l m -> Forall (raw_apart a) l <-> Forall (raw_apart b) m).
    { intros a b l m (_ & B & C & _) F. induction F as [|x y l m (_ & D & E & _) F IH]; [split; constructor|].
      assert (X : raw_apart a x <-> raw_apart b y) by (unfold raw_apart; now rewrite B, C, D, E).
      split; intros Q; inversion Q; subst; constructor; tauto. }
    clear -HE G. induction HE as [|a b l m AB F IH]; [split; constructor|]. specialize (G a b l m AB F).
    split; intros Q; inversion Q; subst; constructor; tauto. }
  destruct (machanize_cases o u ns es HO SM SI) as [(K & Q & d & ints & ents & -> & _ & U & FI & TI & FE & TE)|[(K & Q & ->)|(K & ->)]];
    destruct (machanize_cases o u ns' es' HO SM SI') as [(K' & Q' & d' & ints' & ents' & -> & _ & U' & FI' & TI' & FE' & TE')|[(K' & Q' & ->)|(K' & ->)]];
    try (exfalso; tauto); try constructor.
  destruct (is_ordinal_inv o HO) as (D1 & D2 & _). apply equal_same. split; [congruence|].
  apply stably_sorted_is in TI, TI', TE, TE'. rewrite TI, TI', TE, TE'. split.
  - apply same_set_sort. clear -FI FI' HN D1.
    assert (G : forall ns ns' ints ints', same_set ns ns' -> Forall2 (fun n i => named (intent2index o) i n) ns ints ->
      Forall2 (fun n i => named (intent2index o) i n) ns' ints' -> forall i, In i ints -> In i ints').
    { clear -D1. intros ns ns' ints ints' HN F F' i HI.
      assert (X : exists n, In n ns /\ named (intent2index o) i n).
      { clear -F HI. induction F as [|n j ns ints A F IH]; [destruct HI|]. destruct HI as [<- |HI]; [exists n; split; [now left|exact A]|].
        destruct (IH HI) as (k & B & C). exists k. split; [now right|exact C]. }
      destruct X as (n & IN & NM). apply HN in IN. clear -IN NM F' D1.
      induction F' as [|k j ns ints A F IH]; [destruct IN|]. destruct IN as [->|IN]; [|right; now apply IH]. left.
      unfold named in *. apply (dict_get_In_NoDup _ _ _ D1) in A. apply (dict_get_In_NoDup _ _ _ D1) in NM. congruence. }
    intros i. split; [exact (G _ _ _ _ HN FI FI' i)|refine (G _ _ _ _ _ FI' FI i); intros x; symmetry; apply HN].
  - apply sort_by_Forall2; [intros a b X; apply X|]. clear -FE FE' HE D2.
    revert ents ents' FE FE'. induction HE as [|a b l m (A & B & C & D) F IH]; intros ents ents' FE FE'; inversion FE; inversion FE'; subst;
      constructor; [|now apply IH].
    match goal with X : entity_of _ u a ?x, Y : entity_of _ u b ?y |- same_entity ?x ?y =>
      destruct X as (N & S1 & E1 & V1 & R1 & _), Y as (N' & S2 & E2 & V2 & R2 & _) end.
    unfold named in *. rewrite A in N. apply (dict_get_In_NoDup _ _ _ D2) in N. apply (dict_get_In_NoDup _ _ _ D2) in N'.
    split; [congruence|]. split; [now rewrite V1, V2, B, C|]. do 2 (split; [congruence|]). intros x. split; intros Q; [apply R2, D, R1, Q|apply R1, D, R2, Q].
Qed.
