(** Proofs about OrdinalLabel. *)

From Coq Require Import String QArith Sorted.
From Verif Require Import Py PyFacts Json SpecOps Elements SpecElements SpecOrdinal
  DatumProofs PackProofs.
From Coq Require Import List.
Local Open Scope Z_scope.

(** ** Index maps *)

Lemma zrange_sorted a b : StronglySorted Z.le (zrange a b).
Proof.
  pattern a. apply (zrange_ind _ b); clear a.
  - intros a H. rewrite zrange_nil by exact H. constructor.
  - intros a H IH. rewrite zrange_cons by exact H. constructor; [exact IH|].
    apply Forall_forall. intros x HX. apply in_zrange in HX. lia.
Qed.

Lemma zrange_NoDup a b : NoDup (zrange a b).
Proof.
  unfold zrange. apply FinFun.Injective_map_NoDup; [|apply seq_NoDup]. intros x y H. lia.
Qed.

Lemma indices_perm vs : indices vs <-> Permutation vs (zrange 0 (Z.of_nat (length vs))).
Proof.
  split.
  - intros (ND & HF). apply NoDup_Permutation_bis; [exact ND| |].
    + rewrite length_zrange. lia.
    + intros x HX. rewrite Forall_forall in HF. apply in_zrange. now apply HF.
  - intros P. split.
    + eapply Permutation_NoDup; [symmetry; exact P|apply zrange_NoDup].
    + apply Forall_forall. intros x HX. apply (Permutation_in x P) in HX. now apply in_zrange in HX.
Qed.

Lemma valid_mapping_spec d : reflect (indices (map snd d)) (is_valid_mapping d).
Proof.
  unfold is_valid_mapping. rewrite sort_by_length.
  set (vs := map snd d). apply iff_reflect. rewrite indices_perm.
  destruct (eqb_spec (sort_by (fun x => x) vs) (zrange 0 (Z.of_nat (length vs)))) as [E|N].
  - split; [reflexivity|]. intros _. rewrite <- E. symmetry. apply sort_by_perm.
  - split; [|discriminate]. intros P. exfalso. apply N.
    apply (sorted_perm_unique Z.le); [intros; lia|apply sort_by_sorted|apply zrange_sorted|].
    now rewrite sort_by_perm.
Qed.

Lemma indices_Permutation a b : Permutation a b -> indices a -> indices b.
Proof. rewrite !indices_perm. intros P H. rewrite <- (Permutation_length P). now rewrite <- P. Qed.

Lemma others_none d : ~ In not_entity (map fst d) -> others d = d.
Proof.
  intros H. unfold others. apply filter_all. intros [k v] HK. cbn [fst].
  destruct (eqb_spec k not_entity) as [->|]; [|reflexivity]. exfalso. apply H.
  apply (in_map fst) in HK. exact HK.
Qed.

Lemma dict_set_values d ne : is_dict d ->
  Permutation (map snd (dict_set d NOT_ENTITY_NAME ne)) (ne :: map snd (others d)).
Proof.
  change NOT_ENTITY_NAME with not_entity. unfold is_dict.
  induction d as [|[k v] d IH]; intros HND; [reflexivity|].
  cbn [map fst] in HND. inversion HND as [|? ? N ND]; subst. cbn [dict_set].
  destruct (eqb_spec not_entity k) as [<-|NE].
  - cbn [map snd]. constructor. unfold others. cbn [filter fst].
    destruct (eqb_spec not_entity not_entity); [|congruence]. cbn [negb].
    fold (others d). now rewrite others_none.
  - cbn [map snd]. unfold others. cbn [filter fst]. destruct (eqb_spec k not_entity); [congruence|].
    cbn [negb map snd]. fold (others d). rewrite (IH ND). apply perm_swap.
Qed.

Lemma make_ordinal_cases i2i e2i ne : is_dict e2i ->
  (make_ordinal i2i e2i ne = Ok (mkOrdinal i2i e2i ne) /\
   indices (map snd i2i) /\ indices (ne :: map snd (others e2i))) \/
  (make_ordinal i2i e2i ne = Err ValueErr /\
   ~ (indices (map snd i2i) /\ indices (ne :: map snd (others e2i)))).
Proof.
  intros HD. unfold make_ordinal. rewrite !guard_bind.
  destruct (valid_mapping_spec i2i) as [H1|H1]; [|right; tauto].
  destruct (valid_mapping_spec (dict_set e2i NOT_ENTITY_NAME ne)) as [H2|H2].
  - left. split; [reflexivity|]. split; [exact H1|].
    now apply (indices_Permutation _ _ (dict_set_values e2i ne HD)).
  - right. split; [reflexivity|]. intros (_ & H). apply H2.
    apply (indices_Permutation (ne :: map snd (others e2i))); [symmetry; now apply dict_set_values|exact H].
Qed.

Lemma is_ordinal_inv o : is_ordinal o -> is_dict (intent2index o) /\ is_dict (entity2index o) /\
  indices (map snd (intent2index o)) /\
  indices (not_entity_index o :: map snd (others (entity2index o))).
Proof.
  intros (i2i & e2i & ne & H1 & H2 & H3).
  destruct (make_ordinal_cases i2i e2i ne H2) as [(E & A & B)|(E & _)]; [|congruence].
  assert (o = mkOrdinal i2i e2i ne) as -> by congruence. cbn. auto.
Qed.

(** ** Names and indices *)

Lemma index2name_cases d i :
  (exists name, index2name d i = Ok name /\ In (name, i) d) \/
  (index2name d i = Err KeyErr /\ ~ known_index d i).
Proof.
  induction d as [|[k v] d IH]; cbn [index2name].
  - right. split; [reflexivity|]. intros (n & []).
  - destruct (Z.eqb_spec i v) as [->|N].
    + left. exists k. split; [reflexivity|now left].
    + destruct IH as [(n & -> & HN)|(-> & HN)].
      * left. exists n. split; [reflexivity|now right].
      * right. split; [reflexivity|]. intros (n & [[= -> ->]|HI]); [congruence|]. apply HN. now exists n.
Qed.

Lemma index2name_In d name i : NoDup (map snd d) -> In (name, i) d -> index2name d i = Ok name.
Proof.
  induction d as [|[k v] d IH]; intros HND HI; [destruct HI|]. cbn [map snd] in HND.
  inversion HND as [|? ? N ND]; subst. cbn [index2name].
  destruct HI as [[= -> ->]|HI]; [now rewrite Z.eqb_refl|].
  destruct (Z.eqb_spec i v) as [->|]; [|now apply IH]. exfalso. apply N. apply (in_map snd) in HI. exact HI.
Qed.

Lemma lookup_In d name i : is_dict d -> In (name, i) d -> lookup d (JStr name) = Ok i.
Proof. intros HD HI. cbn. now rewrite (dict_get_In_NoDup d name i HD HI). Qed.

Lemma lookup_cases d name : is_dict d ->
  (exists i, lookup d (JStr name) = Ok i /\ In (name, i) d) \/
  (lookup d (JStr name) = Err KeyErr /\ ~ known_name d name).
Proof.
  intros HD. cbn. destruct (dict_get d name) as [i|] eqn:E.
  - left. exists i. split; [reflexivity|now apply dict_get_In].
  - right. split; [reflexivity|]. apply dict_get_None in E. intros (i & HI). apply E.
    apply (in_map fst) in HI. exact HI.
Qed.

Lemma mapM_Forall2 {A B} (f : A -> res B) (R : A -> B -> Prop) l :
  (forall x, In x l -> exists y, f x = Ok y /\ R x y) ->
  exists m, mapM f l = Ok m /\ Forall2 R l m.
Proof.
  induction l as [|x l IH]; intros H; [exists []; split; [reflexivity|constructor]|].
  destruct (H x (or_introl eq_refl)) as (y & E & HR).
  destruct IH as (m & EM & HM); [intros z HZ; apply H; now right|].
  exists (y :: m). cbn [mapM]. rewrite E, EM. split; [reflexivity|now constructor].
Qed.

Lemma mapM_of_Forall2 {A B} (f : A -> res B) l m : Forall2 (fun x y => f x = Ok y) l m -> mapM f l = Ok m.
Proof. induction 1 as [|x y l m E _ IH]; [reflexivity|]. cbn [mapM]. now rewrite E, IH. Qed.

Lemma mapM_to_Forall2 {A B} (f : A -> res B) l m : mapM f l = Ok m -> Forall2 (fun x y => f x = Ok y) l m.
Proof.
  revert m; induction l as [|x l IH]; intros m H; cbn [mapM] in H; [injection H as <-; constructor|].
  destruct (f x) eqn:E; [|discriminate]. cbn [bind] in H. destruct (mapM f l); [|discriminate].
  injection H as <-. constructor; [exact E|now apply IH].
Qed.

(** the first failure decides *)
Lemma mapM_fails {A B} (f : A -> res B) e l :
  (forall x, In x l -> (exists y, f x = Ok y) \/ f x = Err e) ->
  (exists x, In x l /\ f x = Err e) -> mapM f l = Err e.
Proof.
  induction l as [|x l IH]; intros H (z & HZ & EZ); [destruct HZ|]. cbn [mapM].
  destruct (H x (or_introl eq_refl)) as [(y & E)|E]; rewrite E; [|reflexivity]. cbn [bind].
  rewrite IH; [reflexivity|intros w HW; apply H; now right|].
  destruct HZ as [->|HZ]; [congruence|]. now exists z.
Qed.

(** ** humanize *)

Lemma humanize_entity_raw ord o e name : reorders ord ->
  index2name (entity2index o) (e_label e) = Ok name -> named (entity2index o) (e_label e) name ->
  exists r, humanize_entity ord o e = Ok (raw_entity r) /\ raw_of (entity2index o) e r /\
    w_replacements r = match e_replacements e with [] => [] | l => ord l end.
Proof.
  intros HO E HN. unfold humanize_entity. rewrite E. cbn [bind].
  exists (mkRaw name (e_start e) (e_end e) (match e_replacements e with [] => [] | l => ord l end)).
  split; [|split; [|reflexivity]].
  - unfold no_replacements, raw_entity. cbn [w_name w_start w_end w_replacements].
    destruct (e_replacements e) as [|r rs]; [reflexivity|]. cbn [length Nat.eqb].
    specialize (HO (r :: rs)). destruct (ord (r :: rs)) as [|a l]; [|reflexivity].
    apply Permutation_nil in HO. discriminate.
  - split; [exact HN|]. split; [reflexivity|]. split; [reflexivity|]. cbn [w_replacements].
    destruct (e_replacements e); [reflexivity|apply HO].
Qed.

Lemma Forall2_cons_nil {A B} (R : A -> B -> Prop) x l : ~ Forall2 R (x :: l) [].
Proof. intros H. inversion H. Qed.

Lemma humanize_known ord o d : reorders ord -> known o d ->
  exists names es, humanize ord o d = Ok (raw_datum (d_utterance d) names es) /\
    Forall2 (named (intent2index o)) (d_intents d) names /\
    Forall2 (raw_of (entity2index o)) (d_entities d) es.
Proof.
  intros HO (K1 & K2). rewrite Forall_forall in K1, K2. unfold humanize.
  destruct (mapM_Forall2 (index2name (intent2index o)) (named (intent2index o)) (d_intents d)) as (names & EN & HN).
  { intros i HI. destruct (index2name_cases (intent2index o) i) as [(n & E & HN)|(_ & C)];
      [now exists n|]. destruct (C (K1 i HI)). }
  rewrite EN. cbn [bind].
  assert (HE : exists es, mapM (humanize_entity ord o) (d_entities d) = Ok (map raw_entity es) /\
                     Forall2 (raw_of (entity2index o)) (d_entities d) es).
  { clear EN HN names K1. induction (d_entities d) as [|e l IH].
    - exists []. split; [reflexivity|constructor].
    - destruct IH as (es & ES & HS); [intros x HX; apply K2; now right|].
      specialize (K2 e (or_introl eq_refl)).
      destruct (index2name_cases (entity2index o) (e_label e)) as [(n & E & HN)|(_ & C)]; [|destruct (C K2)].
      destruct (humanize_entity_raw ord o e n HO E HN) as (r & ER & HR & _).
      exists (r :: es). cbn [mapM map]. rewrite ER, ES. split; [reflexivity|now constructor]. }
  destruct HE as (es & ES & HS). unfold has_entities.
  exists names, es. split; [|split; assumption].
  destruct (d_entities d) as [|e l].
  - inversion HS; subst. reflexivity.
  - cbn [length Nat.ltb Nat.leb]. rewrite ES. cbn [bind]. inversion HS; subst. reflexivity.
Qed.

Lemma known_dec m i : known_index m i \/ ~ known_index m i.
Proof. destruct (index2name_cases m i) as [(n & _ & H)|(_ & H)]; [left; now exists n|now right]. Qed.

Lemma Forall_or_not {A} (P : A -> Prop) l : (forall x, P x \/ ~ P x) -> Forall P l \/ exists x, In x l /\ ~ P x.
Proof.
  intros HD. induction l as [|x l IH]; [left; constructor|].
  destruct (HD x) as [HX|HX]; [|right; exists x; split; [now left|exact HX]].
  destruct IH as [IH|(y & HY & NY)]; [left; now constructor|right; exists y; split; [now right|exact NY]].
Qed.

Lemma humanize_unknown ord o d : ~ known o d -> humanize ord o d = Err KeyErr.
Proof.
  intros HK. unfold humanize.
  destruct (Forall_or_not (known_index (intent2index o)) (d_intents d) (known_dec _)) as [K1|(i & HI & NI)].
  - destruct (Forall_or_not (fun e => known_index (entity2index o) (e_label e)) (d_entities d)
                (fun e => known_dec _ _)) as [K2|(e & HE & NE)]; [destruct (HK (conj K1 K2))|].
    rewrite Forall_forall in K1.
    destruct (mapM_Forall2 (index2name (intent2index o)) (named (intent2index o)) (d_intents d)) as (names & EN & _).
    { intros j HJ. destruct (index2name_cases (intent2index o) j) as [(n & E & HN)|(_ & C)];
        [now exists n|]. destruct (C (K1 j HJ)). }
    rewrite EN. cbn [bind]. unfold has_entities.
    assert (ES : mapM (humanize_entity ord o) (d_entities d) = Err KeyErr).
    { apply mapM_fails.
      - intros x _. unfold humanize_entity.
        destruct (index2name_cases (entity2index o) (e_label x)) as [(n & -> & _)|(-> & _)]; cbn [bind];
          [left; eexists; reflexivity|now right].
      - exists e. split; [exact HE|]. unfold humanize_entity.
        destruct (index2name_cases (entity2index o) (e_label e)) as [(n & _ & C)|(-> & _)]; [|reflexivity].
        destruct NE. now exists n. }
    rewrite ES. now destruct (d_entities d).
  - rewrite (mapM_fails _ KeyErr); [reflexivity| |].
    + intros x _. destruct (index2name_cases (intent2index o) x) as [(n & E & _)|(E & _)];
        [left; now exists n|now right].
    + exists i. split; [exact HI|]. destruct (index2name_cases (intent2index o) i) as [(n & _ & C)|(E & _)]; [|exact E].
      destruct NI. now exists n.
Qed.

(** ** machanize *)

Lemma mapM_map {A B C} (f : B -> res C) (g : A -> B) l : mapM f (map g l) = mapM (fun x => f (g x)) l.
Proof. induction l as [|x l IH]; [reflexivity|]. cbn [map mapM]. now rewrite IH. Qed.

Lemma as_strs_strs l : as_strs (JList (map JStr l)) = Ok l.
Proof.
  unfold as_strs. cbn [as_list bind]. rewrite mapM_map. apply mapM_of_Forall2.
  induction l; constructor; auto.
Qed.

Lemma make_entity_again l v a b r :
  (l <- to_i32 l ;; a <- to_i32 a ;; b <- to_i32 b ;; make_entity l v a b r) = make_entity l v a b r.
Proof.
  unfold make_entity. unfold to_i32 at 1 2 3. destruct (i32b l) eqn:L; cbn [bind]; [|unfold to_i32; now rewrite L].
  destruct (i32b a) eqn:X; cbn [bind]; [|unfold to_i32; now rewrite L, X].
  destruct (i32b b) eqn:Y; cbn [bind]; [|unfold to_i32; now rewrite L, X, Y]. reflexivity.
Qed.

(** what machanize makes of one raw entity *)
Lemma machanize_raw o u r :
  machanize_entity o (JStr u) (raw_entity r) =
  (label <- lookup (entity2index o) (JStr (w_name r)) ;;
   make_entity label (slice_z u (w_start r) (w_end r)) (w_start r) (w_end r) (Some (w_replacements r))).
Proof.
  destruct r as [n s t l]. unfold machanize_entity, raw_entity. cbn [w_name w_start w_end w_replacements].
  destruct l as [|x l].
  - change (key (JDict _) K_name) with (Ok (JStr n)) at 1. cbn [bind].
    destruct (lookup (entity2index o) (JStr n)) as [i|]; [|reflexivity]. cbn [bind].
    change (key (JDict _) K_start) with (Ok (JInt s)). change (key (JDict _) K_end) with (Ok (JInt t)).
    unfold cut_value, c_int. cbn [bind as_int as_str cut_bound]. exact (make_entity_again i _ s t (Some [])).
  - change (key (JDict _) K_name) with (Ok (JStr n)) at 1. cbn [bind].
    destruct (lookup (entity2index o) (JStr n)) as [i|]; [|reflexivity]. cbn [bind].
    change (key (JDict _) K_start) with (Ok (JInt s)). change (key (JDict _) K_end) with (Ok (JInt t)).
    unfold cut_value, c_int. cbn [bind as_int as_str cut_bound].
    change (key (JDict _) K_replacements) with (Ok (JList (map JStr (x :: l)))).
    cbv iota beta. rewrite as_strs_strs. cbn [bind]. apply make_entity_again.
Qed.

Lemma machanize_unfold o u names es :
  machanize o (raw_datum u names es) =
  (intents <- mapM (fun n => i <- lookup (intent2index o) (JStr n) ;; make_intent i) names ;;
   entities <- mapM (fun r => machanize_entity o (JStr u) (raw_entity r)) es ;;
   make_datum u (Some intents) (Some entities)).
Proof.
  unfold machanize, raw_datum.
  change (key (JDict _) K_utterance) with (Ok (JStr u)). cbn [bind as_str].
  change (key (JDict _) K_intent) with (Ok (JDict [(txt "names", JList (map JStr names))])). cbn [bind].
  change (key (JDict [(txt "names", JList (map JStr names))]) K_names) with (Ok (JList (map JStr names))).
  cbn [bind as_list]. rewrite mapM_map.
  destruct (mapM _ names) as [ints|]; [|reflexivity]. cbn [bind].
  destruct es as [|e es]; [reflexivity|].
  change (key (JDict _) K_entities) with (Ok (JList (map raw_entity (e :: es)))).
  cbn [as_list bind]. now rewrite mapM_map.
Qed.

Lemma insert_by_map {A B} (f : A -> B) (key : B -> Z) x l :
  insert_by key (f x) (map f l) = map f (insert_by (fun a => key (f a)) x l).
Proof.
  induction l as [|y l IH]; [reflexivity|]. cbn [map insert_by]. destruct (_ <=? _); [reflexivity|].
  cbn [map]. now rewrite IH.
Qed.
Lemma sort_by_map {A B} (f : A -> B) (key : B -> Z) l :
  sort_by key (map f l) = map f (sort_by (fun a => key (f a)) l).
Proof.
  induction l as [|x l IH]; [reflexivity|]. cbn [map].
  change (sort_by key (f x :: map f l)) with (insert_by key (f x) (sort_by key (map f l))).
  rewrite IH, insert_by_map. reflexivity.
Qed.
Lemma insert_by_ext {A} (k1 k2 : A -> Z) x l : k1 x = k2 x -> (forall y, In y l -> k1 y = k2 y) ->
  insert_by k1 x l = insert_by k2 x l.
Proof.
  intros EX. induction l as [|y l IH]; intros H; [reflexivity|]. cbn [insert_by].
  rewrite EX, (H y (or_introl eq_refl)), IH by (intros z HZ; apply H; now right). reflexivity.
Qed.
Lemma sort_by_ext {A} (k1 k2 : A -> Z) l : (forall y, In y l -> k1 y = k2 y) -> sort_by k1 l = sort_by k2 l.
Proof.
  induction l as [|x l IH]; intros H; [reflexivity|].
  change (sort_by k1 (x :: l)) with (insert_by k1 x (sort_by k1 l)).
  change (sort_by k2 (x :: l)) with (insert_by k2 x (sort_by k2 l)).
  rewrite IH by (intros y HY; apply H; now right). apply insert_by_ext; [apply H; now left|].
  intros y HY. apply H. right. eapply Permutation_in; [apply sort_by_perm|exact HY].
Qed.

Definition described (m : list (str * Z)) (u : str) (r : raw) : entity :=
  mkEntity (index_of m (w_name r)) (slice_z u (w_start r) (w_end r)) (w_start r) (w_end r)
           (dedup (w_replacements r)).

Lemma index_of_In m n : is_dict m -> known_name m n -> In (n, index_of m n) m.
Proof.
  intros HD (i & HI). unfold index_of. now rewrite (dict_get_In_NoDup m n i HD HI).
Qed.
Lemma index_of_lookup m n : is_dict m -> known_name m n -> lookup m (JStr n) = Ok (index_of m n).
Proof. intros HD HK. apply lookup_In; [exact HD|now apply index_of_In]. Qed.

Lemma described_of m u r : is_dict m -> known_name m (w_name r) -> entity_of m u r (described m u r).
Proof.
  intros HD HK. unfold entity_of, described. cbn [e_label e_start e_end e_value e_replacements].
  split; [now apply index_of_In|]. split; [reflexivity|]. split; [reflexivity|]. split; [reflexivity|].
  split; [intros x; apply in_dedup|apply NoDup_dedup].
Qed.

Lemma in_index_i32 m n : is_dict m -> Forall i32 (map snd m) -> known_name m n -> i32 (index_of m n).
Proof.
  intros HD HF HK. rewrite Forall_forall in HF. apply HF.
  apply (in_map snd _ (n, index_of m n)). now apply index_of_In.
Qed.

Lemma raw_apart_map m u es : StronglySorted raw_apart es <-> StronglySorted apart (map (described m u) es).
Proof.
  split.
  - intros H. apply StronglySorted_map. exact H.
  - induction es as [|r es IH]; intros H; [constructor|]. cbn [map] in H. apply StronglySorted_inv in H.
    destruct H as (H & HF). constructor; [now apply IH|]. rewrite Forall_map in HF. exact HF.
Qed.

Lemma machanize_known o u names es : is_dict (intent2index o) -> is_dict (entity2index o) -> small o ->
  Forall (fun r => i32 (w_start r) /\ i32 (w_end r)) es -> all_known o names es ->
  machanize o (raw_datum u names es) =
  make_datum u (Some (map (index_of (intent2index o)) names))
               (Some (map (described (entity2index o) u) es)).
Proof.
  intros D1 D2 (S1 & S2) HI (K1 & K2). rewrite machanize_unfold.
  rewrite (mapM_ok _ (index_of (intent2index o))).
  2:{ eapply Forall_impl; [|exact K1]. intros n HK. rewrite index_of_lookup by assumption. cbn [bind].
      apply to_i32_ok. now apply in_index_i32. }
  cbn [bind]. rewrite (mapM_ok _ (described (entity2index o) u)); [reflexivity|].
  rewrite Forall_forall in *. intros r HR. specialize (K2 r HR). destruct (HI r HR) as (I1 & I2).
  rewrite machanize_raw, index_of_lookup by assumption. cbn [bind].
  rewrite make_entity_ok; [reflexivity| |exact I1|exact I2].
  apply in_index_i32; [exact D2|rewrite Forall_forall; exact S2|exact K2].
Qed.

Lemma described_position m u es :
  Forall (fun e => e_value e = slice_z u (e_start e) (e_end e)) (map (described m u) es).
Proof. apply Forall_map, Forall_forall. intros r _. reflexivity. Qed.

Lemma known_name_dec m n : known_name m n \/ ~ known_name m n.
Proof.
  destruct (dict_get m n) as [i|] eqn:E.
  - left. exists i. now apply dict_get_In.
  - right. apply dict_get_None in E. intros (i & HI). apply E. apply (in_map fst) in HI. exact HI.
Qed.

Lemma machanize_unknown o u names es : is_dict (intent2index o) -> is_dict (entity2index o) -> small o ->
  Forall (fun r => i32 (w_start r) /\ i32 (w_end r)) es -> ~ all_known o names es ->
  machanize o (raw_datum u names es) = Err KeyErr.
Proof.
  intros D1 D2 (S1 & S2) HI HK. rewrite machanize_unfold.
  assert (NM : forall n, known_name (intent2index o) n ->
    (i <- lookup (intent2index o) (JStr n) ;; make_intent i) = Ok (index_of (intent2index o) n)).
  { intros n K. rewrite index_of_lookup by assumption. cbn [bind]. apply to_i32_ok. now apply in_index_i32. }
  assert (NU : forall m n, is_dict m -> ~ known_name m n -> lookup m (JStr n) = Err KeyErr).
  { intros m n D K. destruct (lookup_cases m n D) as [(i & _ & HIn)|(E & _)]; [|exact E].
    destruct K. now exists i. }
  destruct (Forall_or_not (known_name (intent2index o)) names (known_name_dec _)) as [K1|(n & HN & NN)].
  - rewrite (mapM_ok _ (index_of (intent2index o))).
    2:{ eapply Forall_impl; [|exact K1]. exact NM. }
    cbn [bind].
    destruct (Forall_or_not (fun r => known_name (entity2index o) (w_name r)) es (fun r => known_name_dec _ _))
      as [K2|(r & HR & NR)]; [destruct (HK (conj K1 K2))|].
    rewrite (mapM_fails _ KeyErr); [reflexivity| |].
    + intros x HX. rewrite machanize_raw. rewrite Forall_forall in HI. destruct (HI x HX) as (I1 & I2).
      destruct (known_name_dec (entity2index o) (w_name x)) as [K|K].
      * left. rewrite index_of_lookup by assumption. cbn [bind].
        rewrite make_entity_ok; [eexists; reflexivity| |exact I1|exact I2]. now apply in_index_i32.
      * right. now rewrite NU.
    + exists r. split; [exact HR|]. rewrite machanize_raw. now rewrite NU.
  - rewrite (mapM_fails _ KeyErr); [reflexivity| |].
    + intros x HX. destruct (known_name_dec (intent2index o) x) as [K|K].
      * left. rewrite NM by exact K. eexists. reflexivity.
      * right. now rewrite NU.
    + exists n. split; [exact HN|]. now rewrite NU.
Qed.

Lemma index_nonneg m n : indices (map snd m) -> is_dict m -> known_name m n -> 0 <= index_of m n.
Proof.
  intros (_ & HF) HD HK. rewrite Forall_forall in HF.
  apply (HF (index_of m n)). apply (in_map snd _ (n, index_of m n)). now apply index_of_In.
Qed.

Lemma hash_nonneg i : 0 <= i -> intent_hash i = i.
Proof. intros H. unfold intent_hash. destruct (Z.eqb_spec i (-1)); [lia|reflexivity]. Qed.

(** every outcome of machanize *)
Lemma machanize_cases o u names es : is_ordinal o -> small o ->
  Forall (fun r => i32 (w_start r) /\ i32 (w_end r)) es ->
  (all_known o names es /\ StronglySorted raw_apart es /\ exists d ints ents,
     machanize o (raw_datum u names es) = Ok d /\ is_datum d /\ d_utterance d = u /\
     Forall2 (fun n i => named (intent2index o) i n) names ints /\
     stably_sorted (fun i => i) ints (d_intents d) /\
     Forall2 (entity_of (entity2index o) u) es ents /\
     stably_sorted e_start ents (d_entities d)) \/
  (all_known o names es /\ ~ StronglySorted raw_apart es /\
     machanize o (raw_datum u names es) = Err EntityOverlapErr) \/
  (~ all_known o names es /\ machanize o (raw_datum u names es) = Err KeyErr).
Proof.
  intros HO HS HI. destruct (is_ordinal_inv o HO) as (D1 & D2 & V1 & _).
  destruct (Forall_or_not (known_name (intent2index o)) names (known_name_dec _)) as [K1|(n & HN & NN)].
  2:{ right; right. assert (NK : ~ all_known o names es).
      { intros (C & _). rewrite Forall_forall in C. exact (NN (C n HN)). }
      split; [exact NK|now apply machanize_unknown]. }
  destruct (Forall_or_not (fun r => known_name (entity2index o) (w_name r)) es (fun r => known_name_dec _ _))
    as [K2|(r & HR & NR)].
  2:{ right; right. assert (NK : ~ all_known o names es).
      { intros (_ & C). rewrite Forall_forall in C. exact (NR (C r HR)). }
      split; [exact NK|now apply machanize_unknown]. }
  pose proof (machanize_known o u names es D1 D2 HS HI (conj K1 K2)) as E. rewrite E.
  set (ints := map (index_of (intent2index o)) names). set (ents := map (described (entity2index o) u) es).
  destruct (make_datum_cases u (Some ints) (Some ents)) as [(EM & HP & HA)|[(EM & HP)|(EM & HP & HA)]].
  - left. split; [now split|]. apply (raw_apart_map (entity2index o) u) in HA. split; [exact HA|].
    eexists. exists ints, ents. split; [exact EM|]. split; [|split; [reflexivity|split; [|split; [|split]]]].
    + exists u, ints, ents. split; [exact EM|]. rewrite Forall_forall in HI, K1, K2. split.
      * apply Forall_forall. intros i Hi. apply in_map_iff in Hi. destruct Hi as (n & <- & HN). apply is_intent_iff.
        destruct HS as (S1 & _). apply in_index_i32; [exact D1|exact S1|now apply K1].
      * apply Forall_forall. intros e HE. apply in_map_iff in HE. destruct HE as (r & <- & HR). apply is_entity_iff.
        destruct HS as (_ & S2). destruct (HI r HR) as (I1 & I2). cbn.
        split; [apply in_index_i32; [exact D2|exact S2|now apply K2]|]. split; [exact I1|]. split; [exact I2|].
        apply NoDup_dedup.
    + subst ints. clear - K1 D1. induction K1; constructor; [now apply index_of_In|exact IHK1].
    + cbn [d_intents]. rewrite (sort_by_ext intent_hash (fun i => i)); [apply sort_by_stable|].
      intros i Hi. apply in_map_iff in Hi. destruct Hi as (n & <- & HN). apply hash_nonneg.
      rewrite Forall_forall in K1. now apply index_nonneg, K1.
    + subst ents. clear - K2 D2. induction K2; constructor; [now apply described_of|exact IHK2].
    + apply sort_by_stable.
  - destruct HP. apply described_position.
  - right; left. split; [now split|]. split; [|exact EM]. intros C. apply HA.
    now apply (raw_apart_map (entity2index o) u) in C.
Qed.

(** ** There and back *)

Lemma Forall2_map_same {A B} (f : A -> B) (R : A -> B -> Prop) l :
  (forall x, In x l -> R x (f x)) -> Forall2 R l (map f l).
Proof.
  induction l as [|x l IH]; intros H; [constructor|]. cbn. constructor; [apply H; now left|].
  apply IH. intros y HY. apply H. now right.
Qed.

Lemma same_entity_positions a b : same_entity a b ->
  e_start a = e_start b /\ e_end a = e_end b.
Proof. intros (_ & _ & H1 & H2 & _). now split. Qed.

Lemma StronglySorted_Forall2 {A B} (R : A -> A -> Prop) (S : B -> B -> Prop) (P : A -> B -> Prop) l m :
  (forall a b x y, P a x -> P b y -> R a b -> S x y) -> Forall2 P l m ->
  StronglySorted R l -> StronglySorted S m.
Proof.
  intros H HF. induction HF as [|a x l m HP HF IH]; intros HS; [constructor|].
  apply StronglySorted_inv in HS. destruct HS as (HS & HA). constructor; [now apply IH|].
  clear IH HS. induction HF as [|b y l m HB HF IH]; [constructor|].
  inversion HA; subst. constructor; [eapply H; eauto|now apply IH].
Qed.

Lemma machanize_humanize ord o d : reorders ord -> is_ordinal o -> is_datum d -> known o d ->
  exists raw d', humanize ord o d = Ok raw /\ machanize o raw = Ok d' /\
    d_utterance d' = d_utterance d /\ d_intents d' = d_intents d /\
    Forall2 same_entity (d_entities d) (d_entities d').
Proof.
  intros HO HOr HD HK. destruct (is_ordinal_inv o HOr) as (D1 & D2 & V1 & _).
  pose proof (is_datum_inv d HD) as (I1 & I2 & I3 & I4 & I5 & I6).
  destruct (humanize_known ord o d HO HK) as (names & es & EH & HN & HE).
  rewrite EH. exists (raw_datum (d_utterance d) names es). rewrite machanize_unfold.
  assert (EI : mapM (fun n => i <- lookup (intent2index o) (JStr n) ;; make_intent i) names = Ok (d_intents d)).
  { apply mapM_of_Forall2. clear - HN I1 D1. induction HN as [|i n is_ names HX HF IH]; [constructor|].
    inversion I1; subst. constructor; [|now apply IH]. rewrite (lookup_In _ n i D1 HX). cbn [bind].
    now apply to_i32_ok. }
  rewrite EI. cbn [bind].
  assert (EE : exists ents, mapM (fun r => machanize_entity o (JStr (d_utterance d)) (raw_entity r)) es = Ok ents /\
                       Forall2 same_entity (d_entities d) ents /\
                       Forall (fun e => e_value e = slice_z (d_utterance d) (e_start e) (e_end e)) ents).
  { clear - HE I2 I6 D2. induction HE as [|e r l es HX HF IH].
    - exists []. split; [reflexivity|]. split; constructor.
    - inversion I2 as [|? ? HEnt I2']; subst. inversion I6 as [|? ? HV I6']; subst.
      destruct (IH I2' I6') as (ents & E & F1 & F2).
      destruct HX as (X1 & X2 & X3 & X4).
      apply is_entity_iff in HEnt. destruct HEnt as (N1 & N2 & N3 & N4).
      exists (mkEntity (e_label e) (slice_z (d_utterance d) (w_start r) (w_end r)) (w_start r) (w_end r)
               (dedup (w_replacements r)) :: ents).
      cbn [mapM]. rewrite machanize_raw, (lookup_In _ _ _ D2 X1). cbn [bind].
      rewrite make_entity_ok by congruence. cbn [bind]. rewrite E. split; [reflexivity|]. split.
      + constructor; [|exact F1]. unfold same_entity.
        cbn [e_label e_value e_start e_end e_replacements]. rewrite X2, X3.
        split; [reflexivity|]. split; [exact HV|]. split; [reflexivity|]. split; [reflexivity|].
        intros x. rewrite in_dedup. split; intros H.
        * eapply Permutation_in; [symmetry; exact X4|exact H].
        * eapply Permutation_in; [exact X4|exact H].
      + constructor; [reflexivity|exact F2]. }
  destruct EE as (ents & -> & F1 & F2). cbn [bind].
  assert (SS : StronglySorted (fun a b => e_start a <= e_start b) ents).
  { eapply StronglySorted_Forall2; [|exact F1|exact I4]. intros a b x y PA PB. cbn.
    apply same_entity_positions in PA, PB. destruct PA as (-> & _), PB as (-> & _). auto. }
  rewrite make_datum_ok; [|exact F2|].
  - eexists. split; [reflexivity|]. split; [reflexivity|]. cbn [d_utterance d_intents d_entities].
    split; [reflexivity|]. split; [now apply sort_by_id|]. now rewrite sort_by_id.
  - assert (SB : StronglySorted before ents).
    { eapply StronglySorted_Forall2; [|exact F1|exact I5]. intros a b x y PA PB. unfold before.
      apply same_entity_positions in PA, PB. destruct PA as (_ & ->), PB as (-> & _). auto. }
    clear - SS SB. induction ents as [|e ents IH]; [constructor|].
    apply StronglySorted_inv in SS, SB. destruct SS as (SS & FS), SB as (SB & FB).
    constructor; [now apply IH|]. rewrite Forall_forall in *. intros x HX. specialize (FS x HX). cbn in FS.
    unfold apart. destruct (Z.leb_spec (e_start e) (e_start x)); [now apply FB|lia].
Qed.

Lemma humanize_machanize ord o u names es d : reorders ord -> is_ordinal o -> small o ->
  NoDup (map snd (entity2index o)) ->
  Forall (fun r => i32 (w_start r) /\ i32 (w_end r)) es ->
  machanize o (raw_datum u names es) = Ok d ->
  exists names' es2 es', humanize ord o d = Ok (raw_datum u names' es') /\
    stably_sorted (index_of (intent2index o)) names names' /\
    stably_sorted w_start es es2 /\ Forall2 same_raw es2 es'.
Proof.
  intros HO HOr HS HND HI E. destruct (is_ordinal_inv o HOr) as (D1 & D2 & V1 & _).
  destruct (machanize_cases o u names es HOr HS HI) as [((K1 & K2) & HA & _)|[(_ & _ & C)|(_ & C)]];
    [|congruence..].
  rewrite (machanize_known o u names es D1 D2 HS HI (conj K1 K2)) in E.
  rewrite make_datum_ok in E; [|apply described_position|now apply (raw_apart_map (entity2index o) u)].
  assert (d = mkDatum u (sort_by intent_hash (map (index_of (intent2index o)) names))
                (sort_by e_start (map (described (entity2index o) u) es))) as -> by congruence. clear E.
  rewrite (sort_by_map (index_of (intent2index o)) intent_hash names).
  rewrite (sort_by_map (described (entity2index o) u) e_start es).
  rewrite (sort_by_ext _ (index_of (intent2index o)) names).
  2:{ intros n HN. rewrite Forall_forall in K1. apply hash_nonneg, index_nonneg; auto. }
  change (fun a => e_start (described (entity2index o) u a)) with w_start.
  set (names' := sort_by (index_of (intent2index o)) names). set (es2 := sort_by w_start es).
  assert (K1' : Forall (known_name (intent2index o)) names').
  { eapply Permutation_Forall; [symmetry; apply sort_by_perm|exact K1]. }
  assert (K2' : Forall (fun r => known_name (entity2index o) (w_name r)) es2).
  { eapply Permutation_Forall; [symmetry; apply sort_by_perm|exact K2]. }
  unfold humanize. cbn [d_intents d_utterance d_entities has_entities].
  assert (EN : mapM (index2name (intent2index o)) (map (index_of (intent2index o)) names') = Ok names').
  { rewrite mapM_map. apply mapM_of_Forall2. clear - K1' D1 V1. induction K1'; constructor; [|exact IHK1'].
    apply index2name_In; [apply V1|now apply index_of_In]. }
  rewrite EN. cbn [bind].
  assert (EE : exists es', mapM (humanize_entity ord o) (map (described (entity2index o) u) es2) =
                      Ok (map raw_entity es') /\ Forall2 same_raw es2 es').
  { clear - K2' D2 HND HO. induction K2' as [|r l HK _ (es' & E & F)].
    - exists []. split; [reflexivity|constructor].
    - destruct (humanize_entity_raw ord o (described (entity2index o) u r) (w_name r) HO) as (r' & ER & HR & HW).
      + apply index2name_In; [exact HND|now apply index_of_In].
      + now apply index_of_In.
      + exists (r' :: es'). cbn [map mapM]. rewrite ER, E. split; [reflexivity|]. constructor; [|exact F].
        destruct HR as (R1 & R2 & R3 & R4). unfold same_raw. cbn [described e_start e_end e_label e_replacements] in *.
        split; [|split; [congruence|split; [congruence|]]].
        * clear - R1 HK D2 HND. pose proof (index_of_In _ _ D2 HK) as I1.
          apply (index2name_In _ _ _ HND) in I1. apply (index2name_In _ _ _ HND) in R1. congruence.
        * intros x. rewrite <- (in_dedup x (w_replacements r)). split; intros H.
          -- eapply Permutation_in; [symmetry; exact R4|exact H].
          -- eapply Permutation_in; [exact R4|exact H]. }
  destruct EE as (es' & EE & F). exists names', es2, es'. split; [|split; [apply sort_by_stable|split; [apply sort_by_stable|exact F]]].
  unfold has_entities. cbn [d_entities]. destruct es2 as [|r l].
  - inversion F; subst. reflexivity.
  - cbn [map length Nat.ltb Nat.leb]. cbn [map] in EE. rewrite EE. cbn [bind]. inversion F; subst. reflexivity.
Qed.

(** without a name that collides, indices are unique *)
Lemma ordinal_NoDup o : is_ordinal o -> ~ In not_entity (map fst (entity2index o)) ->
  NoDup (map snd (entity2index o)).
Proof.
  intros HO HN. apply is_ordinal_inv in HO. destruct HO as (_ & _ & _ & (V & _)).
  rewrite others_none in V by exact HN. now inversion V.
Qed.
