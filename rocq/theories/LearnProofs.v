(** Proofs about OrdinalLabel.from_raw_dictionary (C51). *)

From Coq Require Import String QArith Sorted.
From Verif Require Import Py PyFacts Json SpecOps Elements SpecElements DatumProofs PackProofs
  SpecOrdinal OrdinalProofs.
From Coq Require Import List Lia.
Local Open Scope Z_scope.

(** ** The numbers that are given out *)

Fixpoint count_from (skip : option Z) (i : Z) (n : nat) : list Z :=
  match n with
  | O => []
  | S n => let i := match skip with Some k => if i =? k then i + 1 else i | None => i end in
           i :: count_from skip (i + 1) n
  end.

Definition skipping (skip : option Z) (i j : Z) : Z :=
  match skip with Some k => if (i <=? k) && (k <=? j) then j + 1 else j | None => j end.

Lemma count_from_past skip i n : (match skip with Some k => k < i | None => True end) ->
  count_from skip i n = zrange i (i + Z.of_nat n).
Proof.
  revert i; induction n as [|n IH]; intros i H; cbn [count_from].
  - now rewrite zrange_nil by lia.
  - rewrite zrange_cons by lia. replace (match skip with Some k => _ | None => i end) with i.
    + f_equal. rewrite IH; [f_equal; lia|]. destruct skip; [lia|exact H].
    + destruct skip as [k|]; [|reflexivity]. destruct (Z.eqb_spec i k); [lia|reflexivity].
Qed.

Lemma count_from_map skip i n :
  count_from skip i n = map (skipping skip i) (zrange i (i + Z.of_nat n)).
Proof.
  revert i; induction n as [|n IH]; intros i; cbn [count_from].
  - now rewrite zrange_nil by lia.
  - rewrite zrange_cons by lia. cbn [map]. destruct skip as [k|].
    + destruct (Z.eqb_spec i k) as [->|N].
      * f_equal; [unfold skipping; destruct (Z.leb_spec k k); [reflexivity|lia]|].
        rewrite count_from_past by lia. replace (k + Z.of_nat (S n)) with (k + 1 + Z.of_nat n) by lia.
        unfold zrange. rewrite map_map.
        replace (Z.to_nat (k + 1 + 1 + Z.of_nat n - (k + 1 + 1))) with n by lia.
        replace (Z.to_nat (k + 1 + Z.of_nat n - (k + 1))) with n by lia.
        apply map_ext. intros j. unfold skipping.
        destruct (Z.leb_spec k k), (Z.leb_spec k (k + 1 + Z.of_nat j)); cbn [andb]; lia.
      * f_equal.
        -- unfold skipping. destruct (Z.leb_spec i k), (Z.leb_spec k i); cbn [andb]; lia.
        -- rewrite IH. replace (i + Z.of_nat (S n)) with (i + 1 + Z.of_nat n) by lia.
           apply map_ext_in. intros j HJ. apply in_zrange in HJ. unfold skipping.
           destruct (Z.leb_spec i k), (Z.leb_spec (i + 1) k), (Z.leb_spec k j); cbn [andb]; lia.
    + f_equal. rewrite IH. replace (i + Z.of_nat (S n)) with (i + 1 + Z.of_nat n) by lia. reflexivity.
Qed.

Lemma filter_zrange_id p a b : (forall i, a <= i < b -> p i = true) -> filter p (zrange a b) = zrange a b.
Proof. intros H. apply filter_all. intros i HI. apply H. now apply in_zrange. Qed.

Lemma count_from_filter skip i n :
  count_from skip i n =
  firstn n (filter (fun j => match skip with Some k => negb (j =? k) | None => true end)
                   (zrange i (i + Z.of_nat (S n)))).
Proof.
  revert i; induction n as [|n IH]; intros i; [reflexivity|].
  rewrite zrange_cons by lia. cbn [filter count_from].
  destruct skip as [k|].
  - destruct (Z.eqb_spec i k) as [->|N]; cbn [negb].
    + rewrite filter_zrange_id by (intros j HJ; destruct (Z.eqb_spec j k); [lia|reflexivity]).
      rewrite (zrange_cons (k + 1)) by lia. cbn [firstn]. f_equal. rewrite count_from_past by lia.
      symmetry. replace (k + Z.of_nat (S (S n))) with (k + 1 + 1 + Z.of_nat n) by lia.
      apply firstn_all2. rewrite length_zrange. lia.
    + cbn [firstn]. f_equal. rewrite IH. do 2 f_equal. f_equal. lia.
  - cbn [firstn]. f_equal. rewrite IH. do 2 f_equal. f_equal. lia.
Qed.

Lemma counting_from skip n : counting skip n = count_from skip 0 n.
Proof.
  rewrite count_from_filter. unfold counting, zrange. do 2 f_equal.
  replace (Z.to_nat (0 + Z.of_nat (S n) - 0)) with (S n) by lia. apply map_ext. intros j. lia.
Qed.

Lemma counting_map skip n : counting skip n = map (skipping skip 0) (zrange 0 (Z.of_nat n)).
Proof. rewrite counting_from, count_from_map. reflexivity. Qed.

Lemma counting_length skip n : length (counting skip n) = n.
Proof. rewrite counting_map, map_length, length_zrange. lia. Qed.

Lemma zrange_firstn a b n : (Z.of_nat n <= b - a) -> firstn n (zrange a b) = zrange a (a + Z.of_nat n).
Proof.
  intros H. unfold zrange. rewrite firstn_map. f_equal.
  replace (Z.to_nat (b - a)) with (n + (Z.to_nat (b - a) - n))%nat by lia.
  rewrite seq_app, firstn_app, seq_length, Nat.sub_diag, firstn_O, app_nil_r.
  rewrite firstn_all2 by (rewrite seq_length; lia). f_equal. lia.
Qed.

Lemma counting_firstn skip j n : (j <= n)%nat -> firstn j (counting skip n) = counting skip j.
Proof. intros H. rewrite !counting_map, firstn_map, zrange_firstn by lia. f_equal. Qed.

Lemma counting_None n : counting None n = zrange 0 (Z.of_nat n).
Proof. rewrite counting_map. apply map_id. Qed.

Lemma skipping_lt ne a b : skipping (Some ne) 0 a = skipping (Some ne) 0 b -> a = b.
Proof.
  unfold skipping. destruct (Z.leb_spec 0 ne), (Z.leb_spec ne a), (Z.leb_spec ne b); cbn [andb]; lia.
Qed.

Lemma indices_counting ne n : indices (ne :: counting (Some ne) n) <-> 0 <= ne <= Z.of_nat n.
Proof.
  unfold indices. cbn [length]. rewrite counting_length. split.
  - intros (_ & H). inversion H; subst. lia.
  - intros H. rewrite counting_map. split.
    + constructor.
      * intros C. apply in_map_iff in C. destruct C as (j & E & _). unfold skipping in E.
        destruct (Z.leb_spec 0 ne), (Z.leb_spec ne j); cbn [andb] in E; lia.
      * apply FinFun.Injective_map_NoDup; [|apply zrange_NoDup]. intros a b. apply skipping_lt.
    + constructor; [lia|]. rewrite Forall_map, Forall_forall. intros j HJ. apply in_zrange in HJ.
      unfold skipping. destruct ((0 <=? ne) && (ne <=? j)); lia.
Qed.

Lemma indices_zrange n : indices (zrange 0 (Z.of_nat n)).
Proof. apply indices_perm. rewrite length_zrange. now replace (Z.of_nat (Z.to_nat (Z.of_nat n - 0))) with (Z.of_nat n) by lia. Qed.

(** ** Names in order of first appearance *)

Lemma first_seen_ext a b l : same_set a b -> first_seen a l = first_seen b l.
Proof.
  revert a b; induction l as [|x l IH]; intros a b H; [reflexivity|]. cbn [first_seen].
  destruct (in_dec _ x a) as [I|I], (in_dec _ x b) as [J|J]; try (exfalso; firstorder; fail).
  - now apply IH.
  - f_equal. apply IH. intros y. cbn. now rewrite (H y).
Qed.

Lemma first_seen_In seen l x : In x (first_seen seen l) <-> In x l /\ ~ In x seen.
Proof.
  revert seen; induction l as [|y l IH]; intros seen; [cbn; tauto|]. cbn [first_seen].
  destruct (in_dec _ y seen) as [I|I].
  - rewrite IH. cbn. split; [tauto|]. intros ([->|H] & N); [contradiction|tauto].
  - cbn [In]. rewrite IH. cbn. split.
    + intros [->|(H & N)]; [tauto|]. split; [tauto|]. intros C. apply N. now right.
    + intros ([->|H] & N); [now left|]. destruct (list_eq_dec Z.eq_dec y x) as [->|NE]; [now left|].
      right. split; [exact H|]. intros [C|C]; [now apply NE|now apply N].
Qed.

Lemma first_seen_NoDup seen l : NoDup (first_seen seen l).
Proof.
  revert seen; induction l as [|y l IH]; intros seen; [constructor|]. cbn [first_seen].
  destruct (in_dec _ y seen) as [I|I]; [apply IH|]. constructor; [|apply IH].
  rewrite first_seen_In. cbn. tauto.
Qed.

Lemma dict_set_new {V} (d : list (str * V)) k v : ~ In k (map fst d) -> dict_set d k v = (d ++ [(k, v)])%list.
Proof.
  induction d as [|[k' v'] d IH]; intros H; [reflexivity|]. cbn [dict_set].
  destruct (eqb_spec k k') as [->|N]; [exfalso; apply H; now left|].
  cbn. f_equal. apply IH. intros C. apply H. now right.
Qed.

Lemma dict_mem_In {V} (d : list (str * V)) k : reflect (In k (map fst d)) (dict_mem d k).
Proof.
  unfold dict_mem. destruct (dict_get d k) as [v|] eqn:E; constructor.
  - apply dict_get_In in E. apply (in_map fst) in E. exact E.
  - now apply dict_get_None in E.
Qed.

Lemma number_spec skip i names d :
  number skip i names d =
  (d ++ combine (first_seen (map fst d) names)
                (count_from skip i (length (first_seen (map fst d) names))))%list.
Proof.
  revert i d; induction names as [|n names IH]; intros i d; cbn [number first_seen].
  - cbn. now rewrite app_nil_r.
  - destruct (dict_mem_In d n) as [I|I], (in_dec _ n (map fst d)) as [J|J]; try contradiction; [apply IH|].
    rewrite IH, dict_set_new by exact I. cbn [length count_from combine].
    rewrite map_app, <- app_assoc. cbn [map fst app].
    rewrite (first_seen_ext (map fst d ++ [n])%list (n :: map fst d)); [reflexivity|].
    intros x. rewrite in_app_iff. cbn. tauto.
Qed.

Lemma map_fst_combine {A B} (a : list A) (b : list B) : length a = length b -> map fst (combine a b) = a.
Proof. revert b; induction a as [|x a IH]; intros [|y b] H; try discriminate; [reflexivity|]. cbn. f_equal. auto. Qed.
Lemma map_snd_combine {A B} (a : list A) (b : list B) : length a = length b -> map snd (combine a b) = b.
Proof. revert b; induction a as [|x a IH]; intros [|y b] H; try discriminate; [reflexivity|]. cbn. f_equal. auto. Qed.

Definition numbered (skip : option Z) (names : list str) : list (str * Z) :=
  combine (first_seen [] names) (counting skip (length (first_seen [] names))).

Lemma number_numbered skip names : number skip 0 names [] = numbered skip names.
Proof. rewrite number_spec. unfold numbered. now rewrite counting_from. Qed.

Lemma numbered_names skip names : map fst (numbered skip names) = first_seen [] names.
Proof. apply map_fst_combine. now rewrite counting_length. Qed.
Lemma numbered_values skip names :
  map snd (numbered skip names) = counting skip (length (first_seen [] names)).
Proof. apply map_snd_combine. now rewrite counting_length. Qed.

(** ** When the result is a valid pair of maps *)

Lemma combine_app' {A B} (a a' : list A) (b b' : list B) : length a = length b ->
  combine (a ++ a') (b ++ b') = (combine a b ++ combine a' b')%list.
Proof. revert b; induction a as [|x a IH]; intros [|y b] H; try discriminate; [reflexivity|]. cbn. f_equal. auto. Qed.

Lemma others_app a b : others (a ++ b) = (others a ++ others b)%list.
Proof. apply filter_app. Qed.

Lemma learnable ne names :
  indices (ne :: map snd (others (numbered (Some ne) names))) <->
  (~ In not_entity names /\ 0 <= ne <= Z.of_nat (length (first_seen [] names))) \/
  ((exists before, first_seen [] names = (before ++ [not_entity])%list) /\
   0 <= ne < Z.of_nat (length (first_seen [] names))).
Proof.
  destruct (in_dec (list_eq_dec Z.eq_dec) not_entity names) as [I|I].
  2:{ rewrite others_none by (rewrite numbered_names, first_seen_In; tauto).
      rewrite numbered_values, indices_counting. split; [tauto|]. intros [H|((b & E) & _)]; [tauto|].
      destruct I. apply (first_seen_In [] names not_entity). rewrite E. apply in_app_iff. right. now left. }
  assert (IF : In not_entity (first_seen [] names)) by (apply first_seen_In; split; [exact I|tauto]).
  apply in_split in IF. destruct IF as (a & b & E). pose proof (first_seen_NoDup [] names) as ND.
  unfold numbered. rewrite E in *.
  assert (NN : ~ In not_entity (a ++ b)) by now apply NoDup_remove_2 in ND.
  set (n := length (a ++ not_entity :: b)). assert (LN : n = (length a + S (length b))%nat)
    by (unfold n; rewrite app_length; reflexivity).
  set (c := counting (Some ne) n).
  assert (LC : length c = n) by apply counting_length.
  assert (EO : map snd (others (combine (a ++ not_entity :: b) c)) =
               (firstn (length a) c ++ skipn (S (length a)) c)%list).
  { rewrite <- (firstn_skipn (length a) c) at 1.
    destruct (skipn (length a) c) as [|v t] eqn:ES.
    { apply (f_equal (@length Z)) in ES. rewrite skipn_length in ES. cbn in ES. lia. }
    rewrite combine_app' by (rewrite firstn_length; lia). rewrite others_app.
    change (combine (not_entity :: b) (v :: t)) with ((not_entity, v) :: combine b t).
    change (others ((not_entity, v) :: combine b t)) with (others (combine b t)).
    assert (ET : skipn (S (length a)) c = t).
    { replace (S (length a)) with (length a + 1)%nat by lia. rewrite <- skipn_skipn_add, ES. reflexivity. }
    assert (LT : length t = length b).
    { rewrite <- ET, skipn_length. lia. }
    rewrite !others_none.
    - rewrite map_app, map_snd_combine by (rewrite firstn_length; lia).
      rewrite map_snd_combine by lia. now rewrite ET.
    - rewrite map_fst_combine by lia. intros C. apply NN, in_app_iff. now right.
    - rewrite map_fst_combine by (rewrite firstn_length; lia). intros C. apply NN, in_app_iff. now left. }
  rewrite EO. split.
  - intros (H1 & H2). cbn [length] in H2. rewrite app_length, firstn_length, skipn_length in H2.
    right. rewrite Forall_forall in H2.
    assert (HN : 0 <= ne < Z.of_nat n).
    { specialize (H2 ne (or_introl eq_refl)). lia. }
    split; [|exact HN].
    destruct b as [|y b]; [exists a; reflexivity|exfalso].
    assert (HL : In (Z.of_nat n) (skipn (S (length a)) c)).
    { unfold c. rewrite counting_map, skipn_map. apply in_map_iff. exists (Z.of_nat n - 1). split.
      - unfold skipping. destruct (Z.leb_spec 0 ne), (Z.leb_spec ne (Z.of_nat n - 1)); cbn [andb]; lia.
      - assert (IN : In (Z.of_nat n - 1) (zrange 0 (Z.of_nat n))) by (apply in_zrange; lia).
        rewrite <- (firstn_skipn (S (length a)) (zrange 0 (Z.of_nat n))) in IN.
        apply in_app_iff in IN. destruct IN as [IN|IN]; [exfalso|exact IN].
        cbn [length] in LN. rewrite zrange_firstn in IN by lia. apply in_zrange in IN. lia. }
    specialize (H2 (Z.of_nat n)). cbn in H2. rewrite in_app_iff in H2. specialize (H2 (or_intror (or_intror HL))).
    cbn [length] in LN. lia.
  - intros [(C & _)|((bf & EB) & HN)]; [contradiction|].
    assert (b = []) as ->.
    { destruct b as [|y b] using rev_ind; [reflexivity|exfalso]. clear IHb.
      rewrite app_comm_cons, app_assoc in EB. apply app_inj_tail in EB. destruct EB as (_ & ->).
      apply NN. rewrite app_assoc. apply in_app_iff. right. now left. }
    cbn [length] in LN. rewrite skipn_all2 by lia. rewrite app_nil_r. unfold c.
    rewrite counting_firstn by lia. apply indices_counting. fold n in HN. lia.
Qed.

(** ** Reading the names *)

Lemma rows_read rows ii ee : length ii = length rows -> length ee = length rows ->
  (forall k x a b, nth_error rows k = Some x -> nth_error ii k = Some a -> nth_error ee k = Some b ->
     row x a b) ->
  mapM (fun d => i <- key d K_intent ;; ns <- key i K_names ;; as_strs ns) rows = Ok ii /\
  mapM (fun d => match d with
                 | JDict m =>
                     match dict_get m K_entities with
                     | None => Ok []
                     | Some v => l <- as_list v ;; mapM (fun e => n <- key e K_name ;; as_str n) l
                     end
                 | _ => Err AttributeErr
                 end) rows = Ok ee.
Proof.
  revert ii ee; induction rows as [|r rows IH]; intros [|i ii] [|e ee] L1 L2 H; try discriminate.
  - split; reflexivity.
  - destruct (IH ii ee) as (E1 & E2); [now injection L1|now injection L2|intros k; exact (H (S k))|].
    destruct (H 0%nat r i e eq_refl eq_refl eq_refl) as (m & k & -> & R1 & R2 & R3).
    change (txt "intent") with K_intent in R1. change (txt "names") with K_names in R2.
    change (txt "entities") with K_entities in R3.
    split; cbn [mapM].
    + cbn [key]. rewrite R1. cbn [bind key]. rewrite R2. cbn [bind]. rewrite as_strs_strs. cbn [bind].
      now rewrite E1.
    + destruct R3 as [(-> & ->)|(es & -> & HF)]; [cbn [bind]; now rewrite E2|].
      cbn [as_list bind]. rewrite (mapM_of_Forall2 _ es e).
      * cbn [bind]. now rewrite E2.
      * clear - HF. induction HF as [|x n es e (f & -> & HN) _ IH]; constructor; [|exact IH].
        change (txt "name") with K_name in HN. cbn [key]. now rewrite HN.
Qed.

Lemma from_raw_make r ints ents ne : corpus r ints ents ->
  from_raw_dictionary r ne = make_ordinal (numbered None ints) (numbered (Some ne) ents) ne.
Proof.
  intros (m & rows & ii & ee & -> & HD & L1 & L2 & H & -> & ->).
  change (txt "data") with K_data in HD. unfold from_raw_dictionary. cbn [key]. rewrite HD. cbn [bind as_list].
  destruct (rows_read rows ii ee L1 L2 H) as (E1 & E2). rewrite E1, E2. cbn [bind].
  now rewrite !number_numbered.
Qed.

Lemma numbered_dict skip names : is_dict (numbered skip names).
Proof. unfold is_dict. rewrite numbered_names. apply first_seen_NoDup. Qed.

Lemma learned_cases ints ents ne :
  let made := make_ordinal (numbered None ints) (numbered (Some ne) ents) ne in
  (exists o, made = Ok o /\ is_ordinal o /\ not_entity_index o = ne /\
     map fst (intent2index o) = first_seen [] ints /\
     map snd (intent2index o) = counting None (length (first_seen [] ints)) /\
     map fst (entity2index o) = first_seen [] ents /\
     map snd (entity2index o) = counting (Some ne) (length (first_seen [] ents)) /\
     learns ne ents) \/
  (made = Err ValueErr /\ ~ learns ne ents).
Proof.
  intros made. unfold made.
  destruct (make_ordinal_cases (numbered None ints) (numbered (Some ne) ents) ne (numbered_dict _ _))
    as [(E & _ & HI)|(E & HN)].
  - left. eexists. split; [exact E|]. cbn [intent2index entity2index not_entity_index].
    split; [|split; [reflexivity|]].
    + exists (numbered None ints), (numbered (Some ne) ents), ne.
      split; [apply numbered_dict|]. split; [apply numbered_dict|exact E].
    + split; [apply numbered_names|]. split; [apply numbered_values|]. split; [apply numbered_names|].
      split; [apply numbered_values|]. now apply learnable.
  - right. split; [exact E|]. intros C. apply HN. split; [|now apply learnable].
    rewrite numbered_values, counting_None. apply indices_zrange.
Qed.

Lemma from_raw_cases r ints ents ne : corpus r ints ents ->
  (exists o, from_raw_dictionary r ne = Ok o /\ is_ordinal o /\ not_entity_index o = ne /\
     map fst (intent2index o) = first_seen [] ints /\
     map snd (intent2index o) = counting None (length (first_seen [] ints)) /\
     map fst (entity2index o) = first_seen [] ents /\
     map snd (entity2index o) = counting (Some ne) (length (first_seen [] ents)) /\
     learns ne ents) \/
  (from_raw_dictionary r ne = Err ValueErr /\ ~ learns ne ents).
Proof. intros H. rewrite (from_raw_make _ _ _ _ H). apply learned_cases. Qed.
