(** Proofs about labels made from values of any form (C102). *)

From Coq Require Import String Sorted.
From Verif Require Import Py PyFacts Json SpecJson JsonProofs SpecOps Elements SpecElements SpecOrdinal SpecRaw DatumProofs PackProofs
  OrdinalProofs RawProofs Pipe SpecPipe JsonAscii SpecJsonAscii JsonAsciiProofs SpecForeign SpecGrammar GrammarProofs
  ForeignProofs SpecStored StoredProofs OrdinalAny SpecOrdinal SpecRaw SpecOrdinalAny.
From Coq Require Import List Permutation Lia.
Import ListNotations.
Local Open Scope Z_scope.

(** ** Comparing *)

Lemma ltb_numbers x y a b : whole x a -> whole y b -> py_ltb x y = Ok (a <? b).
Proof. intros H K. destruct H, K; reflexivity. Qed.

Lemma ltb_err x y e : py_ltb x y = Err e -> e = TypeErr.
Proof.
  revert y. induction x as [ |p|p|p|l IH|l IH|d IH] using jval_rec'; intros y; destruct y as [ |q|q|q|m|m|d']; cbn [py_ltb];
    try (intros H; congruence).
  all: revert m; induction IH as [|x l HX _ IL]; intros [|y m]; try discriminate; destruct (py_eqb x y); [exact (IL m)|exact (HX y)].
Qed.

Lemma number_dec v : is_number v \/ ~ is_number v.
Proof.
  destruct (as_int_cases v) as [(z & _ & W)|(_ & N)]; [left; now exists z|right; intros (z & W); exact (N z W)].
Qed.
Lemma text_dec v : is_text v \/ ~ is_text v.
Proof. destruct v; try (right; intros (s & H); discriminate H). left. now exists s. Qed.

Lemma number_bool b : is_number (JBool b).
Proof. destruct b; [exists 1|exists 0]; constructor. Qed.
Lemma number_int z : is_number (JInt z).
Proof. exists z. constructor. Qed.
Lemma text_str t : is_text (JStr t).
Proof. now exists t. Qed.
Lemma no_number v : match v with JBool _ | JInt _ => False | _ => True end -> ~ is_number v.
Proof. intros H (z & W). destruct W; exact H. Qed.
Lemma no_text v : match v with JStr _ => False | _ => True end -> ~ is_text v.
Proof. intros H (t & ->). exact H. Qed.

Lemma ltb_flat x y : flat x -> flat y ->
  (exists b, py_ltb x y = Ok b /\ ((is_number x /\ is_number y) \/ (is_text x /\ is_text y))) \/
  (py_ltb x y = Err TypeErr /\ ~ (is_number x /\ is_number y) /\ ~ (is_text x /\ is_text y)).
Proof.
  intros FX FY.
  destruct x as [ |p|p|p|p|p|p]; try contradiction FX; destruct y as [ |q|q|q|q|q|q]; try contradiction FY;
  first
  [ left; eexists; split; [reflexivity|];
    first [ left; split; first [apply number_bool|apply number_int] | right; split; apply text_str ]
  | right; split; [reflexivity|]; split; intros [A B];
    first [ revert A; apply no_number; exact Logic.I | revert B; apply no_number; exact Logic.I
          | revert A; apply no_text; exact Logic.I | revert B; apply no_text; exact Logic.I ] ].
Qed.

(** ** Sorting *)

Lemma insert_perm x l r : py_insert x l = Ok r -> Permutation (x :: l) r.
Proof.
  revert r. induction l as [|y l IH]; intros r; cbn [py_insert]; [now intros [= <-]|].
  destruct (py_ltb y x) as [[]|]; [| |discriminate]; cbn [bind].
  - destruct (py_insert x l) as [t|] eqn:E; [|discriminate]. cbn [bind]. intros [= <-].
    rewrite perm_swap. constructor. now apply IH.
  - now intros [= <-].
Qed.
Lemma sorted_perm l r : py_sorted l = Ok r -> Permutation l r.
Proof.
  revert r. induction l as [|x l IH]; intros r; cbn [py_sorted]; [now intros [= <-]|].
  destruct (py_sorted l) as [t|]; [|discriminate]. cbn [bind]. intros H. apply insert_perm in H.
  rewrite <- H. constructor. now apply IH.
Qed.

Lemma insert_err x l e : py_insert x l = Err e -> e = TypeErr.
Proof.
  revert e. induction l as [|y l IH]; intros e; cbn [py_insert]; [discriminate|].
  destruct (py_ltb y x) as [[]|e'] eqn:E; cbn [bind].
  - destruct (py_insert x l); [discriminate|]. cbn [bind]. intros [= <-]. now apply IH.
  - discriminate.
  - intros [= <-]. now apply ltb_err in E.
Qed.
Lemma sorted_err l e : py_sorted l = Err e -> e = TypeErr.
Proof.
  revert e. induction l as [|x l IH]; intros e; cbn [py_sorted]; [discriminate|].
  destruct (py_sorted l) as [t|]; cbn [bind]; [apply insert_err|]. intros [= <-]. now apply IH.
Qed.

Lemma insert_numbers x z l zs : whole x z -> Forall2 whole l zs ->
  exists r, py_insert x l = Ok r /\ Forall2 whole r (insert_by (fun x => x) z zs).
Proof.
  intros W F. induction F as [|y b l zs B F IH]; cbn [py_insert insert_by].
  - eexists. split; [reflexivity|]. constructor; [exact W|constructor].
  - rewrite (ltb_numbers y x b z B W). cbn [bind]. rewrite Z.leb_antisym.
    destruct (b <? z); cbn [negb].
    + destruct IH as (r & -> & G). cbn [bind]. eexists. split; [reflexivity|]. now constructor.
    + eexists. split; [reflexivity|]. constructor; [exact W|]. constructor; assumption.
Qed.
Lemma sorted_numbers l zs : Forall2 whole l zs ->
  exists r, py_sorted l = Ok r /\ Forall2 whole r (sort_by (fun x => x) zs).
Proof.
  intros F. induction F as [|x z l zs W F IH]; cbn [py_sorted]; [exists []; split; [reflexivity|constructor]|].
  destruct IH as (r & -> & G). cbn [bind]. exact (insert_numbers x z r _ W G).
Qed.

Lemma insert_texts x l : is_text x -> Forall is_text l -> exists r, py_insert x l = Ok r.
Proof.
  intros (s & ->) F. induction F as [|y l (t & ->) F IH]; cbn [py_insert py_ltb bind]; [eauto|].
  destruct (negb _); [|eauto]. destruct IH as (r & ->). cbn [bind]. eauto.
Qed.

Lemma numbers_list l : Forall is_number l -> exists zs, Forall2 whole l zs.
Proof. induction 1 as [|x l (z & W) F (zs & G)]; [exists []; constructor|]. exists (z :: zs). now constructor. Qed.

Lemma sorted_texts l : Forall is_text l -> exists r, py_sorted l = Ok r.
Proof.
  induction 1 as [|x l T F (r & E)]; cbn [py_sorted]; [eauto|]. rewrite E. cbn [bind].
  apply insert_texts; [exact T|]. apply sorted_perm in E. now rewrite <- E.
Qed.

Lemma sortable_perm l m : Permutation l m -> sortable l -> sortable m.
Proof.
  intros P. unfold sortable. rewrite (Permutation_length P).
  intros [H|[H|H]]; [now left|right; left|right; right]; now rewrite <- P.
Qed.

Lemma sortable_sorts l : sortable l -> exists r, py_sorted l = Ok r.
Proof.
  intros [H|[H|H]].
  - destruct l as [|x [|y l]]; cbn in *; try lia; eauto.
  - destruct (numbers_list _ H) as (zs & F). destruct (sorted_numbers _ _ F) as (r & E & _). eauto.
  - now apply sorted_texts.
Qed.

Lemma sorts_sortable l r : Forall flat l -> py_sorted l = Ok r -> sortable l.
Proof.
  revert r. induction l as [|x l IH]; intros r F; cbn [py_sorted]; [intros _; left; cbn; lia|].
  inversion F as [|? ? FX FL]; subst. destruct (py_sorted l) as [t|] eqn:E; [|discriminate]. cbn [bind]. intros H.
  specialize (IH _ FL eq_refl). pose proof (sorted_perm _ _ E) as P.
  assert (FT : Forall flat t) by now rewrite <- P.
  apply (sortable_perm (x :: t)); [now constructor|]. pose proof (sortable_perm _ _ P IH) as ST.
  destruct t as [|y t]; [left; cbn; lia|]. right.
  inversion FT as [|? ? FY _]; subst. cbn [py_insert] in H.
  destruct (ltb_flat y x FY FX) as [(b & _ & B)|(B & _)]; [|rewrite B in H; discriminate].
  assert (D : forall v, is_number v -> is_text v -> False).
  { intros v (z & W) (s & ->). inversion W. }
  destruct ST as [L|[N|T]].
  - destruct t; [|cbn in L; lia]. destruct B as [[]|[]]; [left|right]; now repeat constructor.
  - left. constructor; [|exact N]. destruct B as [[]|[]]; [assumption|]. exfalso. inversion N; subst. eauto.
  - right. constructor; [|exact T]. destruct B as [[]|[]]; [|assumption]. exfalso. inversion T; subst. eauto.
Qed.

(** ** is_valid_mapping *)

Lemma eq_range l zs : py_eqb (JList l) (JList (map JInt zs)) = true <-> Forall2 whole l zs.
Proof.
  cbn [py_eqb]. revert zs. induction l as [|x l IH]; intros [|z zs]; cbn [map]; split; intros H; try discriminate; try constructor;
    try (now inversion H).
  - apply andb_prop in H. destruct H as [H _]. destruct x; cbn in H; try discriminate.
    + apply Z.eqb_eq in H. subst. destruct b; constructor.
    + apply Z.eqb_eq in H. subst. constructor.
  - apply andb_prop in H. now apply IH.
  - inversion H; subst. apply andb_true_intro. split; [|now apply IH].
    match goal with W : whole _ _ |- _ => destruct W end; [cbn; apply Z.eqb_refl|reflexivity|reflexivity].
Qed.

Lemma sort_indices zs : indices zs <-> sort_by (fun x => x) zs = zrange 0 (Z.of_nat (length zs)).
Proof.
  rewrite indices_perm. split.
  - intros P. apply (sorted_perm_unique Z.le); [intros; lia|apply sort_by_sorted|apply zrange_sorted|].
    now rewrite sort_by_perm.
  - intros E. rewrite <- E. symmetry. apply sort_by_perm.
Qed.

Lemma counted_numbers vs : counted vs -> Forall is_number vs.
Proof. intros (zs & F & _). induction F; constructor; [eexists; eassumption|assumption]. Qed.

Lemma valid_counted d : valid_any (JDict d) = Ok true <-> counted (map snd d).
Proof.
  cbn [valid_any]. split.
  - destruct (py_sorted (map snd d)) as [l|] eqn:E; [|discriminate]. cbn [bind]. intros H.
    assert (K : py_eqb (JList l) (JList (map JInt (zrange 0 (Z.of_nat (length l))))) = true) by congruence.
    apply eq_range in K. pose proof (sorted_perm _ _ E) as P.
    destruct (Permutation_Forall2 (Permutation_sym P) K) as (zs & Q & F). exists zs. split; [exact F|].
    apply indices_perm. rewrite <- (Permutation_length Q), length_zrange. 
    replace (Z.of_nat _) with (Z.of_nat (length l)) by lia. now symmetry.
  - intros (zs & F & HI). destruct (sorted_numbers _ _ F) as (r & -> & G). cbn [bind]. f_equal. apply eq_range.
    apply sort_indices in HI. rewrite HI in G. 
    replace (length r) with (length zs); [exact G|]. 
    assert (L : length r = length (zrange 0 (Z.of_nat (length zs)))) by (clear -G; induction G; cbn; congruence).
    rewrite L, length_zrange. lia.
Qed.

Lemma valid_cases d :
  (valid_any (JDict d) = Ok true /\ counted (map snd d)) \/
  (valid_any (JDict d) = Ok false /\ ~ counted (map snd d) /\ (Forall flat (map snd d) -> sortable (map snd d))) \/
  (valid_any (JDict d) = Err TypeErr /\ ~ sortable (map snd d)).
Proof.
  destruct (valid_any (JDict d)) as [[]|e] eqn:E.
  - left. split; [reflexivity|]. now apply valid_counted.
  - right. left. split; [reflexivity|]. split.
    + intros C. apply valid_counted in C. congruence.
    + cbn [valid_any] in E. destruct (py_sorted (map snd d)) as [l|] eqn:S'; [|discriminate]. intros F.
      exact (sorts_sortable _ _ F S').
  - right. right. cbn [valid_any] in E. destruct (py_sorted (map snd d)) as [l|e'] eqn:S'; [discriminate|].
    pose proof (sorted_err _ _ S') as ->. cbn [bind] in E. split; [congruence|]. intros C.
    destruct (sortable_sorts _ C) as (r & R). congruence.
Qed.

Lemma dict_set_any d ne : is_dict d ->
  Permutation (map snd (dict_set d NOT_ENTITY_NAME ne)) (ne :: other_values d).
Proof.
  change NOT_ENTITY_NAME with not_entity. unfold is_dict, other_values.
  assert (N0 : forall d : list (str * jval), ~ In not_entity (map fst d) ->
    filter (fun kv => negb (eqb (fst kv) not_entity)) d = d).
  { intros m H. apply filter_all. intros [k v] HK. cbn [fst].
    destruct (eqb_spec k not_entity) as [->|]; [|reflexivity]. exfalso. apply H. exact (in_map fst _ _ HK). }
  induction d as [|[k v] d IH]; intros HND; [reflexivity|].
  cbn [map fst] in HND. inversion HND as [|? ? N ND]; subst. cbn [dict_set].
  destruct (eqb_spec not_entity k) as [<-|NE].
  - cbn [map snd]. constructor. cbn [filter fst].
    destruct (eqb_spec not_entity not_entity); [|congruence]. cbn [negb]. now rewrite N0.
  - cbn [map snd filter fst]. destruct (eqb_spec k not_entity); [congruence|].
    cbn [negb map snd]. rewrite (IH ND). apply perm_swap.
Qed.

Lemma counted_perm l m : Permutation l m -> counted l -> counted m.
Proof.
  intros P (zs & F & HI). destruct (Permutation_Forall2 P F) as (ys & Q & G). exists ys. split; [exact G|].
  exact (indices_Permutation _ _ Q HI).
Qed.

(** ** The constructor *)

Theorem new_accepts i e n r : (forall d, e = JDict d -> is_dict d) ->
  ordinal_new i e n = Ok r <->
  exists di de, i = JDict di /\ e = JDict de /\ counted (map snd di) /\ counted (n :: other_values de) /\ r = mkAny i e n.
Proof.
  intros HD. unfold ordinal_new. split.
  - destruct i as [ | | | | | |di]; try discriminate.
    destruct (valid_cases di) as [(-> & C)|[(-> & _)|(-> & _)]]; try discriminate. cbn [bind guard].
    destruct e as [ | | | | | |de]; try discriminate. cbn [bind].
    destruct (valid_cases (dict_set de NOT_ENTITY_NAME n)) as [(-> & D)|[(-> & _)|(-> & _)]]; try discriminate. cbn [bind guard].
    intros [= <-]. exists di, de. repeat split; try assumption.
    exact (counted_perm _ _ (dict_set_any de n (HD _ eq_refl)) D).
  - intros (di & de & -> & -> & C & D & ->). apply valid_counted in C. rewrite C. cbn [bind guard].
    apply (counted_perm _ (map snd (dict_set de NOT_ENTITY_NAME n))) in D; [|symmetry; exact (dict_set_any de n (HD _ eq_refl))].
    apply valid_counted in D. rewrite D. reflexivity.
Qed.

Theorem new_errors i e n x : ordinal_new i e n = Err x ->
  (x = AttributeErr /\ no_dict i) \/ (x = TypeErr /\ ~ no_dict i) \/ (x = ValueErr /\ ~ no_dict i).
Proof.
  unfold ordinal_new.
  destruct i as [ | | | | | |di]; try (intros [= <-]; left; split; [reflexivity|intros d; discriminate]).
  assert (N : ~ no_dict (JDict di)) by (intros H; exact (H di eq_refl)).
  destruct (valid_cases di) as [(-> & _)|[(-> & _)|(-> & _)]]; cbn [bind guard]; try (intros [= <-]; tauto).
  destruct e as [ | | | | | |de]; cbn [bind]; try (intros [= <-]; tauto).
  destruct (valid_cases (dict_set de NOT_ENTITY_NAME n)) as [(-> & _)|[(-> & _)|(-> & _)]]; cbn [bind guard]; try (intros [= <-]; tauto).
Qed.

Lemma counted_sortable vs : counted vs -> sortable vs.
Proof. intros C. right. left. now apply counted_numbers. Qed.

Theorem new_refuses i e n x : simple i -> simple e -> flat n ->
  ordinal_new i e n = Err x <-> turned_down i e n x.
Proof.
  intros SI SE FN.
  assert (G : (exists r, ordinal_new i e n = Ok r /\ forall y, ~ turned_down i e n y) \/
              (exists y, ordinal_new i e n = Err y /\ turned_down i e n y /\ forall z, turned_down i e n z -> z = y)).
  2:{ destruct G as [(r & E & N)|(y & E & T & U)]; rewrite E.
      - split; [discriminate|]. intros T. now apply N in T.
      - split; [now intros [= <-]|]. intros T2. now rewrite (U _ T2). }
  unfold ordinal_new.
  destruct i as [ | | | | | |di].
  1-6: right; exists AttributeErr; split; [reflexivity|]; split; [apply no_intents; intros d; discriminate|];
    intros z0 T; inversion T; congruence.
  assert (NI : ~ no_dict (JDict di)) by (intros H; exact (H di eq_refl)).
  destruct (SI di eq_refl) as [DI FI].
  destruct (valid_cases di) as [(-> & C)|[(-> & NC & FS)|(-> & NS)]]; cbn [bind guard].
  3:{ right. eexists. split; [reflexivity|]. split; [now apply (intents_mixed _ _ _ di)|].
      intros z0 T. destruct T as [N|d E N|d E K N|d E K N|d de E K EE N|d de E K EE N N']; try reflexivity; try contradiction;
        injection E as <-; exfalso; auto using counted_sortable. }
  2:{ right. eexists. split; [reflexivity|]. specialize (FS FI). split; [now apply (intents_wrong _ _ _ di)|].
      intros z0 T. destruct T as [N|d E N|d E K N|d E K N|d de E K EE N|d de E K EE N N']; try reflexivity; try contradiction;
        injection E as <-; contradiction. }
  destruct e as [ | | | | | |de].
  1-6: right; exists TypeErr; split; [reflexivity|]; split; [apply (no_entities _ _ _ di); [reflexivity|exact C|intros d; discriminate]|];
    intros z0 T; destruct T as [N|d E N|d E K N|d E K N|d de E K EE N|d de E K EE N N']; try reflexivity; try contradiction;
        try discriminate; injection E as <-; contradiction.
  assert (NE : ~ no_dict (JDict de)) by (intros H; exact (H de eq_refl)).
  destruct (SE de eq_refl) as [DE FE]. cbn [bind]. pose proof (dict_set_any de n DE) as P.
  assert (FO : Forall flat (map snd (dict_set de NOT_ENTITY_NAME n))).
  { rewrite P. constructor; [exact FN|]. unfold other_values. rewrite Forall_forall in FE |- *. intros v HV.
    apply in_map_iff in HV. destruct HV as (kv & <- & HV). apply filter_In in HV. apply FE. now apply in_map. }
  destruct (valid_cases (dict_set de NOT_ENTITY_NAME n)) as [(-> & D)|[(-> & ND & FS)|(-> & NS)]]; cbn [bind guard].
  - left. eexists. split; [reflexivity|]. apply (counted_perm _ _ P) in D.
    intros y T; destruct T as [N|d E N|d E K N|d E K N|d de' E K EE N|d de' E K EE N N']; try contradiction; try injection EE as <-;
      injection E as <-; auto using counted_sortable.
  - right. eexists. split; [reflexivity|]. specialize (FS FO).
    assert (ND' : ~ counted (n :: other_values de)) by (intros K; apply ND; revert K; apply counted_perm; now symmetry).
    apply (sortable_perm _ _ P) in FS. split; [now apply (entities_wrong _ _ _ di de)|].
    intros y T; destruct T as [N|d E N|d E K N|d E K N|d de' E K EE N|d de' E K EE N N']; try reflexivity; try contradiction; try injection EE as <-;
      injection E as <-; try contradiction; exfalso; auto using counted_sortable.
  - right. eexists. split; [reflexivity|].
    assert (NS' : ~ sortable (n :: other_values de)) by (intros K; apply NS; revert K; apply sortable_perm; now symmetry).
    split; [now apply (entities_mixed _ _ _ di de)|].
    intros y T; destruct T as [N|d E N|d E K N|d E K N|d de' E K EE N|d de' E K EE N N']; try reflexivity; try contradiction; try injection EE as <-;
      injection E as <-; try contradiction; exfalso; auto using counted_sortable.
Qed.

(** ** The same object with integers *)

Lemma as_numbers_values d m : as_numbers d m -> Forall2 whole (map snd d) (map snd m).
Proof. induction 1 as [|? ? ? ? [_ W] F IH]; cbn; constructor; assumption. Qed.
Lemma as_numbers_keys d m : as_numbers d m -> map fst d = map fst m.
Proof. induction 1 as [|? ? ? ? [W _] F IH]; cbn; congruence. Qed.
Lemma as_numbers_others d m : as_numbers d m -> Forall2 whole (other_values d) (map snd (others m)).
Proof.
  unfold other_values, others. induction 1 as [|[k v] [k' z] d m [HK W] F IH]; [constructor|]. cbn [fst snd] in HK, W. subst k'.
  cbn [filter fst]. destruct (eqb k not_entity); cbn [negb map snd]; [exact IH|]. constructor; assumption.
Qed.
Lemma whole_list_fun vs a b : Forall2 whole vs a -> Forall2 whole vs b -> a = b.
Proof.
  intros F. revert b. induction F as [|v z vs a W F IH]; intros b G; inversion G; subst; [reflexivity|].
  f_equal; [eapply whole_fun; eassumption|now apply IH].
Qed.

Lemma counted_indices vs zs : Forall2 whole vs zs -> counted vs <-> indices zs.
Proof.
  intros F. split; [|intros H; now exists zs]. intros (ys & G & HI). now rewrite (whole_list_fun _ _ _ F G).
Qed.

Theorem new_as_integers di de n mi me z : is_dict de -> as_numbers di mi -> as_numbers de me -> whole n z ->
  (make_ordinal mi me z = Ok (mkOrdinal mi me z) /\
   ordinal_new (JDict di) (JDict de) n = Ok (mkAny (JDict di) (JDict de) n)) \/
  (make_ordinal mi me z = Err ValueErr /\ ordinal_new (JDict di) (JDict de) n = Err ValueErr).
Proof.
  intros HD FI FE W.
  assert (DE : is_dict me) by (unfold is_dict; rewrite <- (as_numbers_keys _ _ FE); exact HD).
  assert (HD' : forall d, JDict de = JDict d -> is_dict d) by (intros d [= <-]; exact HD).
  pose proof (counted_indices _ _ (as_numbers_values _ _ FI)) as CI.
  assert (FO : Forall2 whole (n :: other_values de) (z :: map snd (others me))) by (constructor; [exact W|now apply as_numbers_others]).
  pose proof (counted_indices _ _ FO) as CE.
  destruct (make_ordinal_cases mi me z DE) as [(-> & A & B)|(-> & N)].
  - left. split; [reflexivity|]. apply new_accepts; [exact HD'|]. exists di, de. rewrite CI, CE. auto.
  - right. split; [reflexivity|].
    assert (NI : Forall is_number (map snd di)).
    { clear -FI. induction FI as [|? ? ? ? [_ W] F IH]; cbn; constructor; [eexists; exact W|exact IH]. }
    assert (NE : Forall is_number (n :: other_values de)).
    { clear -FO. induction FO as [|? ? ? ? W F IH]; constructor; [eexists; exact W|exact IH]. }
    unfold ordinal_new.
    destruct (valid_cases di) as [(-> & C)|[(-> & _)|(_ & S')]]; [|reflexivity|exfalso; apply S'; right; now left].
    cbn [bind guard].
    destruct (valid_cases (dict_set de NOT_ENTITY_NAME n)) as [(_ & D)|[(-> & _)|(_ & S')]]; [|reflexivity|].
    + exfalso. apply N. rewrite <- CI, <- CE. split; [exact C|]. exact (counted_perm _ _ (dict_set_any de n HD) D).
    + exfalso. apply S'. right. left. now rewrite (dict_set_any de n HD).
Qed.

Lemma index2name_same d m idx : as_numbers d m -> index2name_any d idx = index2name m idx.
Proof.
  induction 1 as [|[k v] [k' z] d m [HK W] F IH]; [reflexivity|]. cbn in HK, W. subst k'. cbn [index2name_any index2name].
  rewrite IH. destruct W; reflexivity.
Qed.

Lemma as_int_whole v z : whole v z -> as_int v = Ok z.
Proof. destruct 1; reflexivity. Qed.

Lemma lookup_same d m name : as_numbers d m ->
  (v <- lookup_in d name ;; as_int v) = lookup m name.
Proof.
  intros F. destruct name; try reflexivity; cbn [lookup_in lookup]; [|destruct (hashable _); reflexivity].
  induction F as [|[k v] [k' z] d m [HK W] F IH]; [reflexivity|]. cbn in HK, W. subst k'. cbn [dict_get].
  destruct (eqb s k); [|exact IH]. cbn [bind]. now apply as_int_whole.
Qed.

Theorem humanize_same ord o di de n mi me z :
  as_numbers di mi -> as_numbers de me ->
  humanize_any ord (mkAny (JDict di) (JDict de) n) o = humanize ord (mkOrdinal mi me z) o.
Proof.
  intros FI FE. unfold humanize_any, humanize. cbn [any_intents any_entities dict_in intent2index entity2index].
  assert (M1 : mapM (index2name_any di) (d_intents o) = mapM (index2name mi) (d_intents o)).
  { induction (d_intents o) as [|x l IH]; [reflexivity|]. cbn [mapM]. rewrite IH. now rewrite (index2name_same _ _ x FI). }
  rewrite M1. destruct (mapM (index2name mi) (d_intents o)); [|reflexivity]. cbn [bind].
  assert (M2 : mapM (humanize_entity_any ord (mkAny (JDict di) (JDict de) n)) (d_entities o) =
               mapM (humanize_entity ord (mkOrdinal mi me z)) (d_entities o)).
  { induction (d_entities o) as [|x l' IH]; [reflexivity|]. cbn [mapM]. rewrite IH. unfold humanize_entity_any, humanize_entity.
    cbn [any_entities dict_in entity2index]. now rewrite (index2name_same _ _ _ FE). }
  now rewrite M2.
Qed.

Theorem machanize_same raw di de n mi me z :
  as_numbers di mi -> as_numbers de me ->
  machanize_in (mkAny (JDict di) (JDict de) n) raw = machanize (mkOrdinal mi me z) raw.
Proof.
  intros FI FE. unfold machanize_in, machanize. cbn [any_intents any_entities dict_in intent2index entity2index].
  destruct (key raw K_utterance) as [u|]; [|reflexivity]. cbn [bind].
  destruct (key raw K_intent) as [it|]; [|reflexivity]. cbn [bind].
  destruct (key it K_names) as [ns|]; [|reflexivity]. cbn [bind].
  destruct (as_list ns) as [l|]; [|reflexivity]. cbn [bind].
  assert (M1 : mapM (fun n => v <- lookup_in di n ;; i <- as_int v ;; make_intent i) l =
               mapM (fun n => i <- lookup mi n ;; make_intent i) l).
  { induction l as [|x l IH]; [reflexivity|]. cbn [mapM]. rewrite IH. pose proof (lookup_same _ _ x FI) as L.
    destruct (lookup_in di x) as [v|] eqn:E; cbn [bind] in *; rewrite <- L; [|reflexivity].
    now destruct (as_int v). }
  rewrite M1. clear M1. destruct (mapM (fun n => i <- lookup mi n ;; make_intent i) l); [|reflexivity]. cbn [bind].
  assert (M2 : forall r, machanize_entity_in (mkAny (JDict di) (JDict de) n) u r = machanize_entity (mkOrdinal mi me z) u r).
  { intros r. unfold machanize_entity_in, machanize_entity. cbn [any_entities dict_in entity2index].
    destruct (key r K_name) as [nm|]; [|reflexivity]. cbn [bind].
    destruct (lookup_in de nm) as [v|] eqn:E; pose proof (lookup_same _ _ nm FE) as L; rewrite E in L; cbn [bind] in L.
    - assert (exists y, as_int v = Ok y) as (y & Y).
      { destruct nm; cbn [lookup_in] in E; try discriminate.
        - clear L. induction FE as [|[k w] [k' y] d m [HK W] F IH]; [discriminate|]. cbn [dict_get] in E.
          destruct (eqb s k); [|now apply IH]. injection E as <-. exists y. now apply as_int_whole.
        - destruct (hashable _); discriminate. }
      rewrite Y in L. rewrite <- L. cbn [bind].
      destruct (key r K_start); [|reflexivity]. cbn [bind]. destruct (key r K_end); [|reflexivity]. cbn [bind].
      destruct (cut_value u _ _); [|reflexivity]. cbn [bind]. unfold c_int at 1. now rewrite Y.
    - rewrite <- L. reflexivity. }
  destruct (key raw K_entities) as [es|]; [|reflexivity].
  destruct (as_list es) as [le|]; [|reflexivity]. cbn [bind].
  assert (M3 : mapM (machanize_entity_in (mkAny (JDict di) (JDict de) n) u) le = mapM (machanize_entity (mkOrdinal mi me z) u) le).
  { induction le as [|x le IH]; [reflexivity|]. cbn [mapM]. now rewrite IH, M2. }
  now rewrite M3.
Qed.

(** ** Reading and writing *)

Theorem load_reads s v : json_text v s ->
  (no_dict v -> ordinal_load s = Err TypeErr) /\
  (forall d, v = JDict d ->
     (forall k, In k ["intent2index"; "entity2index"; "not_entity_index"]%string -> ~ In (txt k) (map fst d) ->
        ordinal_load s = Err KeyErr) /\
     (forall i e n, In (txt "intent2index", i) d -> In (txt "entity2index", e) d -> In (txt "not_entity_index", n) d ->
        ordinal_load s = ordinal_new i e n)).
Proof.
  intros J. pose proof J as J'. apply loads_iff in J. unfold ordinal_load. rewrite J. cbn [bind]. split.
  - intros N. destruct v; try reflexivity. now destruct (N d).
  - intros d ->. pose proof (json_text_keys _ _ J') as ND. split.
    + assert (K : forall k, ~ In k (map fst d) -> key (JDict d) k = Err KeyErr).
      { intros k N. cbn [key]. destruct (dict_get d k) as [x|] eqn:E; [|reflexivity]. exfalso. apply N.
        apply dict_get_In in E. exact (in_map fst _ _ E). }
      assert (K' : forall k, key (JDict d) k = Err KeyErr \/ exists x, key (JDict d) k = Ok x).
      { intros k. cbn [key]. destruct (dict_get d k); eauto. }
      intros k [<-|[<-|[<-|[]]]] N; apply K in N.
      * change K_INTENT2INDEX with (txt "intent2index"). now rewrite N.
      * change K_ENTITY2INDEX with (txt "entity2index"). rewrite N.
        destruct (K' K_INTENT2INDEX) as [-> |(x & ->)]; reflexivity.
      * change K_NOT_ENTITY_INDEX with (txt "not_entity_index"). rewrite N.
        destruct (K' K_INTENT2INDEX) as [-> |(x & ->)]; [reflexivity|]. cbn [bind].
        destruct (K' K_ENTITY2INDEX) as [-> |(y & ->)]; reflexivity.
    + intros i e n H1 H2 H3.
      change K_INTENT2INDEX with (txt "intent2index"). rewrite (key_In d _ i ND H1). cbn [bind].
      change K_ENTITY2INDEX with (txt "entity2index"). rewrite (key_In d _ e ND H2). cbn [bind].
      change K_NOT_ENTITY_INDEX with (txt "not_entity_index"). now rewrite (key_In d _ n ND H3).
Qed.

Theorem load_not_json s : no_floats s -> (forall v, ~ json_text v s) -> ordinal_load s = Err ValueErr.
Proof. intros _ H. unfold ordinal_load. now rewrite (loads_none s H). Qed.

Lemma number_plain v : is_number v -> all_texts sound v /\ no_tuple v.
Proof. intros (z & W). destruct W; split; exact Logic.I. Qed.

Theorem load_stored i e n r : ordinal_new i e n = Ok r ->
  all_texts sound i -> all_texts sound e -> no_tuple e -> ordinal_load (serialize_any r) = Ok r.
Proof.
  intros H TI TE NE.
  assert (DE : forall d, e = JDict d -> is_dict d) by (intros d ->; apply TE).
  pose proof (proj1 (new_accepts _ _ _ _ DE) H) as (di & de & -> & -> & CI & CE & ->).
  apply counted_numbers in CI, CE. inversion CE as [|? ? NN _]; subst. apply number_plain in NN. destruct NN as [TN NN].
  assert (NI : no_tuple (JDict di)).
  { cbn [no_tuple]. rewrite (fold_Forall (fun kv => no_tuple (snd kv))). rewrite Forall_map in CI.
    eapply Forall_impl; [|exact CI]. intros kv K. now apply number_plain. }
  unfold serialize_any, ordinal_load. cbn [any_intents any_entities any_not_entity].
  rewrite loads_dumps_ascii.
  2:{ change (NoDup (map fst [(K_INTENT2INDEX, JDict di); (K_ENTITY2INDEX, JDict de); (K_NOT_ENTITY_INDEX, n)]) /\
        (sound K_INTENT2INDEX /\ all_texts sound (JDict di)) /\ (sound K_ENTITY2INDEX /\ all_texts sound (JDict de)) /\
        (sound K_NOT_ENTITY_INDEX /\ all_texts sound n) /\ True).
      split; [repeat constructor; cbn; intuition discriminate|].
      repeat match goal with |- _ /\ _ => split | |- sound _ => apply sound_printable; printable end; auto; try (apply TI); try apply TE. }
  rewrite as_json_same.
  2:{ change (no_tuple (JDict di) /\ no_tuple (JDict de) /\ no_tuple n /\ True). auto. }
  cbn [bind].
  change (key (JDict ((K_INTENT2INDEX, ?a) :: _)) K_INTENT2INDEX) with (Ok a). cbn [bind].
  change (key (JDict (_ :: (K_ENTITY2INDEX, ?a) :: _)) K_ENTITY2INDEX) with (Ok a). cbn [bind].
  change (key (JDict (_ :: _ :: (K_NOT_ENTITY_INDEX, ?a) :: _)) K_NOT_ENTITY_INDEX) with (Ok a).
  cbn [bind]. exact H.
Qed.

(** ** Everything that is accepted has its integers *)

Theorem accepted_numbers di e n r : ordinal_new (JDict di) e n = Ok r -> exists mi, as_numbers di mi /\ indices (map snd mi).
Proof.
  unfold ordinal_new. destruct (valid_cases di) as [(-> & C)|[(-> & _)|(-> & _)]]; try discriminate. intros _.
  destruct C as (zs & F & HI). 
  assert (G : exists mi, as_numbers di mi /\ map snd mi = zs).
  { clear HI. revert zs F. induction di as [|[k v] di IH]; intros zs F; cbn [map snd] in F; inversion F as [|? z ? zs' W F']; subst.
    - exists []. split; [constructor|reflexivity].
    - destruct (IH _ F') as (mi & A & E). exists ((k, z) :: mi). split; [constructor; [split; [reflexivity|exact W]|exact A]|].
      cbn [map snd]. congruence. }
  destruct G as (mi & A & <-). eauto.
Qed.

Theorem ignored_value di de n m : is_dict de -> is_dict m ->
  (forall k, k <> not_entity -> dict_get de k = dict_get m k) ->
  (exists r, ordinal_new (JDict di) (JDict de) n = Ok r) <-> (exists r, ordinal_new (JDict di) (JDict m) n = Ok r).
Proof.
  intros D1 D2 K.
  assert (G : Permutation (other_values de) (other_values m)).
  { unfold other_values. apply Permutation_map.
    assert (ND : forall d : list (str * jval), is_dict d -> NoDup (filter (fun kv => negb (eqb (fst kv) not_entity)) d)).
    { intros d D. apply NoDup_filter. now apply NoDup_map_inv in D. }
    apply NoDup_Permutation; [now apply ND|now apply ND|]. intros [k x]. rewrite !filter_In. cbn [fst].
    destruct (eqb_spec k not_entity) as [->|NE]; cbn [negb]; [intuition discriminate|].
    specialize (K k NE). split; intros [HI _]; split; auto.
    - apply dict_get_In. rewrite <- K. now apply dict_get_In_NoDup.
    - apply dict_get_In. rewrite K. now apply dict_get_In_NoDup. }
  split; intros (r & H); apply new_accepts in H; try (now intros d [= <-]);
    destruct H as (a & b & [= <-] & [= <-] & CI & CE & _); eexists; apply new_accepts; try (now intros d [= <-]);
    do 2 eexists; (do 3 (split; [try reflexivity; exact CI|])); (split; [|reflexivity]);
    eapply counted_perm; try exact CE; constructor; (exact G || symmetry; exact G).
Qed.

Theorem load_agrees d s i2i e2i ne : json_text (JDict d) s -> is_dict e2i ->
  In (txt "intent2index", positions i2i) d -> In (txt "entity2index", positions e2i) d ->
  In (txt "not_entity_index", JInt ne) d ->
  (ordinal_deserialize s = Ok (mkOrdinal i2i e2i ne) /\
   ordinal_load s = Ok (mkAny (positions i2i) (positions e2i) (JInt ne))) \/
  (ordinal_deserialize s = Err ValueErr /\ ordinal_load s = Err ValueErr).
Proof.
  intros J D H1 H2 H3. rewrite (ordinal_written d i2i e2i ne s J H1 H2 H3).
  destruct (load_reads s (JDict d) J) as [_ L]. rewrite (proj2 (L d eq_refl) _ _ _ H1 H2 H3).
  assert (A : forall m : list (str * Z), as_numbers (map (fun kv => (fst kv, JInt (snd kv))) m) m).
  { induction m as [|kv m IH]; constructor; [split; [reflexivity|constructor]|exact IH]. }
  unfold positions. apply new_as_integers; auto; [|constructor].
  unfold is_dict. rewrite map_map. exact D.
Qed.
