(** The property theorems on datums in their final form (C45-C51, C56, C57). *)

From Coq Require Import String QArith Sorted.
From Verif Require Import Py PyFacts Json SpecOps Elements SpecElements DatumProofs PackProofs
  ExpandProofs RatioProofs SpecOrdinal OrdinalProofs LearnProofs.
From Coq Require Import List Lia.
Local Open Scope Z_scope.

(** ** C45 *)

Lemma datum_invariant u ints ents d : make_datum u (Some ints) (Some ents) = Ok d ->
  d_utterance d = u /\
  stably_sorted (fun l => if l =? -1 then -2 else l) ints (d_intents d) /\
  stably_sorted e_start ents (d_entities d) /\
  (forall e, In e (d_entities d) -> e_value e = slice_z u (e_start e) (e_end e)) /\
  StronglySorted before (d_entities d).
Proof.
  intros H. apply make_datum_inv in H. destruct H as (-> & HV & HA).
  cbn [d_utterance d_intents d_entities]. split; [reflexivity|]. split; [apply sort_by_stable|].
  split; [apply sort_by_stable|]. split.
  - intros e HE. rewrite Forall_forall in HV. apply HV.
    eapply Permutation_in; [apply sort_by_perm|exact HE].
  - now apply sort_pairs.
Qed.

Lemma datum_text d e : is_datum d -> In e (d_entities d) -> inside (d_utterance d) e ->
  text_at (d_utterance d) (e_start e) (e_end e) (e_value e).
Proof.
  intros HD HE HI. apply is_datum_inv in HD. destruct HD as (_ & _ & _ & _ & _ & HV).
  rewrite Forall_forall in HV. now apply inside_text, HV.
Qed.

Lemma datum_disjoint d i j a b c : is_datum d -> nth_error (d_entities d) i = Some a ->
  nth_error (d_entities d) j = Some b -> covers a c -> covers b c -> i = j.
Proof.
  intros HD HA HB CA CB. apply is_datum_inv in HD. destruct HD as (_ & _ & _ & _ & HS & _).
  revert i j HA HB. induction HS as [|e es HS IH HF]; intros i j HA HB; [destruct i; discriminate|].
  rewrite Forall_forall in HF. unfold before, covers in *. destruct i as [|i], j as [|j]; cbn in HA, HB.
  - reflexivity.
  - injection HA as ->. apply nth_error_In, HF in HB. lia.
  - injection HB as ->. apply nth_error_In, HF in HA. lia.
  - f_equal. eapply IH; eassumption.
Qed.

Lemma datum_accepted u ints ents :
  Forall (fun e => inside u e /\ e_start e < e_end e /\ text_at u (e_start e) (e_end e) (e_value e)) ents ->
  (forall i j a b c, nth_error ents i = Some a -> nth_error ents j = Some b ->
     covers a c -> covers b c -> i = j) ->
  exists d, make_datum u (Some ints) (Some ents) = Ok d.
Proof.
  intros HE HD. rewrite make_datum_ok; [eexists; reflexivity| |].
  - eapply Forall_impl; [|exact HE]. intros e (HI & _ & HT). now apply text_at_slice in HT; [|apply HI].
  - assert (NE : Forall (fun e => e_start e < e_end e) ents)
      by (eapply Forall_impl; [|exact HE]; intros e H; apply H).
    clear HE. induction ents as [|e ents IH]; [constructor|]. inversion NE; subst.
    constructor.
    + apply IH; [|assumption]. intros i j a b c HA HB CA CB.
      specialize (HD (S i) (S j) a b c HA HB CA CB). lia.
    + rewrite Forall_forall in *. intros x HX. apply apart_disjoint; [assumption|auto|].
      intros i (C1 & C2). apply In_nth_error in HX. destruct HX as (k & HX).
      specialize (HD 0%nat (S k) e x i eq_refl HX C1 C2). discriminate.
Qed.

Lemma datum_outcomes u ints ents :
  let placed := Forall (fun e => e_value e = slice_z u (e_start e) (e_end e)) ents in
  ((exists d, make_datum u (Some ints) (Some ents) = Ok d) <-> placed /\ StronglySorted apart ents) /\
  (make_datum u (Some ints) (Some ents) = Err EntityPositionErr <-> ~ placed) /\
  (make_datum u (Some ints) (Some ents) = Err EntityOverlapErr <-> placed /\ ~ StronglySorted apart ents).
Proof.
  intros placed. pose proof (make_datum_cases u (Some ints) (Some ents)) as H. cbv zeta in H. fold placed in H.
  destruct H as [(E & A & B)|[(E & A)|(E & A & B)]]; rewrite E;
    (split; [|split]); split; try tauto; try discriminate.
  all: try (intros _; eexists; reflexivity).
  all: intros (d & C); discriminate.
Qed.

Lemma datum_defaults u : make_datum u None None = Ok (mkDatum u [] []) /\
  make_datum u (Some []) (Some []) = Ok (mkDatum u [] []).
Proof. split; reflexivity. Qed.

Lemma entity_made l v s t r : i32 l -> i32 s -> i32 t -> exists e,
  make_entity l v s t r = Ok e /\ e_label e = l /\ e_value e = v /\ e_start e = s /\ e_end e = t /\
  NoDup (e_replacements e) /\
  same_set (e_replacements e) (match r with Some r => r | None => [] end).
Proof.
  intros H1 H2 H3. rewrite make_entity_ok by assumption. eexists. split; [reflexivity|].
  cbn [e_label e_value e_start e_end e_replacements]. repeat (split; [reflexivity|]).
  split; [apply NoDup_dedup|]. intros x. apply in_dedup.
Qed.

Lemma entity_overflow l v s t r : ~ (i32 l /\ i32 s /\ i32 t) -> make_entity l v s t r = Err OverflowErr.
Proof.
  intros H. unfold make_entity, to_i32.
  destruct (i32b_spec l); [|reflexivity]. cbn [bind]. destruct (i32b_spec s); [|reflexivity]. cbn [bind].
  destruct (i32b_spec t); [|reflexivity]. tauto.
Qed.

(** ** C47, C48 *)

Lemma kth_loop_positive {A} i : forall (its : list (list A)) k xs it,
  kth_loop its k = Ok xs -> nth_error its i = Some it -> 0 < n_choices (firstn i its).
Proof.
  induction i as [|i IH]; intros its k xs it EK HI; [cbn; lia|].
  destruct its as [|a its]; [discriminate|]. cbn [kth_loop] in EK. rewrite guard_bind in EK.
  destruct (Z.eqb_spec (Z.of_nat (length a)) 0) as [Z0|NZ]; [discriminate|]. cbn [negb] in EK.
  destruct (get_item a _) as [y|]; [|discriminate]. cbn [bind] in EK.
  destruct (kth_loop its _) as [ys|] eqn:E2; [|discriminate].
  cbn [firstn]. rewrite n_choices_cons. cbn in HI. specialize (IH its _ ys it E2 HI). nia.
Qed.

Lemma kth_loop_digits {A} (its : list (list A)) : forall k c, kth_loop its k = Ok c ->
  length c = length its /\
  forall i it, nth_error its i = Some it ->
    nth_error c i = nth_error it (Z.to_nat ((k / n_choices (firstn i its)) mod Z.of_nat (length it))).
Proof.
  induction its as [|it its IH]; intros k c H; cbn [kth_loop] in H.
  - injection H as <-. split; [reflexivity|]. intros [|i]; discriminate.
  - rewrite guard_bind in H. destruct (Z.eqb_spec (Z.of_nat (length it)) 0) as [Z0|NZ]; [discriminate|].
    cbn [negb] in H. set (n := Z.of_nat (length it)) in *. assert (NP : 0 < n) by lia.
    pose proof (Z.mod_pos_bound k n NP) as MB.
    destruct it as [|x0 it0]; [cbn in n; lia|].
    rewrite (get_item_nth _ _ x0) in H by (subst n; lia). cbn [bind] in H.
    destruct (kth_loop its (k / n)) as [xs|] eqn:EK; [|discriminate]. cbn [bind] in H.
    injection H as <-. destruct (IH _ _ EK) as (L & HD). split; [cbn; lia|].
    intros [|i] it HI; cbn [nth_error firstn] in *.
    + injection HI as <-. change (n_choices []) with 1. rewrite Z.div_1_r. symmetry.
      change (Some _) with (Some (nth (Z.to_nat (k mod n)) (x0 :: it0) x0)) at 1.
      apply nth_error_nth'. subst n. lia.
    + rewrite (HD i it HI), n_choices_cons. fold n. do 2 f_equal.
      rewrite Z.div_div; [reflexivity|lia|].
      eapply kth_loop_positive; eassumption.
Qed.

Lemma kth_digits {A} (its : list (list A)) k c i it : get_kth_combination its k = Ok c ->
  nth_error its i = Some it ->
  nth_error c i = nth_error it (Z.to_nat ((k / n_choices (firstn i its)) mod Z.of_nat (length it))).
Proof.
  unfold get_kth_combination. destruct (to_i32 k) as [k'|] eqn:E; [|discriminate].
  apply to_i32_inv in E. destruct E as (-> & _). cbn [bind]. intros H. now apply kth_loop_digits.
Qed.

(** every choice has exactly one index *)
Lemma kth_bijection {A} (its : list (list A)) : Forall (fun it => it <> []) its ->
  Forall (@NoDup A) its -> n_choices its <= 2 ^ 31 -> forall c,
  Forall2 (fun x it => In x it) c its ->
  exists k, 0 <= k < n_choices its /\ get_kth_combination its k = Ok c /\
    forall k', 0 <= k' < n_choices its -> get_kth_combination its k' = Ok c -> k' = k.
Proof.
  intros HN HD HB c HC. apply in_choices in HC.
  assert (KC : forall k, 0 <= k < n_choices its -> exists c, get_kth_combination its k = Ok c /\
             nth_error (choices its) (Z.to_nat k) = Some c).
  { intros k HK. destruct (kth_choice its k HN) as (c' & E & HE); [unfold i32; lia|].
    exists c'. split; [exact E|]. now rewrite Z.mod_small in HE. }
  apply In_nth_error in HC. destruct HC as (n & HN').
  assert (LN : (n < length (choices its))%nat) by (apply nth_error_Some; congruence).
  pose proof (choices_length its) as CL.
  exists (Z.of_nat n). split; [lia|].
  destruct (KC (Z.of_nat n)) as (c' & E & HE); [lia|]. rewrite Nat2Z.id in HE.
  assert (c' = c) as -> by congruence. split; [exact E|].
  intros k' HK' EK. destruct (KC k' HK') as (c2 & E2 & HE2).
  assert (c2 = c) as -> by congruence.
  assert (Z.to_nat k' = n); [|lia].
  apply (NoDup_nth_error (choices its)); [now apply NoDup_choices|lia|congruence].
Qed.

Lemma F2_len {A B} (R : A -> B -> Prop) l m : Forall2 R l m -> length l = length m.
Proof. induction 1; cbn; congruence. Qed.

Lemma expand_distinct d cs : Forall (@NoDup str) cs -> length cs = length (d_entities d) ->
  NoDup (map (rebuilt d) (choices cs)).
Proof.
  intros HN HL. apply NoDup_choices in HN.
  assert (HC : forall c, In c (choices cs) -> length c = length (d_entities d)).
  { intros c HC. apply in_choices in HC. apply F2_len in HC. lia. }
  revert HN HC. generalize (choices cs) as l. induction l as [|c l IH]; intros HN HC; [constructor|].
  inversion HN; subst. cbn [map]. constructor; [|apply IH; [assumption|intros x HX; apply HC; now right]].
  intros C. apply in_map_iff in C. destruct C as (c' & E & HI).
  apply (f_equal (fun x => map e_value (d_entities x))) in E. unfold rebuilt in E. cbn [d_entities] in E.
  rewrite (proj1 (proj2 (rebuilt_labels 0 (d_entities d) c (HC c (or_introl eq_refl))))) in E.
  rewrite (proj1 (proj2 (rebuilt_labels 0 (d_entities d) c' (HC c' (or_intror HI))))) in E. congruence.
Qed.

Lemma candidates_count io e cs : NoDup (e_replacements e) -> candidates io e cs ->
  Z.of_nat (length cs) = match e_replacements e with
                         | [] => 1
                         | r => Z.of_nat (length r) + (if io then 1 else 0)
                         end /\
  ((io = true -> ~ In (e_value e) (e_replacements e)) -> NoDup cs) /\
  forall v, In v cs <-> In v (e_replacements e) \/
                        (v = e_value e /\ (io = true \/ e_replacements e = [])).
Proof.
  intros HN H. unfold candidates in H. destruct (e_replacements e) as [|r0 r] eqn:E.
  - subst cs. split; [reflexivity|]. split; [repeat constructor; cbn; tauto|]. intros v. cbn.
    intuition congruence.
  - destruct H as (s & HS & HP & ->). split; [|split].
    + rewrite app_length, <- (Permutation_length HP). destruct io; cbn [length]; lia.
    + intros HI. assert (NS : NoDup s) by now rewrite <- HP. destruct io; [|now rewrite app_nil_r].
      apply NoDup_app_intro'; [exact NS|repeat constructor; cbn; tauto|].
      intros x HX [<-|[]]. apply (HI eq_refl). now rewrite HP.
    + intros v. rewrite in_app_iff.
      assert (IV : In v s <-> In v (r0 :: r)) by (split; apply Permutation_in; [now symmetry|exact HP]).
      rewrite IV. set (q := r0 :: r) in *. assert (q <> []) by discriminate. clearbody q. destruct io; cbn [In].
      * intuition congruence.
      * split; [tauto|]. intros [H'|(_ & [C|C])]; [tauto|discriminate|contradiction].
Qed.

(** as many data as the product of [n_replacements()] *)
Lemma expand_number d cs : is_datum d -> Forall2 (candidates true) (d_entities d) cs ->
  n_choices cs = fold_right Z.mul 1 (map n_replacements (d_entities d)).
Proof.
  intros D F. destruct (is_datum_inv d D) as (_ & HE & _). unfold n_choices.
  revert HE. induction F as [|e c es cs C _ IH]; intros HE; [reflexivity|]. inversion HE as [|? ? He HEs]; subst.
  cbn [map fold_right]. rewrite (IH HEs). f_equal.
  rewrite (proj1 (candidates_count true e c ltac:(apply is_entity_iff in He; tauto) C)).
  unfold n_replacements. destruct (e_replacements e); cbn [length]; lia.
Qed.

Lemma queries d : (has_intents d = true <-> d_intents d <> []) /\ (has_entities d = true <-> d_entities d <> []) /\
  forall e, no_replacements e = true <-> e_replacements e = [].
Proof.
  unfold has_intents, has_entities, no_replacements. split; [|split].
  - destruct (d_intents d) as [|x l]; [split; [discriminate|intros H; now contradiction H]|split; [discriminate|reflexivity]].
  - destruct (d_entities d) as [|x l]; [split; [discriminate|intros H; now contradiction H]|split; [discriminate|reflexivity]].
  - intros e. destruct (e_replacements e) as [|x l]; [split; reflexivity|split; discriminate].
Qed.

Lemma candidates_exist io e : exists cs, candidates io e cs /\ cs <> [].
Proof. exists (cand io e). split; [apply cand_spec|apply cand_nonempty]. Qed.

Lemma rebuilt_law d vs : is_datum d -> Forall (inside (d_utterance d)) (d_entities d) ->
  length vs = length (d_entities d) ->
  d_intents (rebuilt d vs) = d_intents d /\
  map e_label (d_entities (rebuilt d vs)) = map e_label (d_entities d) /\
  map e_value (d_entities (rebuilt d vs)) = vs /\
  Forall (fun e => e_replacements e = [] /\ inside (d_utterance (rebuilt d vs)) e /\
                   text_at (d_utterance (rebuilt d vs)) (e_start e) (e_end e) (e_value e))
         (d_entities (rebuilt d vs)) /\
  (Z.of_nat (length (d_utterance (rebuilt d vs))) < 2 ^ 31 -> is_datum (rebuilt d vs)).
Proof.
  intros HD HI HL. split; [reflexivity|].
  destruct (rebuilt_labels 0 (d_entities d) vs HL) as (L1 & L2 & L3). split; [exact L1|]. split; [exact L2|].
  split; [|intros H; now apply rebuilt_is_datum].
  pose proof (rebuilt_make d vs HD HI HL) as HM. apply make_datum_inv in HM. destruct HM as (_ & HV & _).
  destruct (rebuilt_valid (d_utterance d) (d_entities d) 0 vs []) as (V & _);
    [lia|now apply datum_lined|exact HL|]. cbn [app length] in V. change (Z.of_nat 0 - 0) with 0 in V.
  change (Z.to_nat 0) with 0%nat in V.
  unfold rebuilt in *. cbn [d_entities d_utterance] in *. rewrite Forall_forall in *.
  intros e HE. specialize (V e HE). assert (IE : inside (rebuilt_text (d_utterance d) 0 (d_entities d) vs) e).
  { unfold inside. cbn in V. lia. }
  split; [now apply L3|]. split; [exact IE|]. apply inside_text; [exact IE|]. now apply HV.
Qed.

(** ** C49: the parts in the order of the text *)

Lemma Forall2_nth {A B} (R : A -> B -> Prop) l m : Forall2 R l m -> forall i x, nth_error l i = Some x ->
  exists y, nth_error m i = Some y /\ R x y.
Proof.
  induction 1 as [|x y l m HR _ IH]; intros [|i] z HZ; try discriminate; cbn in *.
  - injection HZ as <-. exists y. now split.
  - now apply IH.
Qed.

(** ** C56: equality *)

Lemma entity_equal a b : entity_eqb a b = true <-> same_entity a b.
Proof. destruct (entity_eqb_spec a b); split; auto; discriminate. Qed.
Lemma datum_equal a b : datum_eqb a b = true <-> same_datum a b.
Proof. destruct (datum_eqb_spec a b); split; auto; discriminate. Qed.

Lemma datum_equivalence :
  (forall a, datum_eqb a a = true) /\ (forall a b, datum_eqb a b = datum_eqb b a) /\
  (forall a b c, datum_eqb a b = true -> datum_eqb b c = true -> datum_eqb a c = true).
Proof.
  destruct same_datum_equiv as (R & S & T). split; [|split].
  - intros a. now apply datum_equal.
  - intros a b. destruct (datum_eqb_spec a b) as [H|H], (datum_eqb_spec b a) as [H'|H'];
      try reflexivity; exfalso; auto.
  - intros a b c. rewrite !datum_equal. apply T.
Qed.

Lemma entity_equivalence :
  (forall a, entity_eqb a a = true) /\ (forall a b, entity_eqb a b = entity_eqb b a) /\
  (forall a b c, entity_eqb a b = true -> entity_eqb b c = true -> entity_eqb a c = true).
Proof.
  split; [|split].
  - intros a. apply entity_equal, same_entity_refl.
  - intros a b. destruct (entity_eqb_spec a b) as [H|H], (entity_eqb_spec b a) as [H'|H'];
      try reflexivity; exfalso; auto using same_entity_sym.
  - intros a b c. rewrite !entity_equal. apply same_entity_trans.
Qed.

Lemma Forall2_impl' {A B} (R S : A -> B -> Prop) l m : (forall x y, R x y -> S x y) -> Forall2 R l m -> Forall2 S l m.
Proof. intros H F. induction F; constructor; auto. Qed.

(** two datums built from the same parts in any order are equal *)
Lemma datum_order u ints ints' ents ents' d d' :
  make_datum u (Some ints) (Some ents) = Ok d -> make_datum u (Some ints') (Some ents') = Ok d' ->
  same_set ints ints' -> Permutation ents ents' -> NoDup (map e_start ents) ->
  datum_eqb d d' = true.
Proof.
  intros H H' HI HP HN. apply datum_equal. apply make_datum_inv in H, H'.
  destruct H as (-> & _), H' as (-> & _). unfold same_datum. cbn [d_utterance d_intents d_entities].
  split; [reflexivity|]. split.
  - intros x. split; intros HX.
    + eapply Permutation_in; [symmetry; apply sort_by_perm|]. apply HI.
      eapply Permutation_in; [apply sort_by_perm|exact HX].
    + eapply Permutation_in; [symmetry; apply sort_by_perm|]. apply HI.
      eapply Permutation_in; [apply sort_by_perm|exact HX].
  - assert (E : sort_by e_start ents = sort_by e_start ents').
    { assert (P2 : Permutation (sort_by e_start ents) (sort_by e_start ents'))
        by (rewrite !sort_by_perm; exact HP).
      pose proof (sort_by_sorted e_start ents) as S1. pose proof (sort_by_sorted e_start ents') as S2.
      assert (ND : NoDup (map e_start (sort_by e_start ents)))
        by (eapply Permutation_NoDup; [apply Permutation_map; symmetry; apply sort_by_perm|exact HN]).
      revert P2 S1 S2 ND. generalize (sort_by e_start ents) as a, (sort_by e_start ents') as b. clear.
      induction a as [|x a IH]; intros [|y b] HP S1 S2 ND; [reflexivity| | |].
      - apply Permutation_nil in HP. discriminate.
      - symmetry in HP. apply Permutation_nil in HP. discriminate.
      - apply StronglySorted_inv in S1, S2. destruct S1 as (S1 & F1), S2 as (S2 & F2).
        cbn [map] in ND. inversion ND as [|? ? NI ND']; subst.
        assert (x = y).
        { rewrite Forall_forall in F1, F2.
          assert (IY : In y (x :: a)) by (rewrite HP; now left).
          assert (IX : In x (y :: b)) by (rewrite <- HP; now left).
          destruct IY as [IY|IY]; [exact IY|]. destruct IX as [IX|IX]; [now symmetry|].
          specialize (F1 y IY). specialize (F2 x IX). cbn in F1, F2. exfalso. apply NI.
          replace (e_start x) with (e_start y) by lia. now apply in_map. }
        subst y. f_equal. apply IH; try assumption. now apply Permutation_cons_inv in HP. }
    rewrite E. clear. induction (sort_by e_start ents'); constructor; auto using same_entity_refl.
Qed.

(** ** C56: to_dict and from_dict *)

Lemma entity_dict_round_trip ord u e : reorders ord -> is_entity e ->
  e_value e = slice_z u (e_start e) (e_end e) ->
  exists e', entity_from_dict (entity_to_dict ord e) u = Ok e' /\ same_entity e e'.
Proof.
  intros HO HE HV. apply is_entity_iff in HE. destruct HE as (H1 & H2 & H3 & H4).
  unfold entity_from_dict, entity_to_dict, no_replacements.
  destruct e as [l v s t r]. cbn [e_label e_value e_start e_end e_replacements] in *.
  destruct r as [|x r]; cbn [length Nat.eqb].
  - match goal with |- context [JDict ?d] => set (j := JDict d) end.
    change (key j K_end) with (Ok (JInt t)). change (key j K_start) with (Ok (JInt s)).
    change (key j K_label) with (Ok (JInt l)). change (key j K_replacements) with (@Err jval KeyErr).
    unfold cut_value, c_int. cbn [bind as_int as_str cut_bound]. rewrite make_entity_again.
    rewrite make_entity_ok by assumption. eexists. split; [reflexivity|].
    rewrite HV. apply same_entity_refl.
  - match goal with |- context [JDict ?d] => set (j := JDict d) end.
    change (key j K_end) with (Ok (JInt t)). change (key j K_start) with (Ok (JInt s)).
    change (key j K_label) with (Ok (JInt l)).
    change (key j K_replacements) with (Ok (JList (map JStr (ord (x :: r))))).
    unfold cut_value, c_int. cbn [bind as_int as_str cut_bound]. rewrite as_strs_strs. cbn [bind]. rewrite make_entity_again.
    rewrite make_entity_ok by assumption. eexists. split; [reflexivity|].
    unfold same_entity. cbn [e_label e_value e_start e_end e_replacements].
    repeat (split; [reflexivity || exact HV|]). intros y. rewrite in_dedup.
    split; intros HY; [eapply Permutation_in; [symmetry; apply HO|exact HY]|eapply Permutation_in; [apply HO|exact HY]].
Qed.

Lemma entity_dict_keys ord e : exists m, entity_to_dict ord e = JDict m /\
  dict_get m (txt "label") = Some (JInt (e_label e)) /\
  dict_get m (txt "start") = Some (JInt (e_start e)) /\
  dict_get m (txt "end") = Some (JInt (e_end e)) /\
  dict_get m (txt "replacements") =
    match e_replacements e with [] => None | r => Some (JList (map JStr (ord r))) end /\
  map fst m = ([txt "label"; txt "start"; txt "end"] ++
               match e_replacements e with [] => [] | _ => [txt "replacements"] end)%list.
Proof.
  eexists. split; [reflexivity|]. unfold no_replacements.
  destruct (e_replacements e); cbn [length Nat.eqb]; repeat (split; [reflexivity|]); reflexivity.
Qed.

(** ** C57 *)

Lemma unique_entities ord data : (forall l, Permutation (ord l) l) ->
  NoDup (get_unique_entities ord data) /\
  forall l, In l (get_unique_entities ord data) <->
            exists d e, In d data /\ In e (d_entities d) /\ e_label e = l.
Proof.
  intros HO. unfold get_unique_entities. split.
  - eapply Permutation_NoDup; [symmetry; apply HO|]. apply NoDup_dedup.
  - intros l. split.
    + intros H. apply (Permutation_in _ (HO _)) in H. apply (proj1 (in_dedup _ _)) in H.
      apply in_flat_map in H. destruct H as (d & HD & HE). apply in_map_iff in HE.
      destruct HE as (e & <- & HE). eauto.
    + intros (d & e & HD & HE & <-). apply (Permutation_in _ (Permutation_sym (HO _))).
      apply (proj2 (in_dedup _ _)). apply in_flat_map. exists d. split; [exact HD|]. now apply in_map.
Qed.

Lemma copy_intents_same d : is_datum d -> copy_intents d = Ok (d_intents d).
Proof.
  intros H. apply is_datum_inv in H. destruct H as (HI & _). unfold copy_intents.
  rewrite (mapM_ok _ (fun x => x)); [now rewrite map_id|].
  eapply Forall_impl; [|exact HI]. intros i. apply to_i32_ok.
Qed.
