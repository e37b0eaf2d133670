(** Renaming the labels before a call renames the labels of the result (C75). *)

From Coq Require Import QArith.
From Verif Require Import Py PyFacts Edit Labels SpecLabels LabelProofs Ops SpecOps EditApiProofs ClosureProofs
  Json Elements SpecElements Pipe SpecRelabel.
From Coq Require Import List Lia.
Local Open Scope Z_scope.

Lemma renaming_incl f l m : (forall x, In x m -> x = 0 \/ In x l) -> renaming f l -> renaming f m.
Proof.
  intros H (Z0 & I & R). split; [exact Z0|]. split.
  - assert (forall x, In x (0 :: m) -> In x (0 :: l)) as S.
    { intros x [<-|Hx]; [now left|]. destruct (H x Hx) as [->|Hl]; [now left|now right]. }
    intros x y Hx Hy. apply I; now apply S.
  - intros x Hx. destruct (H x Hx) as [->|Hl]; [rewrite Z0; reflexivity|now apply R].
Qed.

Lemma renaming_Forall f l m : Forall (fun x => x = 0 \/ In x l) m -> renaming f l -> renaming f m.
Proof. intros F. apply renaming_incl. now apply Forall_forall. Qed.

Section rename.
  Context (f : Z -> Z).

  Definition key_map (kv : Z * Z) : Z * Z := (f (fst kv), snd kv).

  Lemma counter_fold_map l : forall c, 
    (forall x y, In x (map fst c ++ l) -> In y (map fst c ++ l) -> f x = f y -> x = y) ->
    fold_left counter_add (map f l) (map key_map c) = map key_map (fold_left counter_add l c).
  Proof.
    induction l as [|x l IH]; intros c I; [reflexivity|]. cbn [fold_left map].
    assert (S : counter_add (map key_map c) (f x) = map key_map (counter_add c x)).
    { clear IH. induction c as [|[k n] c IHc]; [reflexivity|]. cbn [counter_add map key_map fst snd].
      destruct (Z.eqb_spec x k) as [->|N].
      - rewrite Z.eqb_refl. reflexivity.
      - destruct (Z.eqb_spec (f x) (f k)) as [E|_].
        + apply I in E; [contradiction| |]; cbn; rewrite ?in_app_iff; cbn; auto.
        + cbn [map key_map fst snd]. f_equal. apply IHc. intros a b Ha Hb. apply I; cbn; auto. }
    rewrite S. apply IH. intros a b Ha Hb. apply I.
    - revert Ha. rewrite !in_app_iff. intros [Ha|Ha]; [|cbn; auto].
      assert (In a (map fst c) \/ a = x); [|cbn; intuition].
      revert Ha. clear. induction c as [|[k n] c IHc]; cbn; [intuition|].
      destruct (x =? k); cbn; intuition.
    - revert Hb. rewrite !in_app_iff. intros [Hb|Hb]; [|cbn; auto].
      assert (In b (map fst c) \/ b = x); [|cbn; intuition].
      revert Hb. clear. induction c as [|[k n] c IHc]; cbn; [intuition|].
      destruct (x =? k); cbn; intuition.
  Qed.

  Lemma counter_map l : (forall x y, In x l -> In y l -> f x = f y -> x = y) ->
    counter (map f l) = map key_map (counter l).
  Proof. intros I. apply (counter_fold_map l []). exact I. Qed.

  Lemma insert_by_map {A} (h : A -> A) key x l : (forall a, key (h a) = key a) ->
    insert_by key (h x) (map h l) = map h (insert_by key x l).
  Proof.
    intros K. induction l as [|y l IH]; [reflexivity|]. cbn [insert_by map]. rewrite !K.
    destruct (_ <=? _); [reflexivity|]. cbn [map]. now rewrite IH.
  Qed.
  Lemma sort_by_map {A} (h : A -> A) key l : (forall a, key (h a) = key a) ->
    sort_by key (map h l) = map h (sort_by key l).
  Proof.
    intros K. unfold sort_by. induction l as [|x l IH]; [reflexivity|]. cbn [map fold_right].
    rewrite IH. now apply insert_by_map.
  Qed.

  Lemma max_scan_map c : forall k n, max_scan (map key_map c) (f k) n = f (max_scan c k n).
  Proof.
    induction c as [|[k n] c IH]; intros k0 n0; [reflexivity|]. cbn [map key_map fst snd max_scan].
    destruct (_ <? _); apply IH.
  Qed.

  Lemma setslice_map (l v : list Z) i j : setslice (map f l) i j (map f v) = map f (setslice l i j v).
  Proof. unfold setslice. now rewrite firstn_map, skipn_map, <- !map_app. Qed.
  Lemma slice_map (l : list Z) i j : slice (map f l) i j = map f (slice l i j).
  Proof. unfold slice. now rewrite skipn_map, firstn_map. Qed.
  Lemma repeat_map x n : repeat (f x) n = map f (repeat x n).
  Proof. induction n; cbn; congruence. Qed.

  Lemma propagate_loop_map {A} (g : list (repl A)) tr labels : label_blind tr -> renaming f labels ->
    forall i o out, propagate_loop (map f labels) g tr i o (map f out) =
      renamed f (propagate_loop labels g tr i o out).
  Proof.
    intros B R. induction g as [|r g IH]; intros i o out; cbn [propagate_loop].
    - cbn [renamed]. now rewrite firstn_map, skipn_map, map_app.
    - rewrite !slice_map, setslice_map.
      rewrite (B f (slice labels (r_start r) (r_end r))).
      2:{ eapply renaming_incl; [|exact R]. intros x Hx. right.
          unfold slice in Hx. eapply In_skipn_In, In_firstn_In, Hx. }
      destruct (tr _ _) as [new|e]; cbn [renamed bind]; [|reflexivity].
      rewrite setslice_map. apply IH.
  Qed.

  Lemma propagate_map {A} (g : list (repl A)) tr labels : label_blind tr -> renaming f labels ->
    propagate (map f labels) g tr = renamed f (propagate labels g tr).
  Proof.
    intros B R. unfold propagate. rewrite map_length.
    rewrite <- (propagate_loop_map g tr labels B R). f_equal.
    rewrite <- repeat_map. unfold NOT_ENTITY. now rewrite (proj1 R).
  Qed.

  Lemma reduce_loop_map g tr labels : label_blind tr -> renaming f labels ->
    forall i out, reduce_loop (map f labels) g tr i (map f out) = renamed f (reduce_loop labels g tr i out).
  Proof.
    intros B R. induction g as [|r g IH]; intros i out; cbn [reduce_loop]; [reflexivity|].
    rewrite slice_map, (B f (slice labels (fst r) (snd r))).
    2:{ eapply renaming_incl; [|exact R]. intros x Hx. right.
        unfold slice in Hx. eapply In_skipn_In, In_firstn_In, Hx. }
    destruct (tr _ _) as [new|e]; cbn [renamed bind]; [|reflexivity].
    rewrite setslice_map. apply IH.
  Qed.

  Lemma reduce_map g tr labels : label_blind tr -> renaming f labels ->
    reduce_by_span_group (map f labels) g tr = renamed f (reduce_by_span_group labels g tr).
  Proof.
    intros B R. unfold reduce_by_span_group. rewrite map_length.
    destruct (_ && _); [reflexivity|]. destruct (last_opt g) as [sp|]; [|reflexivity].
    destruct (guard _ _); cbn [bind]; [|reflexivity].
    rewrite <- (reduce_loop_map g tr labels B R). f_equal.
    rewrite <- repeat_map. unfold NOT_ENTITY. now rewrite (proj1 R).
  Qed.

  Lemma expand_loop_map g : forall labels out, (forall x, In x labels -> u32b x = u32b (f x)) ->
    Labels.expand_loop g (map f labels) (map f out) = renamed f (Labels.expand_loop g labels out).
  Proof.
    induction g as [|sp g IH]; intros labels out U; cbn [Labels.expand_loop]; [reflexivity|].
    destruct labels as [|l labels]; [reflexivity|]. cbn [map].
    rewrite <- (U l) by now left. destruct (guard _ _); cbn [bind]; [|reflexivity].
    rewrite repeat_map, setslice_map. apply IH. intros x Hx. apply U. now right.
  Qed.

  Lemma renaming_u32b l x : renaming f l -> In x l -> u32b x = u32b (f x).
  Proof.
    intros (_ & _ & R) Hx. specialize (R x Hx). unfold u32b, two32 in *. 
    apply Bool.eq_true_iff_eq. rewrite !andb_true_iff, !Z.leb_le, !Z.ltb_lt. 
    change (2 ^ 32) with 4294967296 in R. lia.
  Qed.

  Lemma expand_map g labels : renaming f labels ->
    expand_by_span_group (map f labels) g = renamed f (expand_by_span_group labels g).
  Proof.
    intros R. unfold expand_by_span_group. rewrite map_length.
    destruct (guard _ _); cbn [bind]; [|reflexivity]. destruct (last_opt g) as [sp|]; [|reflexivity].
    rewrite <- expand_loop_map by (intros x Hx; eapply renaming_u32b; eauto). f_equal.
    rewrite <- repeat_map. unfold NOT_ENTITY. now rewrite (proj1 R).
  Qed.
End rename.

(** ** The transducers *)

Lemma blind_most_common : label_blind get_most_common.
Proof.
  intros f l k (Z0 & I & _). unfold get_most_common.
  rewrite counter_map by (intros; apply I; cbn; auto).
  rewrite (sort_by_map (key_map f) (fun kv => - snd kv)) by reflexivity.
  destruct (sort_by _ _) as [|[x n] t]; cbn [map key_map fst snd renamed]; [reflexivity|].
  now rewrite repeat_map.
Qed.
Lemma blind_not_entity : label_blind get_not_entity.
Proof.
  intros f l k (Z0 & _). unfold get_not_entity. cbn [renamed]. rewrite <- repeat_map.
  unfold NOT_ENTITY. now rewrite Z0.
Qed.
Lemma blind_except : label_blind get_most_common_except_not_entity.
Proof.
  intros f l k R. unfold get_most_common_except_not_entity.
  assert (F : filter (fun x => negb (x =? NOT_ENTITY)) (map f l) = map f (filter (fun x => negb (x =? NOT_ENTITY)) l)).
  { destruct R as (Z0 & I & _). unfold NOT_ENTITY.
    assert (forall x, In x l -> (f x =? 0) = (x =? 0)) as H.
    { intros x Hx. destruct (Z.eqb_spec x 0) as [->|N]; [now rewrite Z0|].
      apply Z.eqb_neq. intros E. apply N. apply I; cbn; auto. congruence. }
    clear I. induction l as [|x l IH]; [reflexivity|]. cbn [map filter].
    rewrite H by now left. destruct (x =? 0); cbn [negb]; [apply IH|cbn [map]; f_equal; apply IH];
      intros y Hy; apply H; now right. }
  rewrite F. 
  assert (renaming f (filter (fun x => negb (x =? NOT_ENTITY)) l)) as R'.
  { eapply renaming_incl; [|exact R]. intros x Hx. apply filter_In in Hx. tauto. }
  pose proof (blind_most_common f _ k R') as M.
  destruct (filter _ l) as [|y t]; cbn [map] in *; [now apply blind_not_entity|exact M].
Qed.
Lemma count_blind f l : renaming f l -> count_and_get_most_common (map f l) = f (count_and_get_most_common l).
Proof.
  intros R. unfold count_and_get_most_common.
  assert (forallb u32b (map f l) = forallb u32b l) as ->.
  { assert (forall y, In y l -> u32b y = u32b (f y)) as U by (intros; eapply renaming_u32b; eauto).
    clear R. induction l as [|y m IH]; [reflexivity|]. cbn [map forallb].
    rewrite <- (U y) by now left. f_equal. apply IH. intros z Hz. apply U. now right. }
  destruct R as (Z0 & I & _). destruct (forallb _ _); [|now rewrite Z0].
  rewrite counter_map by (intros; apply I; cbn; auto).
  rewrite <- (max_scan_map f). now rewrite Z0.
Qed.
Lemma blind_default : label_blind get_most_common_label.
Proof.
  intros f l k R. unfold get_most_common_label. rewrite (count_blind f l R).
  destruct l as [|x l]; cbn [map renamed]; rewrite <- repeat_map; [|reflexivity].
  unfold NOT_ENTITY. now rewrite (proj1 R).
Qed.
Lemma blind_around t : label_blind (around_most_common t).
Proof.
  intros f l k R. unfold around_most_common. rewrite (blind_most_common f l _ R).
  destruct (get_most_common _ _) as [c|e]; cbn [renamed bind]; [|reflexivity].
  cbn [map]. rewrite map_app. cbn [map]. destruct R as (Z0 & _). unfold NOT_ENTITY. now rewrite Z0.
Qed.
Lemma blind_single : label_blind around_single.
Proof.
  intros f l k (Z0 & _). unfold around_single. destruct l as [|x [|]]; cbn [map renamed]; try reflexivity.
  unfold NOT_ENTITY. now rewrite Z0.
Qed.
Lemma blind_all : label_blind around_all.
Proof.
  intros f l k (Z0 & _). unfold around_all. cbn [map renamed]. rewrite map_app. cbn [map].
  unfold NOT_ENTITY. now rewrite Z0.
Qed.
Lemma blind_drop : label_blind drop_ends.
Proof.
  intros f l k _. unfold drop_ends. cbn [renamed]. f_equal.
  assert (forall m, removelast (map f m) = map f (removelast m)) as H.
  { induction m as [|x [|y m] IH]; [reflexivity|reflexivity|]. 
    change (f x :: removelast (map f (y :: m)) = f x :: map f (removelast (y :: m))). now rewrite IH. }
  destruct l; [reflexivity|]. cbn [map tl]. apply H.
Qed.
Lemma blind_none : label_blind return_none.
Proof. intros f l k _. reflexivity. Qed.

#[global] Hint Resolve blind_most_common blind_not_entity blind_except blind_default blind_around
  blind_single blind_all blind_drop blind_none : blind.

(** ** Aligners *)

Definition blind_al (a : aligner) : Prop :=
  match a with
  | ANull _ _ => True
  | AStr _ _ _ f b | ALst _ _ _ f b | ATok _ _ _ _ f b => label_blind f /\ label_blind b
  end.

Lemma guarded f n (r : res (list Z)) :
  (out <- renamed f r ;; _ <- guard (length out =? n)%nat ValueErr ;; Ok out) =
  renamed f (out <- r ;; _ <- guard (length out =? n)%nat ValueErr ;; Ok out).
Proof.
  destruct r as [l|e]; cbn [renamed bind]; [|reflexivity]. rewrite map_length.
  destruct (guard _ _); reflexivity.
Qed.

Lemma align_blind a : closed_al a -> blind_al a -> forall f l, renaming f l ->
  align a (map f l) = renamed f (align a l).
Proof.
  intros C B f l R. unfold align. rewrite map_length. destruct (guard _ _); cbn [bind]; [|reflexivity].
  rewrite <- guarded. f_equal.
  destruct a; cbn [align_raw closed_al blind_al] in *; [|destruct C as [Cf Cb], B as [Bf Bb]..].
  - reflexivity.
  - now apply propagate_map.
  - now apply propagate_map.
  - rewrite (propagate_map f edit fwd l Bf R).
    destruct (propagate l edit fwd) as [m|e] eqn:Em; cbn [renamed bind]; [|reflexivity].
    apply reduce_map; [auto with blind|]. eapply renaming_Forall; [|exact R].
    eapply propagate_P; [|exact Cf| |exact Em]; [auto|]. apply Forall_forall. auto.
Qed.

Lemma align_inverse_blind E a : closed_al a -> blind_al a -> forall f l, renaming f l ->
  align_inverse E a (map f l) = renamed f (align_inverse E a l).
Proof.
  intros C B f l R. unfold align_inverse. rewrite map_length. destruct (guard _ _); cbn [bind]; [|reflexivity].
  rewrite <- guarded. f_equal.
  destruct a; cbn [align_inverse_raw closed_al blind_al] in *; [|destruct C as [Cf Cb], B as [Bf Bb]..].
  - reflexivity.
  - destruct (inverse _ _ _); cbn [bind]; [|reflexivity]. now apply propagate_map.
  - destruct (inverse _ _ _); cbn [bind]; [|reflexivity]. now apply propagate_map.
  - destruct (inverse _ _ _); cbn [bind]; [|reflexivity].
    rewrite (expand_map f spans l R).
    destruct (expand_by_span_group l spans) as [m|e] eqn:Em; cbn [renamed bind]; [|reflexivity].
    apply propagate_map; [exact Bb|]. eapply renaming_Forall; [|exact R].
    eapply expand_P; [| |exact Em]; [auto|]. apply Forall_forall. auto.
Qed.

Lemma str_result_blind s g f b y a :
  label_blind f -> label_blind b -> str_result s g f b = Ok (y, a) -> blind_al a.
Proof.
  intros F B. unfold str_result. destruct g; cbn [bind]; [|discriminate]. intros [= <- <-]. now split.
Qed.
Lemma lst_result_blind s g f b y a :
  label_blind f -> label_blind b -> lst_result s g f b = Ok (y, a) -> blind_al a.
Proof.
  intros F B. unfold lst_result. destruct g; cbn [bind]; [|discriminate]. intros [= <- <-]. now split.
Qed.
Lemma lst_null_blind s g y a : lst_result_null s g = Ok (y, a) -> blind_al a.
Proof.
  unfold lst_result_null. destruct g; cbn [bind]; [|discriminate]. intros [= <- <-]. exact I.
Qed.
Lemma tok_result_blind E s t f b y a :
  label_blind f -> label_blind b -> tok_result E s t f b = Ok (y, a) -> blind_al a.
Proof.
  intros F B. unfold tok_result. destruct t; cbn [bind]; [|discriminate].
  destruct (gen_replacement_group _ _ _); cbn [bind]; [|discriminate].
  destruct (gen_span_group _ _); cbn [bind]; [|discriminate]. intros [= <- <-]. now split.
Qed.

Lemma transform_blind E o x y a : transform_op E o x = Ok (y, a) -> blind_al a.
Proof.
  unfold transform_op. destruct (guard _ _); cbn [bind]; [|discriminate].
  destruct x as [s|l].
  - destruct (transform_str E o s) as [[y' a']|e] eqn:H; cbn [bind]; [|discriminate].
    destruct (guard _ _); cbn [bind]; [|discriminate]. intros [= <- <-].
    destruct o; cbn [transform_str] in H; try discriminate H;
      try (eapply str_result_blind; [| |exact H]; auto with blind; fail);
      try (eapply tok_result_blind; [| |exact H]; auto with blind; fail).
    + destruct (scan_group _ _ _ _); cbn [bind] in H; [|discriminate].
      destruct (guard _ _); cbn [bind] in H; [|discriminate]. injection H as <- <-. exact I.
    + destruct (re_compile E a); [|discriminate].
      eapply str_result_blind; [| |exact H]; auto with blind.
  - destruct (transform_lst E o l) as [[y' a']|e] eqn:H; cbn [bind]; [|discriminate].
    destruct (guard _ _); cbn [bind]; [|discriminate]. intros [= <- <-].
    destruct o; cbn [transform_lst] in H; try discriminate H;
      try (eapply lst_result_blind; [| |exact H]; auto with blind; fail);
      eapply lst_null_blind; exact H.
Qed.

Theorem operator_blind E o x y a : transform_op E o x = Ok (y, a) -> forall f l, renaming f l ->
  align a (map f l) = renamed f (align a l) /\ align_inverse E a (map f l) = renamed f (align_inverse E a l).
Proof.
  intros H f l R. pose proof (transform_closed _ _ _ _ _ H). pose proof (transform_blind _ _ _ _ _ H).
  split; [now apply align_blind|now apply align_inverse_blind].
Qed.

Lemma foldM_blind (g : list Z -> aligner -> res (list Z)) als f :
  (forall a l, In a als -> renaming f l -> g (map f l) a = renamed f (g l a)) ->
  (forall a l r, In a als -> g l a = Ok r -> Forall (fun z => z = 0 \/ In z l) r) ->
  forall l, renaming f l -> foldM g als (map f l) = renamed f (foldM g als l).
Proof.
  induction als as [|a als IH]; intros H C l R; cbn [foldM]; [reflexivity|].
  rewrite H by (auto; now left). destruct (g l a) as [m|e] eqn:Em; cbn [renamed bind]; [|reflexivity].
  apply IH; [intros; apply H; auto; now right|intros; eapply C; eauto; now right|].
  eapply renaming_Forall; [|exact R]. eapply C; [|exact Em]. now left.
Qed.

Lemma run_aligners E : forall ops x y als coll, run E ops x = Ok (y, als, coll) ->
  Forall (fun a => closed_al a /\ blind_al a) als.
Proof.
  induction ops as [|o ops IH]; intros x y als coll; cbn [run]; [intros [= <- <- <-]; constructor|].
  destruct (transform_op E (o_op o) x) as [[z a]|e] eqn:T; cbn [bind]; [|discriminate].
  destruct (run E ops z) as [[[z' als'] coll']|e] eqn:R; cbn [bind]; [|discriminate].
  intros [= <- <- <-]. constructor; [|eapply IH; exact R].
  split; [eapply transform_closed|eapply transform_blind]; exact T.
Qed.

Theorem pipe_blind E p x y als coll : transform_sequence E p x = Ok (y, als, coll) -> forall f l, renaming f l ->
  align_all als (map f l) = renamed f (align_all als l) /\
  align_inverse_all E als (map f l) = renamed f (align_inverse_all E als l).
Proof.
  intros H f l R. apply run_aligners in H. rewrite Forall_forall in H. split.
  - apply (foldM_blind (fun l a => align a l)); [| |exact R].
    + intros a m Ha. now apply align_blind; apply H.
    + intros a m r Ha A. apply (align_closed (fun z => z = 0 \/ In z m) a m); [auto|apply H, Ha| |exact A]. apply Forall_forall. auto.
  - apply (foldM_blind (fun l a => align_inverse E a l)); [| |exact R].
    + intros a m Ha. apply in_rev in Ha. now apply align_inverse_blind; apply H.
    + intros a m r Ha A. apply in_rev in Ha.
      apply (align_inverse_closed (fun z => z = 0 \/ In z m) E a m); [auto|apply H, Ha| |exact A]. apply Forall_forall. auto.
Qed.
