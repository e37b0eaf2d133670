(** Operators that are not tokenizers work on any labels, also on those that are no C unsigned ints (C13). *)

From Coq Require Import QArith.
From Verif Require Import Py PyFacts Edit Labels SpecLabels LabelProofs Ops SpecOps EditApiProofs ClosureProofs AlignProofs OpProofs TokProofs WordProofs
  Json Elements SpecElements Pipe SpecRelabel RelabelProofs.
From Coq Require Import List Lia.
Local Open Scope Z_scope.

Lemma free_incl f l m : (forall x, In x m -> x = 0 \/ In x l) -> free_renaming f l -> free_renaming f m.
Proof.
  intros H (Z0 & I). split; [exact Z0|].
  assert (forall x, In x (0 :: m) -> In x (0 :: l)) as S.
  { intros x [<-|Hx]; [now left|]. destruct (H x Hx) as [->|Hl]; [now left|now right]. }
  intros x y Hx Hy. apply I; now apply S.
Qed.

Lemma free_loop f {A} (g : list (repl A)) tr labels : free_blind tr -> free_renaming f labels ->
  forall i o out, propagate_loop (map f labels) g tr i o (map f out) =
    renamed f (propagate_loop labels g tr i o out).
Proof.
  intros B R. induction g as [|r g IH]; intros i o out; cbn [propagate_loop].
  - cbn [renamed]. now rewrite firstn_map, skipn_map, map_app.
  - rewrite !slice_map, setslice_map.
    rewrite (B f (slice labels (r_start r) (r_end r))).
    2:{ eapply free_incl; [|exact R]. intros x Hx. right.
        unfold slice in Hx. eapply In_skipn_In, In_firstn_In, Hx. }
    destruct (tr _ _) as [new|e]; cbn [renamed bind]; [|reflexivity].
    rewrite setslice_map. apply IH.
Qed.

Lemma free_propagate f {A} (g : list (repl A)) tr labels : free_blind tr -> free_renaming f labels ->
  propagate (map f labels) g tr = renamed f (propagate labels g tr).
Proof.
  intros B R. unfold propagate. rewrite map_length.
  rewrite <- (free_loop f g tr labels B R). f_equal.
  rewrite <- repeat_map. unfold NOT_ENTITY. now rewrite (proj1 R).
Qed.

Lemma free_most_common : free_blind get_most_common.
Proof.
  intros f l k (Z0 & I). unfold get_most_common.
  rewrite counter_map by (intros; apply I; cbn; auto).
  rewrite (sort_by_map (key_map f) (fun kv => - snd kv)) by reflexivity.
  destruct (sort_by _ _) as [|[x n] t]; cbn [map key_map fst snd renamed]; [reflexivity|].
  now rewrite repeat_map.
Qed.
Lemma free_not_entity : free_blind get_not_entity.
Proof.
  intros f l k (Z0 & _). unfold get_not_entity. cbn [renamed]. rewrite <- repeat_map.
  unfold NOT_ENTITY. now rewrite Z0.
Qed.
Lemma free_except : free_blind get_most_common_except_not_entity.
Proof.
  intros f l k R. unfold get_most_common_except_not_entity.
  assert (F : filter (fun x => negb (x =? NOT_ENTITY)) (map f l) = map f (filter (fun x => negb (x =? NOT_ENTITY)) l)).
  { destruct R as (Z0 & I). unfold NOT_ENTITY.
    assert (forall x, In x l -> (f x =? 0) = (x =? 0)) as H.
    { intros x Hx. destruct (Z.eqb_spec x 0) as [->|N]; [now rewrite Z0|].
      apply Z.eqb_neq. intros E. apply N. apply I; cbn; auto. congruence. }
    clear I. induction l as [|x l IH]; [reflexivity|]. cbn [map filter].
    rewrite H by now left. destruct (x =? 0); cbn [negb]; [apply IH|cbn [map]; f_equal; apply IH];
      intros y Hy; apply H; now right. }
  rewrite F.
  assert (free_renaming f (filter (fun x => negb (x =? NOT_ENTITY)) l)) as R'.
  { eapply free_incl; [|exact R]. intros x Hx. apply filter_In in Hx. tauto. }
  pose proof (free_most_common f _ k R') as M.
  destruct (filter _ l) as [|y t]; cbn [map] in *; [now apply free_not_entity|exact M].
Qed.
Lemma free_around t : free_blind (around_most_common t).
Proof.
  intros f l k R. unfold around_most_common. rewrite (free_most_common f l _ R).
  destruct (get_most_common _ _) as [c|e]; cbn [renamed bind]; [|reflexivity].
  cbn [map]. rewrite map_app. cbn [map]. destruct R as (Z0 & _). unfold NOT_ENTITY. now rewrite Z0.
Qed.
Lemma free_single : free_blind around_single.
Proof.
  intros f l k (Z0 & _). unfold around_single. destruct l as [|x [|]]; cbn [map renamed]; try reflexivity.
  unfold NOT_ENTITY. now rewrite Z0.
Qed.
Lemma free_all : free_blind around_all.
Proof.
  intros f l k (Z0 & _). unfold around_all. cbn [map renamed]. rewrite map_app. cbn [map].
  unfold NOT_ENTITY. now rewrite Z0.
Qed.
Lemma free_drop : free_blind drop_ends.
Proof.
  intros f l k _. unfold drop_ends. cbn [renamed]. f_equal.
  assert (forall m, removelast (map f m) = map f (removelast m)) as H.
  { induction m as [|x [|y m] IH]; [reflexivity|reflexivity|].
    change (f x :: removelast (map f (y :: m)) = f x :: map f (removelast (y :: m))). now rewrite IH. }
  destruct l; [reflexivity|]. cbn [map tl]. apply H.
Qed.
#[global] Hint Resolve free_most_common free_not_entity free_except free_around free_single free_all free_drop : free.

Definition free_al (a : aligner) : Prop :=
  match a with
  | ANull _ _ => True
  | AStr _ _ _ f b | ALst _ _ _ f b => free_blind f /\ free_blind b
  | ATok _ _ _ _ _ _ => False
  end.

Lemma free_align a : free_al a -> forall f l, free_renaming f l -> align a (map f l) = renamed f (align a l).
Proof.
  intros B f l R. unfold align. rewrite map_length. destruct (guard _ _); cbn [bind]; [|reflexivity].
  rewrite <- guarded. f_equal.
  destruct a; cbn [align_raw free_al] in *; try contradiction; try reflexivity; apply free_propagate; tauto.
Qed.
Lemma free_align_inverse E a : free_al a -> forall f l, free_renaming f l ->
  align_inverse E a (map f l) = renamed f (align_inverse E a l).
Proof.
  intros B f l R. unfold align_inverse. rewrite map_length. destruct (guard _ _); cbn [bind]; [|reflexivity].
  rewrite <- guarded. f_equal.
  destruct a; cbn [align_inverse_raw free_al] in *; try contradiction; try reflexivity;
    (destruct (inverse _ _ _); cbn [bind]; [|reflexivity]); apply free_propagate; tauto.
Qed.

Lemma str_result_free s g f b y a :
  free_blind f -> free_blind b -> str_result s g f b = Ok (y, a) -> free_al a.
Proof. intros F B. unfold str_result. destruct g; cbn [bind]; [|discriminate]. intros [= <- <-]. now split. Qed.
Lemma lst_result_free s g f b y a :
  free_blind f -> free_blind b -> lst_result s g f b = Ok (y, a) -> free_al a.
Proof. intros F B. unfold lst_result. destruct g; cbn [bind]; [|discriminate]. intros [= <- <-]. now split. Qed.
Lemma lst_null_free s g y a : lst_result_null s g = Ok (y, a) -> free_al a.
Proof. unfold lst_result_null. destruct g; cbn [bind]; [|discriminate]. intros [= <- <-]. exact I. Qed.

Lemma transform_free E o x y a : input_type o = output_type o -> transform_op E o x = Ok (y, a) -> free_al a.
Proof.
  intros T. unfold transform_op. destruct (guard _ _); cbn [bind]; [|discriminate].
  destruct x as [s|l].
  - destruct (transform_str E o s) as [[y' a']|e] eqn:H; cbn [bind]; [|discriminate].
    destruct (guard _ _); cbn [bind]; [|discriminate]. intros [= <- <-].
    destruct o; cbn [transform_str] in H; try discriminate H; try discriminate T;
      try (eapply str_result_free; [| |exact H]; auto with free; fail).
    + destruct (scan_group _ _ _ _); cbn [bind] in H; [|discriminate].
      destruct (guard _ _); cbn [bind] in H; [|discriminate]. injection H as <- <-. exact I.
    + destruct (re_compile E a); [|discriminate].
      eapply str_result_free; [| |exact H]; auto with free.
  - destruct (transform_lst E o l) as [[y' a']|e] eqn:H; cbn [bind]; [|discriminate].
    destruct (guard _ _); cbn [bind]; [|discriminate]. intros [= <- <-].
    destruct o; cbn [transform_lst] in H; try discriminate H;
      try (eapply lst_result_free; [| |exact H]; auto with free; fail);
      eapply lst_null_free; exact H.
Qed.

Theorem others_any_labels E o x y a : input_type o = output_type o -> transform_op E o x = Ok (y, a) ->
  forall l,
  (forall out, align a l = Ok out -> Forall (fun v => v = 0%Z \/ In v l) out) /\
  (forall out, align_inverse E a l = Ok out -> Forall (fun v => v = 0%Z \/ In v l) out) /\
  forall f, free_renaming f l ->
    align a (map f l) = renamed f (align a l) /\ align_inverse E a (map f l) = renamed f (align_inverse E a l).
Proof.
  intros T H l. pose proof (transform_closed _ _ _ _ _ H) as C. pose proof (transform_free _ _ _ _ _ T H) as F.
  split; [|split].
  - intros out A. apply (align_closed (fun v => v = 0 \/ In v l) a l out); auto. apply Forall_forall. auto.
  - intros out A. apply (align_inverse_closed (fun v => v = 0 \/ In v l) E a l out); auto. apply Forall_forall. auto.
  - intros f R. split; [now apply free_align|now apply free_align_inverse].
Qed.

Theorem tokenizers_labels32 E o s : python E -> built E o -> input_type o <> output_type o -> input_type o = TStr ->
  exists ps, tokenizes E o s ps.
Proof.
  intros (OC & OE & HS) HB T T'.
  destruct HB as [o HI|p b find HC HB|ws sh o HM|ws sh o HM|tok|m tok|st e|t o HM|v u m|d u o HM|d o HM];
    try (exfalso; apply T; reflexivity); try discriminate T'.
  - repeat (destruct HI as [<-|HI]; [first
      [ exfalso; apply T; reflexivity
      | eexists; apply (char_tokenizes E s OC)
      | eexists; apply (ws_tokenizes E s _ OC (cut_by_cut _ s))
      | eexists; apply (eng_tokenizes E s _ OC HS (cut_by_cut _ s))
      | eexists; apply (zh_tokenizes E s _ OC HS (cut_by_cut _ s)) ]|]).
    destruct HI.
  - exfalso. unfold make_wordn in HM. destruct (make_trie ws); [|discriminate]. injection HM as <-. now apply T.
  - destruct ws as [ws|]; [|discriminate]. destruct (munched_exists sh ws s) as (ps & HP).
    eexists. exact (custom_tokenizes E ws sh _ s ps OC HM HP).
  - exfalso. destruct t; inversion HM; subst; now apply T.
  - exfalso. unfold make_token2index in HM. destruct (validate_continuity d); [|discriminate]. cbn [bind] in HM.
    destruct (guard _ KeyErr); [|discriminate]. injection HM as <-. now apply T.
  - exfalso. unfold make_hash in HM. destruct (validate_continuity d); [|discriminate]. cbn [bind] in HM.
    injection HM as <-. now apply T.
Qed.
