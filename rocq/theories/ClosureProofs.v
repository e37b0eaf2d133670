(** No aligner invents a label: what it returns is 0 or one of the labels it got. *)

From Verif Require Import Py PyFacts Edit Labels SpecLabels LabelProofs Ops SpecOps EditApiProofs.
Local Open Scope Z_scope.

Definition closed_tr (f : transducer) : Prop :=
  forall (P : Z -> Prop), P 0 -> forall ls k out, Forall P ls -> f ls k = Ok out -> Forall P out.

Section closure.
  Context (P : Z -> Prop) (P0 : P 0).

  Lemma Forall_firstn n l : Forall P l -> Forall P (firstn n l).
  Proof. rewrite !Forall_forall. intros H x Hx. apply H. eapply In_firstn_In; eauto. Qed.
  Lemma Forall_skipn n l : Forall P l -> Forall P (skipn n l).
  Proof. rewrite !Forall_forall. intros H x Hx. apply H. eapply In_skipn_In; eauto. Qed.
  Lemma Forall_slice l i j : Forall P l -> Forall P (slice l i j).
  Proof. intros H. apply Forall_firstn, Forall_skipn, H. Qed.
  Lemma Forall_setslice l i j v : Forall P l -> Forall P v -> Forall P (setslice l i j v).
  Proof. intros H V. unfold setslice. rewrite !Forall_app. auto using Forall_firstn, Forall_skipn. Qed.
  Lemma Forall_repeat (x : Z) n : P x -> Forall P (repeat x n).
  Proof. intros H. apply Forall_forall. intros y Hy. apply repeat_spec in Hy. now subst. Qed.

  Lemma counter_fold_keys l : forall c, Forall (fun kv => P (fst kv)) c -> Forall P l ->
    Forall (fun kv => P (fst kv)) (fold_left counter_add l c).
  Proof.
    induction l as [|x l IH]; intros c Hc Hl; [exact Hc|].
    inversion Hl; subst. cbn. apply IH; auto. clear IH.
    induction Hc as [|[k n] c Hk Hc IHc]; cbn; [auto|].
    destruct (x =? k); auto.
  Qed.
  Lemma counter_keys l : Forall P l -> Forall (fun kv => P (fst kv)) (counter l).
  Proof. intros. apply counter_fold_keys; auto. Qed.

  Lemma insert_by_Forall {A} (Q : A -> Prop) key x l : Q x -> Forall Q l -> Forall Q (insert_by key x l).
  Proof.
    intros Hx. induction 1 as [|y l Hy Hl IH]; cbn; [auto|]. destruct (_ <=? _); auto.
  Qed.
  Lemma sort_by_Forall {A} (Q : A -> Prop) key l : Forall Q l -> Forall Q (sort_by key l).
  Proof. induction 1; cbn; auto using insert_by_Forall. Qed.

  Lemma max_scan_P c : Forall (fun kv => P (fst kv)) c -> forall k n, P k -> P (max_scan c k n).
  Proof.
    induction 1 as [|[k n] c Hk Hc IH]; intros k0 n0 H0; cbn; auto.
    destruct (_ <? _); auto.
  Qed.

  Lemma propagate_loop_P {A} (g : list (repl A)) f : closed_tr f -> forall labels i o out r,
    Forall P labels -> Forall P out -> propagate_loop labels g f i o out = Ok r -> Forall P r.
  Proof.
    intros C. induction g as [|x g IH]; intros labels i o out r L O; cbn [propagate_loop].
    - intros [= <-]. rewrite Forall_app. auto using Forall_firstn, Forall_skipn.
    - destruct (f _ _) as [new|e] eqn:E; cbn; [|discriminate].
      apply IH; [exact L|]. apply Forall_setslice.
      + apply Forall_setslice; auto using Forall_slice.
      + apply (C P P0 _ _ _ (Forall_slice _ _ _ L) E).
  Qed.
  Lemma propagate_P {A} (g : list (repl A)) f labels r : closed_tr f ->
    Forall P labels -> propagate labels g f = Ok r -> Forall P r.
  Proof. intros C L. apply (propagate_loop_P g f C _ _ _ _ _ L). apply Forall_repeat, P0. Qed.

  Lemma reduce_loop_P g f : closed_tr f -> forall labels i out r,
    Forall P labels -> Forall P out -> reduce_loop labels g f i out = Ok r -> Forall P r.
  Proof.
    intros C. induction g as [|x g IH]; intros labels i out r L O; cbn [reduce_loop].
    - now intros [= <-].
    - destruct (f _ _) as [new|e] eqn:E; cbn [bind]; [|discriminate].
      apply IH; [exact L|]. apply Forall_setslice; auto.
      apply (C P P0 _ _ _ (Forall_slice _ _ _ L) E).
  Qed.
  Lemma reduce_P g f labels r : closed_tr f ->
    Forall P labels -> reduce_by_span_group labels g f = Ok r -> Forall P r.
  Proof.
    intros C L. unfold reduce_by_span_group. destruct (_ && _); [now intros [= <-]|].
    destruct (last_opt g); [|discriminate]. destruct (guard _ _); cbn [bind]; [|discriminate].
    apply reduce_loop_P; auto. apply Forall_repeat, P0.
  Qed.

  Lemma expand_loop_P g : forall labels out r,
    Forall P labels -> Forall P out -> expand_loop g labels out = Ok r -> Forall P r.
  Proof.
    induction g as [|x g IH]; intros labels out r L O; cbn [expand_loop]; [now intros [= <-]|].
    destruct labels as [|l labels]; [now intros [= <-]|].
    destruct (guard _ _); cbn [bind]; [|discriminate]. inversion L; subst.
    apply IH; auto. apply Forall_setslice; auto using Forall_repeat.
  Qed.
  Lemma expand_P g labels r :
    Forall P labels -> expand_by_span_group labels g = Ok r -> Forall P r.
  Proof.
    intros L. unfold expand_by_span_group. destruct (guard _ _); cbn [bind]; [|discriminate].
    destruct (last_opt g); [|now intros [= <-]]. apply expand_loop_P; auto using Forall_repeat.
  Qed.
End closure.

Lemma closed_most_common : closed_tr get_most_common.
Proof.
  intros P P0 ls k out L. unfold get_most_common.
  pose proof (sort_by_Forall (fun kv => P (fst kv)) (fun kv => - snd kv) _ (counter_keys P ls L)) as H.
  destruct (sort_by _ _) as [|[x n] t]; [discriminate|]. intros [= <-].
  inversion H; subst. now apply Forall_repeat.
Qed.
Lemma closed_not_entity : closed_tr get_not_entity.
Proof. intros P P0 ls k out L [= <-]. now apply Forall_repeat. Qed.
Lemma closed_except : closed_tr except_ne.
Proof.
  intros P P0 ls k out L. unfold except_ne, get_most_common_except_not_entity.
  assert (F : Forall P (filter (fun l => negb (l =? NOT_ENTITY)) ls)).
  { rewrite Forall_forall in *. intros x Hx. apply filter_In in Hx. apply L, Hx. }
  destruct (filter _ ls) eqn:E; [now apply closed_not_entity|].
  now apply closed_most_common.
Qed.
Lemma closed_default : closed_tr get_most_common_label.
Proof.
  intros P P0 ls k out L [= <-]. apply Forall_repeat. destruct ls as [|l ls]; [exact P0|].
  unfold count_and_get_most_common. destruct (forallb _ _); [|exact P0].
  apply max_scan_P; auto. now apply counter_keys.
Qed.
Lemma closed_around t : closed_tr (around_most_common t).
Proof.
  intros P P0 ls k out L. unfold around_most_common.
  destruct (get_most_common _ _) as [c|e] eqn:E; cbn [bind]; [|discriminate]. intros [= <-].
  constructor; [exact P0|]. rewrite Forall_app. split; [|auto].
  exact (closed_most_common P P0 _ _ _ L E).
Qed.
Lemma closed_single : closed_tr around_single.
Proof.
  intros P P0 ls k out L. unfold around_single. destruct ls as [|x [|]]; try discriminate.
  intros [= <-]. inversion L; subst. repeat constructor; auto.
Qed.
Lemma closed_all : closed_tr around_all.
Proof.
  intros P P0 ls k out L [= <-]. constructor; [exact P0|]. rewrite Forall_app. auto.
Qed.
Lemma closed_drop : closed_tr drop_ends.
Proof.
  intros P P0 ls k out L [= <-]. assert (Forall P (tl ls)) as T by (destruct L; auto; constructor).
  clear -T. rewrite Forall_forall in *. intros x Hx. apply T. clear T.
  induction (tl ls) as [|y l IH]; [destruct Hx|]. cbn in *. destruct l; [destruct Hx|].
  destruct Hx; auto.
Qed.
Lemma closed_none : closed_tr return_none.
Proof. intros P P0 ls k out L. discriminate. Qed.

#[global] Hint Resolve closed_most_common closed_not_entity closed_except closed_default closed_around
  closed_single closed_all closed_drop closed_none : closed.

(** aligners whose transducers are closed *)
Definition closed_al (a : aligner) : Prop :=
  match a with
  | ANull _ _ => True
  | AStr _ _ _ f b | ALst _ _ _ f b | ATok _ _ _ _ f b => closed_tr f /\ closed_tr b
  end.

Lemma align_closed (P : Z -> Prop) a l r :
  P 0 -> closed_al a -> Forall P l -> align a l = Ok r -> Forall P r.
Proof.
  intros P0 C L. unfold align. destruct (guard _ _); cbn [bind]; [|discriminate].
  destruct (align_raw a l) as [out|e] eqn:E; cbn [bind]; [|discriminate].
  destruct (guard _ _); cbn [bind]; [|discriminate]. intros [= <-].
  destruct a; cbn [align_raw closed_al] in *; try destruct C as [Cf Cb].
  - injection E as <-. exact L.
  - exact (propagate_P P P0 _ _ _ _ Cf L E).
  - exact (propagate_P P P0 _ _ _ _ Cf L E).
  - destruct (propagate l edit fwd) as [m|] eqn:Em; cbn [bind] in E; [|discriminate].
    pose proof (propagate_P P P0 _ _ _ _ Cf L Em) as M.
    exact (reduce_P P P0 _ _ _ _ closed_default M E).
Qed.

Lemma align_inverse_closed (P : Z -> Prop) E a l r :
  P 0 -> closed_al a -> Forall P l -> align_inverse E a l = Ok r -> Forall P r.
Proof.
  intros P0 C L. unfold align_inverse. destruct (guard _ _); cbn [bind]; [|discriminate].
  destruct (align_inverse_raw E a l) as [out|e] eqn:H; cbn [bind]; [|discriminate].
  destruct (guard _ _); cbn [bind]; [|discriminate]. intros [= <-].
  destruct a; cbn [align_inverse_raw closed_al] in *; try destruct C as [Cf Cb].
  - injection H as <-. exact L.
  - destruct (inverse _ _ _) as [g|]; cbn [bind] in H; [|discriminate].
    exact (propagate_P P P0 _ _ _ _ Cb L H).
  - destruct (inverse _ _ _) as [g|]; cbn [bind] in H; [|discriminate].
    exact (propagate_P P P0 _ _ _ _ Cb L H).
  - destruct (inverse _ _ _) as [g|]; cbn [bind] in H; [|discriminate].
    destruct (expand_by_span_group l spans) as [m|] eqn:Em; cbn [bind] in H; [|discriminate].
    pose proof (expand_P P P0 _ _ _ L Em) as M.
    exact (propagate_P P P0 _ _ _ _ Cb M H).
Qed.

Lemma str_result_closed s g f b y a :
  closed_tr f -> closed_tr b -> str_result s g f b = Ok (y, a) -> closed_al a.
Proof.
  intros F B. unfold str_result. destruct g; cbn [bind]; [|discriminate]. intros [= <- <-]. now split.
Qed.
Lemma lst_result_closed s g f b y a :
  closed_tr f -> closed_tr b -> lst_result s g f b = Ok (y, a) -> closed_al a.
Proof.
  intros F B. unfold lst_result. destruct g; cbn [bind]; [|discriminate]. intros [= <- <-]. now split.
Qed.
Lemma lst_null_closed s g y a : lst_result_null s g = Ok (y, a) -> closed_al a.
Proof.
  unfold lst_result_null. destruct g; cbn [bind]; [|discriminate]. intros [= <- <-]. exact I.
Qed.
Lemma tok_result_closed E s t f b y a :
  closed_tr f -> closed_tr b -> tok_result E s t f b = Ok (y, a) -> closed_al a.
Proof.
  intros F B. unfold tok_result. destruct t; cbn [bind]; [|discriminate].
  destruct (gen_replacement_group _ _ _); cbn [bind]; [|discriminate].
  destruct (gen_span_group _ _); cbn [bind]; [|discriminate]. intros [= <- <-]. now split.
Qed.

Lemma transform_closed E o x y a : transform_op E o x = Ok (y, a) -> closed_al a.
Proof.
  unfold transform_op. destruct (guard _ _); cbn [bind]; [|discriminate].
  destruct x as [s|l].
  - destruct (transform_str E o s) as [[y' a']|e] eqn:H; cbn [bind]; [|discriminate].
    destruct (guard _ _); cbn [bind]; [|discriminate]. intros [= <- <-].
    destruct o; cbn [transform_str] in H; try discriminate H;
      try (eapply str_result_closed; [| |exact H]; auto with closed; fail);
      try (eapply tok_result_closed; [| |exact H]; auto with closed; fail).
    + destruct (scan_group _ _ _ _); cbn [bind] in H; [|discriminate].
      destruct (guard _ _); cbn [bind] in H; [|discriminate]. injection H as <- <-. exact I.
    + destruct (re_compile E a); [|discriminate].
      eapply str_result_closed; [| |exact H]; auto with closed.
  - destruct (transform_lst E o l) as [[y' a']|e] eqn:H; cbn [bind]; [|discriminate].
    destruct (guard _ _); cbn [bind]; [|discriminate]. intros [= <- <-].
    destruct o; cbn [transform_lst] in H; try discriminate H;
      try (eapply lst_result_closed; [| |exact H]; auto with closed; fail);
      eapply lst_null_closed; exact H.
Qed.

(** C55 *)
Theorem no_label_invented E o x y a : transform_op E o x = Ok (y, a) ->
  (forall l l', align a l = Ok l' -> forall z, In z l' -> z = 0 \/ In z l) /\
  (forall l l', align_inverse E a l = Ok l' -> forall z, In z l' -> z = 0 \/ In z l).
Proof.
  intros H. apply transform_closed in H. split; intros l l' A.
  - apply Forall_forall.
    apply (align_closed (fun z => z = 0 \/ In z l) a l); auto. apply Forall_forall. auto.
  - apply Forall_forall.
    apply (align_inverse_closed (fun z => z = 0 \/ In z l) E a l); auto. apply Forall_forall. auto.
Qed.
