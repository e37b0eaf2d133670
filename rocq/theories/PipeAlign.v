(** Labels through whole pipes: lengths both ways, no label invented. *)

From Verif Require Import Py PyFacts Edit Labels SpecEdit SpecLabels SpecScan Ops SpecOps AlignProofs EditApiProofs
  ClosureProofs Json SpecJson Elements Pipe SpecPipe PipeProofs ObjProofs.
Local Open Scope nat_scope.

(** ** What constructors return *)

Lemma init_built name c E bound o : dict_get classes name = Some c -> regexes E ->
  c_init c E bound = Ok o -> built E o.
Proof.
  intros H HR. apply dict_get_In in H. unfold classes in H.
  repeat (destruct H as [H|H]; [injection H as _ <-; cbn [c_init plain];
    first [ intros [= <-]; apply built_plain; cbn [In]; tauto | idtac ] |]); [..|destruct H].
  all: destruct bound as [|a [|b [|d [|]]]]; cbn [one two three]; try discriminate.
  all: cbv beta delta [init_end init_soseos init_wordn init_custom init_pad init_purenum init_subwords init_index init_hash init_replace].
  - destruct (as_words a) as [w|]; cbn [bind]; [|discriminate]. apply built_wordn.
  - destruct (as_str a) as [x|]; cbn [bind]; [|discriminate].
    destruct (as_str b) as [y|]; cbn [bind]; [|discriminate]. unfold make_replace.
    destruct (re_compile E x) as [find|] eqn:HF; [|discriminate]. intros [= <-].
    apply (built_replace E x y find HF). now apply (HR x).
  - destruct (as_words a) as [w|]; cbn [bind]; [|discriminate]. apply built_custom.
  - destruct (as_elem a) as [x|]; cbn [bind]; [|discriminate].
    destruct (as_elem b) as [y|]; cbn [bind]; [|discriminate]. intros [= <-]. apply built_soseos.
  - destruct (as_int a) as [x|]; cbn [bind]; [|discriminate].
    destruct (as_elem b) as [y|]; cbn [bind]; [|discriminate]. intros [= <-]. apply built_pad.
  - destruct (as_index_dict a) as [x|]; cbn [bind]; [|discriminate].
    destruct (as_str b) as [y|]; cbn [bind]; [|discriminate]. apply built_index.
  - destruct (as_vocab a) as [x|]; cbn [bind]; [|discriminate].
    destruct (as_elem b) as [y|]; cbn [bind]; [|discriminate].
    destruct (as_int d) as [z|]; cbn [bind]; [|discriminate]. intros [= <-]. apply built_subwords.
  - destruct (as_index_dict a) as [x|]; cbn [bind]; [|discriminate]. apply built_hash.
  - destruct a; cbn [as_elem bind]; try discriminate; intros [= <-]; apply built_purenum.
  - destruct a; try discriminate. apply built_end.
Qed.

Lemma made_built E o : regexes E -> made E o -> built E (o_op o).
Proof.
  intros HR HM. apply made_coherent in HM. destruct HM as (c & bound & HG & _ & HI & _).
  exact (init_built _ _ _ _ _ HG HR HI).
Qed.

Lemma from_dict_made E reg name kwargs o : value (JDict kwargs) ->
  op_from_dict E reg (JDict [(K_op_name, JStr name); (K_op_kwargs, JDict kwargs)]) = Ok o -> made E o.
Proof.
  intros HV. unfold op_from_dict.
  replace (key (JDict [(K_op_name, JStr name); (K_op_kwargs, JDict kwargs)]) K_op_name) with (Ok (JStr name) : res jval) by reflexivity.
  replace (key (JDict [(K_op_name, JStr name); (K_op_kwargs, JDict kwargs)]) K_op_kwargs) with (Ok (JDict kwargs) : res jval) by reflexivity.
  cbn [bind]. unfold make_registered. destruct (memb name reg); [|discriminate].
  intros H. exists name, [], kwargs. auto.
Qed.

Definition sound_pipe (E : env) (p : pipe) : Prop :=
  Forall (made E) (steps p) /\ NoDup (map fst (checkpoints p)).

Lemma add_op_sound E p o ck : sound_pipe E p -> made E o -> sound_pipe E (fst (add_op p o ck)).
Proof.
  intros [HF HN] HM. unfold add_op.
  destruct (match pipe_output_type p with Ok t => _ | Err _ => _ end); [now split|].
  assert (Forall (made E) (steps p ++ [o])) by (rewrite Forall_app; auto).
  destruct ck as [name|]; [|now split]. destruct (dict_mem _ _); split; cbn [fst steps checkpoints]; auto.
  now apply dict_set_NoDup.
Qed.

Lemma update_NoDup {V} (d e : list (str * V)) : NoDup (map fst d) -> NoDup (map fst (dict_update d e)).
Proof.
  unfold dict_update. revert d. induction e as [|[k v] e IH]; intros d H; cbn [fold_left]; auto.
  apply IH. now apply dict_set_NoDup.
Qed.

Lemma iadd_sound E p q : sound_pipe E p -> sound_pipe E q -> sound_pipe E (fst (iadd p q)).
Proof.
  intros [HF HN] [HF' HN']. unfold iadd.
  destruct (pipe_output_type p), (pipe_input_type q); try now split.
  destruct (negb _); [now split|]. destruct (existsb _ _); [now split|].
  split; cbn [fst steps checkpoints]; [rewrite Forall_app; auto|now apply update_NoDup].
Qed.

Lemma slice_sound E p sl q : (forall s, get_slice (steps p) sl = Ok s -> Forall (made E) s) ->
  sound_pipe E p -> getitem_slice p sl = Ok q -> sound_pipe E q.
Proof.
  intros HS [HF HN] HG. assert (H := slice_steps _ _ _ HG). split; [now apply HS|].
  unfold getitem_slice in HG. destruct (get_slice _ _); cbn [bind] in HG; [|discriminate].
  destruct sl as [[[from|] to] step].
  - injection HG as <-. cbn [checkpoints]. rewrite map_map. cbn [fst].
    now apply filter_NoDup_keys.
  - destruct (checkpoints p); [|discriminate]. injection HG as <-. constructor.
Qed.

Lemma Forall_sub {A} (P : A -> Prop) l n m : Forall P l -> Forall P (firstn m (skipn n l)).
Proof.
  rewrite !Forall_forall. intros H x Hx. apply H. eapply In_skipn_In, In_firstn_In. exact Hx.
Qed.

Theorem reachable_sound E p : reachable E p -> Forall (made E) (steps p) /\ NoDup (map fst (checkpoints p)).
Proof.
  change (reachable E p -> sound_pipe E p).
  induction 1 as [|p o ck _ IH HM|p reg name kw ck _ IH HV|p q _ IHp _ IHq|p q r _ IHp _ IHq HC|p _ IH
                  |p start stop q _ IH HS|p start stop q _ IH HS].
  - split; constructor.
  - now apply add_op_sound.
  - unfold add. destruct (op_from_dict _ _ _) as [o|] eqn:HO; [|exact IH].
    apply add_op_sound; [exact IH|]. apply from_dict_made in HO; auto.
  - now apply iadd_sound.
  - apply concat_inv in HC. destruct HC as (_ & _ & -> & _). now apply iadd_sound.
  - exact IH.
  - apply (slice_sound E p (start, stop, None)); auto. intros s.
    destruct (get_slice_1 (steps p) start stop None (or_introl eq_refl)) as (n & m & _ & HG & _).
    rewrite HG. intros [= <-]. apply Forall_sub, IH.
  - apply (slice_sound E p (start, stop, Some 1%Z)); auto. intros s.
    destruct (get_slice_1 (steps p) start stop (Some 1%Z) (or_intror eq_refl)) as (n & m & _ & HG & _).
    rewrite HG. intros [= <-]. apply Forall_sub, IH.
Qed.

(** ** Lengths *)

Section lengths.
  Context (E : env) (PY : python E) (RX : regexes E).

  Definition twice_in (ops : list opobj) (coll : list pseq) : Prop :=
    exists k o u, nth_error ops k = Some o /\ nth_error coll k = Some u /\ deletes_twice E (o_op o) u.

  Lemma run_sound ops : Forall (made E) ops -> forall x y als coll,
    run E ops x = Ok (y, als, coll) ->
    (* forward *)
    (forall l, length l = pseq_length x -> exists l', align_all als l = Ok l' /\ length l' = pseq_length y) /\
    (* backward *)
    (forall l, length l = pseq_length y -> Forall (fun o => in_type o = out_type o) ops \/ u32_labels l ->
       (~ twice_in ops coll /\ exists l', align_inverse_all E als l = Ok l' /\ length l' = pseq_length x) \/
       (twice_in ops coll /\ align_inverse_all E als l = Err AssertionErr)) /\
    (* wrong lengths *)
    (ops <> [] -> forall l, length l <> pseq_length x -> align_all als l = Err ValueErr) /\
    (ops <> [] -> forall l, length l <> pseq_length y -> align_inverse_all E als l = Err ValueErr) /\
    Forall closed_al als.
  Proof.
    induction 1 as [|o ops HM HF IH]; intros x y als coll.
    - cbn [run]. intros [= <- <- <-]. split; [intros l HL; exists l; auto|].
      split; [intros l HL _; left; split; [intros ([|k] & o & u & Q & _); discriminate|exists l; auto]|]. split; [congruence|]. split; [congruence|constructor].
    - cbn [run]. destruct (transform_op E (o_op o) x) as [[m a]|] eqn:HT; cbn [bind]; [|discriminate].
      destruct (run E ops m) as [[[z als'] coll']|] eqn:HR; cbn [bind]; [|discriminate].
      intros [= <- <- <-]. specialize (IH _ _ _ _ HR). destruct IH as (I1 & I2 & I3 & I4 & I5).
      assert (C := transform_closed _ _ _ _ _ HT).
      destruct (all_sound E (o_op o) x m a PY (made_built _ _ RX HM) HT) as (S1 & S2 & S3 & S4 & S5).
      split; [|split; [|split; [|split]]].
      + intros l HL. destruct (S3 l HL) as (l1 & H1 & L1). destruct (I1 l1 L1) as (l2 & H2 & L2).
        exists l2. split; [|exact L2]. cbn [align_all]. unfold align_all in *. cbn [foldM]. rewrite H1. exact H2.
      + intros l HL HO. rewrite align_inverse_cons.
        assert (HO' : Forall (fun o => in_type o = out_type o) ops \/ u32_labels l).
        { destruct HO as [HO|HO]; [left; now inversion HO|now right]. }
        destruct (I2 l HL HO') as [(NT & l1 & H1 & L1)|((k & o' & u & K1 & K2 & K3) & H1)]; rewrite H1; cbn [bind].
        * assert (R : representable (o_op o) l1).
          { destruct HO as [HO|HO]; [left; now inversion HO|right].
            assert (G : forall als l r, Forall closed_al als -> u32_labels l -> align_inverse_all E als l = Ok r -> u32_labels r).
            { clear. intros als. induction als as [|a als IH] using rev_ind; intros l r HC HL.
              - cbn. now intros [= <-].
              - unfold align_inverse_all. rewrite rev_app_distr. cbn [rev app foldM].
                apply Forall_app in HC. destruct HC as [HC1 HC2]. inversion HC2; subst.
                destruct (align_inverse E a l) as [l1|] eqn:HA; cbn [bind]; [|discriminate].
                apply IH; auto. eapply align_inverse_closed; eauto. split; [reflexivity|reflexivity]. }
            exact (G _ _ _ I5 HO H1). }
          destruct (S4 l1 L1 R) as [(W & l2 & H2 & L2)|(W & H2)].
          -- left. split; [|eauto]. intros ([|k] & o' & u & K1 & K2 & K3); [|apply NT; exists k, o', u; auto].
             cbn [nth_error] in K1, K2. injection K1 as <-. injection K2 as <-. exact (W K3).
          -- right. split; [|exact H2]. exists 0, o, x. auto.
        * right. split; [|reflexivity]. exists (S k), o', u. auto.
      + intros _ l HL. unfold align_all. cbn [foldM]. now rewrite (S1 l HL).
      + intros _ l HL. rewrite align_inverse_cons. destruct ops as [|o' ops'].
        * cbn [run] in HR. injection HR as <- <- <-. cbn [align_inverse_all]. unfold align_inverse_all. cbn [rev foldM bind].
          now apply S2.
        * rewrite I4; [reflexivity|discriminate|exact HL].
      + auto.
  Qed.

  (** C44 *)
  Theorem whole_pipe p x y als coll : reachable E p -> transform_sequence E p x = Ok (y, als, coll) ->
    let twice := exists k o u, nth_error (steps p) k = Some o /\ nth_error coll k = Some u /\ deletes_twice E (o_op o) u in
    (forall l, length l = pseq_length x ->
       exists l', align_all als l = Ok l' /\ length l' = pseq_length y) /\
    (forall l, length l = pseq_length y ->
       (forall o, In o (steps p) -> in_type o = out_type o) \/ u32_labels l ->
       (twice -> align_inverse_all E als l = Err AssertionErr) /\
       (~ twice -> exists l', align_inverse_all E als l = Ok l' /\ length l' = pseq_length x) /\
       (forall e, align_inverse_all E als l = Err e -> twice)) /\
    (steps p <> [] -> forall l, length l <> pseq_length x -> align_all als l = Err ValueErr) /\
    (steps p <> [] -> forall l, length l <> pseq_length y -> align_inverse_all E als l = Err ValueErr).
  Proof.
    intros HP HT twice. destruct (reachable_sound _ _ HP) as [HM _].
    destruct (run_sound _ HM _ _ _ _ HT) as (R1 & R2 & R3 & R4 & _).
    split; [exact R1|]. split; [|split; [exact R3|exact R4]]. intros l HL HO.
    assert (HO' : Forall (fun o => in_type o = out_type o) (steps p) \/ u32_labels l).
    { destruct HO as [HO|HO]; [left; now apply Forall_forall|now right]. }
    destruct (R2 l HL HO') as [(N & l' & H & L)|(W & H)].
    - split; [intros W; destruct (N W)|]. split; [eauto|]. congruence.
    - split; [auto|]. split; [intros N; destruct (N W)|]. intros; exact W.
  Qed.

End lengths.

(** ** No label is invented *)

Theorem pipe_labels E p x y als coll : transform_sequence E p x = Ok (y, als, coll) ->
  (forall l l', align_all als l = Ok l' -> forall z, In z l' -> z = 0%Z \/ In z l) /\
  (forall l l', align_inverse_all E als l = Ok l' -> forall z, In z l' -> z = 0%Z \/ In z l).
Proof.
  unfold transform_sequence. intros HT.
  assert (HC : Forall closed_al als).
  { revert x als coll HT. induction (steps p) as [|o ops IH]; intros x als coll; cbn [run].
    - intros [= _ <- _]. constructor.
    - destruct (transform_op E (o_op o) x) as [[m a]|] eqn:HT; cbn [bind]; [|discriminate].
      destruct (run E ops m) as [[[z als'] coll']|] eqn:HR; cbn [bind]; [|discriminate].
      intros [= -> <- _]. constructor; [now apply transform_closed in HT|]. eapply IH; eauto. }
  assert (F : forall (P : Z -> Prop), P 0%Z -> forall als l r, Forall closed_al als -> Forall P l -> align_all als l = Ok r -> Forall P r).
  { clear. intros P P0 als. induction als as [|a als IH]; intros l r HC HL.
    - cbn. now intros [= <-].
    - unfold align_all. cbn [foldM]. inversion HC; subst.
      destruct (align a l) as [l1|] eqn:HA; cbn [bind]; [|discriminate].
      apply IH; auto. eapply align_closed; eauto. }
  assert (B : forall (P : Z -> Prop), P 0%Z -> forall als l r, Forall closed_al als -> Forall P l -> align_inverse_all E als l = Ok r -> Forall P r).
  { clear. intros P P0 als. induction als as [|a als IH] using rev_ind; intros l r HC HL.
    - cbn. now intros [= <-].
    - unfold align_inverse_all. rewrite rev_app_distr. cbn [rev app foldM].
      apply Forall_app in HC. destruct HC as [HC1 HC2]. inversion HC2; subst.
      destruct (align_inverse E a l) as [l1|] eqn:HA; cbn [bind]; [|discriminate].
      apply IH; auto. eapply align_inverse_closed; eauto. }
  split; intros l l' HA; apply Forall_forall.
  - apply (F (fun z => z = 0%Z \/ In z l) (or_introl eq_refl) als l); auto. apply Forall_forall. auto.
  - apply (B (fun z => z = 0%Z \/ In z l) (or_introl eq_refl) als l); auto. apply Forall_forall. auto.
Qed.
