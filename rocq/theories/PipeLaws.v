(** Equality and serialisation of the pipes that the public methods make. *)

From Verif Require Import Py PyFacts Edit Labels SpecEdit SpecLabels SpecScan Ops SpecOps
  Json SpecJson Elements Pipe SpecPipe PipeProofs ObjProofs EqProofs PipeAlign BertProofs.
Local Open Scope nat_scope.

Lemma ops_eqb_spec a : forall b, ops_eqb a b = true <-> Forall2 (fun x y => op_eqb x y = true) a b.
Proof.
  induction a as [|x a IH]; intros [|y b]; cbn [ops_eqb]; split; intros H; try constructor; try discriminate;
    try (inversion H; fail).
  - now apply andb_true_iff in H.
  - apply IH. now apply andb_true_iff in H.
  - inversion H; subst. apply andb_true_iff. split; [assumption|]. now apply IH.
Qed.

Lemma ckpts_eqb_spec a b : NoDup (map fst a) -> NoDup (map fst b) ->
  ckpts_eqb a b = true <-> Permutation a b.
Proof.
  intros NA NB. unfold ckpts_eqb. rewrite andb_true_iff, Nat.eqb_eq, forallb_forall. split.
  - intros [HL HF]. apply NoDup_Permutation_bis; [eapply NoDup_map_inv; exact NA|lia|].
    intros [k v] Hk. specialize (HF _ Hk). cbn [fst snd] in HF.
    destruct (dict_get b k) as [w|] eqn:HG; [|discriminate]. apply Z.eqb_eq in HF. subst.
    now apply dict_get_In in HG.
  - intros HP. split; [now apply Permutation_length|]. intros [k v] Hk. cbn [fst snd].
    apply (Permutation_in _ HP) in Hk. rewrite (dict_get_Some b k v NB Hk). apply Z.eqb_refl.
Qed.

(** C43: equality of pipes *)
Theorem pipe_eq E p q : reachable E p -> reachable E q ->
  pipe_eqb p q = true <->
  Forall2 (fun a b => o_class a = o_class b /\ same (JDict (o_configs a)) (JDict (o_configs b)))
    (steps p) (steps q) /\
  Permutation (checkpoints p) (checkpoints q).
Proof.
  intros HP HQ. destruct (reachable_sound _ _ HP) as [MP NP], (reachable_sound _ _ HQ) as [MQ NQ].
  unfold pipe_eqb. rewrite andb_true_iff, ops_eqb_spec, (ckpts_eqb_spec _ _ NP NQ).
  apply and_iff_compat_r. revert MQ. generalize (steps q). induction MP as [|a l HA HF IH]; intros m HM.
  - split; intros H; inversion H; constructor.
  - destruct HM as [|b m HB HM]; [split; intros H; inversion H|].
    split; intros H; inversion H; subst; constructor; try (now apply IH); now apply (op_eqb_spec E).
Qed.

(** equal pipes behave alike *)
Theorem pipe_eq_run E p q x : reachable E p -> reachable E q -> pipe_eqb p q = true ->
  transform_sequence E p x = transform_sequence E q x /\
  forall d, transform E p d = transform E q d.
Proof.
  intros HP HQ HE.
  assert (R : forall x, transform_sequence E p x = transform_sequence E q x).
  { clear x. destruct (reachable_sound _ _ HP) as [MP _], (reachable_sound _ _ HQ) as [MQ _].
    unfold pipe_eqb in HE. apply andb_true_iff in HE. destruct HE as [HE _]. apply ops_eqb_spec in HE.
    unfold transform_sequence. revert MQ. induction HE as [|a b l m HAB HLM IH]; intros MQ x; [reflexivity|].
    inversion MP; inversion MQ; subst. cbn [run].
    destruct (equal_behave E a b) as (_ & _ & T); auto. rewrite T.
    destruct (transform_op E (o_op b) x) as [[y al]|]; cbn [bind]; [|reflexivity]. now rewrite IH. }
  split; [apply R|]. intros d. unfold transform. destruct (unpack_datum d) as [[[u is] el]|]; cbn [bind]; [|reflexivity].
  now rewrite R.
Qed.

Lemma as_json_run E p x : transform_sequence E (as_json_pipe p) x = transform_sequence E p x.
Proof.
  unfold transform_sequence, as_json_pipe. cbn [steps]. revert x.
  induction (steps p) as [|o l IH]; intros x; [reflexivity|]. cbn [map run o_op as_json_obj].
  destruct (transform_op E (o_op o) x) as [[y a]|]; cbn [bind]; [|reflexivity]. now rewrite IH.
Qed.

(** C42: reading a pipe back *)
Theorem pipe_serial E reg p : reachable E p -> Forall text (map fst (checkpoints p)) ->
  (forall o, In o (steps p) -> In (o_class o) reg) ->
  exists q, pipe_deserialize E reg (pipe_serialize p) = Ok q /\
    (forall x, transform_sequence E q x = transform_sequence E p x) /\
    checkpoints q = checkpoints p /\
    (pipe_eqb p q = true <-> forall o, In o (steps p) -> no_tuple (JDict (o_configs o))) /\
    ((forall o, In o (steps p) -> no_tuple (JDict (o_configs o))) -> q = p).
Proof.
  intros HP HT HR. destruct (reachable_sound _ _ HP) as [HM HN].
  assert (HC := reachable_chained _ _ HP). exists (as_json_pipe p).
  split; [now apply pipe_round_trip|]. split; [intros x; apply as_json_run|]. split; [reflexivity|].
  split.
  - unfold pipe_eqb. cbn [as_json_pipe checkpoints steps]. rewrite andb_true_iff, ops_eqb_spec, ckpts_eqb_spec by assumption.
    assert (G : Forall2 (fun x y => op_eqb x y = true) (steps p) (map as_json_obj (steps p)) <->
                forall o, In o (steps p) -> no_tuple (JDict (o_configs o))).
    { clear -HM. induction HM as [|o l HO HL IH]; cbn [map].
      - split; [intros _ o []|constructor].
      - split.
        + intros H. inversion H; subst. intros o' [<-|HI]; [now apply (round_trip_equal E)|now apply IH].
        + intros H. constructor; [apply (round_trip_equal E); [exact HO|apply H; now left]|].
          apply IH. intros o' HI. apply H. now right. }
    rewrite G. split; [tauto|]. intros H. split; [exact H|apply Permutation_refl].
  - intros H. assert (Q := pipe_round_trip_exact E reg p HM HN HT HC HR H).
    rewrite (pipe_round_trip E reg p HM HN HT HC HR) in Q. congruence.
Qed.

(** a class that is not registered *)
Theorem pipe_serial_unknown E reg p : reachable E p -> Forall text (map fst (checkpoints p)) ->
  (exists o, In o (steps p) /\ ~ In (o_class o) reg) ->
  pipe_deserialize E reg (pipe_serialize p) = Err KeyErr.
Proof.
  intros HP HT HR. destruct (reachable_sound _ _ HP) as [HM HN].
  apply (pipe_read_fails E reg p HM HN HT); [now apply (reachable_chained E)|exact HR].
Qed.

(** ** Reachability of concrete pipes *)

Lemma add_all_reachable E reg l : forall p q, reachable E p ->
  Forall (fun nk : str * option (list (str * jval)) =>
            value (JDict (match snd nk with Some k => k | None => [] end))) l ->
  add_all_ops E reg p l = Ok q -> reachable E q.
Proof.
  induction l as [|[n kw] l IH]; intros p q HP HF; cbn [add_all_ops]; [now intros [= <-]|].
  inversion HF as [|? ? HV HF']; subst. cbn [snd] in HV.
  assert (R := r_add E p reg n kw None HP HV).
  destruct (add E reg p n kw None) as [p' [e|]]; [discriminate|]. apply IH; auto.
Qed.

Lemma basic_values : Forall (fun nk : str * option (list (str * jval)) =>
  value (JDict (match snd nk with Some k => k | None => [] end))) basic_names.
Proof. repeat (constructor; [split; [constructor|exact I]|]). constructor. Qed.

Lemma basic_reachable E p : basic_pipe E = Ok p -> reachable E p.
Proof. apply (add_all_reachable E imported basic_names pipe_new p (r_new E) basic_values). Qed.

Fixpoint valueb (v : jval) : bool :=
  match v with
  | JStr s => textb s
  | JList l | JTuple l => forallb valueb l
  | JDict d => nodupb (map fst d) && forallb (fun kv => textb (fst kv) && valueb (snd kv)) d
  | _ => true
  end.
Lemma valueb_ok v : valueb v = true -> value v.
Proof.
  induction v as [| | | s|l IH|l IH|d IH] using JsonProofs.jval_rec'; cbn [valueb value]; auto.
  - apply textb_ok.
  - intros H. induction IH as [|x l Hx HL IHl]; cbn in *; [exact I|]. apply andb_true_iff in H. intuition.
  - intros H. induction IH as [|x l Hx HL IHl]; cbn in *; [exact I|]. apply andb_true_iff in H. intuition.
  - rewrite andb_true_iff. intros [H1 H2]. split; [now apply nodupb_ok|]. clear H1.
    induction IH as [|x l Hx HL IHl]; cbn in *; [exact I|]. rewrite !andb_true_iff in H2.
    destruct H2 as [[H2 H3] H4]. split; [split; [now apply textb_ok|now apply Hx]|now apply IHl].
Qed.

Lemma full_reachable E p : full_pipe E = Ok p -> reachable E p.
Proof.
  apply (add_all_reachable E imported _ pipe_new p (r_new E)).
  apply Forall_app. split; [exact basic_values|]. constructor; [|constructor].
  apply valueb_ok. reflexivity.
Qed.

Lemma word_piece_reachable E p : word_piece_pipe E = Ok p -> reachable E p.
Proof.
  apply (add_all_reachable E imported _ pipe_new p (r_new E)).
  constructor; [split; [constructor|exact I]|]. constructor; [|constructor].
  apply valueb_ok. reflexivity.
Qed.

Theorem bert_exists E : exists p q r,
  basic_pipe E = Ok p /\ full_pipe E = Ok q /\ word_piece_pipe E = Ok r /\
  reachable E p /\ reachable E q /\ reachable E r.
Proof.
  do 3 eexists. split; [apply basic_is|]. split; [apply full_is|]. split; [apply word_piece_is|].
  split; [apply basic_reachable, basic_is|]. split; [apply full_reachable, full_is|].
  apply word_piece_reachable, word_piece_is.
Qed.

Theorem concat_iadd p q r : concat_pipes p q = Ok r <-> iadd p q = (r, None).
Proof.
  unfold concat_pipes. rewrite copy_id. destruct (iadd p q) as [r' [e|]]; split; congruence.
Qed.

(** C43 *)
Theorem op_serial E reg o : made E o -> In (o_class o) reg ->
  op_deserialize E reg (op_serialize o) = Ok (as_json_obj o) /\
  (op_eqb o (as_json_obj o) = true <-> no_tuple (JDict (o_configs o))) /\
  (no_tuple (JDict (o_configs o)) -> as_json_obj o = o).
Proof.
  intros HM HR. split; [now apply op_round_trip|]. split; [now apply (round_trip_equal E)|].
  intros HN. assert (A := op_round_trip E reg o HM HR). rewrite (op_round_trip_exact E reg o HM HR HN) in A.
  congruence.
Qed.
