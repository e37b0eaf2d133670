(** Proofs for C78: what the deserializers make of any text. *)

From Coq Require Import String.
From Verif Require Import Py PyFacts Json SpecJson JsonProofs Elements Ops Pipe SpecPipe ObjProofs PipeProofs PipeAlign EqProofs
  SpecOrdinal JsonAscii SpecJsonAscii JsonAsciiProofs
  Factory Custom SpecForeign ForeignProofs SpecGrammar GrammarProofs SpecStored.
From Coq Require Import List.
Local Open Scope Z_scope.

(** ** The values of JSON texts *)

Lemma in_quotes_text s t : in_quotes s t -> text s.
Proof.
  induction 1 as [|c s t A B C H IH|e c s t A H IH|u h s t U H IH N|u h v k s t U V HS LS H IH].
  - constructor.
  - constructor; [lia|exact IH].
  - constructor; [|exact IH]. unfold short_escapes in A. cbn [In] in A.
    repeat (destruct A as [A|A]; [injection A as <- <-; lia|]). contradiction.
  - constructor; [|exact IH]. apply unit_range in U. lia.
  - constructor; [|exact IH]. unfold high_surrogate, low_surrogate in *. lia.
Qed.

Lemma quoted_text s t : quoted s t -> text s.
Proof. intros (u & _ & Q). now apply in_quotes_text in Q. Qed.

Definition fine (v : jval) : Prop := value v /\ no_tuple v.
Definition fine_dict (d : list (str * jval)) : Prop := Forall (fun kv => text (fst kv) /\ fine (snd kv)) d.

Lemma dict_set_fine (d : list (str * jval)) k v : NoDup (map fst d) -> fine_dict d -> text k -> fine v ->
  NoDup (map fst (dict_set d k v)) /\ fine_dict (dict_set d k v).
Proof.
  intros N F T V. split; [now apply dict_set_NoDup|].
  clear N. induction F as [|[k' v'] d [T1 F1] F IH]; cbn; [repeat constructor; auto; apply V|].
  destruct (list_eqb k k'); constructor; cbn in *; auto.
Qed.

Lemma merged_fine d : fine_dict d -> forall acc, NoDup (map fst acc) -> fine_dict acc ->
  let o := fold_left (fun (o : list (str * jval)) kv => dict_set o (fst kv) (snd kv)) d acc in
  NoDup (map fst o) /\ fine_dict o.
Proof.
  induction 1 as [|[k v] d [T V] _ IH]; intros acc N F; cbn [fold_left fst snd]; [now split|].
  destruct (dict_set_fine acc k v N F T V) as [N' F']. now apply IH.
Qed.

Lemma fine_object d : NoDup (map fst d) -> fine_dict d -> fine (JDict d).
Proof.
  intros N F. split.
  - apply value_dict. split; [exact N|]. eapply Forall_impl; [|exact F]. cbn. unfold fine. tauto.
  - cbn [no_tuple]. rewrite (fold_Forall (fun kv => no_tuple (snd kv))). eapply Forall_impl; [|exact F].
    cbn. unfold fine. tauto.
Qed.

Lemma says_fine : forall v t, says v t -> fine v.
Proof.
  apply (says_mut (fun v t _ => fine v) (fun l t _ => Forall fine l) (fun d t _ => fine_dict d)).
  1-5: intros; split; exact I.
  - intros s t Q. split; [exact (quoted_text _ _ Q)|exact I].
  - intros. split; exact I.
  - intros l t _ F. split; cbn [value no_tuple]; [rewrite fold_Forall|rewrite fold_Forall];
      (eapply Forall_impl; [|exact F]; unfold fine; tauto).
  - intros. split; [|exact I]. split; [constructor|exact I].
  - intros d t _ F. destruct (merged_fine d F [] (NoDup_nil _) (Forall_nil _)) as [N F']. now apply fine_object.
  - intros; constructor; auto.
  - intros; constructor; auto.
  - intros k v w kt w1 w2 t w' _ Q _ _ _ V _. constructor; [split; [exact (quoted_text _ _ Q)|exact V]|constructor].
  - intros k v w kt w1 w2 t w' d t' _ Q _ _ _ V _ _ F. constructor; [split; [exact (quoted_text _ _ Q)|exact V]|exact F].
Qed.

Lemma json_text_value v s : json_text v s -> value v /\ no_tuple v.
Proof. intros (w & t & w' & _ & _ & _ & S). exact (says_fine _ _ S). Qed.

Lemma json_text_keys d s : json_text (JDict d) s -> NoDup (map fst d).
Proof. intros H. apply json_text_value in H as [H _]. apply value_dict in H. tauto. Qed.

Lemma value_member d k v : value (JDict d) -> In (k, v) d -> value v.
Proof. intros H HI. apply value_dict in H as [_ F]. rewrite Forall_forall in F. exact (proj2 (F _ HI)). Qed.

(** ** What is written is JSON *)

Lemma dumps_json ind v : value v -> json_text (as_json v) (dumps ind v).
Proof. intros H. apply loads_iff. now apply loads_dumps. Qed.

Lemma dumps_ascii_json v : all_texts sound v -> json_text (as_json v) (dumps_ascii v).
Proof. intros H. apply loads_iff. now apply loads_dumps_ascii. Qed.

(** ** Operators *)

Lemma op_text E reg v s : json_text v s -> op_deserialize E reg s = op_from_dict E reg v.
Proof. intros H. apply loads_iff in H. unfold op_deserialize. now rewrite H. Qed.

Lemma from_dict_object E reg d name kwargs : NoDup (map fst d) ->
  In (lit "op_name", JStr name) d -> In (lit "op_kwargs", JDict kwargs) d -> In name reg ->
  op_from_dict E reg (JDict d) = construct E name [] kwargs.
Proof.
  intros N H1 H2 R. unfold op_from_dict. rewrite (key_In d K_op_name (JStr name) N H1). cbn [bind].
  rewrite (key_In d K_op_kwargs (JDict kwargs) N H2). cbn [bind]. unfold make_registered.
  apply memb_In in R. now rewrite R.
Qed.

Theorem op_written E reg d name kwargs s : json_text (JDict d) s ->
  In (lit "op_name", JStr name) d -> In (lit "op_kwargs", JDict kwargs) d -> In name reg ->
  op_deserialize E reg s = construct E name [] kwargs.
Proof. intros H. rewrite (op_text _ _ _ _ H). apply from_dict_object. exact (json_text_keys _ _ H). Qed.

Lemma from_dict_refused E reg v e : value v -> no_tuple v -> refused (fun n => In n reg) v e ->
  op_from_dict E reg v = Err e.
Proof.
  intros V T R. rewrite <- (op_refused E reg v e V T R). symmetry. apply op_text.
  rewrite <- (as_json_same v T) at 1. now apply dumps_json.
Qed.

Theorem op_text_refused E reg v e s : json_text v s -> refused (fun n => In n reg) v e ->
  op_deserialize E reg s = Err e.
Proof.
  intros H R. rewrite (op_text _ _ _ _ H). destruct (json_text_value _ _ H). now apply from_dict_refused.
Qed.

Theorem op_serialized E o : made E o ->
  json_text (JDict [(lit "op_name", JStr (o_class o)); (lit "op_kwargs", as_json (JDict (o_configs o)))]) (op_serialize o).
Proof.
  intros H. destruct (made_coherent E o H) as (c & bound & (_ & _ & _ & _ & _ & HV & HT)).
  apply (dumps_json 0 (JDict [(lit "op_name", JStr (o_class o)); (lit "op_kwargs", JDict (o_configs o))])).
  apply value_dict. split.
  - apply nodupb_ok. reflexivity.
  - constructor; [|constructor; [|constructor]]; (split; [apply textb_ok; reflexivity|]); [exact HT|exact HV].
Qed.

(** ** Pipes *)

Lemma restore_good E reg info o p : value info -> stored_step E (fun n => In n reg) info o ->
  restore_step E reg p info = match add_op p o None with (p, None) => Ok p | (_, Some e) => Err e end.
Proof.
  intros V H. unfold restore_step. destruct H as [d name kwargs o H1 H2 R C|s d o J H].
  - rewrite (from_dict_object E reg d name kwargs) by (auto; apply value_dict in V; tauto). now rewrite C.
  - rewrite (op_text _ _ _ _ J). inversion H as [d' name kwargs o' H1 H2 R C|]; subst.
    rewrite (from_dict_object E reg d name kwargs) by (auto; exact (json_text_keys _ _ J)). now rewrite C.
Qed.

Lemma restore_bad E reg info e p : value info -> no_tuple info -> bad_step E (fun n => In n reg) info e ->
  restore_step E reg p info = Err e.
Proof.
  assert (O : forall d e, value (JDict d) -> no_tuple (JDict d) -> bad_step E (fun n => In n reg) (JDict d) e ->
            op_from_dict E reg (JDict d) = Err e).
  { clear. intros d e V T H. inversion H as [v N _|d' e' R|d' name kwargs e' H1 H2 R C| | |]; subst.
    - contradiction N. eexists; reflexivity.
    - now apply from_dict_refused.
    - rewrite (from_dict_object E reg d name kwargs) by (auto; apply value_dict in V; tauto). exact C. }
  intros V T H. unfold restore_step. destruct H as [v N NS|d e R|d name kwargs e H1 H2 R C|s NF N|s d e J B|s v J N].
  - destruct v; try reflexivity; [now contradiction (NS s)|]. contradiction N. eexists; reflexivity.
  - rewrite (O d e V T); [reflexivity|now constructor].
  - rewrite (O d e V T); [reflexivity|]. now apply (bad_arguments E _ d name kwargs).
  - unfold op_deserialize. now rewrite loads_none.
  - rewrite (op_text _ _ _ _ J). destruct (json_text_value _ _ J) as [V' T']. now rewrite (O d e V' T' B).
  - rewrite (op_text _ _ _ _ J). destruct v; try reflexivity. contradiction N. eexists; reflexivity.
Qed.

(** the steps before a bad one *)
Fixpoint add_steps (p : pipe) (ops : list opobj) : res pipe :=
  match ops with
  | [] => Ok p
  | o :: ops => match add_op p o None with (p, None) => add_steps p ops | (_, Some e) => Err e end
  end.

Lemma restore_many E reg infos ops : Forall2 (stored_step E (fun n => In n reg)) infos ops -> Forall value infos ->
  forall rest p, foldM (restore_step E reg) (infos ++ rest) p =
    (p <- add_steps p ops ;; foldM (restore_step E reg) rest p).
Proof.
  induction 1 as [|info o infos ops H _ IH]; intros V rest p; [reflexivity|]. inversion V; subst.
  cbn [app foldM add_steps]. rewrite (restore_good E reg info o p) by assumption.
  destruct (add_op p o None) as [q [e|]]; [reflexivity|]. cbn [bind]. now apply IH.
Qed.

Lemma add_steps_chained ops : forall p, chained ops ->
  (forall a b, last_opt (steps p) = Some a -> nth_error ops 0 = Some b -> out_type a = in_type b) ->
  add_steps p ops = Ok (mkPipe (steps p ++ ops) (checkpoints p)).
Proof.
  induction ops as [|o ops IH]; intros p HC HJ.
  - cbn. rewrite app_nil_r. destruct p; reflexivity.
  - cbn [add_steps]. destruct (add_op_effect p o None) as (_ & H2 & _ & _). rewrite H2; auto.
    2:{ intros (l & HL & HT). apply HT. now apply HJ. }
    rewrite IH.
    + cbn [steps checkpoints]. now rewrite <- app_assoc.
    + now apply chained_tail in HC.
    + cbn [steps]. intros a b Ha Hb. rewrite last_opt_nth, app_length in Ha. cbn [List.length] in Ha.
      replace (List.length (steps p) + 1 - 1)%nat with (List.length (steps p)) in Ha by lia.
      rewrite nth_error_app2, Nat.sub_diag in Ha by lia. injection Ha as <-.
      exact (HC 0%nat o b eq_refl Hb).
Qed.

Lemma add_steps_unchained ops : forall p,
  ~ (chained ops /\ (forall a b, last_opt (steps p) = Some a -> nth_error ops 0 = Some b -> out_type a = in_type b)) ->
  add_steps p ops = Err TypeErr.
Proof.
  induction ops as [|o ops IH]; intros p H.
  - exfalso. apply H. split; intros k; destruct k; discriminate.
  - cbn [add_steps]. destruct (add_op_effect p o None) as (H1 & H2 & _ & _).
    destruct (last_opt (steps p)) as [a|] eqn:L.
    + destruct (seqtype_eqb (out_type a) (in_type o)) eqn:T.
      * assert (out_type a = in_type o) as T' by (destruct (out_type a), (in_type o); try discriminate; reflexivity).
        rewrite H2; auto; [|intros (l & HL & HT); congruence].
        apply IH. intros [C J]. apply H. split; [|intros a' b Ha Hb; injection Hb as <-; congruence].
        intros [|k] x y Hx Hy; [|exact (C k x y Hx Hy)].
        injection Hx as <-. cbn in Hy. apply (J o y); [|exact Hy]. cbn [steps].
        rewrite last_opt_nth, app_length. cbn [List.length].
        replace (List.length (steps p) + 1 - 1)%nat with (List.length (steps p)) by lia.
        rewrite nth_error_app2, Nat.sub_diag by lia. reflexivity.
      * rewrite H1; [reflexivity|]. exists a. split; [reflexivity|]. intros E. rewrite E in T. destruct (in_type o); discriminate.
    + rewrite H2; auto; [|intros (l & HL & HT); congruence].
      apply IH. intros [C J]. apply H. split; [|intros a' b Ha; congruence].
      intros [|k] x y Hx Hy; [|exact (C k x y Hx Hy)].
      injection Hx as <-. cbn in Hy. apply (J o y); [|exact Hy]. cbn [steps].
      rewrite last_opt_nth, app_length. cbn [List.length].
      replace (List.length (steps p) + 1 - 1)%nat with (List.length (steps p)) by lia.
      rewrite nth_error_app2, Nat.sub_diag by lia. reflexivity.
Qed.

Lemma as_index_positions ck : as_index_dict (positions ck) = Ok ck.
Proof.
  unfold positions. cbn [as_index_dict]. induction ck as [|[k z] ck IH]; [reflexivity|].
  cbn [map mapM fst snd as_int bind]. rewrite IH. reflexivity.
Qed.

Lemma list_value l : value (JList l) -> Forall value l.
Proof. cbn [value]. now rewrite fold_Forall. Qed.
Lemma list_no_tuple l : no_tuple (JList l) -> Forall no_tuple l.
Proof. cbn [no_tuple]. now rewrite fold_Forall. Qed.
Lemma member_no_tuple d k v : no_tuple (JDict d) -> In (k, v) d -> no_tuple v.
Proof.
  cbn [no_tuple]. rewrite (fold_Forall (fun kv => no_tuple (snd kv))), Forall_forall. intros F H. exact (F _ H).
Qed.

Theorem pipe_written E reg d infos ops ck s : json_text (JDict d) s ->
  In (lit "steps", JList infos) d -> In (lit "checkpoints", positions ck) d ->
  Forall2 (stored_step E (fun n => In n reg)) infos ops ->
  (chained ops -> pipe_deserialize E reg s = Ok (mkPipe ops ck)) /\
  (~ chained ops -> pipe_deserialize E reg s = Err TypeErr).
Proof.
  intros J H1 H2 F. pose proof (json_text_keys _ _ J) as N. destruct (json_text_value _ _ J) as [V _].
  pose proof (list_value _ (value_member _ _ _ V H1)) as VI.
  assert (D : pipe_deserialize E reg s = (p <- add_steps pipe_new ops ;; Ok (mkPipe (steps p) ck))).
  { unfold pipe_deserialize. apply loads_iff in J. rewrite J. cbn [bind].
    rewrite (key_In d K_steps _ N H1). cbn [bind as_list].
    rewrite <- (app_nil_r infos), (restore_many E reg infos ops F VI). cbn [foldM].
    destruct (add_steps pipe_new ops) as [p|]; [|reflexivity]. cbn [bind].
    rewrite (key_In d K_checkpoints _ N H2). cbn [bind]. now rewrite as_index_positions. }
  rewrite D. split; intros C.
  - rewrite add_steps_chained; [reflexivity|exact C|]. intros a b Ha; discriminate.
  - rewrite add_steps_unchained; [reflexivity|]. tauto.
Qed.

Theorem pipe_refused E reg v s : json_text v s ->
  (~ is_object v -> pipe_deserialize E reg s = Err TypeErr) /\
  (forall d, v = JDict d ->
     (~ In (lit "steps") (map fst d) -> pipe_deserialize E reg s = Err KeyErr) /\
     (forall good ops bad e rest, In (lit "steps", JList (good ++ bad :: rest)) d ->
        Forall2 (stored_step E (fun n => In n reg)) good ops -> chained ops ->
        bad_step E (fun n => In n reg) bad e -> pipe_deserialize E reg s = Err e) /\
     (forall infos ops, In (lit "steps", JList infos) d ->
        Forall2 (stored_step E (fun n => In n reg)) infos ops -> chained ops ->
        ~ In (lit "checkpoints") (map fst d) -> pipe_deserialize E reg s = Err KeyErr)).
Proof.
  intros J. unfold pipe_deserialize. pose proof J as L. apply loads_iff in L. rewrite L. cbn [bind]. split.
  { intros H. now rewrite key_no_dict. }
  intros d ->. pose proof (json_text_keys _ _ J) as N. destruct (json_text_value _ _ J) as [V T].
  split; [|split].
  - intros H. now rewrite key_None.
  - intros good ops bad e rest H F C B.
    pose proof (list_value _ (value_member _ _ _ V H)) as VI. apply Forall_app in VI as [VG VB].
    pose proof (list_no_tuple _ (member_no_tuple _ _ _ T H)) as TI. apply Forall_app in TI as [_ TB].
    inversion VB; subst. inversion TB; subst.
    rewrite (key_In d K_steps _ N H). cbn [bind as_list]. rewrite (restore_many E reg good ops F VG).
    rewrite add_steps_chained by (auto; intros a b Ha; discriminate). cbn [bind foldM].
    now rewrite (restore_bad E reg bad e).
  - intros infos ops H F C H2.
    pose proof (list_value _ (value_member _ _ _ V H)) as VI.
    rewrite (key_In d K_steps _ N H). cbn [bind as_list].
    rewrite <- (app_nil_r infos), (restore_many E reg infos ops F VI).
    rewrite add_steps_chained by (auto; intros a b Ha; discriminate). cbn [bind foldM]. now rewrite key_None.
Qed.

Theorem pipe_serialized E p : reachable E p -> Forall text (map fst (checkpoints p)) ->
  json_text (JDict [(lit "steps", JList (map (fun o => JStr (op_serialize o)) (steps p)));
                    (lit "checkpoints", positions (checkpoints p))]) (pipe_serialize p).
Proof.
  intros R HT. destruct (reachable_sound E p R) as (HM & ND).
  set (v := JDict _).
  assert (V : value v).
  { apply value_dict. split; [apply nodupb_ok; reflexivity|].
    constructor; [|constructor; [|constructor]]; (split; [apply textb_ok; reflexivity|]); cbn [snd].
    - cbn [value]. rewrite fold_Forall, Forall_map. eapply Forall_impl; [|exact HM]. intros o Ho.
      now apply (op_serialize_value E).
    - apply checkpoints_value. auto. }
  rewrite <- (as_json_same v); [exact (dumps_json 0 v V)|].
  subst v. unfold positions. cbn [no_tuple fold_right snd]. split; [|split; [|exact I]].
  - rewrite fold_Forall, Forall_map. apply Forall_forall. intros; exact I.
  - rewrite (fold_Forall (fun kv : str * jval => no_tuple (snd kv))), Forall_map. apply Forall_forall. intros; exact I.
Qed.

(** ** Labels *)

Theorem ordinal_written d i2i e2i ne s : json_text (JDict d) s ->
  In (lit "intent2index", positions i2i) d -> In (lit "entity2index", positions e2i) d ->
  In (lit "not_entity_index", JInt ne) d -> ordinal_deserialize s = make_ordinal i2i e2i ne.
Proof.
  intros J H1 H2 H3. pose proof (json_text_keys _ _ J) as N. apply loads_iff in J.
  unfold ordinal_deserialize. rewrite J. cbn [bind].
  rewrite (key_In d K_INTENT2INDEX _ N H1). cbn [bind]. rewrite (key_In d K_ENTITY2INDEX _ N H2). cbn [bind].
  rewrite (key_In d K_NOT_ENTITY_INDEX _ N H3). cbn [bind]. rewrite !as_index_positions. reflexivity.
Qed.

Theorem ordinal_serialized o : is_ordinal o -> names_are sound o ->
  json_text (JDict [(lit "intent2index", positions (intent2index o)); (lit "entity2index", positions (entity2index o));
                    (lit "not_entity_index", JInt (not_entity_index o))]) (ordinal_serialize o).
Proof. intros H1 H2. apply loads_iff. now apply serialize_reads. Qed.

(** ** Operators defined by users *)

Theorem obj_written T B (f : list (str * pyclass T B)) d name kwargs s : json_text (JDict d) s ->
  In (lit "op_name", JStr name) d -> In (lit "op_kwargs", JDict kwargs) d ->
  obj_deserialize f s = from_dict f name kwargs.
Proof.
  intros J H1 H2. pose proof (json_text_keys _ _ J) as N. apply loads_iff in J. unfold obj_deserialize. rewrite J.
  cbn [bind]. rewrite (key_In d K_op_name (JStr name) N H1). cbn [bind].
  now rewrite (key_In d K_op_kwargs (JDict kwargs) N H2).
Qed.

Theorem obj_text_refused T B (f : list (str * pyclass T B)) v e s : json_text v s ->
  refused (fun n => exists c, fget f n = Ok c) v e -> obj_deserialize f s = Err e.
Proof.
  intros J R. destruct (json_text_value _ _ J) as [V NT]. rewrite <- (obj_refused T B f v e V NT R).
  unfold obj_deserialize. apply loads_iff in J. rewrite J, loads_dumps by exact V. now rewrite (as_json_same v NT).
Qed.

(** ** Texts that are not JSON *)

Theorem not_json E reg T B (f : list (str * pyclass T B)) s : no_floats s -> (forall v, ~ json_text v s) ->
  op_deserialize E reg s = Err ValueErr /\ pipe_deserialize E reg s = Err ValueErr /\
  ordinal_deserialize s = Err ValueErr /\ obj_deserialize f s = Err ValueErr.
Proof.
  intros _ H. unfold op_deserialize, pipe_deserialize, ordinal_deserialize, obj_deserialize.
  rewrite (loads_none s H). repeat split.
Qed.
