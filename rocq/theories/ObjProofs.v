(** Proofs about operator objects: argument binding, recorded configurations, equality and
    serialisation, of operators and of pipes. *)

From Coq Require Import String Ascii.
From Verif Require Import Py PyFacts Edit Labels Regex Trie Ops SpecOps SpecScan Json SpecJson JsonProofs
  Elements Pipe SpecPipe PipeProofs.
From Coq Require Import List.
Local Open Scope nat_scope.

(** ** Binding arguments *)

(** [configs] gives every parameter its bound value. *)
Definition complete (ps : list (str * option jval)) (configs : list (str * jval)) (bound : list jval) : Prop :=
  length bound = length ps /\
  forall k name d, nth_error ps k = Some (name, d) -> dict_get configs name = nth_error bound k.

Lemma bind_complete ps : forall configs bound,
  complete ps configs bound -> bind_params ps [] configs = Ok bound.
Proof.
  induction ps as [|[name d] ps IH]; intros configs bound [HL HC].
  - destruct bound; [reflexivity|discriminate].
  - destruct bound as [|v bound]; [discriminate|]. cbn [bind_params].
    rewrite (HC 0 name d eq_refl). cbn [nth_error bind].
    rewrite (IH configs bound); [reflexivity|]. split; [cbn in HL; lia|].
    intros k n d' Hk. exact (HC (S k) n d' Hk).
Qed.

Lemma bind_given ps : forall args kwargs bound,
  bind_params ps args kwargs = Ok bound ->
  length bound = length ps /\ length args <= length ps /\
  forall k name d, nth_error ps k = Some (name, d) ->
    exists v, nth_error bound k = Some v /\
      ((nth_error args k = Some v /\ ~ In name (map fst kwargs)) \/
       (nth_error args k = None /\ dict_get kwargs name = Some v) \/
       (nth_error args k = None /\ dict_get kwargs name = None /\ d = Some v)).
Proof.
  induction ps as [|[name d] ps IH]; intros args kwargs bound H; cbn [bind_params] in H.
  - destruct args; [|discriminate]. injection H as <-. repeat split; auto. intros [|k]; discriminate.
  - destruct args as [|a args].
    + destruct (match dict_get kwargs name with Some v => Ok v | None => match d with Some v => Ok v | None => Err TypeErr end end)
        as [v|] eqn:HV; cbn [bind] in H; [|discriminate].
      destruct (bind_params ps [] kwargs) as [rest|] eqn:HR; cbn [bind] in H; [|discriminate].
      injection H as <-. destruct (IH _ _ _ HR) as (L1 & L2 & L3). repeat split; cbn [length]; [lia|lia|].
      intros [|k] n d' Hk; cbn [nth_error] in *.
      * injection Hk as <- <-. exists v. split; [reflexivity|]. right.
        destruct (dict_get kwargs name) as [w|] eqn:HG.
        -- left. injection HV as ->. auto.
        -- right. destruct d; [|discriminate]. injection HV as ->. auto.
      * destruct (L3 k n d' Hk) as (w & HW & HC). exists w. split; [exact HW|].
        assert (NE : nth_error (@nil jval) k = None) by (destruct k; reflexivity).
        rewrite NE in HC. destruct HC as [[HC _]|HC]; [discriminate|]. right. exact HC.
    + destruct (dict_mem kwargs name) eqn:HM; cbn [negb guard bind] in H; [discriminate|].
      destruct (bind_params ps args kwargs) as [rest|] eqn:HR; cbn [bind] in H; [|discriminate].
      injection H as <-. destruct (IH _ _ _ HR) as (L1 & L2 & L3). repeat split; cbn [length]; [lia|lia|].
      intros [|k] n d' Hk; cbn [nth_error] in *.
      * injection Hk as <- <-. exists a. split; [reflexivity|]. left. split; [reflexivity|].
        rewrite <- dict_mem_spec. congruence.
      * exact (L3 k n d' Hk).
Qed.

(** ** The recorded configuration *)

Lemma dict_update_app {V} (d e : list (str * V)) :
  NoDup (map fst e) -> (forall k, In k (map fst e) -> ~ In k (map fst d)) -> dict_update d e = d ++ e.
Proof.
  revert d. induction e as [|[k v] e IH]; intros d ND H; [now rewrite app_nil_r|].
  cbn [dict_update fold_left fst snd]. inversion ND; subst.
  rewrite dict_set_new by (apply H; now left).
  unfold dict_update in IH. rewrite IH; auto.
  - now rewrite <- app_assoc.
  - intros k' Hk'. rewrite map_app, in_app_iff. cbn. intros [N|[->|[]]].
    + apply (H k'); [now right|exact N].
    + auto.
Qed.

Lemma NoDup_app_disjoint {A} (a b : list A) :
  NoDup a -> NoDup b -> (forall x, In x b -> ~ In x a) -> NoDup (a ++ b).
Proof.
  induction a as [|x a IH]; intros NA NB H; [exact NB|]. inversion NA; subst. cbn. constructor.
  - rewrite in_app_iff. intros [|HB]; [auto|]. apply (H x HB). now left.
  - apply IH; auto. intros y Hy HA. apply (H y Hy). now right.
Qed.

Lemma combine_keys {A} (names : list str) (args : list A) :
  map fst (combine names args) = firstn (length args) names.
Proof.
  revert args. induction names as [|n names IH]; intros [|a args]; cbn; try reflexivity. now rewrite IH.
Qed.
Lemma NoDup_firstn {A} (l : list A) n : NoDup l -> NoDup (firstn n l).
Proof.
  revert n. induction l as [|x l IH]; intros [|n] H; cbn; try constructor; inversion H; subst.
  - intros HI. apply H2. clear -HI. revert n HI. induction l as [|y l IHl]; intros [|n]; cbn; try tauto.
    intros [->|HI]; [now left|]. right. eapply IHl. exact HI.
  - now apply IH.
Qed.

Lemma defaults_In ps n v : In (n, v) (defaults_of ps) <-> In (n, Some v) ps.
Proof.
  unfold defaults_of. rewrite in_flat_map. split.
  - intros ([m [w|]] & HI & HX); cbn in HX; [|tauto]. destruct HX as [[= -> ->]|[]]. now apply in_rev.
  - intros HI. exists (n, Some v). split; [now apply -> in_rev|]. now left.
Qed.
Lemma defaults_NoDup ps : NoDup (map fst ps) -> NoDup (map fst (defaults_of ps)).
Proof.
  intros H. unfold defaults_of. apply NoDup_rev in H. rewrite <- map_rev in H.
  induction (rev ps) as [|[n d] l IH]; cbn; [constructor|]. cbn in H. inversion H; subst.
  destruct d as [v|]; cbn; [|auto]. constructor; [|auto].
  intros HI. apply H2. apply in_map_iff in HI. destruct HI as ([m w] & <- & HI).
  apply in_flat_map in HI. destruct HI as ([m' [w'|]] & HI & HX); cbn in HX; [|tauto].
  destruct HX as [[= -> ->]|[]]. apply (in_map fst) in HI. exact HI.
Qed.
Lemma filter_NoDup_keys {V} (f : str * V -> bool) d : NoDup (map fst d) -> NoDup (map fst (filter f d)).
Proof.
  induction d as [|[k v] d IH]; cbn; [auto|]. inversion 1; subst. destruct (f (k, v)); cbn; [|auto].
  constructor; [|auto]. intros HI. apply H2. apply in_map_iff in HI. destruct HI as ([k' v'] & <- & HI).
  apply filter_In in HI. apply (in_map fst d (k', v')). tauto.
Qed.

Section record.
  Context (ps : list (str * option jval)) (args : list jval) (kwargs : list (str * jval)) (bound : list jval).
  Context (NP : NoDup (map fst ps)) (NK : NoDup (map fst kwargs)).
  Context (HB : bind_args ps args kwargs = Ok bound).

  Lemma bound_params : bind_params ps args kwargs = Ok bound.
  Proof.
    revert HB. unfold bind_args. destruct (forallb _ _); cbn [guard bind]; [auto|discriminate].
  Qed.
  Lemma kwargs_known n : In n (map fst kwargs) -> In n (map fst ps).
  Proof.
    revert HB. unfold bind_args. destruct (forallb _ _) eqn:HF; cbn [guard bind]; [|discriminate].
    intros _ HI. apply in_map_iff in HI. destruct HI as ([k v] & <- & HI).
    rewrite forallb_forall in HF. specialize (HF _ HI). cbn in HF. now apply memb_In in HF.
  Qed.
  Definition positional := combine (map fst ps) args.
  Definition missing := filter (fun kv : str * jval => negb (dict_mem (positional ++ kwargs) (fst kv))) (defaults_of ps).

  Lemma positional_kwargs n : In n (map fst kwargs) -> ~ In n (map fst positional).
  Proof.
    unfold positional. rewrite combine_keys. intros HK HF.
    destruct (bind_given _ _ _ _ bound_params) as (_ & L2 & L3).
    apply In_nth_error in HF. destruct HF as (k & Hk).
    assert (HLk : k < length args).
    { assert (k < length (firstn (length args) (map fst ps))) by (apply nth_error_Some; congruence).
      rewrite firstn_length in H. lia. }
    assert (HN : nth_error (map fst ps) k = Some n).
    { rewrite <- Hk. clear -HLk. revert HLk. generalize (length args) as m. intros m. generalize (map fst ps). clear.
      revert k. induction m as [|m IH]; intros k l L; [lia|]. destruct l, k; cbn; auto. apply IH. lia. }
    rewrite nth_error_map in HN. destruct (nth_error ps k) as [[m d]|] eqn:HP; [|discriminate].
    cbn in HN. injection HN as ->. destruct (L3 k n d HP) as (v & _ & [[_ C]|[[C _]|[C _]]]); [auto| |];
      apply nth_error_None in C; lia.
  Qed.

  Lemma record_form : record_configs ps args kwargs = (positional ++ kwargs) ++ missing.
  Proof.
    unfold record_configs. fold positional. rewrite (dict_update_app positional kwargs); auto.
    2: exact positional_kwargs.
    rewrite dict_update_app; [reflexivity| |].
    - apply filter_NoDup_keys. now apply defaults_NoDup.
    - intros k HI HN. apply in_map_iff in HI. destruct HI as ([k' v] & <- & HI).
      apply filter_In in HI. destruct HI as [_ HI]. cbn in HI, HN. apply dict_mem_spec in HN.
      rewrite HN in HI. discriminate.
  Qed.

  Lemma record_NoDup : NoDup (map fst (record_configs ps args kwargs)).
  Proof.
    rewrite record_form, !map_app. apply NoDup_app_disjoint; [apply NoDup_app_disjoint| |].
    - unfold positional. rewrite combine_keys. now apply NoDup_firstn.
    - exact NK.
    - exact positional_kwargs.
    - apply filter_NoDup_keys. now apply defaults_NoDup.
    - intros k HI HN. apply in_map_iff in HI. destruct HI as ([k' v] & <- & HI).
      apply filter_In in HI. destruct HI as [_ HI]. cbn in HI, HN. rewrite <- map_app in HN. apply dict_mem_spec in HN.
      rewrite HN in HI. discriminate.
  Qed.

  Lemma record_complete : complete ps (record_configs ps args kwargs) bound.
  Proof.
    destruct (bind_given _ _ _ _ bound_params) as (L1 & L2 & L3). split; [exact L1|].
    intros k name d Hk. destruct (L3 k name d Hk) as (v & HV & HC). rewrite HV.
    assert (HN : nth_error (map fst ps) k = Some name) by (rewrite nth_error_map, Hk; reflexivity).
    destruct HC as [[HA _]|[[HA HG]|[HA [HG ->]]]].
    - apply dict_get_Some; [exact record_NoDup|]. rewrite record_form. apply in_app_iff. left.
      apply in_app_iff. left. unfold positional.
      clear -HN HA. revert k args HN HA. generalize (map fst ps). induction l as [|n l IH]; intros [|k] [|a args]; cbn; try discriminate.
      + intros [= ->] [= ->]. now left.
      + intros H1 H2. right. eapply IH; eauto.
    - apply dict_get_Some; [exact record_NoDup|]. rewrite record_form. apply in_app_iff. left.
      apply in_app_iff. right. now apply dict_get_In.
    - apply dict_get_Some; [exact record_NoDup|]. rewrite record_form. apply in_app_iff. right.
      apply filter_In. split; [apply defaults_In; eapply nth_error_In; exact Hk|].
      cbn. apply negb_true_iff. apply not_true_is_false. rewrite dict_mem_spec, map_app, in_app_iff.
      apply dict_get_None in HG. intros [HP|HP]; [|auto].
      unfold positional in HP. rewrite combine_keys in HP. apply In_nth_error in HP. destruct HP as (j & Hj).
      assert (j < length args).
      { assert (j < length (firstn (length args) (map fst ps))) by (apply nth_error_Some; congruence).
        rewrite firstn_length in H. lia. }
      assert (nth_error (map fst ps) j = Some name).
      { pose proof (nth_error_sub (map fst ps) 0 (length args) j) as Q. cbn [skipn] in Q. rewrite Q in Hj.
        destruct (j <? length args); [exact Hj|discriminate]. }
      apply nth_error_None in HA.
      assert (j = k); [|lia].
      apply (proj1 (NoDup_nth_error (map fst ps)) NP); [|congruence].
      apply nth_error_Some. congruence.
  Qed.

  Lemma record_keys n : In n (map fst (record_configs ps args kwargs)) <-> In n (map fst ps).
  Proof.
    split.
    - rewrite record_form, !map_app, !in_app_iff. intros [[HI|HI]|HI].
      + unfold positional in HI. rewrite combine_keys in HI. rewrite <- (firstn_skipn (length args)).
        apply in_app_iff. now left.
      + now apply kwargs_known.
      + apply in_map_iff in HI. destruct HI as ([m v] & <- & HI). apply filter_In in HI.
        destruct HI as [HI _]. apply defaults_In in HI. apply (in_map fst) in HI. exact HI.
    - intros HI. apply in_map_iff in HI. destruct HI as ([m d] & <- & HI). apply In_nth_error in HI.
      destruct HI as (k & Hk). destruct record_complete as [HL HC]. specialize (HC k m d Hk).
      destruct (nth_error bound k) as [v|] eqn:HV.
      + apply dict_get_In in HC. apply (in_map fst) in HC. exact HC.
      + apply nth_error_None in HV. assert (k < length ps) by (apply nth_error_Some; congruence). lia.
  Qed.

  Lemma record_In n v : In (n, v) (record_configs ps args kwargs) ->
    In v args \/ In (n, v) kwargs \/ In (n, Some v) ps.
  Proof.
    rewrite record_form, !in_app_iff. intros [[HI|HI]|HI].
    - left. unfold positional in HI. now apply in_combine_r in HI.
    - right. now left.
    - right. right. apply filter_In in HI. apply defaults_In. tauto.
  Qed.
End record.

(** recording a complete keyword configuration gives it back *)
Lemma record_again ps configs bound :
  NoDup (map fst ps) -> NoDup (map fst configs) -> (forall n, In n (map fst configs) -> In n (map fst ps)) ->
  complete ps configs bound ->
  bind_args ps [] configs = Ok bound /\ record_configs ps [] configs = configs.
Proof.
  intros NP NC HK HC.
  assert (HB : bind_args ps [] configs = Ok bound).
  { unfold bind_args. replace (forallb _ configs) with true.
    - now apply bind_complete.
    - symmetry. apply forallb_forall. intros [k v] HI. cbn. apply memb_In. apply HK.
      apply (in_map fst) in HI. exact HI. }
  split; [exact HB|].
  rewrite (record_form ps [] configs bound NP NC HB). unfold positional.
  replace (combine (map fst ps) []) with (@nil (str * jval)) by (destruct (map fst ps); reflexivity).
  unfold missing, positional.
  replace (combine (map fst ps) []) with (@nil (str * jval)) by (destruct (map fst ps); reflexivity).
  cbn [app]. enough (H : filter (fun kv => negb (dict_mem configs (fst kv))) (defaults_of ps) = [])
    by (rewrite H; apply app_nil_r).
  assert (G : forall kv, In kv (defaults_of ps) -> dict_mem configs (fst kv) = true).
  { intros [n v] HI. apply defaults_In in HI. apply In_nth_error in HI. destruct HI as (k & Hk).
    destruct HC as [HL HC]. cbn. unfold dict_mem. rewrite (HC k n _ Hk).
    destruct (nth_error bound k) eqn:E; [reflexivity|]. apply nth_error_None in E.
    assert (k < length ps) by (apply nth_error_Some; congruence). lia. }
  induction (defaults_of ps) as [|kv l IH]; [reflexivity|]. cbn [filter].
  rewrite G by now left. cbn [negb]. apply IH. intros kv' H'. apply G. now right.
Qed.

(** ** The table of classes *)

Fixpoint nodupb (l : list str) : bool :=
  match l with [] => true | x :: l => negb (memb x l) && nodupb l end.
Lemma nodupb_ok l : nodupb l = true -> NoDup l.
Proof.
  induction l as [|x l IH]; cbn [nodupb]; [constructor|]. rewrite andb_true_iff, negb_true_iff. intros [H1 H2].
  constructor; [|auto]. rewrite <- memb_In. congruence.
Qed.

Fixpoint textb (s : str) : bool := match s with [] => true | c :: s => (0 <=? c)%Z && textb s end.
Lemma textb_ok s : textb s = true -> text s.
Proof.
  induction s as [|c s IH]; cbn [textb]; [constructor|]. rewrite andb_true_iff. intros [H1 H2].
  constructor; [now apply Z.leb_le|]. now apply IH.
Qed.
Definition scalarb (v : jval) : bool :=
  match v with JStr s => textb s | JList _ | JTuple _ | JDict _ => false | _ => true end.

Lemma class_ok name c : dict_get classes name = Some c ->
  text name /\ NoDup (map fst (c_params c)) /\
  (forall n d, In (n, d) (c_params c) -> text n /\ forall v, d = Some v -> value v /\ no_tuple v).
Proof.
  assert (T : forallb (fun nc => textb (fst nc) && nodupb (map fst (c_params (snd nc))) &&
      forallb (fun p => textb (fst p) && match snd p with Some v => scalarb v | None => true end)
        (c_params (snd nc))) classes = true) by reflexivity.
  rewrite forallb_forall in T. intros H. apply dict_get_In in H. specialize (T _ H). cbn [fst snd] in T.
  rewrite !andb_true_iff in T. destruct T as [[T1 T2] T3]. split; [now apply textb_ok|].
  split; [now apply nodupb_ok|]. intros n d HI. rewrite forallb_forall in T3. specialize (T3 _ HI).
  cbn [fst snd] in T3. apply andb_true_iff in T3. destruct T3 as [T3 T4]. split; [now apply textb_ok|].
  intros v ->. destruct v; try discriminate; cbn; auto. split; [now apply textb_ok|exact I].
Qed.

Lemma construct_inv E name args kwargs o : construct E name args kwargs = Ok o ->
  exists c bound, dict_get classes name = Some c /\ bind_args (c_params c) args kwargs = Ok bound /\
    c_init c E bound = Ok (o_op o) /\ o_class o = name /\ o_configs o = record_configs (c_params c) args kwargs.
Proof.
  unfold construct. destruct (dict_get classes name) as [c|]; [|discriminate].
  destruct (bind_args _ _ _) as [bound|] eqn:HB; cbn [bind]; [|discriminate].
  destruct (c_init c E bound) as [op|] eqn:HI; cbn [bind]; [|discriminate].
  intros [= <-]. exists c, bound. auto.
Qed.

(** What is known about an object. *)
Definition coherent (E : env) (o : opobj) (c : opclass) (bound : list jval) : Prop :=
  dict_get classes (o_class o) = Some c /\ complete (c_params c) (o_configs o) bound /\
  c_init c E bound = Ok (o_op o) /\
  NoDup (map fst (o_configs o)) /\
  (forall n, In n (map fst (o_configs o)) <-> In n (map fst (c_params c))) /\
  value (JDict (o_configs o)) /\ text (o_class o).

Lemma value_dict d : value (JDict d) <->
  NoDup (map fst d) /\ Forall (fun kv => text (fst kv) /\ value (snd kv)) d.
Proof. cbn [value]. now rewrite fold_Forall. Qed.

Lemma made_coherent E o : made E o -> exists c bound, coherent E o c bound.
Proof.
  intros (name & args & kwargs & HA & HK & HC). apply construct_inv in HC.
  destruct HC as (c & bound & HG & HB & HI & HN & HR). exists c, bound.
  destruct (class_ok _ _ HG) as (T1 & T2 & T3). apply value_dict in HK. destruct HK as [NK FK].
  assert (ND := record_NoDup _ _ _ _ T2 NK HB). rewrite <- HR in ND.
  repeat split; try rewrite HN; auto.
  - apply (bind_given _ _ _ _ (bound_params _ _ _ _ HB)).
  - rewrite HR. apply record_complete; auto.
  - rewrite HR. now apply (record_keys _ _ _ bound).
  - rewrite HR. now apply (record_keys _ _ _ bound).
  - rewrite fold_Forall. apply Forall_forall. intros [n v] Hv. rewrite HR in Hv. cbn [fst snd].
    assert (Hn : In n (map fst (record_configs (c_params c) args kwargs))) by (apply (in_map fst) in Hv; exact Hv).
    rewrite (record_keys _ _ _ bound T2 NK HB) in Hn. apply in_map_iff in Hn. destruct Hn as ([n' d] & <- & Hn).
    split; [apply (T3 n' d Hn)|]. cbn [fst] in *.
    apply (record_In _ _ _ bound T2 NK HB) in Hv.
    destruct Hv as [Hv|[Hv|Hv]].
    + rewrite Forall_forall in HA. auto.
    + rewrite Forall_forall in FK. exact (proj2 (FK _ Hv)).
    + destruct (T3 _ _ Hv) as [_ T4]. apply (T4 v eq_refl).
Qed.

(** C43: the recorded configuration *)
Theorem configs_bind E name args kwargs o c :
  value (JDict kwargs) -> construct E name args kwargs = Ok o -> dict_get classes name = Some c ->
  o_class o = name /\ Permutation (map fst (o_configs o)) (map fst (c_params c)) /\
  forall k p d, nth_error (c_params c) k = Some (p, d) ->
    exists v, dict_get (o_configs o) p = Some v /\ given (c_params c) args kwargs k p v.
Proof.
  intros HK HC HG. apply construct_inv in HC. destruct HC as (c' & bound & HG' & HB & HI & HN & HR).
  rewrite HG in HG'. injection HG' as <-. destruct (class_ok _ _ HG) as (T1 & T2 & T3).
  apply value_dict in HK. destruct HK as [NK FK]. split; [exact HN|]. rewrite HR. split.
  - apply NoDup_Permutation; auto.
    + now apply (record_NoDup _ _ _ bound).
    + now apply (record_keys _ _ _ bound).
  - intros k p d Hp.
    destruct (record_complete _ _ _ bound T2 NK HB) as [_ HC]. rewrite (HC k p d Hp).
    destruct (bind_given _ _ _ _ (bound_params _ _ _ _ HB)) as (_ & _ & L3).
    destruct (L3 k p d Hp) as (v & HV & HD). exists v. split; [exact HV|]. exists d. split; [exact Hp|].
    destruct HD as [[H1 _]|[[H1 H2]|[H1 [H2 H3]]]].
    + now left.
    + right. left. split; [exact H1|]. now apply dict_get_In.
    + right. right. split; [exact H1|]. split; [|exact H3]. now apply dict_get_None.
Qed.

(** ** Serialising an operator *)

Lemma json_dict_get d n : dict_get (json_dict d) n = option_map as_json (dict_get d n).
Proof.
  induction d as [|[k v] d IH]; cbn [json_dict map dict_get fst snd]; [reflexivity|].
  destruct (eqb n k); [reflexivity|exact IH].
Qed.
Lemma json_dict_keys d : map fst (json_dict d) = map fst d.
Proof. unfold json_dict. rewrite map_map. reflexivity. Qed.

Lemma mapM_ext {A B} (f g : A -> res B) l : (forall x, In x l -> f x = g x) -> mapM f l = mapM g l.
Proof.
  induction l as [|x l IH]; intros H; [reflexivity|]. cbn [mapM]. rewrite H by now left.
  rewrite IH; [reflexivity|]. intros y Hy. apply H. now right.
Qed.
Lemma mapM_map {A B C} (f : B -> res C) (g : A -> B) l : mapM f (map g l) = mapM (fun x => f (g x)) l.
Proof. induction l as [|x l IH]; [reflexivity|]. cbn [map mapM]. now rewrite IH. Qed.

Lemma as_str_json v : as_str (as_json v) = as_str v. Proof. destruct v; reflexivity. Qed.
Lemma as_int_json v : as_int (as_json v) = as_int v. Proof. destruct v; reflexivity. Qed.
Lemma as_elem_json v : as_elem (as_json v) = as_elem v. Proof. destruct v; reflexivity. Qed.
Lemma truthy_json v : truthy (as_json v) = truthy v.
Proof. destruct v; cbn; rewrite ?map_length; reflexivity. Qed.
Lemma as_words_json v : as_words (as_json v) = as_words v.
Proof.
  destruct v; cbn [as_json as_words]; try reflexivity; rewrite mapM_map;
    rewrite (mapM_ext _ as_str) by (intros; apply as_str_json); reflexivity.
Qed.
Lemma as_vocab_json v : as_vocab (as_json v) = as_vocab v.
Proof.
  destruct v; cbn [as_json as_vocab]; try reflexivity; try (rewrite mapM_map; apply mapM_ext; intros; apply as_str_json).
  now rewrite map_map.
Qed.
Lemma as_index_json v : as_index_dict (as_json v) = as_index_dict v.
Proof.
  destruct v; cbn [as_json as_index_dict]; try reflexivity. rewrite mapM_map. apply mapM_ext.
  intros [k w] _. cbn [fst snd]. now rewrite as_int_json.
Qed.

Lemma init_json name c E bound : dict_get classes name = Some c ->
  c_init c E (map as_json bound) = c_init c E bound.
Proof.
  intros H. apply dict_get_In in H. unfold classes in H.
  repeat (destruct H as [H|H]; [injection H as _ <-; cbn [c_init plain];
    try reflexivity;
    destruct bound as [|a [|b [|d [|]]]]; cbn [map one two three]; try reflexivity;
    cbv beta delta [init_end init_soseos init_wordn init_custom init_pad init_purenum init_subwords init_index init_hash init_replace];
    cbv beta; rewrite ?as_words_json, ?as_vocab_json, ?as_index_json, ?truthy_json, ?as_str_json, ?as_int_json, ?as_elem_json;
    try reflexivity; destruct a; reflexivity|]).
  destruct H.
Qed.

Lemma construct_again E o c bound configs :
  coherent E o c bound -> configs = o_configs o \/ configs = json_dict (o_configs o) ->
  construct E (o_class o) [] configs = Ok (mkObj (o_class o) configs (o_op o)).
Proof.
  intros (HG & HC & HI & ND & HK & HV & HT) Q. destruct (class_ok _ _ HG) as (T1 & T2 & T3).
  assert (NQ : NoDup (map fst configs)) by (destruct Q as [-> | ->]; [|rewrite json_dict_keys]; exact ND).
  assert (KQ : forall n, In n (map fst configs) -> In n (map fst (c_params c)))
    by (intros n; destruct Q as [-> | ->]; [|rewrite json_dict_keys]; apply HK).
  assert (HB : exists b, complete (c_params c) configs b /\ c_init c E b = Ok (o_op o)).
  { destruct Q as [-> | ->].
    - exists bound. auto.
    - exists (map as_json bound). split.
      + destruct HC as [H1 H2]. split; [now rewrite map_length|]. intros k n d Hk.
        rewrite json_dict_get, (H2 k n d Hk), nth_error_map. reflexivity.
      + rewrite (init_json (o_class o)); auto. }
  destruct HB as (b & HB1 & HB2). destruct (record_again _ _ _ T2 NQ KQ HB1) as [R1 R2].
  unfold construct. rewrite HG, R1. cbn [bind]. rewrite HB2. cbn [bind]. now rewrite R2.
Qed.

Lemma text_lit s : textb (lit s) = true -> text (lit s).
Proof. apply textb_ok. Qed.

Lemma op_bundle E reg o c bound configs :
  coherent E o c bound -> configs = o_configs o \/ configs = json_dict (o_configs o) ->
  In (o_class o) reg ->
  op_from_dict E reg (JDict [(K_op_name, JStr (o_class o)); (K_op_kwargs, JDict configs)])
  = Ok (mkObj (o_class o) configs (o_op o)).
Proof.
  intros HC Q HR. unfold op_from_dict.
  change (key (JDict [(K_op_name, JStr (o_class o)); (K_op_kwargs, JDict configs)]) K_op_name)
    with (Ok (JStr (o_class o)) : res jval).
  change (key (JDict [(K_op_name, JStr (o_class o)); (K_op_kwargs, JDict configs)]) K_op_kwargs)
    with (Ok (JDict configs) : res jval).
  cbn [bind]. apply memb_In in HR. rewrite HR. unfold make_registered. rewrite HR.
  eapply construct_again; eauto.
Qed.

Theorem op_round_trip E reg o :
  made E o -> In (o_class o) reg -> op_deserialize E reg (op_serialize o) = Ok (as_json_obj o).
Proof.
  intros HM HR. destruct (made_coherent E o HM) as (c & bound & HC).
  unfold op_deserialize, op_serialize. rewrite loads_dumps.
  - cbn [bind as_json map fst snd]. eapply op_bundle; eauto.
  - destruct HC as (_ & _ & _ & _ & _ & HV & HT). apply value_dict. split.
    + apply nodupb_ok. reflexivity.
    + constructor; [|constructor; [|constructor]]; (split; [apply textb_ok; reflexivity|]); [exact HT|exact HV].
Qed.

Theorem op_round_trip_exact E reg o :
  made E o -> In (o_class o) reg -> no_tuple (JDict (o_configs o)) ->
  op_deserialize E reg (op_serialize o) = Ok o.
Proof.
  intros HM HR HT. rewrite (op_round_trip E reg o HM HR). unfold as_json_obj.
  apply as_json_same in HT. cbn [as_json] in HT. injection HT as HT. fold (json_dict (o_configs o)) in HT.
  rewrite HT. destruct o; reflexivity.
Qed.

Theorem op_unknown E reg o : made E o -> ~ In (o_class o) reg ->
  op_deserialize E reg (op_serialize o) = Err KeyErr.
Proof.
  intros HM HR. destruct (made_coherent E o HM) as (c & bound & (_ & _ & _ & _ & _ & HV & HT)).
  unfold op_deserialize, op_serialize. rewrite loads_dumps.
  - cbn [bind as_json map fst snd]. fold (json_dict (o_configs o)). unfold op_from_dict.
    match goal with |- context [key ?d K_op_name] =>
      change (key d K_op_name) with (Ok (JStr (o_class o)) : res jval);
      change (key d K_op_kwargs) with (Ok (JDict (json_dict (o_configs o))) : res jval) end.
    cbn [bind]. destruct (memb (o_class o) reg) eqn:E1; [|reflexivity]. apply memb_In in E1. contradiction.
  - apply value_dict. split.
    + apply nodupb_ok. reflexivity.
    + constructor; [|constructor; [|constructor]]; (split; [apply textb_ok; reflexivity|]); [exact HT|exact HV].
Qed.
