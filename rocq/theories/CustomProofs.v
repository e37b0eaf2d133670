(** Proofs about operator classes written by users. *)

From Coq Require Import Lia String.
From Verif Require Import Py PyFacts Json SpecJson JsonProofs Elements Pipe SpecPipe PipeProofs ObjProofs EqProofs
  SpecCalls CallProofs Factory SpecFactory FactoryProofs Custom SpecCustom.
From Coq Require Import List.

(** ** Signatures *)

Lemma declares_NoDup names defaults ps : declares names defaults ps -> NoDup (map fst ps).
Proof. intros (ND & <- & _). exact ND. Qed.

Lemma declares_params names defaults ps : declares names defaults ps -> params names defaults = ps.
Proof.
  intros (_ & -> & req & opt & -> & ->). unfold params. rewrite !map_app, !map_map. cbn [fst].
  rewrite map_id, app_length, !map_length. replace (length req + length opt - length opt) with (length req) by lia.
  induction req as [|n req IH]; cbn [length repeat map app combine].
  - induction opt as [|[n v] opt IH]; [reflexivity|]. cbn [map combine fst snd]. f_equal. exact IH.
  - f_equal. exact IH.
Qed.

Lemma combine_app {A B} (a a' : list A) (b b' : list B) : length a = length b ->
  combine (a ++ a') (b ++ b') = combine a b ++ combine a' b'.
Proof.
  revert b. induction a as [|x a IH]; intros [|y b] H; try discriminate; [reflexivity|].
  cbn [combine app]. f_equal. apply IH. now injection H.
Qed.
Lemma combine_pairs {A B} (l : list (A * B)) : combine (map fst l) (map snd l) = l.
Proof. induction l as [|[a b] l IH]; [reflexivity|]. cbn. now rewrite IH. Qed.

Lemma flat_none (l : list str) :
  flat_map (fun p : str * option jval => match snd p with Some v => [(fst p, v)] | None => [] end)
    (map (fun n => (n, None)) l) = [].
Proof. induction l as [|n l IH]; [reflexivity|exact IH]. Qed.
Lemma flat_some (l : list (str * jval)) :
  flat_map (fun p : str * option jval => match snd p with Some v => [(fst p, v)] | None => [] end)
    (map (fun nv => (fst nv, Some (snd nv))) l) = l.
Proof. induction l as [|[n v] l IH]; [reflexivity|]. cbn [map flat_map fst snd app]. now rewrite IH. Qed.

Lemma declares_defaults names defaults ps : declares names defaults ps ->
  combine (rev (SELF :: names)) (rev defaults) = defaults_of ps.
Proof.
  intros (_ & -> & req & opt & -> & ->). unfold defaults_of.
  rewrite rev_app_distr, flat_map_app, <- !map_rev, flat_none, flat_some, app_nil_r.
  rewrite map_app, !map_map. cbn [fst rev]. rewrite map_id, rev_app_distr, <- !map_rev, <- app_assoc.
  transitivity (combine (map fst (rev opt) ++ rev req ++ [SELF]) (map snd (rev opt) ++ [])).
  - rewrite app_nil_r. reflexivity.
  - rewrite combine_app by now rewrite !map_length. rewrite combine_pairs.
    destruct (rev req ++ [SELF]); cbn; now rewrite app_nil_r.
Qed.

Lemma wrapper_records names defaults body ps args kwargs : declares names defaults ps ->
  wrapper_configs (OwnInit names defaults body) args kwargs = record_configs ps args kwargs.
Proof.
  intros D. unfold wrapper_configs, record_configs. cbn [argspec]. rewrite (declares_defaults _ _ _ D).
  destruct D as (_ & -> & _). reflexivity.
Qed.
Lemma wrapper_inherits i args kwargs : NoDup (map fst kwargs) -> wrapper_configs (Wrapper i) args kwargs = kwargs.
Proof.
  intros ND. unfold wrapper_configs. cbn [argspec combine rev app].
  rewrite (dict_update_app [] kwargs) by (auto; intros ? ? []). reflexivity.
Qed.

(** ** Calls *)

Lemma run_init_runs i ps body args kwargs : runs i ps body ->
  NoDup (map fst ps) /\
  ((forall vals, ~ call_binds ps args kwargs vals) -> run_init i args kwargs = Err TypeErr) /\
  (forall vals, call_binds ps args kwargs vals ->
     run_init i args kwargs = match body vals with None => Ok vals | Some e => Err e end).
Proof.
  induction 1 as [|names defaults ps body D|i ps body _ IH].
  - split; [constructor|]. split.
    + intros N. cbn. destruct args as [|a args]; [|reflexivity]. destruct kwargs as [|kv kwargs]; [|reflexivity].
      exfalso. apply (N []). repeat split; auto; cbn; [tauto|]. intros [|k]; discriminate.
    + intros vals (L1 & L2 & HK & _). destruct args; [|cbn in L1; lia]. destruct vals; [|discriminate].
      destruct kwargs as [|[n v] kwargs]; [reflexivity|]. destruct (HK n) as ([|k] & d & Hk & _); [now left|discriminate..].
  - pose proof (declares_NoDup _ _ _ D) as ND. split; [exact ND|]. cbn [run_init].
    rewrite (declares_params _ _ _ D). split.
    + intros N. destruct (bind_args ps args kwargs) as [vals|e] eqn:HB; cbn [bind].
      * apply (bind_args_binds _ _ _ _ ND) in HB. now apply N in HB.
      * now rewrite (bind_args_errors _ _ _ _ HB).
    + intros vals HB. apply (bind_args_binds _ _ _ _ ND) in HB. now rewrite HB.
  - exact IH.
Qed.

Section proofs.
  Context {T B : Type}.
  Implicit Types c : pyclass T B.
  Implicit Types o : obj T B.

  Lemma own_runs c ps body : own_init c ps body -> runs (k_init c) ps body.
  Proof. intros (names & defaults & -> & D). apply runs_wrapper. now apply runs_own. Qed.
  Lemma inherited_runs c ps body : inherited_init c ps body -> runs (k_init c) ps body.
  Proof. intros (i & -> & H). now do 2 apply runs_wrapper. Qed.

  Definition configs_of c args kwargs : list (str * jval) :=
    match k_init c with Wrapper i => wrapper_configs i args kwargs | _ => [] end.

  Lemma instantiate_concrete c args kwargs : concrete c ->
    instantiate c args kwargs =
      (bound <- run_init (k_init c) args kwargs ;; Ok (mkO c (configs_of c args kwargs) bound)).
  Proof.
    unfold concrete, instantiate. destruct (k_transform c), (k_completed c); try reflexivity. intros [?|?]; congruence.
  Qed.
  Theorem abstract_refused c args kwargs : ~ concrete c -> instantiate c args kwargs = Err TypeErr.
  Proof.
    unfold concrete, instantiate. destruct (k_transform c), (k_completed c); try reflexivity; intros H; exfalso; apply H;
      [left|left|right]; congruence.
  Qed.

  Lemma call_outcome c ps body args kwargs : runs (k_init c) ps body -> concrete c ->
    ((forall vals, ~ call_binds ps args kwargs vals) -> instantiate c args kwargs = Err TypeErr) /\
    (forall vals, call_binds ps args kwargs vals ->
       (forall e, body vals = Some e -> instantiate c args kwargs = Err e) /\
       (body vals = None -> instantiate c args kwargs = Ok (mkO c (configs_of c args kwargs) vals))).
  Proof.
    intros R C. rewrite (instantiate_concrete _ _ _ C). destruct (run_init_runs _ _ _ args kwargs R) as (_ & H1 & H2).
    split.
    - intros N. now rewrite H1.
    - intros vals HB. rewrite (H2 vals HB). split.
      + now intros e ->.
      + now intros ->.
  Qed.

  Lemma call_inv c ps body args kwargs o : runs (k_init c) ps body ->
    instantiate c args kwargs = Ok o ->
    concrete c /\ exists vals, call_binds ps args kwargs vals /\ body vals = None /\
      o = mkO c (configs_of c args kwargs) vals.
  Proof.
    intros R H. assert (C : concrete c).
    { unfold concrete. unfold instantiate in H. destruct (k_transform c), (k_completed c); try discriminate; auto; left; congruence. }
    split; [exact C|]. rewrite (instantiate_concrete _ _ _ C) in H.
    destruct (run_init_runs _ _ _ args kwargs R) as (ND & H1 & H2).
    destruct (bind_args ps args kwargs) as [vals|e] eqn:HB.
    - apply (bind_args_binds _ _ _ _ ND) in HB. exists vals. split; [exact HB|]. rewrite (H2 vals HB) in H.
      destruct (body vals); [discriminate|]. now injection H as <-.
    - rewrite H1 in H; [discriminate|]. intros vals HB'. apply (bind_args_binds _ _ _ _ ND) in HB'. congruence.
  Qed.

  (** *** A class with its own [__init__] *)

  Lemma own_configs c ps body args kwargs vals : own_init c ps body -> NoDup (map fst kwargs) ->
    call_binds ps args kwargs vals ->
    let configs := configs_of c args kwargs in
    configs = record_configs ps args kwargs /\ NoDup (map fst ps) /\ NoDup (map fst configs) /\
    (forall n, In n (map fst configs) <-> In n (map fst ps)) /\ complete ps configs vals.
  Proof.
    intros (names & defaults & HI & D) NK HB. pose proof (declares_NoDup _ _ _ D) as ND.
    apply (bind_args_binds _ _ _ _ ND) in HB. unfold configs_of. rewrite HI, (wrapper_records _ _ _ _ _ _ D). cbv zeta.
    split; [reflexivity|]. split; [exact ND|]. split; [eapply record_NoDup; eauto|].
    split; [eapply record_keys; eauto|]. eapply record_complete; eauto.
  Qed.

  Lemma complete_records ps configs vals : NoDup (map fst ps) -> NoDup (map fst configs) ->
    (forall n, In n (map fst configs) <-> In n (map fst ps)) -> complete ps configs vals ->
    records ps configs vals.
  Proof.
    intros N1 N2 K [_ C]. split; [|exact C]. now apply NoDup_Permutation.
  Qed.

  Theorem own_call c ps body args kwargs : own_init c ps body -> concrete c -> NoDup (map fst kwargs) ->
    ((forall vals, ~ call_binds ps args kwargs vals) -> instantiate c args kwargs = Err TypeErr) /\
    (forall vals, call_binds ps args kwargs vals ->
       (forall e, body vals = Some e -> instantiate c args kwargs = Err e) /\
       (body vals = None -> exists o, instantiate c args kwargs = Ok o /\ ob_class o = c /\
          ob_bound o = vals /\ records ps (ob_configs o) vals)).
  Proof.
    intros I C NK. destruct (call_outcome c ps body args kwargs (own_runs _ _ _ I) C) as (H1 & H2).
    split; [exact H1|]. intros vals HB. destruct (H2 vals HB) as (H3 & H4). split; [exact H3|].
    intros HN. eexists. split; [exact (H4 HN)|]. cbn [ob_class ob_bound ob_configs].
    repeat (split; [reflexivity|]). destruct (own_configs c ps body args kwargs vals I NK HB) as (_ & N1 & N2 & K & HC).
    now apply complete_records.
  Qed.

  Theorem own_round_trip c ps body args kwargs o f : own_init c ps body -> NoDup (map fst kwargs) ->
    instantiate c args kwargs = Ok o -> fget f (k_name c) = Ok c ->
    from_dict f (k_name c) (ob_configs o) = Ok o.
  Proof.
    intros I NK HO HF. destruct (call_inv c ps body args kwargs o (own_runs _ _ _ I) HO) as (C & vals & HB & HN & ->).
    cbn [ob_configs]. destruct (own_configs c ps body args kwargs vals I NK HB) as (HE & N1 & N2 & K & HC).
    unfold from_dict. rewrite HF. cbn [bind].
    destruct (record_again ps _ vals N1 N2 (fun n => proj1 (K n)) HC) as (B2 & R2).
    apply (bind_args_binds _ _ _ _ N1) in B2.
    destruct (call_outcome c ps body [] (configs_of c args kwargs) (own_runs _ _ _ I) C) as (_ & H).
    destruct (H vals B2) as (_ & H'). rewrite (H' HN). do 2 f_equal.
    destruct (own_configs c ps body [] _ vals I N2 B2) as (-> & _). exact R2.
  Qed.

  Lemma stored_object o (f : list (str * pyclass T B)) : text (k_name (ob_class o)) -> value (JDict (ob_configs o)) ->
    obj_deserialize f (obj_serialize o) = from_dict f (k_name (ob_class o)) (json_dict (ob_configs o)).
  Proof.
    intros HT HV. unfold obj_deserialize, obj_serialize. rewrite loads_dumps.
    - reflexivity.
    - apply value_dict. split; [apply nodupb_ok; reflexivity|].
      apply Forall_cons; [|apply Forall_cons; [|constructor]]; cbn [fst snd]; (split; [apply text_lit; reflexivity|auto]).
  Qed.

  Theorem own_stored c ps body args kwargs o f : own_init c ps body -> NoDup (map fst kwargs) ->
    instantiate c args kwargs = Ok o -> fget f (k_name c) = Ok c ->
    text (k_name c) -> value (JDict (ob_configs o)) -> no_tuple (JDict (ob_configs o)) ->
    obj_deserialize f (obj_serialize o) = Ok o.
  Proof.
    intros I NK HO HF HT HV HN.
    destruct (call_inv c ps body args kwargs o (own_runs _ _ _ I) HO) as (_ & vals & _ & _ & Q).
    rewrite stored_object; [|now rewrite Q|exact HV].
    apply as_json_same in HN. cbn [as_json] in HN. injection HN as HN. fold (json_dict (ob_configs o)) in HN.
    rewrite HN. rewrite Q at 1. cbn [ob_class]. eapply own_round_trip; eauto.
  Qed.

  (** equality of dicts, name by name *)
  Lemma same_lookup d e n : NoDup (map fst d) -> NoDup (map fst e) -> same (JDict d) (JDict e) ->
    match dict_get d n, dict_get e n with
    | Some v, Some w => same v w | None, None => True | _, _ => False
    end.
  Proof.
    intros N1 N2 H. inversion H as [| | | | | | | |d' e1 e' HP HF]; subst.
    assert (N3 : NoDup (map fst e')) by (apply (Permutation_NoDup (Permutation_map fst HP) N2)).
    assert (Q : dict_get e n = dict_get e' n).
    { destruct (dict_get e n) as [v|] eqn:G.
      - symmetry. apply dict_get_Some; [exact N3|]. apply (Permutation_in _ HP). now apply dict_get_In.
      - symmetry. apply dict_get_None. apply dict_get_None in G. intros HI. apply G.
        apply (Permutation_in _ (Permutation_map fst (Permutation_sym HP)) HI). }
    rewrite Q. clear -HF. induction HF as [|[k v] [k' w] d e' [HK HS] _ IH]; cbn [dict_get]; [exact I|].
    cbn [fst snd] in HK, HS. subst k'. destruct (eqb n k); [exact HS|exact IH].
  Qed.
  Lemma lookup_same d e : NoDup (map fst d) -> NoDup (map fst e) ->
    (forall n, match dict_get d n, dict_get e n with
               | Some v, Some w => same v w | None, None => True | _, _ => False
               end) -> same (JDict d) (JDict e).
  Proof.
    intros N1 N2 H. destruct (dict_reorder d e same) as (e' & HP & HF).
    - exact N1.
    - rewrite <- (map_length fst d), <- (map_length fst e). apply Permutation_length.
      apply NoDup_Permutation; auto. intros n. specialize (H n).
      rewrite <- !dict_mem_spec. unfold dict_mem. destruct (dict_get d n), (dict_get e n); tauto.
    - intros k v HI. specialize (H k). rewrite (dict_get_Some d k v N1 HI) in H.
      destruct (dict_get e k) as [w|]; [|contradiction]. eauto.
    - now apply same_dict with e'.
  Qed.

  Theorem own_equal c ps body args kwargs args' kwargs' o o' : own_init c ps body ->
    NoDup (map fst kwargs) -> NoDup (map fst kwargs') ->
    instantiate c args kwargs = Ok o -> instantiate c args' kwargs' = Ok o' ->
    value (JDict (ob_configs o)) -> value (JDict (ob_configs o')) ->
    (obj_eqb o o' = true <-> Forall2 same (ob_bound o) (ob_bound o')).
  Proof.
    intros I NK NK' HO HO' HV HV'.
    destruct (call_inv c ps body args kwargs o (own_runs _ _ _ I) HO) as (_ & vals & HB & _ & ->).
    destruct (call_inv c ps body args' kwargs' o' (own_runs _ _ _ I) HO') as (_ & vals' & HB' & _ & ->).
    cbn [ob_configs ob_bound] in *. unfold obj_eqb. cbn [ob_class ob_configs].
    destruct (eqb_spec (k_name c) (k_name c)) as [_|?]; [|congruence]. cbn [andb].
    rewrite (py_eqb_same _ _ HV HV').
    destruct (own_configs c ps body args kwargs vals I NK HB) as (_ & N0 & N1 & K & L & HC).
    destruct (own_configs c ps body args' kwargs' vals' I NK' HB') as (_ & _ & N1' & K' & L' & HC').
    split.
    - intros HS. pose proof (fun n => same_lookup _ _ n N1 N1' HS) as H. clear -H L L' HC HC'.
      assert (G : forall k v w, nth_error vals k = Some v -> nth_error vals' k = Some w -> same v w).
      { intros k v w Hv Hw. destruct (nth_error ps k) as [[n d]|] eqn:Hk.
        - specialize (H n). rewrite (HC k n d Hk), (HC' k n d Hk), Hv, Hw in H. exact H.
        - apply nth_error_None in Hk. assert (k < length vals) by (apply nth_error_Some; congruence). lia. }
      rewrite <- L' in L. clear L' H HC HC'. revert vals' L G. induction vals as [|v vals IH]; intros [|w vals'] L G; try discriminate; constructor.
      + exact (G 0 v w eq_refl eq_refl).
      + apply IH; [now injection L|]. intros k. exact (G (S k)).
    - intros HF. apply lookup_same; auto. intros n.
      assert (G : forall k, match nth_error vals k, nth_error vals' k with
                            | Some v, Some w => same v w | None, None => True | _, _ => False end).
      { clear -HF. induction HF as [|v w l m HS _ IH]; intros [|k]; cbn; auto; apply IH. }
      destruct (in_dec (fun a b => match eqb_spec a b with ReflectT _ e => left e | ReflectF _ e => right e end) n (map fst ps)) as [HI|HI].
      + apply in_map_iff in HI. destruct HI as ([m d] & E & HI). cbn in E. subst m. apply In_nth_error in HI.
        destruct HI as (k & Hk). rewrite (HC k n d Hk), (HC' k n d Hk). apply G.
      + assert (X : dict_get (configs_of c args kwargs) n = None) by (apply dict_get_None; now rewrite K).
        assert (X' : dict_get (configs_of c args' kwargs') n = None) by (apply dict_get_None; now rewrite K').
        now rewrite X, X'.
  Qed.

  (** *** A class that inherits its [__init__] *)

  Theorem inherited_call c ps body args kwargs : inherited_init c ps body -> concrete c -> NoDup (map fst kwargs) ->
    ((forall vals, ~ call_binds ps args kwargs vals) -> instantiate c args kwargs = Err TypeErr) /\
    (forall vals, call_binds ps args kwargs vals ->
       (forall e, body vals = Some e -> instantiate c args kwargs = Err e) /\
       (body vals = None -> exists o, instantiate c args kwargs = Ok o /\ ob_class o = c /\
          ob_bound o = vals /\ ob_configs o = kwargs)).
  Proof.
    intros I C NK. destruct (call_outcome c ps body args kwargs (inherited_runs _ _ _ I) C) as (H1 & H2).
    split; [exact H1|]. intros vals HB. destruct (H2 vals HB) as (H3 & H4). split; [exact H3|].
    intros HN. eexists. split; [exact (H4 HN)|]. cbn [ob_class ob_bound ob_configs].
    repeat (split; [reflexivity|]). destruct I as (i & HI & _). unfold configs_of. rewrite HI. now apply wrapper_inherits.
  Qed.

  Lemma inherited_inv c ps body args kwargs o : inherited_init c ps body -> NoDup (map fst kwargs) ->
    instantiate c args kwargs = Ok o ->
    concrete c /\ exists vals, call_binds ps args kwargs vals /\ body vals = None /\ o = mkO c kwargs vals.
  Proof.
    intros I NK HO. destruct (call_inv c ps body args kwargs o (inherited_runs _ _ _ I) HO) as (C & vals & HB & HN & ->).
    split; [exact C|]. exists vals. repeat (split; [assumption|]). f_equal. destruct I as (i & HI & _).
    unfold configs_of. rewrite HI. now apply wrapper_inherits.
  Qed.

  Theorem inherited_keywords c ps body kwargs o f : inherited_init c ps body -> NoDup (map fst kwargs) ->
    instantiate c [] kwargs = Ok o -> fget f (k_name c) = Ok c ->
    from_dict f (k_name c) (ob_configs o) = Ok o.
  Proof.
    intros I NK HO HF. destruct (inherited_inv c ps body [] kwargs o I NK HO) as (C & vals & _ & _ & ->).
    cbn [ob_configs]. unfold from_dict. rewrite HF. exact HO.
  Qed.

  Theorem inherited_required c ps body args kwargs o f k n : inherited_init c ps body -> NoDup (map fst kwargs) ->
    instantiate c args kwargs = Ok o -> fget f (k_name c) = Ok c ->
    nth_error ps k = Some (n, None) -> k < length args ->
    from_dict f (k_name c) (ob_configs o) = Err TypeErr.
  Proof.
    intros I NK HO HF Hk L. destruct (inherited_inv c ps body args kwargs o I NK HO) as (C & vals & HB & _ & ->).
    cbn [ob_configs]. unfold from_dict. rewrite HF. cbn [bind].
    apply (inherited_call c ps body [] kwargs I C NK). intros vals' (_ & HL & _ & HV).
    specialize (HV k n None Hk). destruct HB as (_ & _ & HK & _).
    destruct (run_init_runs _ _ _ [] kwargs (inherited_runs _ _ _ I)) as (ND & _).
    replace (nth_error (@nil jval) k) with (@None jval) in HV by (destruct k; reflexivity).
    destruct (dict_get kwargs n) as [v|] eqn:G.
    - apply dict_get_In, (in_map fst) in G. destruct (HK _ G) as (j & e & Hj & LJ). cbn [fst] in Hj.
      rewrite (nth_name _ _ _ _ _ _ ND Hj Hk) in LJ. lia.
    - apply nth_error_None in HV. assert (k < length ps) by (apply nth_error_Some; congruence). lia.
  Qed.

  Theorem inherited_defaults c ps body args kwargs o f vals' : inherited_init c ps body -> value (JDict kwargs) ->
    instantiate c args kwargs = Ok o -> fget f (k_name c) = Ok c ->
    call_binds ps [] kwargs vals' -> body vals' = None ->
    exists o', from_dict f (k_name c) (ob_configs o) = Ok o' /\ obj_eqb o o' = true /\ ob_bound o' = vals' /\
      forall k n d, k < length args -> nth_error ps k = Some (n, d) -> nth_error (ob_bound o') k = d.
  Proof.
    intros I V HO HF HB' HN'. pose proof (proj1 (proj1 (value_dict _) V)) as NK. destruct (inherited_inv c ps body args kwargs o I NK HO) as (C & vals & HB & _ & ->).
    cbn [ob_configs]. unfold from_dict. rewrite HF. cbn [bind].
    destruct (inherited_call c ps body [] kwargs I C NK) as (_ & H). destruct (H vals' HB') as (_ & H').
    destruct (H' HN') as (o' & HO' & HC & HV & HG). exists o'. split; [exact HO'|]. split; [|split; [exact HV|]].
    - unfold obj_eqb. cbn [ob_class ob_configs]. rewrite HC, HG.
      destruct (eqb_spec (k_name c) (k_name c)) as [_|?]; [|congruence]. cbn [andb].
      apply py_eqb_same; auto. apply same_refl.
    - intros k n d L Hk. rewrite HV. destruct HB' as (_ & _ & _ & HQ). rewrite (HQ k n d Hk).
      replace (nth_error (@nil jval) k) with (@None jval) by (destruct k; reflexivity).
      destruct HB as (_ & _ & HK & _). destruct (run_init_runs _ _ _ [] kwargs (inherited_runs _ _ _ I)) as (ND & _).
      destruct (dict_get kwargs n) as [v|] eqn:G; [|reflexivity].
      apply dict_get_In, (in_map fst) in G. destruct (HK _ G) as (j & e & Hj & LJ). cbn [fst] in Hj.
      rewrite (nth_name _ _ _ _ _ _ ND Hj Hk) in LJ. lia.
  Qed.

  Theorem inherited_equal c ps body args kwargs args' kwargs' o o' : inherited_init c ps body ->
    value (JDict kwargs) -> value (JDict kwargs') ->
    instantiate c args kwargs = Ok o -> instantiate c args' kwargs' = Ok o' ->
    (obj_eqb o o' = true <-> same (JDict kwargs) (JDict kwargs')).
  Proof.
    intros I V V' HO HO'. pose proof (proj1 (proj1 (value_dict _) V)) as NK. pose proof (proj1 (proj1 (value_dict _) V')) as NK'.
    destruct (inherited_inv c ps body args kwargs o I NK HO) as (_ & vals & _ & _ & ->).
    destruct (inherited_inv c ps body args' kwargs' o' I NK' HO') as (_ & vals' & _ & _ & ->).
    unfold obj_eqb. cbn [ob_class ob_configs]. destruct (eqb_spec (k_name c) (k_name c)) as [_|?]; [|congruence].
    cbn [andb]. now apply py_eqb_same.
  Qed.
  (** ** Class statements *)

  Lemma attributes_spec (d : decl T B) : attributes_there d = true <-> well_declared d.
  Proof.
    unfold attributes_there, well_declared, or_parent.
    destruct (d_in d) as [[t|]|].
    2:{ split; [discriminate|]. intros ((t & [H|[H _]]) & _); discriminate. }
    2: destruct (k_in (d_parent d)) as [t|].
    3:{ split; [discriminate|]. intros ((t & [H|[_ H]]) & _); discriminate. }
    all: destruct (d_out d) as [[u|]|].
    all: try (split; [discriminate|]; intros (_ & (u & [H|[H _]]) & _); discriminate).
    2: destruct (k_out (d_parent d)) as [u|].
    3:{ split; [discriminate|]. intros (_ & (u & [H|[_ H]]) & _); discriminate. }
    4: destruct (k_out (d_parent d)) as [u|].
    5:{ split; [discriminate|]. intros (_ & (u & [H|[_ H]]) & _); discriminate. }
    all: rewrite orb_true_iff, negb_true_iff.
    all: split;
      [intros H; split; [exists t; auto|]; split; [exists u; auto|]; intros W; destruct H as [H|H]; [congruence|];
       destruct (d_aligner d) as [[]|]; try discriminate; auto
      |intros (_ & _ & H); destruct (k_wants_aligner (d_parent d)); [right|now left];
       destruct (H eq_refl) as [->|[-> HA]]; auto].
  Qed.

  Lemma build_class (d : decl T B) : class_of d (build d).
  Proof.
    unfold class_of, build. cbn [k_name k_in k_out k_transform k_wants_aligner k_completed].
    split; [reflexivity|]. split; [|split; [|split; [|split; [|split; [|split]]]]].
    - intros names defaults body ps H D. exists names, defaults. cbn [k_init]. rewrite H. auto.
    - intros i ps body H P R. exists i. cbn [k_init]. rewrite H, P. auto.
    - intros t. unfold or_parent. destruct (d_in d) as [[u|]|]; intuition congruence.
    - intros t. unfold or_parent. destruct (d_out d) as [[u|]|]; intuition congruence.
    - intros t. destruct (d_transform d); intuition congruence.
    - apply orb_true_iff.
    - apply attributes_spec.
  Qed.

  Definition registrations (h : list (decl T B)) : list (str * pyclass T B) :=
    (lit "Operator", operator_class) :: map (fun d => (d_name d, build d)) h.
  Lemma registrations_names h : map fst (registrations h) = lit "Operator" :: map d_name h.
  Proof. unfold registrations. cbn [map fst]. now rewrite map_map. Qed.
  Lemma registrations_snoc h d : registrations (h ++ [d]) = registrations h ++ [(d_name d, build d)].
  Proof. unfold registrations. now rewrite map_app. Qed.

  Lemma after_is h : after_classes h = after_registers (registrations h).
  Proof.
    induction h as [|d h IH] using rev_ind; [reflexivity|].
    rewrite registrations_snoc, after_snoc, <- IH. unfold after_classes. rewrite fold_left_app. cbn [fold_left].
    fold (after_classes h). unfold define.
    destruct (fregister (after_classes h) (d_name d) (build d)) as [f [e|]]; [reflexivity|].
    destruct (attributes_there d); reflexivity.
  Qed.

  Lemma first_is h n c : first_registered (registrations h) n c <->
    (n = lit "Operator" /\ c = operator_class) \/ exists d, first_for h d /\ d_name d = n /\ c = build d.
  Proof.
    split.
    - intros (h1 & h2 & E & N). unfold registrations in E. destruct h1 as [|x h1]; cbn [app] in E.
      + injection E as <- <- _. now left.
      + injection E as <- E. right. apply map_eq_app in E. destruct E as (l1 & l2 & -> & <- & E).
        destruct l2 as [|d l2]; [discriminate|]. cbn [map] in E. injection E as <- <- <-. exists d.
        split; [|auto]. exists l1, l2. split; [reflexivity|]. cbn [map fst] in N. rewrite map_map in N. exact N.
    - intros [[-> ->]|(d & (h1 & h2 & -> & N) & <- & ->)].
      + exists [], (map (fun d => (d_name d, build d)) h). split; [reflexivity|]. intros [].
      + exists (registrations h1), (map (fun d => (d_name d, build d)) h2). split.
        * unfold registrations. rewrite map_app. reflexivity.
        * rewrite registrations_names. exact N.
  Qed.

  Theorem statement_outcome h (d : decl T B) :
    (In (d_name d) (lit "Operator" :: map d_name h) ->
       outcome h d = Err KeyErr /\ after_classes (h ++ [d]) = after_classes h) /\
    (~ In (d_name d) (lit "Operator" :: map d_name h) ->
       exists c, class_of d c /\ fget (after_classes (h ++ [d])) (d_name d) = Ok c /\
         (well_declared d -> outcome h d = Ok c) /\ (~ well_declared d -> outcome h d = Err AssertionErr)).
  Proof.
    unfold outcome, define. rewrite !after_is, registrations_snoc, <- registrations_names.
    pose proof (register_spec (registrations h) (d_name d) (build d)) as (H1 & H2).
    pose proof (after_snoc (registrations h) (d_name d) (build d)) as A. unfold register_outcome in *.
    split; intros HI.
    - destruct (H2 HI) as (HO & HA). rewrite <- HA at 2.
      destruct (fregister _ _ _) as [f [e|]]; [|discriminate]. cbn in HO |- *. injection HO as ->. auto.
    - specialize (H1 HI). exists (build d). split; [apply build_class|]. split.
      + unfold fget. replace (dict_get _ (d_name d)) with (Some (build d)); [reflexivity|]. symmetry.
        apply get_after. apply first_snoc. auto.
      + destruct (fregister _ _ _) as [f [e|]]; [discriminate|]. rewrite <- attributes_spec.
        destruct (attributes_there d); split; cbn; congruence.
  Qed.

  Theorem class_lookup h n :
    (forall c, fget (after_classes h) n = Ok c ->
       (n = lit "Operator" /\ c = operator_class) \/ exists d, first_for h d /\ d_name d = n /\ class_of d c) /\
    (forall d, first_for h d -> d_name d = n -> exists c, fget (after_classes h) n = Ok c /\ class_of d c) /\
    (fget (after_classes h) n = Err KeyErr <-> ~ In n (lit "Operator" :: map d_name h)).
  Proof.
    rewrite !after_is, <- registrations_names. split; [|split].
    - intros c H. unfold fget in H. destruct (dict_get _ n) as [c'|] eqn:G; [|discriminate]. injection H as ->.
      apply get_after, first_is in G. destruct G as [G|(d & F & N & ->)]; [now left|]. right. exists d.
      split; [exact F|]. split; [exact N|]. apply build_class.
    - intros d F <-. exists (build d). split; [|apply build_class]. unfold fget.
      replace (dict_get _ (d_name d)) with (Some (build d)); [reflexivity|]. symmetry. apply get_after, first_is.
      right. exists d. auto.
    - rewrite <- get_after_none. unfold fget. destruct (dict_get _ n); split; congruence.
  Qed.

  Theorem unfinished_class h (d : decl T B) : ~ In (d_name d) (lit "Operator" :: map d_name h) -> ~ well_declared d ->
    forall d', d_name d' = d_name d -> outcome (h ++ [d]) d' = Err KeyErr.
  Proof.
    intros N W d' E. apply statement_outcome. rewrite E. right. rewrite map_app. apply in_app_iff. right. now left.
  Qed.
End proofs.
