(** Proofs about calls of constructors. *)

From Coq Require Import Lia String.
From Verif Require Import Py PyFacts Ops SpecOps Json SpecJson Elements Pipe SpecPipe ObjProofs EqProofs SpecCalls
  JsonProofs PipeProofs ListOpProofs TokProofs SpecWords OpLaws.
From Coq Require Import List.

(** ** Binding *)

Lemma bind_reached ps : forall args kwargs vals,
  length args <= length ps -> length vals = length ps ->
  (forall k n d, nth_error ps k = Some (n, d) -> k < length args -> ~ In n (map fst kwargs)) ->
  (forall k n d, nth_error ps k = Some (n, d) ->
     nth_error vals k = match nth_error args k with
                        | Some v => Some v
                        | None => match dict_get kwargs n with Some v => Some v | None => d end
                        end) ->
  bind_params ps args kwargs = Ok vals.
Proof.
  induction ps as [|[n d] ps IH]; intros args kwargs vals L1 L2 HN HV.
  - destruct args; [|cbn in L1; lia]. destruct vals; [reflexivity|discriminate].
  - destruct vals as [|v vals]; [discriminate|]. cbn [bind_params].
    pose proof (HV 0 n d eq_refl) as H0. cbn [nth_error] in H0.
    destruct args as [|a args]; cbn [nth_error] in H0.
    + rewrite (IH [] kwargs vals).
      * destruct (dict_get kwargs n) as [w|]; [injection H0 as ->; reflexivity|].
        rewrite <- H0. reflexivity.
      * cbn. lia.
      * cbn in L2. lia.
      * cbn. intros; lia.
      * intros k m e Hk. specialize (HV (S k) m e Hk). cbn [nth_error] in HV. rewrite HV. destruct k; reflexivity.
    + injection H0 as ->. destruct (dict_mem kwargs n) eqn:HM.
      { exfalso. apply (HN 0 n d eq_refl); [cbn; lia|]. now apply dict_mem_spec. }
      cbn [negb guard bind]. rewrite (IH args kwargs vals); [reflexivity| | | |].
      * cbn in L1. lia.
      * cbn in L2. lia.
      * intros k m e Hk L. apply (HN (S k) m e Hk). cbn. lia.
      * intros k m e Hk. exact (HV (S k) m e Hk).
Qed.

Lemma nth_name (ps : list (str * option jval)) j k n d e : NoDup (map fst ps) ->
  nth_error ps j = Some (n, d) -> nth_error ps k = Some (n, e) -> j = k.
Proof.
  intros ND Hj Hk. apply (proj1 (NoDup_nth_error (map fst ps)) ND).
  - apply nth_error_Some. rewrite nth_error_map, Hj. discriminate.
  - now rewrite !nth_error_map, Hj, Hk.
Qed.

Lemma bind_args_binds ps args kwargs vals : NoDup (map fst ps) ->
  bind_args ps args kwargs = Ok vals <-> call_binds ps args kwargs vals.
Proof.
  intros ND. split.
  - intros HB. destruct (bind_given _ _ _ _ (bound_params _ _ _ _ HB)) as (L1 & L2 & L3).
    split; [exact L2|]. split; [exact L1|]. split.
    + intros n HI. pose proof (kwargs_known _ _ _ _ HB n HI) as HP.
      apply in_map_iff in HP. destruct HP as ([m d] & <- & HP). apply In_nth_error in HP.
      destruct HP as (k & Hk). exists k, d. split; [exact Hk|].
      destruct (L3 k _ _ Hk) as (v & _ & [[_ HC]|[[HC _]|[HC _]]]); [contradiction| |];
        now apply nth_error_None in HC.
    + intros k n d Hk. destruct (L3 k n d Hk) as (v & -> & [[HA _]|[[HA HG]|(HA & HG & ->)]]);
        rewrite HA, ?HG; reflexivity.
  - intros (L1 & L2 & HK & HV). unfold bind_args.
    replace (forallb _ kwargs) with true.
    + apply bind_reached; auto. intros k n d Hk L HI. destruct (HK n HI) as (j & e & Hj & LJ).
      rewrite (nth_name _ _ _ _ _ _ ND Hj Hk) in LJ. lia.
    + symmetry. apply forallb_forall. intros [n v] HI. cbn. apply memb_In.
      destruct (HK n) as (j & e & Hj & _); [now apply (in_map fst) in HI|].
      apply nth_error_In, (in_map fst) in Hj. exact Hj.
Qed.

Lemma bind_params_errors ps : forall args kwargs e, bind_params ps args kwargs = Err e -> e = TypeErr.
Proof.
  induction ps as [|[n d] ps IH]; intros args kwargs e; cbn [bind_params].
  - destruct args; [discriminate|]. now injection 1 as <-.
  - destruct args as [|a args].
    + destruct (bind_params ps [] kwargs) as [r|e'] eqn:HR.
      * destruct (dict_get kwargs n); [discriminate|]. destruct d; [discriminate|]. now injection 1 as <-.
      * apply IH in HR. subst e'. destruct (dict_get kwargs n); [now injection 1 as <-|].
        destruct d; now injection 1 as <-.
    + destruct (dict_mem kwargs n); cbn [negb guard bind]; [now injection 1 as <-|].
      destruct (bind_params ps args kwargs) as [r|e'] eqn:HR; cbn [bind]; [discriminate|].
      injection 1 as <-. eauto.
Qed.
Lemma bind_args_errors ps args kwargs e : bind_args ps args kwargs = Err e -> e = TypeErr.
Proof.
  unfold bind_args. destruct (forallb _ _); cbn [guard bind]; [apply bind_params_errors|]. now injection 1 as <-.
Qed.

(** ** The table *)

Lemma signature_class name ps : In (name, ps) signatures ->
  exists c, dict_get classes name = Some c /\ c_params c = ps.
Proof.
  intros H. unfold signatures in H. cbn in H.
  repeat (destruct H as [H|H]; [injection H as <- <-; eexists; split; [vm_compute; reflexivity|reflexivity]|]).
  destruct H.
Qed.
Lemma class_names name : In name (map fst classes) <-> In name (map fst signatures).
Proof.
  assert (A : forallb (fun n => memb n (map fst signatures)) (map fst classes) = true) by (vm_compute; reflexivity).
  assert (B : forallb (fun n => memb n (map fst classes)) (map fst signatures) = true) by (vm_compute; reflexivity).
  rewrite forallb_forall in A, B. split; intros H; apply memb_In; auto.
Qed.

Lemma construct_bound E name ps c args kwargs vals :
  dict_get classes name = Some c -> c_params c = ps -> call_binds ps args kwargs vals ->
  construct E name args kwargs =
    (o <- c_init c E vals ;; Ok (mkObj name (record_configs ps args kwargs) o)).
Proof.
  intros HG <- HB. unfold construct. rewrite HG. destruct (class_ok _ _ HG) as (_ & ND & _).
  apply (bind_args_binds _ _ _ _ ND) in HB. rewrite HB. reflexivity.
Qed.

Theorem unbound_refused E name ps args kwargs : In (name, ps) signatures ->
  (forall vals, ~ call_binds ps args kwargs vals) -> construct E name args kwargs = Err TypeErr.
Proof.
  intros HS HN. destruct (signature_class _ _ HS) as (c & HG & <-). unfold construct. rewrite HG.
  destruct (class_ok _ _ HG) as (_ & ND & _).
  destruct (bind_args (c_params c) args kwargs) as [vals|e] eqn:HB; cbn [bind].
  - apply (bind_args_binds _ _ _ _ ND) in HB. now apply HN in HB.
  - now rewrite (bind_args_errors _ _ _ _ HB).
Qed.

(** two complete records of the same values *)
Lemma complete_permutation ps c1 c2 bound : NoDup (map fst c1) -> NoDup (map fst c2) ->
  (forall n, In n (map fst c1) <-> In n (map fst ps)) -> (forall n, In n (map fst c2) <-> In n (map fst ps)) ->
  complete ps c1 bound -> complete ps c2 bound -> Permutation c1 c2.
Proof.
  intros N1 N2 K1 K2 [_ C1] [_ C2].
  apply NoDup_Permutation; [now apply NoDup_map_inv in N1|now apply NoDup_map_inv in N2|].
  assert (H : forall n, dict_get c1 n = dict_get c2 n).
  { intros n. destruct (dict_get c1 n) as [v|] eqn:G.
    - pose proof G as G'. apply dict_get_In in G'. apply (in_map fst) in G'. apply K1 in G'. cbn in G'.
      apply in_map_iff in G'. destruct G' as ([m d] & E & HI). cbn in E. subst m.
      apply In_nth_error in HI. destruct HI as (k & Hk). rewrite (C2 k n d Hk), <- (C1 k n d Hk). now symmetry.
    - apply dict_get_None in G. symmetry. apply dict_get_None. rewrite K2, <- K1. exact G. }
  intros [n v]. split; intros HI; apply dict_get_In.
  - rewrite <- H. now apply dict_get_Some.
  - rewrite H. now apply dict_get_Some.
Qed.
Lemma permutation_same d e : Permutation d e -> same (JDict d) (JDict e).
Proof.
  intros H. apply same_dict with d; [now symmetry|]. clear. induction d; constructor; auto.
  split; [reflexivity|apply same_refl].
Qed.

(** how an argument is passed does not matter *)
Theorem passing_style E name ps args kwargs args' kwargs' vals : In (name, ps) signatures ->
  Forall value args -> value (JDict kwargs) -> Forall value args' -> value (JDict kwargs') ->
  call_binds ps args kwargs vals -> call_binds ps args' kwargs' vals ->
  (forall e, construct E name args kwargs = Err e -> construct E name args' kwargs' = Err e) /\
  (forall o, construct E name args kwargs = Ok o -> exists o', construct E name args' kwargs' = Ok o' /\
     op_eqb o o' = true /\ o_op o' = o_op o).
Proof.
  intros HS A1 K1 A2 K2 B1 B2. destruct (signature_class _ _ HS) as (c & HG & HP).
  pose proof (construct_bound E _ _ _ _ _ _ HG HP B1) as C1.
  pose proof (construct_bound E _ _ _ _ _ _ HG HP B2) as C2.
  rewrite C1, C2. destruct (c_init c E vals) as [o|e] eqn:HI; cbn [bind] in *; split; intros x H; try discriminate H.
  2: exact H.
  injection H as <-. eexists. split; [reflexivity|]. split; [|reflexivity].
  assert (M1 : made E (mkObj name (record_configs ps args kwargs) o)) by (exists name, args, kwargs; auto).
  assert (M2 : made E (mkObj name (record_configs ps args' kwargs') o)) by (exists name, args', kwargs'; auto).
  apply (op_eqb_spec E _ _ M1 M2). split; [reflexivity|]. cbn [o_configs].
  rewrite <- HP in *. destruct (class_ok _ _ HG) as (_ & ND & _).
  apply value_dict in K1. apply value_dict in K2.
  apply (bind_args_binds _ _ _ _ ND) in B1. apply (bind_args_binds _ _ _ _ ND) in B2.
  apply permutation_same, (complete_permutation (c_params c) _ _ vals);
    try (apply record_NoDup with vals; tauto); try (apply record_keys with vals; tauto);
    apply record_complete; tauto.
Qed.

(** ** What each class makes of its arguments *)

Theorem no_arguments E name o args kwargs : In (name, o) without_arguments ->
  (args = [] /\ kwargs = [] -> construct E name args kwargs = Ok (mkObj name [] o)) /\
  (~ (args = [] /\ kwargs = []) -> construct E name args kwargs = Err TypeErr).
Proof.
  intros H. split.
  - intros [-> ->]. cbn in H.
    repeat (destruct H as [H|H]; [injection H as <- <-; vm_compute; reflexivity|]). destruct H.
  - intros N. apply unbound_refused with [].
    + unfold signatures. apply in_app_iff. left. apply in_map_iff. exists (name, o). auto.
    + intros vals (L1 & L2 & HK & _). apply N. destruct args; [|cbn in L1; lia]. split; [reflexivity|].
      destruct kwargs as [|[n v] kwargs]; [reflexivity|]. destruct (HK n) as ([|k] & d & Hk & _); [now left| |];
        discriminate Hk.
Qed.

Lemma class_found name c : In (name, c) classes -> dict_get classes name = Some c.
Proof. apply dict_get_Some. apply nodupb_ok. vm_compute. reflexivity. Qed.
Ltac class := unfold makes, refuses;
  match goal with B : call_binds _ _ _ _ |- context [construct ?E ?n ?a ?k] =>
    erewrite (construct_bound E n _ _ _ _ _
      ltac:(apply class_found; unfold classes; repeat (first [left; reflexivity|right])) ltac:(reflexivity) B);
    cbn [c_init one two three]
  end.

Lemma token_as_elem v t : token_value v t -> as_elem v = Ok t.
Proof. now destruct 1. Qed.

Theorem pad_made E args kwargs n v t : token_value v t -> call_binds pad_sig args kwargs [JInt n; v] ->
  makes E "Pad" args kwargs (Pad n t).
Proof. intros T B. class. unfold init_pad. rewrite (token_as_elem _ _ T). eexists. reflexivity. Qed.

Theorem soseos_made E args kwargs a b s e : token_value a s -> token_value b e ->
  call_binds soseos_sig args kwargs [a; b] -> makes E "AddSosEos" args kwargs (AddSosEos s e).
Proof.
  intros T1 T2 B. class. unfold init_soseos. rewrite (token_as_elem _ _ T1), (token_as_elem _ _ T2).
  eexists. reflexivity.
Qed.

Theorem purenum_made E args kwargs :
  (call_binds purenum_sig args kwargs [JNone] -> makes E "PureNum2Token" args kwargs (PureNum2Token (ETok (lit "_num_")))) /\
  (forall v t, token_value v t -> call_binds purenum_sig args kwargs [v] ->
     makes E "PureNum2Token" args kwargs (PureNum2Token t)).
Proof.
  split.
  - intros B. class. eexists. reflexivity.
  - intros v t T B. class. destruct T; eexists; reflexivity.
Qed.

Theorem end_made E args kwargs :
  (call_binds end_sig args kwargs [JNone] -> refuses E "AddEndToken" args kwargs ValueErr) /\
  (call_binds end_sig args kwargs [JStr []] -> refuses E "AddEndToken" args kwargs ValueErr) /\
  (forall t, t <> [] -> call_binds end_sig args kwargs [JStr t] -> makes E "AddEndToken" args kwargs (AddEndToken t)).
Proof.
  split; [|split].
  - intros B. class. reflexivity.
  - intros B. class. reflexivity.
  - intros [|c t] N B; [easy|]. class. eexists. reflexivity.
Qed.

Lemma mapM_as_str l ws : l = map JStr ws -> mapM as_str l = Ok ws.
Proof. intros ->. induction ws as [|w ws IH]; [reflexivity|]. cbn [map mapM as_str bind]. now rewrite IH. Qed.

Theorem subwords_made E args kwargs v words u t n :
  (v = JList (map JStr words) \/ v = JTuple (map JStr words) \/ exists d, v = JDict d /\ words = map fst d) ->
  token_value u t -> call_binds subwords_sig args kwargs [v; u; JInt n] ->
  makes E "SpanSubwords" args kwargs (SpanSubwords words t n).
Proof.
  intros V T B. class. unfold init_subwords. rewrite (token_as_elem _ _ T).
  replace (as_vocab v) with (Ok words).
  - eexists. reflexivity.
  - destruct V as [->|[->|(d & -> & ->)]]; cbn [as_vocab]; [symmetry; now apply mapM_as_str..|reflexivity].
Qed.

Theorem replace_made E args kwargs a b : call_binds replace_sig args kwargs [JStr a; JStr b] ->
  (re_compile E a <> None -> makes E "ReplaceAwithB" args kwargs (ReplaceAwithB a b)) /\
  (re_compile E a = None -> refuses E "ReplaceAwithB" args kwargs ReErr).
Proof.
  intros B. split; intros H; class; unfold init_replace, make_replace; cbn [as_str bind].
  - destruct (re_compile E a); [|congruence]. eexists. reflexivity.
  - now rewrite H.
Qed.

Lemma as_index_table d : as_index_dict (index_table d) = Ok d.
Proof.
  unfold index_table. cbn [as_index_dict]. induction d as [|[k z] d IH]; [reflexivity|].
  cbn [map mapM fst snd as_int bind]. now rewrite IH.
Qed.

Theorem index_made E args kwargs d unk : call_binds index_sig args kwargs [index_table d; JStr unk] ->
  (continuous d /\ In unk (map fst d) -> makes E "Token2Index" args kwargs (Token2Index d unk)) /\
  (d <> [] /\ continuous d /\ ~ In unk (map fst d) -> refuses E "Token2Index" args kwargs KeyErr) /\
  (~ (d <> [] /\ continuous d) -> refuses E "Token2Index" args kwargs ValueErr).
Proof.
  intros B. destruct (make_token2index_spec d unk) as (S1 & S2 & S3).
  split; [|split]; intros H; class; unfold init_index; rewrite as_index_table; cbn [as_str bind].
  - rewrite S1 by exact H. eexists. reflexivity.
  - now rewrite S2.
  - now rewrite S3.
Qed.

Theorem hash_made E args kwargs d : call_binds hash_sig args kwargs [index_table d] ->
  (d <> [] /\ continuous d -> makes E "Token2IndexwithHash" args kwargs (Token2IndexwithHash d)) /\
  (~ (d <> [] /\ continuous d) -> refuses E "Token2IndexwithHash" args kwargs ValueErr).
Proof.
  intros B. destruct (make_hash_spec d) as (S1 & S2).
  split; intros H; class; unfold init_hash; rewrite as_index_table; cbn [bind].
  - rewrite S1 by exact H. eexists. reflexivity.
  - now rewrite S2.
Qed.

Lemma truthy_false v : truthy v = false <-> false_value v.
Proof.
  unfold false_value. split.
  - destruct v as [|[]|z|s|l|l|d]; cbn [truthy]; intros H; try discriminate H;
      try (apply Bool.negb_false_iff in H; apply Nat.eqb_eq, length_zero_iff_nil in H; subst); cbn; auto 10.
    apply Bool.negb_false_iff, Z.eqb_eq in H. subst. auto.
  - cbn. intros H. repeat (destruct H as [<-|H]; [reflexivity|]). destruct H.
Qed.
Theorem words_made E args kwargs l ws v sh : l = JList (map JStr ws) \/ l = JTuple (map JStr ws) ->
  call_binds words_sig args kwargs [l; v] -> (sh = false <-> false_value v) ->
  (forall o, make_custom (Some ws) sh = Ok o -> makes E "CustomWordTokenizer" args kwargs o) /\
  (forall e, make_custom (Some ws) sh = Err e -> refuses E "CustomWordTokenizer" args kwargs e) /\
  (forall o, make_wordn (Some ws) sh = Ok o -> makes E "AddWhitespaceAroundWordnZhChar" args kwargs o) /\
  (forall e, make_wordn (Some ws) sh = Err e -> refuses E "AddWhitespaceAroundWordnZhChar" args kwargs e).
Proof.
  intros L B V. assert (TV : truthy v = sh).
  { rewrite <- truthy_false in V. destruct sh, (truthy v); try reflexivity; destruct V as (V1 & V2).
    - discriminate (V2 eq_refl).
    - discriminate (V1 eq_refl). }
  assert (W : as_words l = Ok (Some ws)).
  { destruct L as [-> | ->]; cbn [as_words]; now rewrite (mapM_as_str _ ws). }
  repeat split; intros x H; class; unfold init_custom, init_wordn; rewrite W; cbn [bind]; rewrite TV, H.
  - eexists. reflexivity.
  - reflexivity.
  - eexists. reflexivity.
  - reflexivity.
Qed.
Theorem no_words_refused E args kwargs v : call_binds words_sig args kwargs [JNone; v] ->
  refuses E "CustomWordTokenizer" args kwargs ValueErr /\
  refuses E "AddWhitespaceAroundWordnZhChar" args kwargs ValueErr.
Proof. intros B. split; class; reflexivity. Qed.
