(** Proofs: texts that deserialize does not accept (C43, C65). *)

From Coq Require Import String.
From Verif Require Import Py PyFacts Json SpecJson JsonProofs Elements Ops Pipe SpecPipe ObjProofs Factory Custom SpecForeign.
From Coq Require Import List.

Lemma key_None d k : ~ In k (map fst d) -> key (JDict d) k = Err KeyErr.
Proof. intros H. cbn. apply dict_get_None in H. now rewrite H. Qed.
Lemma key_In d k v : NoDup (map fst d) -> In (k, v) d -> key (JDict d) k = Ok v.
Proof. intros N H. cbn. now rewrite (dict_get_In_NoDup d k v). Qed.
Lemma key_mem d k : In k (map fst d) -> exists v, key (JDict d) k = Ok v.
Proof.
  intros H. cbn. destruct (dict_get d k) eqn:Q; [eexists; reflexivity|]. apply dict_get_None in Q. contradiction.
Qed.
Lemma key_no_dict v k : ~ is_object v -> key v k = Err TypeErr.
Proof. intros H. destruct v; try reflexivity. exfalso. apply H. eexists. reflexivity. Qed.

Theorem op_refused E reg v e : value v -> no_tuple v -> refused (fun n => In n reg) v e ->
  op_deserialize E reg (dumps 0 v) = Err e.
Proof.
  intros HV HN HR. unfold op_deserialize. rewrite loads_dumps by exact HV. cbn [bind]. rewrite (as_json_same v HN). unfold op_from_dict.
  assert (ND : forall d, v = JDict d -> NoDup (map fst d)) by (intros d ->; apply value_dict in HV; tauto).
  destruct HR as [v H|d H|d H|d n H1 H2 H3|d w H1 H2 H3 H4 H5|d w H1 H2 H3|d n w H1 H2 H3 H4];
    try specialize (ND d eq_refl); unfold K_op_name, K_op_kwargs in *.
  - now rewrite key_no_dict.
  - now rewrite key_None.
  - destruct (key (JDict d) (lit "op_name")) eqn:Q; cbn [bind].
    + now rewrite (key_None d (lit "op_kwargs")).
    + cbn in Q. destruct (dict_get d _); [discriminate|]. congruence.
  - rewrite (key_In _ _ _ ND H1). cbn [bind]. destruct (key_mem _ _ H2) as (w & ->). cbn [bind].
    destruct (memb n reg) eqn:M; [|reflexivity]. apply memb_In in M. contradiction.
  - rewrite (key_In _ _ _ ND H1). cbn [bind]. destruct (key_mem _ _ H2) as (u & ->). cbn [bind].
    assert (NT : no_tuple w).
    { clear -HN H1. cbn in HN. rewrite (fold_Forall (fun kv => no_tuple (snd kv))) in HN. rewrite Forall_forall in HN. exact (HN _ H1). }
    destruct w; try reflexivity; try (exfalso; now eapply H3); try (exfalso; now eapply H4); try contradiction.
    exfalso. apply H5. eexists. reflexivity.
  - rewrite (key_In _ _ _ ND H1). cbn [bind]. destruct (key_mem _ _ H2) as (u & ->). cbn [bind].
    destruct H3 as [[x ->]|[x ->]]; reflexivity.
  - rewrite (key_In _ _ _ ND H1). cbn [bind]. rewrite (key_In _ _ _ ND H3). cbn [bind].
    apply memb_In in H2. rewrite H2. destruct w; try reflexivity. exfalso. apply H4. eexists. reflexivity.
Qed.

Theorem obj_refused T B (f : list (str * pyclass T B)) v e : value v -> no_tuple v ->
  refused (fun n => exists c, fget f n = Ok c) v e -> obj_deserialize f (dumps 0 v) = Err e.
Proof.
  intros HV HN HR. unfold obj_deserialize. rewrite loads_dumps by exact HV. cbn [bind]. rewrite (as_json_same v HN).
  assert (ND : forall d, v = JDict d -> NoDup (map fst d)) by (intros d ->; apply value_dict in HV; tauto).
  destruct HR as [v H|d H|d H|d n H1 H2 H3|d w H1 H2 H3 H4 H5|d w H1 H2 H3|d n w H1 H2 H3 H4];
    try specialize (ND d eq_refl); unfold K_op_name, K_op_kwargs in *.
  - now rewrite key_no_dict.
  - now rewrite key_None.
  - destruct (key (JDict d) (lit "op_name")) eqn:Q; cbn [bind].
    + now rewrite (key_None d (lit "op_kwargs")).
    + cbn in Q. destruct (dict_get d _); [discriminate|]. congruence.
  - rewrite (key_In _ _ _ ND H1). cbn [bind]. destruct (key_mem _ _ H2) as (w & ->). cbn [bind].
    assert (fget f n = Err KeyErr) as G by (unfold fget in *; destruct (dict_get f n) eqn:Q; [exfalso; apply H3; eexists; reflexivity|reflexivity]).
    destruct w; unfold from_dict; rewrite ?G; reflexivity.
  - rewrite (key_In _ _ _ ND H1). cbn [bind]. destruct (key_mem _ _ H2) as (u & ->). cbn [bind].
    assert (NT : no_tuple w).
    { clear -HN H1. cbn in HN. rewrite (fold_Forall (fun kv => no_tuple (snd kv))) in HN. rewrite Forall_forall in HN. exact (HN _ H1). }
    destruct w; try reflexivity; try (exfalso; now eapply H3); try (exfalso; now eapply H4); try contradiction.
    exfalso. apply H5. eexists. reflexivity.
  - rewrite (key_In _ _ _ ND H1). cbn [bind]. destruct (key_mem _ _ H2) as (u & ->). cbn [bind].
    destruct H3 as [[x ->]|[x ->]]; reflexivity.
  - rewrite (key_In _ _ _ ND H1). cbn [bind]. rewrite (key_In _ _ _ ND H3). cbn [bind].
    destruct H2 as (c & G). destruct w; try rewrite G; try reflexivity. exfalso. apply H4. eexists. reflexivity.
Qed.

(** concrete texts *)
Example ex_refused : refused (fun n => In n imported) (JDict [(lit "op_name", JStr (lit "Lowercase")); (lit "op_kwargs", JList [])]) TypeErr /\
  refused (fun n => In n imported) (JDict [(lit "op_name", JStr (lit "Lower")); (lit "op_kwargs", JDict [])]) KeyErr /\
  refused (fun n => In n imported) (JList []) TypeErr.
Proof.
  split; [|split].
  - eapply refused_arguments; [left; reflexivity| |right; left; reflexivity|intros [d H]; discriminate].
    apply memb_In. vm_compute. reflexivity.
  - eapply refused_unknown; [left; reflexivity|right; left; reflexivity|].
    intros H. apply memb_In in H. vm_compute in H. discriminate.
  - apply refused_no_object. intros [d H]. discriminate.
Qed.
