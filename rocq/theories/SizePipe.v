(** Proofs about the sizes of what pipes give, and of pipes that accept every short text (C91). *)

From Coq Require Import String.
From Verif Require Import Py PyFacts Edit Labels Regex Trie Murmur Ops SpecEdit SpecLabels SpecOps SpecHash Json Elements SpecElements Pipe
  SpecPipe PipeProofs ObjProofs PipeAlign SpecAccept AcceptProofs AcceptPipe FixedSize AcceptWitness SpecSize SizeProofs Concrete OpsWitness PipeWitness.
From Coq Require Import List Lia.
Local Open Scope Z_scope.

Lemma bound_mono ops : forall n m, n <= m -> bound ops n <= bound ops m.
Proof.
  induction ops as [|o ops IH]; intros n m L; [exact L|]. cbn [bound]. apply IH. pose proof (growth_pos o). nia.
Qed.
Lemma bound_ge ops : forall n, 0 <= n -> n <= bound ops n.
Proof.
  induction ops as [|o ops IH]; intros n L; [cbn [bound]; lia|]. cbn [bound]. pose proof (growth_pos o). pose proof (extra_pos o).
  specialize (IH (growth o * n + extra o) ltac:(nia)). nia.
Qed.
Lemma bound_app a b n : bound (a ++ b) n = bound b (bound a n).
Proof. revert n. induction a as [|o a IH]; intros n; [reflexivity|]. cbn [app bound]. apply IH. Qed.
Lemma bound_pos ops n : 0 <= n -> 0 <= bound ops n.
Proof. intros L. pose proof (bound_ge ops n L). lia. Qed.

Lemma run_size E ops : python E -> forall x y als coll, Forall (fun o => built E (o_op o)) ops -> run E ops x = Ok (y, als, coll) ->
  size y <= bound (map o_op ops) (size x) /\ forall z, In z coll -> size z <= bound (map o_op ops) (size x).
Proof.
  intros PY. induction ops as [|o ops IH]; intros x y als coll HB H; cbn [run] in H.
  - injection H as <- _ <-. cbn [map bound]. split; [lia|]. intros z [<-|[]]. lia.
  - inversion HB as [|? ? B BS]; subst.
    destruct (transform_op E (o_op o) x) as [[v a]|] eqn:T; cbn [bind] in H; [|discriminate].
    destruct (run E ops v) as [[[w als'] coll']|] eqn:R; cbn [bind] in H; [|discriminate]. injection H as <- _ <-.
    apply operator_size in T; [|assumption|assumption]. destruct (IH _ _ _ _ BS R) as (I1 & I2). cbn [map bound].
    pose proof (bound_mono (map o_op ops) _ _ T) as M. split; [lia|]. intros z [<-|HZ]; [|specialize (I2 z HZ); lia].
    pose proof (size_pos x). pose proof (growth_pos (o_op o)). pose proof (extra_pos (o_op o)).
    pose proof (bound_ge (map o_op ops) (growth (o_op o) * size x + extra (o_op o)) ltac:(nia)). nia.
Qed.

Theorem pipe_size E p x y als coll : python E -> regexes E -> reachable E p -> transform_sequence E p x = Ok (y, als, coll) ->
  size y <= bound (map o_op (steps p)) (size x) /\ (forall z, In z coll -> size z <= bound (map o_op (steps p)) (size x)) /\
  Z.of_nat (pseq_length y) <= size y.
Proof.
  intros PY HR R H. destruct (run_size E _ PY x y als coll (reachable_built E p HR R) H) as (H1 & H2).
  split; [exact H1|]. split; [exact H2|apply size_length].
Qed.

Lemma not_too_long E p x : python E -> Forall (fun o => built E (o_op o)) (steps p) ->
  bound (map o_op (steps p)) (size x) < 2 ^ 32 -> ~ too_long E p x.
Proof.
  intros PY HB L (k & u & _ & (als & coll & R) & G). unfold transform_sequence in R. cbn [steps] in R.
  apply run_size in R; [|exact PY|].
  - destruct R as (R & _). pose proof (size_length u). pose proof (size_pos x).
    rewrite <- (firstn_skipn k (steps p)), map_app, bound_app in L.
    pose proof (bound_ge (map o_op (skipn k (steps p))) (bound (map o_op (firstn k (steps p))) (size x)) (bound_pos _ _ (size_pos x))). lia.
  - apply Forall_forall. intros o HO. rewrite Forall_forall in HB. apply HB. rewrite <- (firstn_skipn k). apply in_or_app. now left.
Qed.

Theorem total_pipes E p f g x : python E -> all_handle E f (map o_op (steps p)) g -> has_form f x ->
  bound (map o_op (steps p)) (size x) < 2 ^ 32 ->
  exists y als coll, transform_sequence E p x = Ok (y, als, coll) /\ has_form g y.
Proof.
  intros PY HA HF L. destruct (handled E p f g x PY HA HF) as [H|(_ & H)]; [exact H|]. exfalso. revert H. apply not_too_long; auto.
  apply all_built in HA. now rewrite Forall_map in HA.
Qed.

Theorem total_datum E p g d : python E -> all_handle E Chars (map o_op (steps p)) g ->
  Forall (writable (d_utterance d)) (d_entities d) ->
  bound (map o_op (steps p)) (Z.of_nat (length (d_utterance d))) < 2 ^ 32 ->
  exists y l als coll, transform E p d = Ok (y, d_intents d, l, als, coll) /\ has_form g y /\ length l = pseq_length y.
Proof.
  intros PY HA HW L. destruct (handled_datum E p g d PY HA HW) as [H|(_ & H)]; [exact H|]. exfalso. revert H. apply not_too_long; auto.
  apply all_built in HA. now rewrite Forall_map in HA.
Qed.

Lemma readme_bound n : bound (readme_head ++ [Pad 5 (tk "<pad>"); Token2Index readme_index (lit "<unk>")]) n = 21 * n + 35.
Proof.
  cbn [app readme_head bound growth extra]. change (elem_size (tk "<sos>")) with 5. change (elem_size (tk "<eos>")) with 5.
  change (elem_size (tk "<pad>")) with 5. change (Z.max 0 5) with 5. lia.
Qed.

Theorem readme_total E p dt : python E -> regexes E -> add_calls E imported pipe_new readme_calls = (p, None) ->
  Forall (writable (d_utterance dt)) (d_entities dt) -> Z.of_nat (length (d_utterance dt)) < 2 ^ 27 ->
  exists out l als coll, transform E p dt = Ok (SLst (map EIdx out), d_intents dt, l, als, coll) /\
     length out = 5%nat /\ length l = 5%nat /\ Forall (fun i => 0 <= i <= 7) out.
Proof.
  intros PY HR HA HW L. destruct (readme_shape E p dt PY HR HA HW) as [H|(_ & H)]; [exact H|]. exfalso. revert H.
  pose proof (readme_ops E p HA) as HS.
  assert (HB : Forall (fun o => built E (o_op o)) (steps p)).
  { apply reachable_built; [exact HR|]. exact (add_calls_reachable E imported _ _ _ readme_values (r_new E) HA). }
  apply not_too_long; auto. rewrite HS, readme_bound. cbn [size]. lia.
Qed.
