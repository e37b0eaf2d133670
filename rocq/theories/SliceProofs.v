(** Slices of pipes, with any step, and [Pipe.add]. *)

From Verif Require Import Py PyFacts Ops Json Elements Pipe SpecPipe PipeProofs SpecSlice CallProofs.
From Coq Require Import List Lia Sorting.Sorted.
Local Open Scope Z_scope.

Lemma indices_forward step bound : 0 < step -> forall fuel i, bound - i <= Z.of_nat fuel ->
  (forall x, In x (indices fuel i bound step) <-> exists k, 0 <= k /\ x = i + k * step /\ x < bound) /\
  StronglySorted Z.lt (indices fuel i bound step).
Proof.
  intros HS. induction fuel as [|fuel IH]; intros i HF.
  - split; [|constructor]. intros x. split; [intros []|]. intros (k & HK & -> & HX). nia.
  - cbn [indices]. replace (step <? 0) with false by (symmetry; apply Z.ltb_ge; lia). destruct (Z.ltb_spec i bound) as [L|L].
    + destruct (IH (i + step)) as [I1 I2]; [lia|]. split.
      * intros x. cbn [In]. rewrite I1. split.
        -- intros [<-|(k & HK & -> & HX)]; [exists 0; lia|]. exists (k + 1). nia.
        -- intros (k & HK & -> & HX). destruct (Z.eq_dec k 0) as [->|N]; [left; lia|]. right. exists (k - 1). nia.
      * constructor; [exact I2|]. apply Forall_forall. intros x HX. apply I1 in HX. destruct HX as (k & HK & -> & _). nia.
    + split; [|constructor]. intros x. split; [intros []|]. intros (k & HK & -> & HX). nia.
Qed.
Lemma indices_backward step bound : step < 0 -> forall fuel i, i - bound <= Z.of_nat fuel ->
  (forall x, In x (indices fuel i bound step) <-> exists k, 0 <= k /\ x = i + k * step /\ bound < x) /\
  StronglySorted (fun a b => b < a) (indices fuel i bound step).
Proof.
  intros HS. induction fuel as [|fuel IH]; intros i HF.
  - split; [|constructor]. intros x. split; [intros []|]. intros (k & HK & -> & HX). nia.
  - cbn [indices]. replace (step <? 0) with true by (symmetry; apply Z.ltb_lt; lia). destruct (Z.ltb_spec bound i) as [L|L].
    + destruct (IH (i + step)) as [I1 I2]; [lia|]. split.
      * intros x. cbn [In]. rewrite I1. split.
        -- intros [<-|(k & HK & -> & HX)]; [exists 0; lia|]. exists (k + 1). nia.
        -- intros (k & HK & -> & HX). destruct (Z.eq_dec k 0) as [->|N]; [left; lia|]. right. exists (k - 1). nia.
      * constructor; [exact I2|]. apply Forall_forall. intros x HX. apply I1 in HX. destruct HX as (k & HK & -> & _). nia.
    + split; [|constructor]. intros x. split; [intros []|]. intros (k & HK & -> & HX). nia.
Qed.

Lemma bounded_indices n start stop step : step <> 0 -> 0 <= n ->
  forall fuel, n <= Z.of_nat fuel ->
  let '(i, bound) := slice_bounds n start stop step in
  (forall x, In x (indices fuel i bound step) <-> sliced n start stop step x) /\
  in_slice_order step (indices fuel i bound step).
Proof.
  intros HS HN fuel HF. unfold slice_bounds. cbn zeta. unfold sliced, in_slice_order. cbn zeta.
  destruct (Z.ltb_spec step 0) as [L|L].
  - replace (0 <? step) with false by (symmetry; apply Z.ltb_ge; lia).
    match goal with |- context [indices fuel ?i ?b step] => set (i0 := i); set (b0 := b) end.
    destruct (indices_backward step b0 L fuel i0) as [I1 I2].
    { unfold i0, b0. destruct start as [a|], stop as [b|]; repeat match goal with |- context [?a <? ?b] => destruct (Z.ltb_spec a b) | H : context [?a <? ?b] |- _ => destruct (Z.ltb_spec a b) end; lia. }
    split; [|exact I2]. intros x. rewrite I1. split.
    + intros (k & HK & HX & HB). assert (HX' : x <= i0) by nia.
      split; [|exists k; split; [exact HK|]]; clear I1 I2; unfold i0, b0 in *;
        destruct start as [a|], stop as [b|]; repeat match goal with |- context [?a <? ?b] => destruct (Z.ltb_spec a b) | H : context [?a <? ?b] |- _ => destruct (Z.ltb_spec a b) end; lia.
    + intros (HR & k & HK & HX & HB). exists k. split; [exact HK|].
      match type of HX with _ = ?f + _ => assert (HX' : x <= f) by (clear -HX HK L; set (f0 := f) in *; nia) end.
      clear I1 I2; unfold i0, b0 in *; destruct start as [a|], stop as [b|]; repeat match goal with |- context [?a <? ?b] => destruct (Z.ltb_spec a b) | H : context [?a <? ?b] |- _ => destruct (Z.ltb_spec a b) end; lia.
  - assert (L' : 0 < step) by lia. replace (0 <? step) with true by (symmetry; apply Z.ltb_lt; lia).
    match goal with |- context [indices fuel ?i ?b step] => set (i0 := i); set (b0 := b) end.
    destruct (indices_forward step b0 L' fuel i0) as [I1 I2].
    { unfold i0, b0. destruct start as [a|], stop as [b|]; repeat match goal with |- context [?a <? ?b] => destruct (Z.ltb_spec a b) | H : context [?a <? ?b] |- _ => destruct (Z.ltb_spec a b) end; lia. }
    split; [|exact I2]. intros x. rewrite I1. split.
    + intros (k & HK & HX & HB). assert (HX' : i0 <= x) by nia.
      split; [|exists k; split; [exact HK|]]; clear I1 I2; unfold i0, b0 in *;
        destruct start as [a|], stop as [b|]; repeat match goal with |- context [?a <? ?b] => destruct (Z.ltb_spec a b) | H : context [?a <? ?b] |- _ => destruct (Z.ltb_spec a b) end; lia.
    + intros (HR & k & HK & HX & HB). exists k. split; [exact HK|].
      match type of HX with _ = ?f + _ => assert (HX' : f <= x) by (clear -HX HK L'; set (f0 := f) in *; nia) end.
      clear I1 I2; unfold i0, b0 in *; destruct start as [a|], stop as [b|]; repeat match goal with |- context [?a <? ?b] => destruct (Z.ltb_spec a b) | H : context [?a <? ?b] |- _ => destruct (Z.ltb_spec a b) end; lia.
Qed.

Lemma items_at {A} (l : list A) xs : (forall x, In x xs -> 0 <= x < Z.of_nat (length l)) ->
  exists ys, mapM (get_item l) xs = Ok ys /\ Forall2 (fun x y => nth_error l (Z.to_nat x) = Some y) xs ys.
Proof.
  induction xs as [|x xs IH]; intros HR; [exists []; split; [reflexivity|constructor]|].
  destruct IH as (ys & E & F); [intros y HY; apply HR; now right|].
  assert (HX : 0 <= x < Z.of_nat (length l)) by (apply HR; now left).
  destruct (nth_error l (Z.to_nat x)) as [y|] eqn:N; [|apply nth_error_None in N; lia].
  exists (y :: ys). split; [|now constructor]. cbn [mapM]. rewrite <- (Z2Nat.id x) at 1 by lia.
  rewrite (get_item_nth _ _ _ N). cbn [bind]. now rewrite E.
Qed.

Lemma slice_items {A} (l : list A) start stop step : step <> Some 0 ->
  let k := match step with Some k => k | None => 1 end in
  exists xs ys, get_slice l (start, stop, step) = Ok ys /\
    (forall x, In x xs <-> sliced (Z.of_nat (length l)) start stop k x) /\ in_slice_order k xs /\
    Forall2 (fun x y => nth_error l (Z.to_nat x) = Some y) xs ys.
Proof.
  intros HS k. assert (HK : k <> 0) by (unfold k; destruct step as [z|]; [intros ->; now apply HS|discriminate]).
  unfold get_slice. fold k. replace (k =? 0) with false by (symmetry; now apply Z.eqb_neq). cbn [negb guard bind].
  pose proof (bounded_indices (Z.of_nat (length l)) start stop k HK ltac:(lia) (length l) ltac:(lia)) as B.
  destruct (slice_bounds _ start stop k) as [i bound]. destruct B as [B1 B2].
  destruct (items_at l (indices (length l) i bound k)) as (ys & E & F).
  { intros x HX. apply B1 in HX. apply HX. }
  exists (indices (length l) i bound k), ys. auto.
Qed.

Theorem slice_any p start stop step q : getitem_slice p (start, stop, step) = Ok q ->
  let k := match step with Some k => k | None => 1 end in
  exists xs, (forall x, In x xs <-> sliced (Z.of_nat (length (steps p))) start stop k x) /\ in_slice_order k xs /\
    Forall2 (fun x o => nth_error (steps p) (Z.to_nat x) = Some o) xs (steps q).
Proof.
  intros HG k. pose proof (slice_steps _ _ _ HG) as HS.
  destruct (slice_items (steps p) start stop step) as (xs & ys & E & H1 & H2 & H3).
  { intros ->. discriminate HS. }
  rewrite HS in E. injection E as <-. now exists xs.
Qed.

Theorem slice_error p start stop step e : getitem_slice p (start, stop, step) = Err e <->
  (step = Some 0 /\ e = ValueErr) \/
  (step <> Some 0 /\ start = None /\ checkpoints p <> [] /\ e = TypeErr).
Proof.
  assert (D : step = Some 0 \/ step <> Some 0).
  { destruct step as [z|]; [|right; discriminate]. destruct (Z.eq_dec z 0) as [->|N]; [now left|]. right. congruence. }
  destruct D as [->|N].
  - cbn. split; [intros [= <-]; now left|]. intros [[_ ->]|[[] _]]; reflexivity.
  - destruct (slice_items (steps p) start stop step N) as (xs & ys & E & _). unfold getitem_slice. rewrite E. cbn [bind].
    destruct start as [z|].
    + split; [discriminate|]. intros [[Q _]|(_ & Q & _)]; [contradiction|discriminate].
    + destruct (checkpoints p) as [|c ck].
      * split; [discriminate|]. intros [[Q _]|(_ & _ & Q & _)]; contradiction.
      * split; [intros [= <-]; right; repeat split; auto; discriminate|]. intros [[Q _]|(_ & _ & _ & ->)]; [contradiction|reflexivity].
Qed.

Theorem slice_keeps p start stop step q : getitem_slice p (start, stop, step) = Ok q ->
  match start with
  | None => checkpoints p = [] /\ checkpoints q = []
  | Some s => forall name i, In (name, i) (checkpoints q) <-> 0 < i /\ In (name, i + s) (checkpoints p)
  end.
Proof.
  unfold getitem_slice. destruct (get_slice (steps p) _) as [ys|]; cbn [bind]; [|discriminate]. destruct start as [s|].
  - intros [= <-] name i. cbn [checkpoints]. rewrite in_map_iff. split.
    + intros ([n v] & E & HF). apply filter_In in HF. cbn [fst snd] in *. destruct HF as [HI HL]. apply Z.ltb_lt in HL.
      injection E as <- <-. split; [lia|]. now replace (v - s + s) with v by lia.
    + intros [HP HI]. exists (name, i + s). cbn [fst snd]. split; [f_equal; lia|]. apply filter_In. split; [exact HI|].
      apply Z.ltb_lt. cbn. lia.
  - destruct (checkpoints p); [|discriminate]. intros [= <-]. auto.
Qed.

(** ** [add] *)

Theorem add_is E reg p name kwargs ck : let k := match kwargs with Some k => k | None => [] end in
  (~ In name reg -> add E reg p name kwargs ck = (p, Some KeyErr)) /\
  (In name reg -> forall e, construct E name [] k = Err e -> add E reg p name kwargs ck = (p, Some e)) /\
  (In name reg -> forall o, construct E name [] k = Ok o -> add E reg p name kwargs ck = add_op p o ck).
Proof.
  intros k. unfold add. fold k.
  assert (Q : op_from_dict E reg (JDict [(K_op_name, JStr name); (K_op_kwargs, JDict k)]) =
              if memb name reg then construct E name [] k else Err KeyErr).
  { unfold op_from_dict. change (key (JDict [(K_op_name, JStr name); (K_op_kwargs, JDict k)]) K_op_name) with (Ok (JStr name)).
    change (key (JDict [(K_op_name, JStr name); (K_op_kwargs, JDict k)]) K_op_kwargs) with (Ok (JDict k)).
    cbn [bind]. unfold make_registered. now destruct (memb name reg). }
  rewrite Q. destruct (memb name reg) eqn:M.
  - apply memb_In in M. split; [contradiction|]. split; intros _ x ->; reflexivity.
  - assert (~ In name reg) by (intros HI; apply memb_In in HI; congruence). split; [reflexivity|]. split; contradiction.
Qed.
