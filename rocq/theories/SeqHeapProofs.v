(** Proofs about the lists that go through a pipe (C83). *)

From Coq Require Import ZArith Bool Lia.
From Verif Require Import Py Edit Labels Ops Elements Pipe SpecEdit SpecOps SeqHeap SpecSeqHeap.
From Verif Require GroupProofs.
From Verif Require Import PyFacts PipeProofs SeqAlignProofs.
From Coq Require Import List.
Import ListNotations.
Local Open Scope nat_scope.

(** ** Running *)

Definition exists_in (w : world) (x : item) : Prop := exists_item w x = true.

Lemma value_grows w w' x new :
  w_lists w' = w_lists w ++ new -> exists_in w x -> value w' x = value w x /\ exists_in w' x.
Proof.
  intros Q X. destruct x as [s|r]; [split; reflexivity|]. unfold exists_in, exists_item, known in *.
  apply Nat.ltb_lt in X. cbn [value]. rewrite Q, app_nth1 by exact X. split; [reflexivity|].
  apply Nat.ltb_lt. rewrite app_length. lia.
Qed.

Lemma hrun_spec E ops : forall x w, exists_in w x ->
  match run E ops (value w x) with
  | Ok (z, als, coll) => exists w' y hals new,
      hrun E ops x w = (w', Ok (y, hals, map al_source hals ++ [y])) /\
      value w' y = z /\ map al_made hals = als /\ map (value w') (map al_source hals ++ [y]) = coll /\
      w' = set_lists w (w_lists w ++ new) /\ Forall (exists_in w') (map al_source hals ++ [y]) /\
      exists t, map al_source hals ++ [y] = x :: t /\
        lists_in t = seq (length (w_lists w)) (length new)
  | Err e => exists new, hrun E ops x w = (set_lists w (w_lists w ++ new), Err e)
  end.
Proof.
  induction ops as [|o ops IH]; intros x w X; cbn [run hrun].
  - exists w, x, [], []. cbn. rewrite app_nil_r. destruct w. repeat split; auto.
    exists []. split; reflexivity.
  - destruct (transform_op E (o_op o) (value w x)) as [(y, a)|e] eqn:ET; cbn [bind].
    2:{ exists []. rewrite app_nil_r. now destruct w. }
    destruct (new_item w y) as (w1, y1) eqn:EN.
    assert (N : exists n1, w1 = set_lists w (w_lists w ++ n1) /\ exists_in w1 y1 /\ value w1 y1 = y /\
                  lists_in [y1] = seq (length (w_lists w)) (length n1)).
    { unfold new_item in EN. destruct y as [s|l]; injection EN as <- <-.
      - exists []. rewrite app_nil_r. destruct w. repeat split; auto.
      - exists [l]. split; [reflexivity|]. split.
        + unfold exists_in, exists_item, known. cbn [w_lists set_lists]. apply Nat.ltb_lt. rewrite app_length. cbn. lia.
        + split; [|reflexivity]. cbn [value w_lists set_lists]. now rewrite nth_middle. }
    destruct N as (n1 & -> & X1 & V1 & L1). specialize (IH y1 _ X1). rewrite V1 in IH.
    destruct (run E ops y) as [((z, als), coll)|e]; cbn [bind].
    + destruct IH as (w' & y' & hals & n2 & R & Vz & M & C & W & F & t & T1 & T2). rewrite R.
      cbn [w_lists set_lists] in W.
      assert (W' : w' = set_lists w (w_lists w ++ n1 ++ n2)) by (rewrite W; unfold set_lists; cbn; now rewrite <- app_assoc).
      destruct (value_grows w w' x (n1 ++ n2)) as (VX & XX); [now rewrite W'|exact X|].
      exists w', y', (mkHal a x :: hals), (n1 ++ n2). cbn [map app al_source al_made].
      split; [reflexivity|]. split; [exact Vz|]. split; [now rewrite M|]. split; [now rewrite C, VX|].
      split; [exact W'|]. split; [constructor; [exact XX|exact F]|].
      exists (map al_source hals ++ [y']). split; [reflexivity|]. rewrite T1.
      change (lists_in (y1 :: t)) with ((match y1 with AList r => [r] | AText _ => [] end) ++ lists_in t).
      rewrite T2. cbn [w_lists set_lists]. rewrite !app_length, seq_app.
      f_equal. rewrite <- L1. destruct y1; reflexivity.
    + destruct IH as (n2 & R). rewrite R. exists (n1 ++ n2). unfold set_lists. cbn. now rewrite <- app_assoc.
Qed.

(** ** Labels *)

Definition step_of : Type := hal -> list Z -> res (list Z).
Fixpoint hlabel (f : step_of) (als : list hal) (r : nat) (w : world) : world * res nat :=
  match als with
  | [] => (w, Ok r)
  | a :: als =>
      match f a (labels_of w r) with
      | Err e => (w, Err e)
      | Ok l => let '(w, r) := result_of w (al_made a) r l in hlabel f als r w
      end
  end.

Lemma hforward_label als : forall r w, hforward als r w = hlabel (fun a => align (al_made a)) als r w.
Proof.
  induction als as [|a als IH]; intros r w; cbn [hforward hlabel]; [reflexivity|].
  destruct (align _ _); [|reflexivity]. destruct (result_of _ _ _ _). apply IH.
Qed.
Lemma hback_label E W als : forall r w, w_lists w = W ->
  hback E als r w = hlabel (fun a => back_with E (al_made a) (value (mkW W [] []) (al_source a))) als r w.
Proof.
  induction als as [|a als IH]; intros r w Q; cbn [hback hlabel]; [reflexivity|].
  assert (V : value w (al_source a) = value (mkW W [] []) (al_source a)).
  { destruct (al_source a); [reflexivity|]. cbn [value w_lists]. now rewrite Q. }
  unfold back_now. rewrite V. fold (back_with E (al_made a) (value (mkW W [] []) (al_source a)) (labels_of w r)).
  destruct (back_with _ _ _ _) as [l|]; [|reflexivity].
  destruct (result_of w (al_made a) r l) as (w', r') eqn:ER. apply IH.
  unfold result_of in ER. destruct (is_null _); injection ER as <- <-; exact Q.
Qed.

Lemma hlabel_spec f als : (forall a l l', is_null (al_made a) = true -> f a l = Ok l' -> l' = l) ->
  forall r w, r < length (w_labels w) ->
  match foldM (fun l a => f a l) als (labels_of w r) with
  | Err e => exists new, hlabel f als r w = (set_labels w (w_labels w ++ new), Err e)
  | Ok out => exists new r', hlabel f als r w = (set_labels w (w_labels w ++ new), Ok r') /\
      nth_error (w_labels w ++ new) r' = Some out /\
      if forallb (fun a => is_null (al_made a)) als then r' = r else length (w_labels w) <= r'
  end.
Proof.
  intros HN. induction als as [|a als IH]; intros r w HR; cbn [foldM hlabel].
  - exists [], r. rewrite app_nil_r. destruct w as [wl wb wr]. split; [reflexivity|]. split; [|reflexivity].
    unfold labels_of. cbn [w_labels] in *. now apply nth_error_nth'.
  - destruct (f a (labels_of w r)) as [l|e] eqn:EF; cbn [bind].
    2:{ exists []. rewrite app_nil_r. now destruct w. }
    unfold result_of. cbn [forallb]. destruct (is_null (al_made a)) eqn:EN.
    + pose proof (HN _ _ _ EN EF) as Q. rewrite Q. specialize (IH r w HR).
      cbn [andb]. exact IH.
    + cbn [andb new_labels]. set (w1 := set_labels w (w_labels w ++ [l])).
      assert (R1 : length (w_labels w) < length (w_labels w1)) by (cbn; rewrite app_length; cbn; lia).
      specialize (IH (length (w_labels w)) w1 R1).
      assert (V1 : labels_of w1 (length (w_labels w)) = l).
      { unfold labels_of, w1. cbn [w_labels set_labels]. apply nth_middle. }
      rewrite V1 in IH. destruct (foldM _ als l) as [out|e].
      * destruct IH as (new & r' & H1 & H2 & H3). exists ([l] ++ new), r'. rewrite H1.
        unfold w1, set_labels in *. cbn [w_labels w_lists w_runs] in *. rewrite <- !app_assoc in *.
        split; [reflexivity|]. split; [exact H2|].
        destruct (forallb _ als); [lia|]. rewrite app_length in H3. lia.
      * destruct IH as (new & H1). exists ([l] ++ new). rewrite H1.
        unfold w1, set_labels. cbn [w_labels w_lists w_runs]. now rewrite <- app_assoc.
Qed.

Lemma align_null a l l' : is_null a = true -> align a l = Ok l' -> l' = l.
Proof.
  destruct a; try discriminate. intros _. unfold align. destruct (guard _ _); [|discriminate]. cbn [bind align_raw].
  destruct (guard _ _); [|discriminate]. cbn [bind]. intros Q. now injection Q.
Qed.
Lemma back_null E a v l l' : is_null a = true -> back_with E a v l = Ok l' -> l' = l.
Proof.
  destruct a; try discriminate. intros _. unfold back_with. destruct (guard _ _); [|discriminate].
  cbn [bind with_input align_inverse_raw].
  destruct (guard _ _); [|discriminate]. cbn [bind]. intros Q. now injection Q.
Qed.

(** ** What calls leave alone *)

Lemma put_length {A} (l : list A) : forall i x, length (put l i x) = length l.
Proof. induction l; intros [|i] x; cbn; auto. Qed.
Lemma put_other {A} (l : list A) : forall i j x, i <> j -> nth_error (put l i x) j = nth_error l j.
Proof. induction l as [|y l IH]; intros [|i] [|j] x N; cbn; auto; congruence. Qed.

Definition after_one (E : env) (w : world) (c : action) : world := fst (exec E w c).

Lemma after_snoc E h c : after_actions E (h ++ [c]) = after_one E (after_actions E h) c.
Proof. unfold after_actions. now rewrite fold_left_app. Qed.
Lemma after_app E h g : after_actions E (h ++ g) = fold_left (after_one E) g (after_actions E h).
Proof. unfold after_actions. now rewrite fold_left_app. Qed.

(** The three stores after a call. *)
Lemma exec_stores E w c :
  (exists new, w_lists (after_one E w c) =
     (match c with SetList r l => if known (w_lists w) r then put (w_lists w) r l else w_lists w
                 | _ => w_lists w end) ++ new) /\
  (exists new, w_labels (after_one E w c) =
     (match c with SetLabels r l => if known (w_labels w) r then put (w_labels w) r l else w_labels w
                 | _ => w_labels w end) ++ new) /\
  (exists new, w_runs (after_one E w c) = w_runs w ++ new).
Proof.
  assert (N : forall (l : list (list elem)), exists n, l = l ++ n) by (intros l; exists []; now rewrite app_nil_r).
  assert (N2 : forall (l : list (list Z)), exists n, l = l ++ n) by (intros l; exists []; now rewrite app_nil_r).
  assert (N3 : forall (l : list runobj), exists n, l = l ++ n) by (intros l; exists []; now rewrite app_nil_r).
  unfold after_one. destruct c as [l|r l|l|r l|p x|k j|k r|k r]; cbn [exec].
  - cbn. split; [eexists; reflexivity|]. split; [apply N2|apply N3].
  - destruct (known _ _); cbn; (split; [apply N|split; [apply N2|apply N3]]).
  - cbn. split; [apply N|]. split; [eexists; reflexivity|apply N3].
  - destruct (known _ _); cbn; (split; [apply N|split; [apply N2|apply N3]]).
  - destruct (exists_item w x) eqn:X; [|cbn; split; [apply N|split; [apply N2|apply N3]]].
    pose proof (hrun_spec E (steps p) x w X) as H. destruct (run _ _ _) as [((z, als), coll)|e].
    + destruct H as (w' & y & hals & new & R & _ & _ & _ & W & _). rewrite R, W. cbn.
      split; [eexists; reflexivity|]. split; [apply N2|eexists; reflexivity].
    + destruct H as (new & R). rewrite R. cbn. split; [eexists; reflexivity|]. split; [apply N2|apply N3].
  - destruct (nth_error _ _); cbn; (split; [apply N|split; [apply N2|apply N3]]).
  - destruct (nth_error (w_runs w) k) as [o|]; [|cbn; split; [apply N|split; [apply N2|apply N3]]].
    destruct (known _ _) eqn:K; [|cbn; split; [apply N|split; [apply N2|apply N3]]].
    apply Nat.ltb_lt in K. rewrite hforward_label.
    pose proof (hlabel_spec (fun a => align (al_made a)) (r_als o)) as H.
    specialize (H ltac:(intros a l l'; apply align_null) r w K). destruct (foldM _ _ _).
    + destruct H as (new & r' & R & _). rewrite R. cbn. split; [apply N|]. split; [eexists; reflexivity|apply N3].
    + destruct H as (new & R). rewrite R. cbn. split; [apply N|]. split; [eexists; reflexivity|apply N3].
  - destruct (nth_error (w_runs w) k) as [o|]; [|cbn; split; [apply N|split; [apply N2|apply N3]]].
    destruct (known _ _) eqn:K; [|cbn; split; [apply N|split; [apply N2|apply N3]]].
    apply Nat.ltb_lt in K. rewrite (hback_label E (w_lists w)) by reflexivity.
    match goal with |- context [hlabel ?f ?als r w] => pose proof (hlabel_spec f als) as H end.
    specialize (H ltac:(intros a l l'; apply back_null) r w K). destruct (foldM _ _ _).
    + destruct H as (new & r' & R & _). rewrite R. cbn. split; [apply N|]. split; [eexists; reflexivity|apply N3].
    + destruct H as (new & R). rewrite R. cbn. split; [apply N|]. split; [eexists; reflexivity|apply N3].
Qed.

Lemma lists_kept E h c r l :
  has_list E h r l -> (forall l', c <> SetList r l') -> has_list E (h ++ [c]) r l.
Proof.
  unfold has_list. intros H N. rewrite after_snoc.
  destruct (exec_stores E (after_actions E h) c) as ((new & Q) & _). rewrite Q.
  rewrite nth_error_app1.
  - destruct c; auto. destruct (known _ _); [|exact H]. rewrite put_other; [exact H|].
    intros ->. now apply (N l0).
  - assert (L : r < length (w_lists (after_actions E h))) by (apply nth_error_Some; congruence).
    destruct c; auto. destruct (known _ _); [|exact L]. now rewrite put_length.
Qed.

Lemma labels_kept E h c r l :
  has_labels E h r l -> (forall l', c <> SetLabels r l') -> has_labels E (h ++ [c]) r l.
Proof.
  unfold has_labels. intros H N. rewrite after_snoc.
  destruct (exec_stores E (after_actions E h) c) as (_ & (new & Q) & _). rewrite Q.
  rewrite nth_error_app1.
  - destruct c; auto. destruct (known _ _); [|exact H]. rewrite put_other; [exact H|].
    intros ->. now apply (N l0).
  - assert (L : r < length (w_labels (after_actions E h))) by (apply nth_error_Some; congruence).
    destruct c; auto. destruct (known _ _); [|exact L]. now rewrite put_length.
Qed.

Lemma put_here {A} (l : list A) : forall i x, i < length l -> nth_error (put l i x) i = Some x.
Proof. induction l as [|y l IH]; intros [|i] x L; cbn in *; try lia; [reflexivity|apply IH; lia]. Qed.

Lemma lists_changed E h r l l' :
  has_list E h r l -> gives E h (SetList r l') = Ok Nothing /\ has_list E (h ++ [SetList r l']) r l'.
Proof.
  unfold has_list, gives. intros H.
  assert (L : r < length (w_lists (after_actions E h))) by (apply nth_error_Some; congruence).
  rewrite after_snoc. unfold after_one. cbn [exec]. unfold known. rewrite (proj2 (Nat.ltb_lt _ _) L).
  split; [reflexivity|]. cbn [fst w_lists set_lists]. now apply put_here.
Qed.
Lemma labels_changed E h r l l' :
  has_labels E h r l -> gives E h (SetLabels r l') = Ok Nothing /\ has_labels E (h ++ [SetLabels r l']) r l'.
Proof.
  unfold has_labels, gives. intros H.
  assert (L : r < length (w_labels (after_actions E h))) by (apply nth_error_Some; congruence).
  rewrite after_snoc. unfold after_one. cbn [exec]. unfold known. rewrite (proj2 (Nat.ltb_lt _ _) L).
  split; [reflexivity|]. cbn [fst w_labels set_labels]. now apply put_here.
Qed.

(** Runs never change. *)
Lemma runs_kept E h g k o :
  nth_error (w_runs (after_actions E h)) k = Some o -> nth_error (w_runs (after_actions E (h ++ g))) k = Some o.
Proof.
  rewrite after_app. generalize (after_actions E h) as w. induction g as [|c g IH]; intros w H; [exact H|].
  cbn [fold_left]. apply IH. destruct (exec_stores E w c) as (_ & _ & (new & Q)). rewrite Q.
  rewrite nth_error_app1; [exact H|]. apply nth_error_Some. congruence.
Qed.

(** The items of a run are the collection of its object. *)
Lemma get_item_nat {A} (l : list A) j :
  get_item l (Z.of_nat j) = match nth_error l j with Some x => Ok x | None => Err IndexErr end.
Proof.
  destruct (nth_error l j) as [x|] eqn:N; [now apply get_item_nth|].
  apply GroupProofs.get_item_python. apply nth_error_None in N. lia.
Qed.

Lemma nth_error_same {A} (l : list A) : forall m, (forall j, nth_error l j = nth_error m j) -> l = m.
Proof.
  induction l as [|x l IH]; intros [|y m] H; [reflexivity|discriminate (H 0)|discriminate (H 0)|].
  pose proof (H 0) as H0. injection H0 as ->. f_equal. apply IH. intros j. exact (H (S j)).
Qed.

Lemma items_iff E h k xs :
  items E h k xs <-> exists o, nth_error (w_runs (after_actions E h)) k = Some o /\ r_coll o = xs.
Proof.
  unfold items, gives. cbn [exec]. destruct (nth_error (w_runs (after_actions E h)) k) as [o|].
  - cbn [snd]. split.
    + intros H. exists o. split; [reflexivity|]. apply nth_error_same. intros j. specialize (H j).
      rewrite get_item_nat in H. destruct (nth_error (r_coll o) j), (nth_error xs j); cbn [bind] in H; congruence.
    + intros (o' & Q & <-) j. injection Q as <-. rewrite get_item_nat. destruct (nth_error _ j); reflexivity.
  - split; [|intros (o & Q & _); discriminate]. intros H. specialize (H (length xs)). cbn [snd] in H.
    rewrite (proj2 (nth_error_None xs (length xs))) in H by lia. discriminate.
Qed.

Lemma items_kept E h g k xs : items E h k xs -> items E (h ++ g) k xs.
Proof.
  rewrite !items_iff. intros (o & Q1 & Q2). exists o. split; [|exact Q2]. now apply runs_kept.
Qed.
Lemma items_unique E h k xs ys : items E h k xs -> items E h k ys -> xs = ys.
Proof. rewrite !items_iff. intros (o & Q1 & Q2) (o' & Q3 & Q4). congruence. Qed.

(** ** A run *)

Lemma reads_value E h x v : reads E h x v <-> exists_in (after_actions E h) x /\ v = value (after_actions E h) x.
Proof.
  unfold reads, has_list, exists_in, exists_item, known. destruct x as [s|r]; cbn [value].
  - split; [intros ->; auto|intros (_ & ->); auto].
  - rewrite Nat.ltb_lt. split.
    + intros (l & H & ->). split; [apply nth_error_Some; congruence|]. f_equal. symmetry. now apply nth_error_nth.
    + intros (L & ->). eexists. split; [|reflexivity]. now apply nth_error_nth'.
Qed.

(** The object that a successful run leaves. *)
Lemma run_object E h p x v :
  reads E h x v ->
  match run E (steps p) v with
  | Err e => gives E h (RunPipe p x) = Err e
  | Ok (out, als, coll) => exists y k o,
      gives E h (RunPipe p x) = Ok (Ran y k) /\
      nth_error (w_runs (after_actions E (h ++ [RunPipe p x]))) k = Some o /\
      r_coll o = map al_source (r_als o) ++ [y] /\ map al_made (r_als o) = als /\
      Forall2 (reads E (h ++ [RunPipe p x])) (r_coll o) coll /\
      reads E (h ++ [RunPipe p x]) y out /\
      (forall o', nth_error (w_runs (after_actions E h)) k <> Some o') /\
      exists t, r_coll o = x :: t /\ lists_in t = seq (length (w_lists (after_actions E h))) (length (lists_in t))
  end.
Proof.
  intros R. apply reads_value in R. destruct R as (X & ->). set (w := after_actions E h) in *.
  pose proof (hrun_spec E (steps p) x w X) as H. unfold gives.
  destruct (run E (steps p) (value w x)) as [((out, als), coll)|e].
  - destruct H as (w' & y & hals & new & HR & VY & M & C & W & F & t & T1 & T2).
    exists y, (length (w_runs w)), (mkRun hals (map al_source hals ++ [y])).
    assert (EX : exec E w (RunPipe p x) =
      (set_runs w' (w_runs w' ++ [mkRun hals (map al_source hals ++ [y])]), Ok (Ran y (length (w_runs w))))).
    { cbn [exec]. rewrite X, HR. rewrite W at 3. reflexivity. }
    fold w. rewrite EX. cbn [snd r_als r_coll]. split; [reflexivity|].
    assert (A : after_actions E (h ++ [RunPipe p x]) = set_runs w' (w_runs w' ++ [mkRun hals (map al_source hals ++ [y])])).
    { rewrite after_snoc. unfold after_one. fold w. now rewrite EX. }
    assert (WR : w_runs w' = w_runs w) by now rewrite W.
    split.
    { rewrite A. cbn [w_runs set_runs]. rewrite WR, nth_error_app2, Nat.sub_diag by lia. reflexivity. }
    split; [reflexivity|]. split; [exact M|].
    assert (RD : forall z, exists_in w' z -> reads E (h ++ [RunPipe p x]) z (value w' z)).
    { intros z Z. apply reads_value. rewrite A. split; [exact Z|]. destruct z; reflexivity. }
    split; [|split; [|split]].
    + rewrite <- C. clear -RD F. induction F as [|z l Z F IH]; [constructor|]. cbn [map]. constructor; auto.
    + rewrite <- VY. apply RD. rewrite Forall_forall in F. apply F. apply in_or_app. right. now left.
    + intros o'. rewrite (proj2 (nth_error_None _ _)) by lia. discriminate.
    + exists t. split; [exact T1|]. now rewrite T2, seq_length.
  - destruct H as (new & HR). fold w. cbn [exec]. rewrite X, HR. reflexivity.
Qed.

Theorem run_full E h p x v :
  reads E h x v ->
  match run E (steps p) v with
  | Err e => gives E h (RunPipe p x) = Err e
  | Ok (out, als, coll) => exists y k t s,
      let h' := h ++ [RunPipe p x] in
      gives E h (RunPipe p x) = Ok (Ran y k) /\ (forall xs, ~ items E h k xs) /\
      items E h' k (x :: t) /\ x :: t = s ++ [y] /\
      Forall2 (reads E h') (x :: t) coll /\ reads E h' y out /\
      NoDup (lists_in t) /\ (forall r l, In r (lists_in t) -> ~ has_list E h r l)
  end.
Proof.
  intros R. pose proof (run_object E h p x v R) as H. destruct (run E (steps p) v) as [((out, als), coll)|e]; [|exact H].
  destruct H as (y & k & o & G & N & C & _ & F & RY & NK & t & T1 & T2).
  exists y, k, t, (map al_source (r_als o)). cbn zeta. rewrite <- T1.
  split; [exact G|]. split.
  { intros xs HI. apply items_iff in HI. destruct HI as (o' & Q & _). now apply (NK o'). }
  split; [apply items_iff; eauto|]. split; [exact C|]. split; [exact F|]. split; [exact RY|].
  rewrite T2. split; [apply seq_NoDup|]. intros r l HI HL. apply in_seq in HI.
  assert (r < length (w_lists (after_actions E h))) by (apply nth_error_Some; unfold has_list in HL; congruence).
  lia.
Qed.

Lemma run_steps E ops : forall x z als coll, run E ops x = Ok (z, als, coll) ->
  length als = length ops /\ length coll = S (length ops) /\
  (forall j o, nth_error ops j = Some o -> exists a v y,
    nth_error als j = Some a /\ nth_error coll j = Some v /\ transform_op E (o_op o) v = Ok (y, a)).
Proof.
  induction ops as [|o ops IH]; intros x z als coll H; cbn [run] in H.
  - injection H as <- <- <-. split; [reflexivity|]. split; [reflexivity|]. intros [|j] o Q; discriminate.
  - destruct (transform_op E (o_op o) x) as [(y, a)|] eqn:ET; [|discriminate]. cbn [bind] in H.
    destruct (run E ops y) as [((z', als'), coll')|] eqn:ER; [|discriminate]. cbn [bind] in H.
    injection H as <- <- <-. destruct (IH _ _ _ _ ER) as (L1 & L2 & J).
    split; [cbn; congruence|]. split; [cbn; congruence|]. intros [|j] o' Q; cbn [nth_error] in *.
    + injection Q as <-. exists a, x, y. auto.
    + apply J. exact Q.
Qed.

Lemma run_null E ops x z als coll :
  ord_ok (ord_e E) -> run E ops x = Ok (z, als, coll) ->
  forallb is_null als = forallb (fun o => keeps_labels (o_op o)) ops.
Proof.
  intros HO H. revert x z als coll H. induction ops as [|o ops IH]; intros x z als coll H; cbn [run] in H.
  - now injection H as <- <- <-.
  - destruct (transform_op E (o_op o) x) as [(y, a)|] eqn:ET; [|discriminate]. cbn [bind] in H.
    destruct (run E ops y) as [((z', als'), coll')|] eqn:ER; [|discriminate]. cbn [bind] in H.
    injection H as <- <- <-. cbn [forallb]. rewrite (IH _ _ _ _ ER).
    destruct (transform_fine _ _ _ _ _ HO ET) as (-> & _). reflexivity.
Qed.

Lemma foldM_map {A B S} (f : S -> B -> res S) (g : A -> B) l : forall s,
  foldM (fun s a => f s (g a)) l s = foldM f (map g l) s.
Proof. induction l as [|a l IH]; intros s; cbn [foldM map]; [reflexivity|]. destruct (f s (g a)); cbn [bind]; auto. Qed.
Lemma forallb_map' {A B} (f : B -> bool) (g : A -> B) l : forallb f (map g l) = forallb (fun a => f (g a)) l.
Proof. induction l; cbn; congruence. Qed.
Lemma forallb_rev' {A} (f : A -> bool) l : forallb f (rev l) = forallb f l.
Proof.
  induction l as [|a l IH]; [reflexivity|]. cbn [rev]. rewrite forallb_app, IH. cbn [forallb].
  rewrite andb_true_r. apply andb_comm.
Qed.

(** What the caller sees of [hlabel]. *)
Lemma label_answers E h p c r ls f als o_als :
  has_labels E h r ls ->
  (forall a l l', is_null (al_made a) = true -> f a l = Ok l' -> l' = l) ->
  exec E (after_actions E h) c =
    (match hlabel f als r (after_actions E h) with
     | (w, Ok r) => (w, Ok (Labels r)) | (w, Err e) => (w, Err e) end) ->
  forallb (fun a => is_null (al_made a)) als = forallb (fun a => is_null (al_made a)) o_als ->
  forallb is_null (map al_made o_als) = forallb (fun o => keeps_labels (o_op o)) (steps p) ->
  answers E h p c r (foldM (fun l a => f a l) als ls).
Proof.
  intros HL HN HE Q1 Q2. set (w := after_actions E h) in *.
  assert (R : r < length (w_labels w)) by (apply nth_error_Some; unfold has_labels in HL; fold w in HL; congruence).
  assert (V : labels_of w r = ls) by (unfold labels_of; now apply nth_error_nth).
  pose proof (hlabel_spec f als HN r w R) as H. rewrite V in H. unfold answers, gives. fold w. rewrite HE.
  rewrite forallb_map' in Q2. rewrite <- Q2, <- Q1.
  destruct (foldM _ als ls) as [out|e].
  - destruct H as (new & r' & HH & N & B). exists r'. rewrite HH. cbn [snd]. split; [reflexivity|]. split.
    + unfold has_labels. rewrite after_snoc. unfold after_one. fold w. rewrite HE, HH. exact N.
    + destruct (forallb _ als); [exact B|]. intros l0 H0. unfold has_labels in H0. fold w in H0.
      assert (r' < length (w_labels w)) by (apply nth_error_Some; congruence). lia.
  - destruct H as (new & HH). now rewrite HH.
Qed.

Lemma run_of_object E h k p v out als coll :
  run_of E h k p v -> run E (steps p) v = Ok (out, als, coll) ->
  exists o h1, nth_error (w_runs (after_actions E h)) k = Some o /\ map al_made (r_als o) = als /\
    (exists y, r_coll o = map al_source (r_als o) ++ [y]) /\ Forall2 (reads E h1) (r_coll o) coll.
Proof.
  intros (h1 & x & h2 & y & -> & R & G) HR. pose proof (run_object E h1 p x v R) as H. rewrite HR in H.
  destruct H as (y' & k' & o & G' & N & C & M & F & _). rewrite G in G'. injection G' as <- <-.
  exists o, (h1 ++ [RunPipe p x]). split; [|split; [exact M|split; [eauto|exact F]]].
  change (RunPipe p x :: h2) with ([RunPipe p x] ++ h2). rewrite app_assoc. now apply runs_kept.
Qed.

Theorem forward_full E h k p v out als coll r ls :
  ord_ok (ord_e E) -> run_of E h k p v -> run E (steps p) v = Ok (out, als, coll) -> has_labels E h r ls ->
  answers E h p (Forward k r) r (align_all als ls).
Proof.
  intros HO HK HR HL. destruct (run_of_object _ _ _ _ _ _ _ _ HK HR) as (o & h1 & N & M & _).
  unfold align_all. rewrite <- M, <- (foldM_map (fun l a => align a l)).
  apply (label_answers E h p (Forward k r) r ls (fun a => align (al_made a)) (r_als o) (r_als o)); auto.
  - intros a l l'. apply align_null.
  - cbn [exec]. rewrite N. unfold known.
    assert (R : r < length (w_labels (after_actions E h))) by (apply nth_error_Some; unfold has_labels in HL; congruence).
    rewrite (proj2 (Nat.ltb_lt _ _) R), hforward_label. reflexivity.
  - rewrite M. eapply run_null; eauto.
Qed.

Definition now_step (E : env) (h : list action) : hal -> list Z -> res (list Z) :=
  fun a => back_with E (al_made a) (value (mkW (w_lists (after_actions E h)) [] []) (al_source a)).

Lemma back_now_full E h k p v out als coll r ls :
  ord_ok (ord_e E) -> run_of E h k p v -> run E (steps p) v = Ok (out, als, coll) -> has_labels E h r ls ->
  exists hals h1 y, map al_made hals = als /\ items E h k (map al_source hals ++ [y]) /\
    Forall2 (reads E h1) (map al_source hals ++ [y]) coll /\
    answers E h p (Back k r) r (foldM (fun l a => now_step E h a l) (rev hals) ls).
Proof.
  intros HO HK HR HL. destruct (run_of_object _ _ _ _ _ _ _ _ HK HR) as (o & h1 & N & M & (y & C) & F).
  exists (r_als o), h1, y. split; [exact M|]. split; [apply items_iff; eauto|]. split; [now rewrite <- C|].
  apply (label_answers E h p (Back k r) r ls (now_step E h) (rev (r_als o)) (r_als o)); auto.
  - intros a l l'. apply back_null.
  - cbn [exec]. rewrite N. unfold known.
    assert (R : r < length (w_labels (after_actions E h))) by (apply nth_error_Some; unfold has_labels in HL; congruence).
    rewrite (proj2 (Nat.ltb_lt _ _) R), (hback_label E (w_lists (after_actions E h))) by reflexivity. reflexivity.
  - apply forallb_rev'.
  - rewrite M. eapply run_null; eauto.
Qed.

Lemma value_reads E h x v : reads E h x v -> value (mkW (w_lists (after_actions E h)) [] []) x = v.
Proof. intros H. apply reads_value in H. destruct H as (_ & ->). destruct x; reflexivity. Qed.

(** The [j]-th aligner, its operator and its input. *)
Lemma run_hal E ops x out als coll hals h1 y a :
  run E ops x = Ok (out, als, coll) -> map al_made hals = als ->
  Forall2 (reads E h1) (map al_source hals ++ [y]) coll -> In a hals ->
  exists j o v z, nth_error ops j = Some o /\ nth_error coll j = Some v /\
    nth_error (map al_source hals ++ [y]) j = Some (al_source a) /\
    reads E h1 (al_source a) v /\ transform_op E (o_op o) v = Ok (z, al_made a).
Proof.
  intros HR HM HF HI. destruct (run_steps _ _ _ _ _ _ HR) as (L1 & L2 & J).
  apply In_nth_error in HI. destruct HI as (j & HJ). exists j.
  assert (JL : j < length hals) by (apply nth_error_Some; congruence).
  assert (LO : j < length ops) by (rewrite <- L1, <- HM, map_length; exact JL).
  destruct (nth_error ops j) as [o|] eqn:EO; [|apply nth_error_None in EO; lia].
  destruct (J j o EO) as (a' & v & z & Q1 & Q2 & Q3). exists o, v, z.
  assert (Q4 : nth_error (map al_source hals ++ [y]) j = Some (al_source a)).
  { rewrite nth_error_app1 by (rewrite map_length; exact JL). now rewrite (map_nth_error _ _ _ HJ). }
  rewrite <- HM, (map_nth_error _ _ _ HJ) in Q1. injection Q1 as <-.
  split; [reflexivity|]. split; [exact Q2|]. split; [exact Q4|]. split; [|exact Q3].
  clear -HF Q2 Q4. revert j Q2 Q4. induction HF as [|x' v' xs vs H F IH]; intros [|j] Q2 Q4; try discriminate.
  - cbn in Q2, Q4. injection Q2 as ->. injection Q4 as ->. exact H.
  - exact (IH j Q2 Q4).
Qed.

Lemma fold_same E hals (f : hal -> list Z -> res (list Z)) :
  (forall a, In a hals -> forall ls, f a ls = align_inverse E (al_made a) ls) -> forall ls,
  foldM (fun l a => f a l) (rev hals) ls = align_inverse_all E (map al_made hals) ls.
Proof.
  intros H ls. unfold align_inverse_all. rewrite <- map_rev, <- (foldM_map (fun l a => align_inverse E a l)).
  assert (H' : forall a, In a (rev hals) -> forall ls, f a ls = align_inverse E (al_made a) ls).
  { intros a HI. apply H. now apply in_rev. }
  clear H. revert ls. induction (rev hals) as [|a l IH]; intros ls; cbn [foldM]; [reflexivity|].
  rewrite H' by now left. destruct (align_inverse _ _ _); cbn [bind]; [|reflexivity].
  apply IH. intros b HB. apply H'. now right.
Qed.
Lemma fold_or E hals (f : hal -> list Z -> res (list Z)) :
  (forall a, In a hals -> forall ls, f a ls = align_inverse E (al_made a) ls \/ f a ls = Err ValueErr) -> forall ls,
  foldM (fun l a => f a l) (rev hals) ls = align_inverse_all E (map al_made hals) ls \/
  foldM (fun l a => f a l) (rev hals) ls = Err ValueErr.
Proof.
  intros H ls. unfold align_inverse_all. rewrite <- map_rev, <- (foldM_map (fun l a => align_inverse E a l)).
  assert (H' : forall a, In a (rev hals) -> forall ls, f a ls = align_inverse E (al_made a) ls \/ f a ls = Err ValueErr).
  { intros a HI. apply H. now apply in_rev. }
  clear H. revert ls. induction (rev hals) as [|a l IH]; intros ls; cbn [foldM]; [now left|].
  destruct (H' a (or_introl eq_refl) ls) as [-> | ->]; [|now right].
  destruct (align_inverse _ _ _); cbn [bind]; [|now left].
  apply IH. intros b HB. apply H'. now right.
Qed.

(** Nothing has changed. *)
Theorem back_unchanged E h k p v out als coll xs r ls :
  ord_ok (ord_e E) -> run_of E h k p v -> run E (steps p) v = Ok (out, als, coll) -> has_labels E h r ls ->
  items E h k xs -> Forall2 (reads E h) xs coll ->
  answers E h p (Back k r) r (align_inverse_all E als ls).
Proof.
  intros HO HK HR HL HI HF. destruct (back_now_full _ _ _ _ _ _ _ _ _ _ HO HK HR HL) as (hals & h1 & y & M & HI' & F1 & A).
  rewrite (items_unique _ _ _ _ _ HI HI') in HF. rewrite <- M. rewrite (fold_same E) in A; [exact A|].
  intros a HA l. destruct (run_hal E (steps p) v out als coll hals h y a HR M HF HA) as (j & o & v' & z & _ & _ & _ & RD & T).
  unfold now_step. rewrite (value_reads _ _ _ _ RD). eapply back_same; eauto.
Qed.

Lemma kinds E h1 h2 x v :
  reads E h1 x v -> same_kind v (value (mkW (w_lists (after_actions E h2)) [] []) x).
Proof. destruct x as [s|r]; cbn [reads]; [intros ->; reflexivity|intros (l & _ & ->); exact I]. Qed.

Lemma no_touch_pair p coll j o v : no_touch p coll -> nth_error (steps p) j = Some o -> nth_error coll j = Some v ->
  no_pair (o_op o) v.
Proof. intros H H1 H2 w u m ts EO ->. exact (H j o w u m ts H1 EO H2). Qed.

(** No list is shorter than it was. *)
Theorem back_not_shorter E h k p v out als coll xs r ls :
  ord_ok (ord_e E) -> run_of E h k p v -> run E (steps p) v = Ok (out, als, coll) -> has_labels E h r ls ->
  items E h k xs -> no_touch p coll -> none_shorter E h xs coll ->
  answers E h p (Back k r) r (align_inverse_all E als ls).
Proof.
  intros HO HK HR HL HI NT NS. destruct (back_now_full _ _ _ _ _ _ _ _ _ _ HO HK HR HL) as (hals & h1 & y & M & HI' & F1 & A).
  rewrite (items_unique _ _ _ _ _ HI HI') in NS. rewrite <- M. rewrite (fold_same E) in A; [exact A|].
  intros a HA l. destruct (run_hal E (steps p) v out als coll hals h1 y a HR M F1 HA) as (j & o & v' & z & J1 & J2 & J3 & RD & T).
  unfold now_step. destruct (back_cases E _ _ _ _ (value (mkW (w_lists (after_actions E h)) [] []) (al_source a)) l HO T
    (no_touch_pair _ _ _ _ _ NT J1 J2) (kinds _ _ _ _ _ RD)) as [Q|(Q & _)]; [exact Q|].
  exfalso. apply Q. destruct (al_source a) as [s|rr] eqn:ES; cbn [reads] in RD.
  - subst v'. exact I.
  - destruct RD as (l0 & _ & ->). cbn [value not_shorter w_lists].
    destruct (NS j rr l0 J3 J2) as (l' & N & L). unfold has_list in N. rewrite (nth_error_nth _ _ _ N). exact L.
Qed.

(** Whatever the caller does. *)
Theorem back_never_wrong E h k p v out als coll r ls :
  ord_ok (ord_e E) -> run_of E h k p v -> run E (steps p) v = Ok (out, als, coll) -> has_labels E h r ls ->
  no_touch p coll ->
  answers E h p (Back k r) r (align_inverse_all E als ls) \/ gives E h (Back k r) = Err ValueErr.
Proof.
  intros HO HK HR HL NT. destruct (back_now_full _ _ _ _ _ _ _ _ _ _ HO HK HR HL) as (hals & h1 & y & M & HI' & F1 & A).
  rewrite <- M. destruct (fold_or E hals (now_step E h)) with (ls := ls) as [Q|Q].
  - intros a HA l. destruct (run_hal E (steps p) v out als coll hals h1 y a HR M F1 HA) as (j & o & v' & z & J1 & J2 & J3 & RD & T).
    destruct (back_cases E _ _ _ _ (value (mkW (w_lists (after_actions E h)) [] []) (al_source a)) l HO T
      (no_touch_pair _ _ _ _ _ NT J1 J2) (kinds _ _ _ _ _ RD)) as [Q|(_ & Q)]; [now left|now right].
  - rewrite Q in A. now left.
  - rewrite Q in A. now right.
Qed.
