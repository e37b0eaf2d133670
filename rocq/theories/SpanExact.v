(** Exactly which spans a SpanGroup accepts, and in which order it keeps them. *)

From Verif Require Import Py PyFacts Json Elements Edit GroupObj SpecEdit SpecLabels SpecElements SpecGroup
  EditProofs SpanProofs EditApiProofs DatumProofs GroupProofs.
From Coq Require Import Sorted.

Section Unique.
Context {A : Type} (key : A -> Z).

Lemma head_least x m y : StronglySorted (fun a b => (key a <= key b)%Z) (x :: m) -> In y (x :: m) ->
  (key x <= key y)%Z.
Proof.
  intros H. apply StronglySorted_inv in H. destruct H as (_ & H). rewrite Forall_forall in H.
  intros [->|I]; [lia|now apply H].
Qed.

(** a list sorted by [key] is determined by its elements of each key, in their order *)
Lemma sorted_unique m m' :
  StronglySorted (fun a b => (key a <= key b)%Z) m -> StronglySorted (fun a b => (key a <= key b)%Z) m' ->
  (forall k, filter (fun x => (key x =? k)%Z) m = filter (fun x => (key x =? k)%Z) m') -> m = m'.
Proof.
  revert m'. induction m as [|x m IH]; intros [|y m'] S S' F.
  - reflexivity.
  - specialize (F (key y)). cbn [filter] in F. rewrite Z.eqb_refl in F. discriminate.
  - specialize (F (key x)). cbn [filter] in F. rewrite Z.eqb_refl in F. discriminate.
  - assert (IX : In x (y :: m')).
    { apply (filter_In (fun z => (key z =? key x)%Z)). rewrite <- F. apply filter_In. rewrite Z.eqb_refl.
      split; [now left|reflexivity]. }
    assert (IY : In y (x :: m)).
    { apply (filter_In (fun z => (key z =? key y)%Z)). rewrite F. apply filter_In. rewrite Z.eqb_refl.
      split; [now left|reflexivity]. }
    pose proof (head_least _ _ _ S IY). pose proof (head_least _ _ _ S' IX).
    assert (K : key y = key x) by lia.
    assert (x = y) as <-.
    { specialize (F (key x)). cbn [filter] in F. rewrite K, Z.eqb_refl in F. now injection F. }
    f_equal. apply IH.
    + now apply StronglySorted_inv in S.
    + now apply StronglySorted_inv in S'.
    + intros k. specialize (F k). cbn [filter] in F. destruct (_ =? _)%Z; [now injection F|exact F].
Qed.

Lemma stably_sorted_unique l m m' : stably_sorted key l m -> stably_sorted key l m' -> m = m'.
Proof.
  intros (_ & S & F) (_ & S' & F'). apply sorted_unique; auto. intros k. now rewrite F, F'.
Qed.
End Unique.

Notation by_end := (fun sp : span => Z.of_nat (snd sp)).

Lemma tiles_by_end g n : tiles 0 g n -> StronglySorted (fun a b => (by_end a <= by_end b)%Z) g.
Proof. intros T. apply (tiles_sorted _ _ _ T). Qed.

Theorem sdone_iff l g : Forall span_wf l ->
  (sdone l = Ok g <-> stably_sorted by_end l g /\ exists n, tiles 0 g n).
Proof.
  intros W. split.
  - intros E. split; [|now apply (sdone_ok _ _ W)].
    destruct l as [|x l]; [cbn in E; injection E as <-; apply (sort_by_stable by_end [])|].
    unfold sdone in E. inv_bind E. inv_bind E. injection E as <-. exact (sort_by_stable by_end (x :: l)).
  - intros (S & n & T).
    assert (G : sort_by by_end l = g) by (eapply stably_sorted_unique; [apply sort_by_stable|exact S]).
    assert (D : sdone g = Ok g) by (eapply sdone_tiles; exact T).
    destruct l as [|x l]; [cbn in G; subst g; reflexivity|]. unfold sdone. rewrite G.
    destruct g as [|y g].
    { destruct S as (P & _). apply Permutation_sym, Permutation_nil in P. discriminate. }
    unfold sdone in D. rewrite sort_by_id in D by (eapply tiles_by_end; exact T). exact D.
Qed.

Theorem sadd_all_iff l g : sadd_all l = Ok g <->
  Forall pair_in_range l /\ stably_sorted by_end (map as_span (filter proper_pair l)) g /\ exists n, tiles 0 g n.
Proof.
  assert (D : Forall pair_in_range l \/ ~ Forall pair_in_range l).
  { destruct (Forall_dec pair_in_range) with (l := l) as [F|F]; auto. intros [s e]. unfold pair_in_range.
    cbn [fst snd]. destruct (Z_le_dec 0 s), (Z_lt_dec s (2 ^ 32)), (Z_le_dec 0 e), (Z_lt_dec e (2 ^ 32));
      (left; lia) || (right; lia). }
  destruct D as [F|N].
  2:{ split; [|intros (F & _); contradiction]. intros E. unfold sadd_all in E.
      rewrite sadd_each_overflow in E by exact N. discriminate. }
  unfold sadd_all. rewrite sadd_each_range by exact F. cbn [bind app].
  rewrite sdone_iff; [tauto|]. rewrite Forall_map, Forall_forall. intros [s e] H.
  apply filter_In in H as [H P]. rewrite Forall_forall in F. specialize (F _ H). unfold pair_in_range in F.
  unfold proper_pair in P. apply Z.leb_le in P. unfold span_wf, as_span. cbn [fst snd] in *. lia.
Qed.

(** the contents of the object are always the added spans, reordered between equal ends not at all *)
Lemma scontents_by hs k :
  filter (fun x => (by_end x =? k)%Z) (sg_items (after_scalls hs)) = filter (fun x => (by_end x =? k)%Z) (sadded hs).
Proof.
  induction hs as [|c hs IH] using rev_ind; [reflexivity|].
  rewrite after_ssnoc, sadded_app. destruct c as [s e|]; cbn [sg_call].
  - destruct (sg_add_items (after_scalls hs) s e) as (-> & _). now rewrite !filter_app, IH.
  - cbn [sadded]. rewrite app_nil_r, <- IH. unfold sg_finish.
    destruct (sg_items (after_scalls hs)) as [|x l] eqn:E; [reflexivity|].
    destruct (sort_by_stable by_end (x :: l)) as (_ & _ & F). rewrite <- (F k).
    destruct (bind _ _); reflexivity.
Qed.

Lemma stably_same l l' g : (forall k, filter (fun x => (by_end x =? k)%Z) l = filter (fun x => (by_end x =? k)%Z) l') ->
  Permutation l l' -> stably_sorted by_end l g <-> stably_sorted by_end l' g.
Proof.
  intros F P. unfold stably_sorted. split; intros (P1 & S & F1); (split; [|split; [exact S|]]).
  - now rewrite <- P.
  - intros k. now rewrite F1.
  - now rewrite P.
  - intros k. now rewrite F1, F.
Qed.

Theorem span_done_iff hs g :
  soutcome hs SDone = None /\ sg_iter (after_scalls (hs ++ [SDone])) = Ok g <->
  stably_sorted by_end (sadded hs) g /\ exists n, tiles 0 g n.
Proof.
  rewrite <- (stably_same _ _ g (scontents_by hs) (scontents hs)), <- (sdone_iff _ g (sitems_wf hs)).
  rewrite after_ssnoc. unfold soutcome. cbn [sg_call].
  destruct (sg_finish_cases (after_scalls hs)) as (l & P & [(E & ->)|(E & ->)]); cbn [fst snd].
  - rewrite E. unfold sg_iter. cbn [sg_done sg_items]. tauto.
  - rewrite E. split; [intros (? & _); discriminate|discriminate].
Qed.

(** spans in the wrong order, with an empty one; the empty span has to come before or after the other
    spans with its end *)
Example exact_order :
  sadd_all [(2, 5); (0, 2); (2, 2)]%Z = Ok [(0, 2); (2, 2); (2, 5)]%nat /\
  sadd_all [(2, 5); (2, 2); (0, 2)]%Z = Err ValueErr /\
  stably_sorted by_end (map as_span (filter proper_pair [(2, 5); (0, 2); (2, 2)]%Z)) [(0, 2); (2, 2); (2, 5)]%nat /\
  tiles 0 [(0, 2); (2, 2); (2, 5)]%nat 5 /\
  stably_sorted by_end (sadded [SAdd 2 5; SDone; SAdd 0 2; SAdd 2 2]) [(0, 2); (2, 2); (2, 5)]%nat.
Proof.
  split; [reflexivity|]. split; [reflexivity|]. split; [|split].
  - exact (sort_by_stable by_end [(2, 5); (0, 2); (2, 2)]%nat).
  - cbn. repeat split; lia.
  - exact (sort_by_stable by_end [(2, 5); (0, 2); (2, 2)]%nat).
Qed.
