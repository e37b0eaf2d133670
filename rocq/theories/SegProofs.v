(** The edit layer on segmented sequences. *)

From Verif Require Import Py PyFacts Edit Labels SpecEdit SpecLabels SpecSeg EditProofs
  LabelProofs.
From Coq Require Import Sorted.

(** The replacement group of a segmentation that starts at position [lo]. *)
Fixpoint grp {A} (lo : nat) (sg : list (seg A)) : list (repl A) :=
  match sg with
  | [] => []
  | (o, None) :: sg => grp (lo + length o) sg
  | (o, Some v) :: sg => mkR lo (lo + length o) v :: grp (lo + length o) sg
  end.

Lemma firstn_add {B} a b (l : list B) : firstn (a + b) l = firstn a l ++ firstn b (skipn a l).
Proof.
  revert l; induction a as [|a IH]; intros l; [reflexivity|].
  destruct l as [|x l]; [cbn; now rewrite firstn_nil|]. cbn. now rewrite IH.
Qed.

Section Segs.
Context {A : Type} {EA : Eqb A}.
Implicit Types (sg : list (seg A)) (s pre : list A) (lo : nat).

Lemma olds_cons x sg : olds (x :: sg) = old_of x ++ olds sg.
Proof. reflexivity. Qed.
Lemma news_cons x sg : news (x :: sg) = new_of x ++ news sg.
Proof. reflexivity. Qed.
Lemma olds_app a b : olds (a ++ b) = olds a ++ olds (A := A) b.
Proof. unfold olds. now rewrite map_app, concat_app. Qed.
Lemma news_app a b : news (a ++ b) = news a ++ news (A := A) b.
Proof. unfold news. now rewrite map_app, concat_app. Qed.

Lemma grp_app lo a b : grp lo (a ++ b) = grp lo a ++ grp (A := A) (lo + length (olds a)) b.
Proof.
  revert lo; induction a as [|[o [v|]] a IH]; intros lo; cbn [app grp].
  - now rewrite Nat.add_0_r.
  - rewrite IH, olds_cons, app_length. cbn [old_of fst app]. now rewrite Nat.add_assoc.
  - rewrite IH, olds_cons, app_length. cbn [old_of fst]. now rewrite Nat.add_assoc.
Qed.

Lemma grp_group_in lo sg : group_in lo (lo + length (olds sg)) (grp lo sg).
Proof.
  revert lo; induction sg as [|[o [v|]] sg IH]; intros lo; cbn [grp group_in].
  - lia.
  - rewrite olds_cons, app_length, Nat.add_assoc. cbn [old_of fst r_start r_end].
    split; [lia|]. split; [lia|]. apply IH.
  - rewrite olds_cons, app_length, Nat.add_assoc. cbn [old_of fst].
    eapply group_in_weaken; [apply IH|lia].
Qed.

Lemma grp_start_ge lo sg : Forall (fun r => lo <= r_start r /\ r_start r <= r_end r) (grp lo sg).
Proof.
  revert lo; induction sg as [|[o [v|]] sg IH]; intros lo; cbn [grp].
  - constructor.
  - constructor; [cbn; lia|]. eapply Forall_impl; [|apply IH]. cbn; intros; lia.
  - eapply Forall_impl; [|apply IH]. cbn; intros; lia.
Qed.

Definition solid sg : Prop := Forall (fun x => snd x = None \/ fst x <> []) sg.

Lemma grp_strict lo sg : solid sg -> StronglySorted pos_lt (grp lo sg).
Proof.
  intros H. revert lo; induction H as [|[o [v|]] sg Hx H IH]; intros lo; cbn [grp].
  - constructor.
  - constructor; [apply IH|].
    destruct Hx as [Hx|Hx]; [discriminate|]. cbn in Hx.
    assert (0 < length o) by (destruct o; [congruence|cbn; lia]).
    eapply Forall_impl; [|apply grp_start_ge]. cbn; intros r Hr. unfold pos_lt; cbn. lia.
  - apply IH.
Qed.

Lemma rdone_grp ord sg : ord_ok ord -> solid sg -> rdone ord (grp 0 sg) = Ok (grp 0 sg).
Proof.
  intros HO HS. apply rdone_strict with (n := length (olds sg)); auto.
  - now apply grp_strict.
  - exact (grp_group_in 0 sg).
Qed.

Lemma pieces_grp sg s pre st :
  s = pre ++ olds sg -> st <= length pre ->
  concat (transform_pieces s st (grp (length pre) sg)) = skipn st pre ++ news sg.
Proof.
  revert pre st; induction sg as [|[o [v|]] sg IH]; intros pre st ES HL.
  - cbn in *. rewrite !app_nil_r in *. now subst.
  - cbn [grp transform_pieces concat r_start r_end r_new]. rewrite news_cons.
    cbn [new_of snd].
    assert (E : slice s st (length pre) = skipn st pre).
    { subst s. unfold slice. rewrite skipn_app. replace (st - length pre) with 0 by lia.
      cbn [skipn]. apply firstn_app_len. rewrite skipn_length. lia. }
    rewrite E. f_equal. f_equal.
    rewrite olds_cons in ES. cbn [old_of fst] in ES. rewrite app_assoc in ES.
    replace (length pre + length o) with (length (pre ++ o)) by apply app_length.
    rewrite (IH (pre ++ o) (length (pre ++ o)) ES) by lia.
    now rewrite skipn_all.
  - cbn [grp]. rewrite news_cons. cbn [new_of snd fst].
    rewrite olds_cons in ES. cbn [old_of fst] in ES. rewrite app_assoc in ES.
    replace (length pre + length o) with (length (pre ++ o)) by apply app_length.
    rewrite (IH (pre ++ o) st ES) by (rewrite app_length; lia).
    rewrite skipn_app. replace (st - length pre) with 0 by lia. cbn [skipn].
    now rewrite app_assoc.
Qed.

Lemma apply_grp sg : apply (olds sg) (grp 0 sg) = news sg.
Proof. unfold apply. exact (pieces_grp sg (olds sg) [] 0 eq_refl (le_n 0)). Qed.

(** ** Labels *)

Definition rule_ok (f : transducer) (h : rule) sg : Prop :=
  forall o v ls, In (o, Some v) sg -> length ls = length o ->
    f ls (length v) = Ok (h ls (length v)) /\ length (h ls (length v)) = length v.

Lemma relabel_length h f sg labels :
  rule_ok f h sg -> length labels = length (olds sg) ->
  length (relabel h sg labels) = length (news sg).
Proof.
  revert labels; induction sg as [|[o v] sg IH]; intros labels HR HL; [reflexivity|].
  cbn [relabel old_of fst snd]. rewrite news_cons, !app_length.
  rewrite olds_cons, app_length in HL. cbn [old_of fst] in HL.
  rewrite IH.
  - f_equal. destruct v as [v|]; cbn [new_of snd fst].
    + apply (HR o v); [left; reflexivity|]. rewrite firstn_length; lia.
    + rewrite firstn_length; lia.
  - intros o' v' ls HI. apply HR. right; exact HI.
  - rewrite skipn_length. lia.
Qed.

Lemma propagate_loop_gen labels (g : list (repl A)) f i o out :
  (forall r, In r g -> forall new, f (slice labels (r_start r) (r_end r)) (length (r_new r)) = Ok new
                       -> length new = length (r_new r)) ->
  group_in i (length labels) g -> o <= length out ->
  propagate_loop labels g f i o out =
  (rest <- prop_rec labels i g f ;; Ok (firstn o out ++ rest)).
Proof.
  revert i o out; induction g as [|r g IH]; intros i o out HF HG HO.
  - reflexivity.
  - cbn [group_in] in HG. destruct HG as (H1 & H2 & H3).
    pose proof (group_in_bound _ _ _ H3) as HB.
    cbn [propagate_loop prop_rec]. cbn zeta.
    destruct (f (slice labels (r_start r) (r_end r)) (length (r_new r))) as [new|e] eqn:EF;
      cbn [bind]; [|reflexivity].
    pose proof (HF r (or_introl eq_refl) new EF) as LN.
    assert (LS : length (slice labels i (r_start r)) = r_start r - i).
    { unfold slice. rewrite firstn_length, skipn_length. lia. }
    destruct (setslice_step out (slice labels i (r_start r)) o (r_start r - i) HO LS) as (S1 & S2).
    destruct (setslice_step _ new (o + (r_start r - i)) (length (r_new r)) S1 LN) as (S3 & S4).
    rewrite IH; [|intros r' Hr'; apply HF; right; exact Hr'|exact H3|exact S3].
    rewrite S4, S2. destruct (prop_rec labels (r_end r) g f); cbn [bind]; [|reflexivity].
    now rewrite <- !app_assoc.
Qed.

Lemma propagate_gen labels (g : list (repl A)) f :
  (forall r, In r g -> forall new, f (slice labels (r_start r) (r_end r)) (length (r_new r)) = Ok new
                       -> length new = length (r_new r)) ->
  group_in 0 (length labels) g -> propagate labels g f = prop_rec labels 0 g f.
Proof.
  intros HF HG. unfold propagate. rewrite propagate_loop_gen by (auto; lia).
  cbn [firstn app]. destruct (prop_rec labels 0 g f); reflexivity.
Qed.

Lemma slice_full_app (l : list Z) st lo n :
  st <= lo -> slice l st lo ++ slice l lo (lo + n) = slice l st (lo + n).
Proof.
  intros H. unfold slice. replace (lo + n - st) with ((lo - st) + n) by lia.
  rewrite firstn_add. f_equal. rewrite skipn_skipn_add.
  replace (st + (lo - st)) with lo by lia. f_equal; lia.
Qed.

Lemma prop_rec_grp f h sg labels lo st :
  rule_ok f h sg -> length labels = lo + length (olds sg) -> st <= lo ->
  prop_rec labels st (grp lo sg) f
  = Ok (slice labels st lo ++ relabel h sg (skipn lo labels)).
Proof.
  revert lo st; induction sg as [|[o [v|]] sg IH]; intros lo st HR HL HS.
  - cbn [grp prop_rec relabel olds map concat length] in *. rewrite app_nil_r. f_equal.
    unfold slice. rewrite firstn_all2; [reflexivity|]. rewrite skipn_length. lia.
  - cbn [grp prop_rec r_start r_end r_new].
    rewrite olds_cons, app_length in HL. cbn [old_of fst] in HL.
    assert (LS : length (slice labels lo (lo + length o)) = length o).
    { unfold slice. rewrite firstn_length, skipn_length. lia. }
    destruct (HR o v (slice labels lo (lo + length o)) (or_introl eq_refl) LS) as (E1 & _).
    rewrite E1. cbn [bind].
    rewrite IH; [|intros o' v' ls HI; apply HR; right; exact HI|lia|lia].
    cbn [bind relabel old_of fst snd]. f_equal. f_equal.
    assert (E0 : slice labels (lo + length o) (lo + length o) = []).
    { unfold slice. now rewrite Nat.sub_diag. }
    rewrite E0. cbn [app].
    rewrite skipn_skipn_add. unfold slice.
    replace (lo + length o - lo) with (length o) by lia. reflexivity.
  - cbn [grp].
    rewrite olds_cons, app_length in HL. cbn [old_of fst] in HL.
    rewrite IH; [|intros o' v' ls HI; apply HR; right; exact HI|lia|lia].
    cbn [relabel old_of fst snd]. f_equal.
    rewrite <- (slice_full_app labels st lo (length o)) by exact HS.
    rewrite <- app_assoc. f_equal. rewrite skipn_skipn_add. f_equal.
    unfold slice. now replace (lo + length o - lo) with (length o) by lia.
Qed.

Lemma grp_In lo sg r :
  In r (grp lo sg) -> exists o, In (o, Some (r_new r)) sg /\ r_end r = r_start r + length o.
Proof.
  revert lo; induction sg as [|[o [v|]] sg IH]; intros lo H; cbn [grp] in H.
  - destruct H.
  - destruct H as [<-|H].
    + exists o. split; [left; reflexivity|reflexivity].
    + destruct (IH _ H) as (o' & H1 & H2). exists o'. split; [right; exact H1|exact H2].
  - destruct (IH _ H) as (o' & H1 & H2). exists o'. split; [right; exact H1|exact H2].
Qed.

Lemma propagate_grp f h sg labels :
  rule_ok f h sg -> length labels = length (olds sg) ->
  propagate labels (grp 0 sg) f = Ok (relabel h sg labels).
Proof.
  intros HR HL.
  assert (HG : group_in 0 (length labels) (grp 0 sg)) by (rewrite HL; apply (grp_group_in 0 sg)).
  rewrite propagate_gen; [|intros r Hr new HN|exact HG].
  - rewrite (prop_rec_grp f h sg labels 0 0 HR) by (auto; lia). reflexivity.
  - destruct (grp_In _ _ _ Hr) as (o & HI & HE).
    pose proof (group_in_In _ _ _ _ HG Hr) as (B1 & B2 & B3).
    assert (LS : length (slice labels (r_start r) (r_end r)) = length o).
    { unfold slice. rewrite firstn_length, skipn_length. lia. }
    destruct (HR o (r_new r) _ HI LS) as (E1 & E2). rewrite E1 in HN. injection HN as <-.
    exact E2.
Qed.

(** ** Inverse *)

Lemma swap_olds sg : olds (swap sg) = news sg.
Proof.
  induction sg as [|[o [v|]] sg IH]; [reflexivity| |];
    unfold swap in *; cbn [map]; rewrite olds_cons, news_cons, IH; reflexivity.
Qed.
Lemma swap_news sg : news (swap sg) = olds sg.
Proof.
  induction sg as [|[o [v|]] sg IH]; [reflexivity| |];
    unfold swap in *; cbn [map]; rewrite olds_cons, news_cons, IH; reflexivity.
Qed.
Lemma swap_swap sg : swap (swap sg) = sg.
Proof.
  unfold swap. rewrite map_map. rewrite <- (map_id sg) at 2. apply map_ext.
  intros [o [v|]]; reflexivity.
Qed.

Lemma inv_rec_grp sg s pre lo olo :
  s = pre ++ olds sg -> lo <= length pre ->
  inv_rec s lo olo (grp (length pre) sg) = grp (olo + (length pre - lo)) (swap sg).
Proof.
  revert pre lo olo; induction sg as [|[o [v|]] sg IH]; intros pre lo olo ES HL.
  - reflexivity.
  - cbn [grp inv_rec r_start r_end r_new swap map swap1 snd fst]. cbn zeta.
    rewrite olds_cons in ES. cbn [old_of fst] in ES.
    assert (E : slice s (length pre) (length pre + length o) = o).
    { subst s. unfold slice. rewrite skipn_app_exact.
      replace (length pre + length o - length pre) with (length o) by lia.
      apply firstn_app_exact. }
    rewrite E. f_equal.
    rewrite app_assoc in ES.
    replace (length pre + length o) with (length (pre ++ o)) by apply app_length.
    rewrite (IH (pre ++ o) (length (pre ++ o)) _ ES) by lia.
    rewrite Nat.sub_diag, Nat.add_0_r. reflexivity.
  - cbn [grp swap map swap1 snd fst].
    rewrite olds_cons in ES. cbn [old_of fst] in ES. rewrite app_assoc in ES.
    replace (length pre + length o) with (length (pre ++ o)) by apply app_length.
    rewrite (IH (pre ++ o) lo olo ES) by (rewrite app_length; lia).
    rewrite app_length. unfold swap. f_equal. lia.
Qed.

Lemma inv_list_grp sg : inv_list (olds sg) (grp 0 sg) = grp 0 (swap sg).
Proof.
  rewrite inv_list_rec. exact (inv_rec_grp sg (olds sg) [] 0 0 eq_refl (le_n 0)).
Qed.

Lemma inverse_grp ord sg :
  ord_ok ord -> no_touching_deletions (grp 0 sg) ->
  inverse ord (olds sg) (grp 0 sg) = Ok (grp 0 (swap sg)).
Proof.
  intros HO HN. rewrite inverse_strict; auto.
  - now rewrite inv_list_grp.
  - exact (grp_group_in 0 sg).
Qed.

Lemma no_touching_nonempty (g : list (repl A)) :
  Forall (fun r => r_new r <> []) g -> no_touching_deletions g.
Proof.
  induction 1 as [|r g HN H IH]; [exact I|]. destruct g as [|r' g]; [exact I|].
  split; [|exact IH]. intros (E & _). congruence.
Qed.

Lemma grp_no_touching lo sg :
  (forall o, ~ In (o, Some []) sg) -> no_touching_deletions (grp lo sg).
Proof.
  intros H. apply no_touching_nonempty. rewrite Forall_forall. intros r Hr E.
  destruct (grp_In _ _ _ Hr) as (o & HI & _). rewrite E in HI. exact (H o HI).
Qed.

Lemma inverse_propagate_grp ord f h sg labels :
  ord_ok ord -> no_touching_deletions (grp 0 sg) -> rule_ok f h (swap sg) ->
  length labels = length (news sg) ->
  (x <- inverse ord (olds sg) (grp 0 sg) ;; propagate labels x f) = Ok (relabel h (swap sg) labels).
Proof.
  intros HO HN HR HL. rewrite inverse_grp by assumption. cbn [bind].
  apply propagate_grp; [exact HR|]. now rewrite swap_olds.
Qed.
End Segs.

(** ** The rules against the transducers *)

Lemma mode_first_mode l : l <> [] -> first_mode (mode l) l.
Proof.
  intros N. destruct (get_most_common_spec l 1 N) as (x & _ & M).
  enough (mode l = x) as -> by exact M.
  destruct M as (l1 & l2 & E & H1 & H2). unfold mode.
  assert (EF : filter (fun z => forallb (fun y => occ y l <=? occ z l) l) l =
               filter (fun z => forallb (fun y => occ y l <=? occ z l) l) (l1 ++ x :: l2))
    by (now rewrite <- E).
  rewrite EF, filter_app.
  assert (E1 : filter (fun z => forallb (fun y => occ y l <=? occ z l) l) l1 = []).
  { clear E EF. induction l1 as [|z l1 IH]; [reflexivity|]. cbn [filter].
    destruct (forallb (fun y => occ y l <=? occ z l) l) eqn:EB.
    - exfalso. rewrite forallb_forall in EB.
      assert (HX : In x l).
      { apply occ_pos. specialize (H2 z (or_introl eq_refl)). lia. }
      apply EB in HX. apply Nat.leb_le in HX. specialize (H2 z (or_introl eq_refl)). lia.
    - apply IH. intros y Hy. apply H2. right; exact Hy. }
  rewrite E1. cbn [app filter].
  replace (forallb (fun y => occ y l <=? occ x l) l) with true; [reflexivity|].
  symmetry. apply forallb_forall. intros y _. apply Nat.leb_le, H1.
Qed.

Lemma most_common_by_mode ls k : ls <> [] -> get_most_common ls k = Ok (by_mode ls k).
Proof.
  intros N. destruct (get_most_common_spec ls k N) as (x & E & M). rewrite E.
  unfold by_mode. do 2 f_equal. apply (first_mode_unique _ _ _ M), mode_first_mode, N.
Qed.

Lemma except_by_entity_mode ls k :
  get_most_common_except_not_entity ls k = Ok (by_entity_mode ls k).
Proof.
  unfold get_most_common_except_not_entity, by_entity_mode, NOT_ENTITY.
  destruct (filter (fun l => negb (l =? 0)%Z) ls) as [|x m] eqn:E.
  - reflexivity.
  - apply most_common_by_mode. discriminate.
Qed.

Lemma mode_repeat x n : 0 < n -> mode (repeat x n) = x.
Proof.
  intros H. assert (N : repeat x n <> []) by (destruct n; [lia|discriminate]).
  apply (first_mode_unique _ _ (repeat x n)).
  - now apply mode_first_mode.
  - apply first_mode_const; auto. intros y Hy. now apply repeat_spec in Hy.
Qed.

Lemma by_mode_repeat x n k : 0 < n -> by_mode (repeat x n) k = repeat x k.
Proof. intros H. unfold by_mode. now rewrite mode_repeat. Qed.

Lemma by_entity_mode_repeat x n k : 0 < n -> by_entity_mode (repeat x n) k = repeat x k.
Proof.
  intros H. pose proof (except_by_entity_mode (repeat x n) k) as E.
  rewrite except_repeat in E by exact H. injection E as E. now symmetry.
Qed.

(** Conditions on the pieces under which each transducer follows its rule. *)
Definition nonempty_olds {A} (sg : list (seg A)) : Prop := forall o v, In (o, Some v) sg -> o <> [].
Definition nonempty_news {A} (sg : list (seg A)) : Prop := forall o v, In (o, Some v) sg -> v <> [].

Lemma nonempty_solid {A} (sg : list (seg A)) : nonempty_olds sg -> solid sg.
Proof.
  intros H. unfold solid. rewrite Forall_forall. intros [o [v|]] HI; [|left; reflexivity].
  right. apply (H o v HI).
Qed.

Lemma nonempty_swap {A} (sg : list (seg A)) : nonempty_news sg -> nonempty_olds (swap sg).
Proof.
  intros H o v HI. unfold swap in HI. apply in_map_iff in HI.
  destruct HI as ([o' [v'|]] & E & HI); cbn in E; [|discriminate].
  injection E as -> ->. apply (H v o HI).
Qed.

Lemma nonempty_no_touching {A} `{Eqb A} (sg : list (seg A)) lo :
  nonempty_news sg -> no_touching_deletions (grp lo sg).
Proof. intros HN. apply grp_no_touching. intros o HI. apply (HN o [] HI). reflexivity. Qed.

Lemma rule_most_common {A} (sg : list (seg A)) :
  nonempty_olds sg -> rule_ok get_most_common by_mode sg.
Proof.
  intros H o v ls HI HL. split; [|apply repeat_length].
  apply most_common_by_mode. intros ->. apply (H o v HI). destruct o; [reflexivity|discriminate].
Qed.

Lemma rule_except {A} (sg : list (seg A)) :
  rule_ok get_most_common_except_not_entity by_entity_mode sg.
Proof. intros o v ls HI HL. split; [apply except_by_entity_mode|apply repeat_length]. Qed.

Lemma rule_zero {A} (sg : list (seg A)) : rule_ok get_not_entity by_zero sg.
Proof. intros o v ls HI HL. split; [reflexivity|apply repeat_length]. Qed.
