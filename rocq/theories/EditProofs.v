(** Proofs about the edit layer. *)

From Verif Require Import Py PyFacts Edit SpecEdit.

Section Edit.
Context {A : Type} {EA : Eqb A}.
Implicit Types (g h : list (repl A)) (s : list A) (r : repl A).

(** ** apply *)

Lemma group_in_weaken lo lo' n g : group_in lo n g -> lo' <= lo -> group_in lo' n g.
Proof. destruct g as [|r g]; cbn; intros; [lia|]. destruct H as (H1 & H2 & H3). repeat split; auto; lia. Qed.

Lemma group_in_bound lo n g : group_in lo n g -> lo <= n.
Proof.
  revert lo; induction g as [|r g IH]; cbn; intros lo H; [exact H|].
  destruct H as (H1 & H2 & H3). apply IH in H3. lia.
Qed.

Lemma splice_all_prefix g s lo :
  group_in lo (length s) g -> firstn lo (splice_all s g) = firstn lo s.
Proof.
  revert lo; induction g as [|r g IH]; intros lo H; [reflexivity|].
  cbn [group_in] in H. destruct H as (H1 & H2 & H3).
  cbn [splice_all fold_right]. fold (splice_all s g).
  pose proof (group_in_bound _ _ _ H3) as HB.
  assert (E : firstn (r_end r) (splice_all s g) = firstn (r_end r) s) by (apply IH; exact H3).
  assert (E2 : firstn (r_start r) (splice_all s g) = firstn (r_start r) s).
  { pose proof (f_equal (firstn (r_start r)) E) as E'.
    rewrite !firstn_firstn in E'. replace (Nat.min (r_start r) (r_end r)) with (r_start r) in E' by lia.
    exact E'. }
  unfold splice1. rewrite E2.
  rewrite firstn_app, firstn_firstn.
  replace (Nat.min lo (r_start r)) with lo by lia.
  rewrite firstn_length. replace (lo - Nat.min (r_start r) (length s)) with 0 by lia.
  cbn; apply app_nil_r.
Qed.

Lemma apply_from_splice g s lo :
  group_in lo (length s) g ->
  firstn lo s ++ concat (transform_pieces s lo g) = splice_all s g.
Proof.
  revert lo; induction g as [|r g IH]; intros lo H.
  - cbn. rewrite app_nil_r. apply firstn_skipn.
  - cbn [group_in] in H. destruct H as (H1 & H2 & H3).
    pose proof (group_in_bound _ _ _ H3) as HB.
    cbn [transform_pieces concat splice_all fold_right].
    fold (splice_all s g). unfold splice1.
    pose proof (splice_all_prefix g s (r_end r) H3) as P.
    assert (E2 : firstn (r_start r) (splice_all s g) = firstn (r_start r) s).
    { pose proof (f_equal (firstn (r_start r)) P) as E'.
      rewrite !firstn_firstn in E'.
      replace (Nat.min (r_start r) (r_end r)) with (r_start r) in E' by lia. exact E'. }
    rewrite E2. rewrite app_assoc.
    replace (firstn lo s ++ slice s lo (r_start r)) with (firstn (r_start r) s).
    2:{ rewrite <- (slice_0 s lo), slice_app by lia. now rewrite slice_0. }
    f_equal. f_equal.
    rewrite <- (IH (r_end r) H3).
    rewrite skipn_app_len; [reflexivity|]. rewrite firstn_length; lia.
Qed.

Lemma apply_splice g s :
  group_in 0 (length s) g -> apply s g = splice_all s g.
Proof. intros H. unfold apply. now rewrite <- (apply_from_splice g s 0 H). Qed.

(** ** done *)

Lemma pos_le_lex (l : list (repl A)) :
  StronglySorted pos_le (sort_replacements l).
Proof.
  unfold sort_replacements.
  pose proof (sort_by_lex (fun e => Z.of_nat (r_start e)) _ _
                (sort_by_sorted (fun e => Z.of_nat (r_end e)) l)) as H.
  induction H as [|x l' H IH HF]; constructor; auto.
  rewrite Forall_forall in *. intros z Hz; specialize (HF z Hz).
  unfold lex in HF; unfold pos_le; lia.
Qed.

Lemma sort_replacements_perm l : Permutation (sort_replacements (A := A) l) l.
Proof. unfold sort_replacements. now rewrite !sort_by_perm. Qed.

Lemma disjoint_from_group_in cur g n :
  Forall well_formed g ->
  disjoint_from r_start r_end cur g = true ->
  (forall r, In r g -> r_end r <= n) -> cur <= n ->
  group_in cur n g.
Proof.
  revert cur; induction g as [|r g IH]; intros cur HW HD HN HC; cbn in *; [exact HC|].
  destruct (Nat.ltb_spec (r_start r) cur) as [L|L]; [discriminate|].
  inversion HW; subst. repeat split; auto.
Qed.

Lemma group_in_disjoint_from lo n g :
  group_in lo n g -> disjoint_from r_start r_end lo g = true.
Proof.
  revert lo; induction g as [|r g IH]; intros lo H; cbn in *; [reflexivity|].
  destruct H as (H1 & H2 & H3).
  destruct (Nat.ltb_spec (r_start r) lo) as [L|L]; [lia|]. now apply IH.
Qed.

Lemma group_in_In lo n g r :
  group_in lo n g -> In r g -> lo <= r_start r /\ r_start r <= r_end r /\ r_end r <= n.
Proof.
  revert lo; induction g as [|r' g IH]; intros lo H HI; cbn in *; [destruct HI|].
  destruct H as (H1 & H2 & H3). pose proof (group_in_bound _ _ _ H3).
  destruct HI as [->|HI]; [lia|]. specialize (IH _ H3 HI). lia.
Qed.

(** Sorted + pairwise non-overlapping = accepted. *)
Lemma sorted_pairwise_disjoint_from r g :
  well_formed r -> Forall well_formed g ->
  StronglySorted pos_le (r :: g) ->
  (forall a b, In a (r :: g) -> In b (r :: g) -> a <> b -> non_overlapping a b) ->
  NoDup (r :: g) ->
  disjoint_from r_start r_end (r_end r) g = true.
Proof.
  revert r; induction g as [|x g IH]; intros r W HW HS HD HN; cbn; [reflexivity|].
  apply StronglySorted_inv in HS; destruct HS as (HS & HF).
  inversion HF as [|? ? Hrx HF']; subst. inversion HW as [|? ? Wx HW']; subst.
  inversion HN as [|? ? N1 N2]; subst.
  destruct (Nat.ltb_spec (r_start x) (r_end r)) as [L|L].
  - exfalso. assert (r <> x) as Nrx by (intros ->; apply N1; left; auto).
    destruct (HD r x) as [D|D]; cbn; auto; unfold pos_le, well_formed in *; lia.
  - apply IH; auto. intros a b Ha Hb; apply HD; right; auto.
Qed.

Lemma disjoint_from_pairwise cur g :
  Forall well_formed g -> disjoint_from r_start r_end cur g = true ->
  (forall r, In r g -> cur <= r_start r) /\
  (forall a b, In a g -> In b g -> a <> b -> non_overlapping a b).
Proof.
  revert cur; induction g as [|x g IH]; intros cur HW HD; cbn in *.
  - split; intros; tauto.
  - destruct (Nat.ltb_spec (r_start x) cur) as [L|L]; [discriminate|].
    inversion HW as [|? ? Wx HW']; subst. unfold well_formed in Wx.
    destruct (IH _ HW' HD) as (I1 & I2). split.
    + intros r [<-|Hr]; [exact L|]. specialize (I1 r Hr); lia.
    + intros a b [<-|Ha] [<-|Hb] N; [congruence| | |auto].
      * left; apply I1, Hb.
      * right; apply I1, Ha.
Qed.


Lemma rdone_eq ord (l : list (repl A)) :
  rdone ord l =
  match sort_replacements (ord (dedup l)) with
  | [] => Ok []
  | r :: g => if disjoint_from r_start r_end (r_end r) g then Ok (r :: g) else Err ValueErr
  end.
Proof.
  unfold rdone. destruct (ord (dedup l)) as [|x l1] eqn:E; [reflexivity|].
  unfold validate_disjoint.
  destruct (sort_replacements (x :: l1)) as [|r g] eqn:E2.
  - exfalso. pose proof (sort_replacements_perm (x :: l1)) as P. rewrite E2 in P.
    apply Permutation_nil in P; discriminate.
  - cbn. destruct (disjoint_from r_start r_end (r_end r) g); reflexivity.
Qed.

Lemma rdone_cases ord l :
  ord_ok ord -> Forall well_formed l ->
  (rdone ord l = Ok (sort_replacements (ord (dedup l))) /\ pairwise_ok l) \/
  (rdone ord l = Err ValueErr /\ ~ pairwise_ok l).
Proof.
  intros HO HW. rewrite rdone_eq.
  set (l1 := ord (dedup l)).
  assert (P1 : Permutation l1 (dedup l)) by apply HO.
  set (l2 := sort_replacements l1).
  assert (P2 : Permutation l2 l1) by apply sort_replacements_perm.
  assert (I2 : forall x, In x l2 <-> In x l).
  { intros x. rewrite <- (in_dedup x l). rewrite P1 in P2.
    split; apply Permutation_in; [exact P2|symmetry; exact P2]. }
  assert (N2 : NoDup l2).
  { eapply Permutation_NoDup; [symmetry; exact P2|].
    eapply Permutation_NoDup; [symmetry; exact P1|]. apply NoDup_dedup. }
  assert (S2 : StronglySorted pos_le l2) by apply pos_le_lex.
  assert (W2 : Forall well_formed l2).
  { rewrite Forall_forall in *. intros x Hx; apply HW, I2, Hx. }
  clearbody l2. clear P1 P2. destruct l2 as [|r g].
  - left; split; auto. intros a b Ha. apply I2 in Ha. destruct Ha.
  - inversion W2 as [|? ? Wr Wg]; subst.
    destruct (disjoint_from r_start r_end (r_end r) g) eqn:ED.
    + left; split; auto. intros a b Ha Hb N. apply I2 in Ha, Hb.
      destruct (disjoint_from_pairwise (r_end r) g Wg ED) as (Q1 & Q2).
      destruct Ha as [<-|Ha], Hb as [<-|Hb]; [congruence| | |auto].
      * left; apply Q1, Hb.
      * right; apply Q1, Ha.
    + right; split; auto. intros HP.
      rewrite sorted_pairwise_disjoint_from in ED; auto; [discriminate|].
      intros a b Ha Hb; apply HP; now apply I2.
Qed.

Lemma rdone_ok ord l g :
  ord_ok ord -> Forall well_formed l -> rdone ord l = Ok g ->
  NoDup g /\ (forall r, In r g <-> In r l) /\ StronglySorted pos_le g /\
  pairwise_ok l /\ (forall n, (forall r, In r l -> r_end r <= n) -> group_in 0 n g).
Proof.
  intros HO HW HG.
  destruct (rdone_cases ord l HO HW) as [(E & HP)|(E & _)]; [|congruence].
  assert (g = sort_replacements (ord (dedup l))) as -> by congruence.
  set (l1 := ord (dedup l)) in *.
  assert (P1 : Permutation l1 (dedup l)) by apply HO.
  set (l2 := sort_replacements l1) in *.
  assert (P2 : Permutation l2 l1) by apply sort_replacements_perm.
  assert (I2 : forall x, In x l2 <-> In x l).
  { intros x. rewrite <- (in_dedup x l). rewrite P1 in P2.
    split; apply Permutation_in; [exact P2|symmetry; exact P2]. }
  repeat split; auto.
  - eapply Permutation_NoDup; [symmetry; exact P2|].
    eapply Permutation_NoDup; [symmetry; exact P1|]. apply NoDup_dedup.
  - apply I2.
  - apply I2.
  - apply pos_le_lex.
  - intros n Hn. rewrite rdone_eq in HG. fold l1 l2 in HG.
    assert (W2 : Forall well_formed l2).
    { rewrite Forall_forall in *. intros x Hx; apply HW, I2, Hx. }
    destruct l2 as [|r g]; [cbn; lia|].
    destruct (disjoint_from r_start r_end (r_end r) g) eqn:ED; [|discriminate].
    inversion W2 as [|? ? Wr Wg]; subst.
    cbn. repeat split; [lia|exact Wr|].
    apply disjoint_from_group_in; auto.
    + intros x Hx; apply Hn, I2; right; exact Hx.
    + apply Hn, I2; left; reflexivity.
Qed.

(** Strictly increasing lists are fixed points of [done], for every set order. *)
Lemma pos_le_antisym_pos (a b : repl A) :
  pos_le a b -> pos_le b a -> r_start a = r_start b /\ r_end a = r_end b.
Proof. unfold pos_le; lia. Qed.

Lemma StronglySorted_lt_NoDup l : StronglySorted (pos_lt (A := A)) l -> NoDup l.
Proof.
  induction 1 as [|x l H IH HF]; constructor; auto.
  intros HI. rewrite Forall_forall in HF. specialize (HF x HI). unfold pos_lt in HF; lia.
Qed.

Lemma StronglySorted_lt_le l : StronglySorted (pos_lt (A := A)) l -> StronglySorted pos_le l.
Proof.
  induction 1 as [|x l H IH HF]; constructor; auto.
  rewrite Forall_forall in *. intros z Hz; specialize (HF z Hz). unfold pos_lt, pos_le in *; lia.
Qed.

(** No two different replacements with the same interval. *)

Lemma lt_distinct l : StronglySorted (pos_lt (A := A)) l -> distinct_positions l.
Proof.
  induction 1 as [|x l H IH HF]; intros a b Ha Hb E1 E2; [destruct Ha|].
  rewrite Forall_forall in HF.
  destruct Ha as [<-|Ha], Hb as [<-|Hb]; auto.
  - specialize (HF b Hb); unfold pos_lt in HF; lia.
  - specialize (HF a Ha); unfold pos_lt in HF; lia.
Qed.

Lemma rdone_order_irrelevant ord1 ord2 l1 l2 :
  ord_ok ord1 -> ord_ok ord2 -> (forall r, In r l1 <-> In r l2) -> distinct_positions l1 ->
  rdone ord1 l1 = rdone ord2 l2.
Proof.
  intros O1 O2 HI HD. rewrite !rdone_eq.
  assert (E : sort_replacements (ord1 (dedup l1)) = sort_replacements (ord2 (dedup l2))).
  { assert (P1 : Permutation (sort_replacements (ord1 (dedup l1))) (dedup l1))
      by (rewrite sort_replacements_perm; apply O1).
    assert (P2 : Permutation (sort_replacements (ord2 (dedup l2))) (dedup l2))
      by (rewrite sort_replacements_perm; apply O2).
    apply sorted_perm_unique with (R := pos_le).
    - intros x y Hx Hy L1 L2. destruct (pos_le_antisym_pos _ _ L1 L2).
      apply HD; auto; apply in_dedup; eapply Permutation_in; eauto.
    - apply pos_le_lex.
    - apply pos_le_lex.
    - rewrite P1, P2. apply NoDup_Permutation; try apply NoDup_dedup.
      intros x; rewrite !in_dedup; apply HI. }
  now rewrite E.
Qed.

Lemma rdone_strict ord l n :
  ord_ok ord -> StronglySorted pos_lt l -> group_in 0 n l -> rdone ord l = Ok l.
Proof.
  intros HO HS HG. rewrite rdone_eq.
  rewrite dedup_id by now apply StronglySorted_lt_NoDup.
  assert (E : sort_replacements (ord l) = l).
  { apply sorted_perm_unique with (R := pos_le).
    - intros x y Hx Hy L1 L2. destruct (pos_le_antisym_pos _ _ L1 L2).
      assert (P : Permutation (sort_replacements (ord l)) l)
        by (rewrite sort_replacements_perm; apply HO).
      apply (lt_distinct l HS); auto; eapply Permutation_in; eauto.
    - apply pos_le_lex.
    - now apply StronglySorted_lt_le.
    - rewrite sort_replacements_perm; apply HO. }
  rewrite E. destruct l as [|r g]; [reflexivity|].
  cbn in HG. destruct HG as (_ & _ & HG). now rewrite (group_in_disjoint_from _ _ _ HG).
Qed.

(** ** inverse *)

(** The list of inverse replacements, before [done]. *)
Fixpoint inv_from (s : list A) (start : nat) (g : list (repl A)) : list (repl A) :=
  match g with
  | [] => []
  | r :: g =>
      mkR start (start + length (r_new r)) (slice s (r_start r) (r_end r)) ::
      match g with
      | [] => []
      | r' :: _ => inv_from s (start + length (r_new r) + (r_start r' - r_end r)) g
      end
  end.

Lemma inverse_loop_inv_from s start g r d acc :
  inverse_loop s start (r :: g) (dists_from r g ++ [d]) acc = acc ++ inv_from s start (r :: g).
Proof.
  revert r start acc; induction g as [|r' g IH]; intros r start acc.
  - cbn. unfold radd. destruct (Nat.ltb_spec (start + length (r_new r)) start); [lia|].
    reflexivity.
  - cbn [dists_from app inverse_loop].
    unfold radd. destruct (Nat.ltb_spec (start + length (r_new r)) start); [lia|].
    change (inverse_loop s (start + (length (r_new r) + (r_start r' - r_end r))) (r' :: g)
             (dists_from r' g ++ [d])
             (acc ++ [mkR start (start + length (r_new r)) (slice s (r_start r) (r_end r))])
            = acc ++ inv_from s start (r :: r' :: g)).
    rewrite IH. cbn [inv_from]. rewrite <- app_assoc. cbn [app].
    rewrite Nat.add_assoc. reflexivity.
Qed.

Definition inv_list (s : list A) (g : list (repl A)) : list (repl A) :=
  match g with [] => [] | r :: _ => inv_from s (r_start r) g end.

Lemma gen_inverse_inv_list ord s g : gen_inverse ord s g = rdone ord (inv_list s g).
Proof.
  destruct g as [|r g]; [reflexivity|]. unfold gen_inverse, get_dists, inv_list.
  now rewrite inverse_loop_inv_from.
Qed.

Lemma inv_from_length s start g : length (inv_from s start g) = length g.
Proof.
  revert start; induction g as [|r g IH]; intros start; [reflexivity|].
  cbn. f_equal. destruct g as [|r' g]; [reflexivity|]. apply IH.
Qed.

Lemma inv_list_length s g : length (inv_list s g) = length g.
Proof. destruct g; [reflexivity|]. apply inv_from_length. Qed.

(** Output positions.  [outpos lo olo r] is where the replacement [r] starts in the output
    when input position [lo] corresponds to output position [olo]. *)
Fixpoint inv_rec (s : list A) (lo olo : nat) (g : list (repl A)) : list (repl A) :=
  match g with
  | [] => []
  | r :: g =>
      let st := olo + (r_start r - lo) in
      mkR st (st + length (r_new r)) (slice s (r_start r) (r_end r)) ::
      inv_rec s (r_end r) (st + length (r_new r)) g
  end.

Lemma inv_from_rec s g r start lo olo :
  start = olo + (r_start r - lo) -> inv_from s start (r :: g) = inv_rec s lo olo (r :: g).
Proof.
  revert r start lo olo; induction g as [|r' g IH]; intros r start lo olo E.
  - cbn. now subst.
  - cbn [inv_rec]. cbn zeta. rewrite <- E. cbn [inv_from].
    f_equal. 
    change (inv_from s (start + length (r_new r) + (r_start r' - r_end r)) (r' :: g)
      = inv_rec s (r_end r) (start + length (r_new r)) (r' :: g)).
    apply IH. reflexivity.
Qed.

Lemma inv_list_rec s g : inv_list s g = inv_rec s 0 0 g.
Proof.
  destruct g as [|r g]; [reflexivity|]. unfold inv_list.
  apply inv_from_rec. lia.
Qed.

(** Length of the edited sequence from [lo] on. *)
Fixpoint out_len (n lo : nat) (g : list (repl A)) : nat :=
  match g with
  | [] => n - lo
  | r :: g => (r_start r - lo) + length (r_new r) + out_len n (r_end r) g
  end.

Lemma transform_length s lo g :
  group_in lo (length s) g ->
  length (concat (transform_pieces s lo g)) = out_len (length s) lo g.
Proof.
  revert lo; induction g as [|r g IH]; intros lo H.
  - cbn. rewrite app_nil_r. apply skipn_length.
  - cbn [group_in] in H. destruct H as (H1 & H2 & H3).
    pose proof (group_in_bound _ _ _ H3) as HB.
    cbn [transform_pieces concat out_len].
    rewrite !app_length, IH, slice_length by (auto; lia). lia.
Qed.

Lemma inv_rec_group_in s g lo olo n :
  group_in lo n g -> group_in olo (olo + out_len n lo g) (inv_rec s lo olo g).
Proof.
  revert lo olo; induction g as [|r g IH]; intros lo olo H.
  - cbn. lia.
  - cbn [group_in] in H. destruct H as (H1 & H2 & H3).
    cbn [inv_rec group_in r_start r_end out_len]. cbn zeta.
    repeat split; try lia.
    specialize (IH (r_end r) (olo + (r_start r - lo) + length (r_new r)) H3).
    replace (olo + (r_start r - lo + length (r_new r) + out_len n (r_end r) g))
      with (olo + (r_start r - lo) + length (r_new r) + out_len n (r_end r) g) by lia.
    exact IH.
Qed.

Lemma inv_rec_start_ge s g lo olo n :
  group_in lo n g -> Forall (fun r => olo <= r_start r /\ r_start r <= r_end r) (inv_rec s lo olo g).
Proof.
  intros H. pose proof (inv_rec_group_in s g lo olo n H) as HG.
  rewrite Forall_forall. intros r Hr. pose proof (group_in_In _ _ _ _ HG Hr). lia.
Qed.

Lemma inv_rec_strict s g lo olo n :
  group_in lo n g -> no_touching_deletions g -> StronglySorted pos_lt (inv_rec s lo olo g).
Proof.
  revert lo olo; induction g as [|r g IH]; intros lo olo H HN; [constructor|].
  cbn [group_in] in H. destruct H as (H1 & H2 & H3).
  cbn [inv_rec]. cbn zeta.
  assert (HN' : no_touching_deletions g) by (destruct g; [exact I|apply HN]).
  constructor; [apply IH; auto|].
  destruct g as [|r' g]; [constructor|].
  cbn [no_touching_deletions] in HN. destruct HN as (N1 & _).
  cbn [group_in] in H3. destruct H3 as (G1 & G2 & G3).
  cbn [inv_rec]. cbn zeta.
  set (p := olo + (r_start r - lo)).
  set (q := p + length (r_new r)).
  set (p' := q + (r_start r' - r_end r)).
  set (q' := p' + length (r_new r')).
  assert (L : p < p' \/ (p = p' /\ p < q' /\ q = p)).
  { subst q' p' q.
    destruct (r_new r) as [|x nr] eqn:En; cbn [length]; [|left; lia].
    destruct (Nat.eq_dec (r_end r) (r_start r')) as [E|E]; [|left; lia].
    destruct (r_new r') as [|x' nr'] eqn:En'; [exfalso; apply N1; auto|].
    right; cbn [length]; lia. }
  constructor.
  - unfold pos_lt; cbn [r_start r_end]. lia.
  - pose proof (inv_rec_start_ge s g (r_end r') q' n G3) as HF.
    rewrite Forall_forall in *. intros z Hz. specialize (HF z Hz).
    unfold pos_lt; cbn [r_start r_end]. lia.
Qed.

(** Applying the raw inverse list to the edited sequence restores the input. *)
Lemma inv_rec_apply g s lo olo pre :
  group_in lo (length s) g -> length pre = olo ->
  concat (transform_pieces (pre ++ concat (transform_pieces s lo g)) olo (inv_rec s lo olo g))
  = skipn lo s.
Proof.
  revert lo olo pre; induction g as [|r g IH]; intros lo olo pre H HL.
  - cbn. rewrite !app_nil_r. now apply skipn_app_len.
  - cbn [group_in] in H. destruct H as (H1 & H2 & H3).
    pose proof (group_in_bound _ _ _ H3) as HB.
    cbn [inv_rec]. cbn zeta. cbn [transform_pieces r_start r_end r_new concat].
    set (st := olo + (r_start r - lo)).
    set (body := concat (transform_pieces s (r_end r) g)).
    assert (LS : length (slice s lo (r_start r)) = r_start r - lo) by (apply slice_length; lia).
    assert (E1 : slice (pre ++ slice s lo (r_start r) ++ r_new r ++ body) olo st
                 = slice s lo (r_start r)).
    { unfold slice at 1. rewrite skipn_app_len by exact HL. unfold st.
      replace (olo + (r_start r - lo) - olo) with (r_start r - lo) by lia.
      now apply firstn_app_len. }
    rewrite E1.
    replace (pre ++ slice s lo (r_start r) ++ r_new r ++ body)
      with ((pre ++ slice s lo (r_start r) ++ r_new r) ++ body)
      by now rewrite <- !app_assoc.
    unfold body at 1. rewrite IH; auto.
    2:{ rewrite !app_length. unfold st. lia. }
    rewrite slice_skipn by lia. rewrite slice_skipn by lia. reflexivity.
Qed.

Lemma inv_list_group_in s g :
  group_in 0 (length s) g -> group_in 0 (length (apply s g)) (inv_list s g).
Proof.
  intros H. rewrite inv_list_rec. unfold apply. rewrite transform_length by exact H.
  apply (inv_rec_group_in s g 0 0 (length s) H).
Qed.

Lemma inverse_strict ord s g :
  ord_ok ord -> group_in 0 (length s) g -> no_touching_deletions g ->
  inverse ord s g = Ok (inv_list s g).
Proof.
  intros HO HG HN. unfold inverse. rewrite gen_inverse_inv_list.
  rewrite (rdone_strict ord (inv_list s g) (length (apply s g))); auto.
  - cbn. rewrite inv_list_length, Nat.eqb_refl. reflexivity.
  - rewrite inv_list_rec. eapply inv_rec_strict; eauto.
  - now apply inv_list_group_in.
Qed.

Lemma inverse_undoes ord s g :
  ord_ok ord -> group_in 0 (length s) g -> no_touching_deletions g ->
  exists h, inverse ord s g = Ok h /\ group_in 0 (length (apply s g)) h /\
            apply (apply s g) h = s.
Proof.
  intros HO HG HN. exists (inv_list s g). repeat split.
  - now apply inverse_strict.
  - now apply inv_list_group_in.
  - rewrite inv_list_rec. unfold apply.
    exact (inv_rec_apply g s 0 0 [] HG eq_refl).
Qed.

(** Exactly when does [inverse] raise? *)
Lemma inv_list_well_formed s g :
  group_in 0 (length s) g -> Forall well_formed (inv_list s g).
Proof.
  intros H. apply inv_list_group_in in H. rewrite Forall_forall. intros r Hr.
  pose proof (group_in_In _ _ _ _ H Hr). unfold well_formed. lia.
Qed.

Lemma group_in_pairwise lo n g : group_in lo n g -> pairwise_ok g.
Proof.
  intros H. assert (W : Forall well_formed g).
  { rewrite Forall_forall. intros r Hr. pose proof (group_in_In _ _ _ _ H Hr).
    unfold well_formed; lia. }
  refine (proj2 (disjoint_from_pairwise lo g W _)). now apply group_in_disjoint_from with n.
Qed.

Lemma inverse_total ord s g :
  ord_ok ord -> group_in 0 (length s) g ->
  (NoDup (inv_list s g) /\ exists h, inverse ord s g = Ok h /\ Permutation h (inv_list s g)) \/
  (~ NoDup (inv_list s g) /\ inverse ord s g = Err AssertionErr).
Proof.
  intros HO HG. unfold inverse. rewrite gen_inverse_inv_list.
  pose proof (inv_list_well_formed s g HG) as HW.
  pose proof (group_in_pairwise _ _ _ (inv_list_group_in s g HG)) as HP.
  destruct (rdone_cases ord _ HO HW) as [(E & _)|(_ & N)]; [|contradiction].
  rewrite E. cbn.
  set (l := inv_list s g) in *.
  assert (P : Permutation (sort_replacements (ord (dedup l))) (dedup l))
    by (rewrite sort_replacements_perm; apply HO).
  rewrite (Permutation_length P). 
  destruct (Nat.eqb_spec (length (dedup l)) (length g)) as [EL|NL].
  - left. assert (ND : NoDup l).
    { apply dedup_length_NoDup. rewrite EL. symmetry. apply inv_list_length. }
    split; auto. cbn. eexists; split; [reflexivity|]. rewrite P. now rewrite dedup_id.
  - right. split; auto. intros ND. apply NL. rewrite dedup_id by exact ND. apply inv_list_length.
Qed.

(** ** inverse of inverse *)

Lemma inv_rec_inv_rec g s lo olo pre :
  group_in lo (length s) g -> length pre = olo ->
  inv_rec (pre ++ concat (transform_pieces s lo g)) olo lo (inv_rec s lo olo g) = g.
Proof.
  revert lo olo pre; induction g as [|r g IH]; intros lo olo pre H HL; [reflexivity|].
  cbn [group_in] in H. destruct H as (H1 & H2 & H3).
  pose proof (group_in_bound _ _ _ H3) as HB.
  cbn [inv_rec]. cbn zeta. cbn [transform_pieces r_start r_end r_new concat].
  set (st := olo + (r_start r - lo)).
  set (body := concat (transform_pieces s (r_end r) g)).
  assert (LS : length (slice s lo (r_start r)) = r_start r - lo) by (apply slice_length; lia).
  replace (lo + (st - olo)) with (r_start r) by (unfold st; lia).
  rewrite (slice_length s (r_start r) (r_end r)) by lia.
  replace (r_start r + (r_end r - r_start r)) with (r_end r) by lia.
  replace (pre ++ slice s lo (r_start r) ++ r_new r ++ body)
    with ((pre ++ slice s lo (r_start r) ++ r_new r) ++ body)
    by now rewrite <- !app_assoc.
  unfold body at 2. rewrite IH; auto.
  2:{ rewrite !app_length. unfold st. lia. }
  f_equal. destruct r as [rs re rn]; cbn [r_start r_end r_new] in *. f_equal.
  unfold slice at 1. replace (st + length rn - st) with (length rn) by lia.
  rewrite <- !app_assoc. rewrite (app_assoc pre).
  rewrite skipn_app_len.
  - apply firstn_app_exact.
  - rewrite app_length. unfold st. lia.
Qed.

Lemma inverse_inverse ord1 ord2 s g h :
  ord_ok ord1 -> ord_ok ord2 -> group_in 0 (length s) g ->
  no_touching_deletions g -> inverse ord1 s g = Ok h -> no_touching_deletions h ->
  inverse ord2 (apply s g) h = Ok g.
Proof.
  intros O1 O2 HG HN HI HN2.
  rewrite (inverse_strict ord1 s g) in HI by assumption. injection HI as <-.
  rewrite inverse_strict; auto.
  - f_equal. rewrite !inv_list_rec. unfold apply.
    exact (inv_rec_inv_rec g s 0 0 [] HG eq_refl).
  - now apply inv_list_group_in.
Qed.

End Edit.
