(** Facts about the python runtime model of [Py.v]. *)

From Verif Require Import Py.
From Coq Require Export Sorted.

#[global] Arguments slice : simpl never.
#[global] Arguments setslice : simpl never.
#[global] Arguments u32b : simpl never.
#[global] Arguments py_find : simpl never.
#[global] Arguments Nat.ltb : simpl never.
#[global] Arguments Nat.leb : simpl never.
#[global] Arguments Nat.eqb : simpl never.

(** ** Lists *)

Lemma firstn_app_exact {A} (l m : list A) : firstn (length l) (l ++ m) = l.
Proof. rewrite firstn_app, Nat.sub_diag, firstn_all; cbn; apply app_nil_r. Qed.

Lemma skipn_app_exact {A} (l m : list A) : skipn (length l) (l ++ m) = m.
Proof. rewrite skipn_app, Nat.sub_diag, skipn_all; reflexivity. Qed.

Lemma firstn_app_len {A} n (l m : list A) : length l = n -> firstn n (l ++ m) = l.
Proof. intros <-; apply firstn_app_exact. Qed.

Lemma skipn_app_len {A} n (l m : list A) : length l = n -> skipn n (l ++ m) = m.
Proof. intros <-; apply skipn_app_exact. Qed.

Lemma skipn_skipn_add {A} n m (l : list A) : skipn n (skipn m l) = skipn (m + n) l.
Proof.
  revert l; induction m as [|m IH]; intros l; [reflexivity|].
  destruct l as [|x l]; cbn; [now rewrite skipn_nil|apply IH].
Qed.

Lemma slice_length {A} (s : list A) i j :
  i <= j -> j <= length s -> length (slice s i j) = j - i.
Proof. intros H1 H2; unfold slice; rewrite firstn_length, skipn_length; lia. Qed.

Lemma slice_nil {A} (s : list A) i : slice s i i = [].
Proof. unfold slice; now rewrite Nat.sub_diag. Qed.

Lemma slice_skipn {A} (s : list A) i j :
  i <= j -> slice s i j ++ skipn j s = skipn i s.
Proof.
  intros H; unfold slice.
  replace (skipn j s) with (skipn (j - i) (skipn i s)).
  - apply firstn_skipn.
  - rewrite skipn_skipn_add; f_equal; lia.
Qed.

Lemma slice_0 {A} (s : list A) j : slice s 0 j = firstn j s.
Proof. unfold slice; now rewrite Nat.sub_0_r. Qed.

Lemma slice_app {A} (s : list A) i j k :
  i <= j -> j <= k -> slice s i j ++ slice s j k = slice s i k.
Proof.
  intros H1 H2; unfold slice.
  replace (skipn j s) with (skipn (j - i) (skipn i s))
    by (rewrite skipn_skipn_add; f_equal; lia).
  set (t := skipn i s).
  replace (k - i) with ((j - i) + (k - j)) by lia.
  generalize (j - i), (k - j); intros n m.
  clear; revert n; induction t as [|x t IH]; intros n.
  - now rewrite !skipn_nil, !firstn_nil.
  - destruct n as [|n]; [reflexivity|]; cbn; now rewrite IH.
Qed.

Lemma slice_full {A} (s : list A) : slice s 0 (length s) = s.
Proof. rewrite slice_0; apply firstn_all. Qed.

Lemma slice_map {A B} (f : A -> B) s i j : slice (map f s) i j = map f (slice s i j).
Proof. unfold slice; now rewrite skipn_map, firstn_map. Qed.

Lemma nth_error_slice {A} (s : list A) i j k :
  k < j - i -> nth_error (slice s i j) k = nth_error s (i + k).
Proof.
  unfold slice; intros H.
  revert i j k H; induction s as [|x s IH]; intros i j k H.
  - rewrite skipn_nil, firstn_nil. now rewrite !nth_error_nil || (destruct k, i; reflexivity).
  - destruct i as [|i].
    + cbn [skipn]. rewrite Nat.sub_0_r in *. cbn [Nat.add].
      clear IH; revert j k H; generalize (x :: s); intros l.
      induction l as [|y l IH]; intros j k H.
      * now rewrite firstn_nil.
      * destruct j as [|j]; [lia|]; destruct k as [|k]; [reflexivity|].
        cbn; apply IH; lia.
    + destruct j as [|j]; [lia|]; cbn [skipn Nat.sub]. rewrite IH by lia; reflexivity.
Qed.

Lemma setslice_length {A} (s v : list A) i j :
  i <= j -> j <= length s -> length (setslice s i j v) = length s - (j - i) + length v.
Proof.
  intros H1 H2; unfold setslice.
  rewrite !app_length, firstn_length, skipn_length.
  replace (Nat.max i j) with j by lia; lia.
Qed.

Lemma repeat_app_add {A} (x : A) n m : repeat x (n + m) = repeat x n ++ repeat x m.
Proof. induction n as [|n IH]; cbn; congruence. Qed.

Lemma concat_app_2 {A} (l m : list (list A)) : concat (l ++ m) = concat l ++ concat m.
Proof. apply concat_app. Qed.

(** ** Results *)

Lemma bind_ok {A B} (x : res A) (f : A -> res B) b :
  bind x f = Ok b -> exists a, x = Ok a /\ f a = Ok b.
Proof. destruct x as [a|e]; cbn; [eauto|discriminate]. Qed.

Lemma guard_ok b e u : guard b e = Ok u -> b = true.
Proof. destruct b; cbn; congruence. Qed.

Ltac inv_bind H :=
  let a := fresh "a" in let E := fresh "E" in
  apply bind_ok in H; destruct H as (a & E & H).

(** ** prefixb, find *)

Lemma prefixb_spec {A} `{Eqb A} (p s : list A) :
  prefixb p s = true <-> exists t, s = p ++ t.
Proof.
  revert s; induction p as [|x p IH]; intros s; cbn.
  - split; eauto.
  - destruct s as [|y s].
    + split; [discriminate|]. intros (t & E); discriminate E.
    + rewrite andb_true_iff, IH. destruct (eqb_spec x y) as [->|N]; split.
      * intros (_ & t & ->); eauto.
      * intros (t & E); injection E as ->; split; eauto.
      * intros (E & _); discriminate E.
      * intros (t & E); congruence.
Qed.

Lemma prefixb_app {A} `{Eqb A} (p t : list A) : prefixb p (p ++ t) = true.
Proof. apply prefixb_spec; eauto. Qed.

Lemma find_at_some {A} `{Eqb A} (sub s : list A) i k :
  find_at sub s i = Some k ->
  i <= k /\ k - i <= length s /\ prefixb sub (skipn (k - i) s) = true /\
  (forall j, i <= j -> j < k -> prefixb sub (skipn (j - i) s) = false).
Proof.
  revert i k; induction s as [|x s IH]; intros i k; cbn [find_at].
  - destruct (prefixb sub []) eqn:E; [|discriminate]. intros [= <-].
    rewrite Nat.sub_diag; cbn. repeat split; auto; try lia.
  - destruct (prefixb sub (x :: s)) eqn:E.
    + intros [= <-]. rewrite Nat.sub_diag; cbn [skipn].
      repeat split; auto; try lia.
    + intros F. apply IH in F. destruct F as (F1 & F2 & F3 & F4).
      replace (k - i) with (S (k - S i)) by lia. cbn [skipn length].
      repeat split; auto; try lia.
      intros j H1 H2. destruct (Nat.eq_dec j i) as [->|N].
      * rewrite Nat.sub_diag; cbn [skipn]; exact E.
      * replace (j - i) with (S (j - S i)) by lia; cbn [skipn]; apply F4; lia.
Qed.

Lemma find_at_none {A} `{Eqb A} (sub s : list A) i :
  find_at sub s i = None -> forall k, k <= length s -> prefixb sub (skipn k s) = false.
Proof.
  revert i; induction s as [|x s IH]; intros i; cbn [find_at].
  - destruct (prefixb sub []) eqn:E; [discriminate|]. intros _ k Hk.
    rewrite skipn_nil; exact E.
  - destruct (prefixb sub (x :: s)) eqn:E; [discriminate|]. intros F k Hk.
    destruct k as [|k]; [exact E|]. cbn in *. apply IH with (S i); [exact F|lia].
Qed.

Lemma py_find_here {A} `{Eqb A} (s sub : list A) start :
  start <= length s -> prefixb sub (skipn start s) = true ->
  py_find s sub start = Some start.
Proof.
  intros H1 H2; unfold py_find.
  destruct (Nat.ltb_spec (length s) start); [lia|].
  destruct (skipn start s); cbn [find_at]; rewrite H2; reflexivity.
Qed.

Lemma py_find_some {A} `{Eqb A} (s sub : list A) start k :
  py_find s sub start = Some k ->
  start <= k /\ k + length sub <= length s /\
  slice s k (k + length sub) = sub /\
  (forall j, start <= j -> j < k -> slice s j (j + length sub) <> sub).
Proof.
  unfold py_find. destruct (Nat.ltb_spec (length s) start); [discriminate|].
  intros F; apply find_at_some in F; destruct F as (F1 & F2 & F3 & F4).
  rewrite skipn_skipn_add in F3. replace (start + (k - start)) with k in F3 by lia.
  apply prefixb_spec in F3; destruct F3 as (t & F3).
  rewrite skipn_length in F2.
  assert (L : length (skipn k s) = length sub + length t) by (rewrite F3; apply app_length).
  rewrite skipn_length in L.
  split; [lia|]. split; [lia|]. split.
  - unfold slice. replace (k + length sub - k) with (length sub) by lia.
    rewrite F3; apply firstn_app_exact.
  - intros j H1 H2 E. specialize (F4 j H1 H2).
    rewrite skipn_skipn_add in F4. replace (start + (j - start)) with j in F4 by lia.
    unfold slice in E. replace (j + length sub - j) with (length sub) in E by lia.
    assert (P : prefixb sub (skipn j s) = true); [|congruence].
    apply prefixb_spec. exists (skipn (length sub) (skipn j s)).
    rewrite <- E at 1. symmetry; apply firstn_skipn.
Qed.

Lemma py_find_none {A} `{Eqb A} (s sub : list A) start :
  py_find s sub start = None -> start <= length s ->
  forall k, start <= k -> k + length sub <= length s -> slice s k (k + length sub) <> sub.
Proof.
  unfold py_find. destruct (Nat.ltb_spec (length s) start); [lia|].
  intros F _ k H1 H2 E.
  apply find_at_none with (k := k - start) in F; [|rewrite skipn_length; lia].
  rewrite skipn_skipn_add in F. replace (start + (k - start)) with k in F by lia.
  assert (P : prefixb sub (skipn k s) = true); [|congruence].
  apply prefixb_spec. exists (skipn (length sub) (skipn k s)).
  unfold slice in E. replace (k + length sub - k) with (length sub) in E by lia.
  rewrite <- E at 1. symmetry; apply firstn_skipn.
Qed.

(** ** Stable sorting *)

Lemma insert_by_perm {A} (key : A -> Z) x l : Permutation (insert_by key x l) (x :: l).
Proof.
  induction l as [|y l IH]; cbn; [reflexivity|].
  destruct (key x <=? key y)%Z; [reflexivity|].
  rewrite IH; apply perm_swap.
Qed.

Lemma sort_by_perm {A} (key : A -> Z) l : Permutation (sort_by key l) l.
Proof.
  induction l as [|x l IH]; cbn; [reflexivity|].
  rewrite insert_by_perm; now apply perm_skip.
Qed.

Lemma sort_by_length {A} (key : A -> Z) l : length (sort_by key l) = length l.
Proof. apply Permutation_length, sort_by_perm. Qed.

Definition lex {A} (key : A -> Z) (R : A -> A -> Prop) (a b : A) : Prop :=
  (key a < key b)%Z \/ (key a = key b /\ R a b).

Lemma insert_by_lex {A} (key : A -> Z) (R : A -> A -> Prop) x l :
  Forall (R x) l -> StronglySorted (lex key R) l ->
  StronglySorted (lex key R) (insert_by key x l).
Proof.
  induction l as [|y l IH]; intros HF HS; cbn.
  - repeat constructor.
  - apply StronglySorted_inv in HS; destruct HS as (HS & HY).
    inversion HF as [|? ? Hxy HF']; subst.
    destruct (Z.leb_spec (key x) (key y)) as [L|L].
    + constructor; [constructor; auto|].
      constructor.
      * unfold lex. destruct (Z.eq_dec (key x) (key y)); [right; auto|left; lia].
      * rewrite Forall_forall in *. intros z Hz. specialize (HY z Hz).
        unfold lex in *. destruct (Z.eq_dec (key x) (key z)); [right; auto|left].
        destruct HY as [HY|[HY _]]; lia.
    + constructor; [apply IH; auto|].
      rewrite Forall_forall in *. intros z Hz.
      apply (Permutation_in z (insert_by_perm key x l)) in Hz.
      destruct Hz as [<-|Hz]; [left; lia|apply HY, Hz].
Qed.

Lemma sort_by_lex {A} (key : A -> Z) (R : A -> A -> Prop) l :
  StronglySorted R l -> StronglySorted (lex key R) (sort_by key l).
Proof.
  induction l as [|x l IH]; intros HS; [constructor|].
  apply StronglySorted_inv in HS; destruct HS as (HS & HX).
  cbn. apply insert_by_lex; auto.
  rewrite Forall_forall in *. intros z Hz. apply HX.
  eapply Permutation_in; [apply sort_by_perm|exact Hz].
Qed.

Lemma StronglySorted_top {A} (l : list A) : StronglySorted (fun _ _ => True) l.
Proof. induction l; constructor; auto. apply Forall_forall; auto. Qed.

Lemma sort_by_sorted {A} (key : A -> Z) l :
  StronglySorted (fun a b => (key a <= key b)%Z) (sort_by key l).
Proof.
  pose proof (sort_by_lex key _ l (StronglySorted_top l)) as H.
  induction H as [|x l' H IH HF]; constructor; auto.
  rewrite Forall_forall in *. intros z Hz; specialize (HF z Hz); unfold lex in HF; lia.
Qed.

Lemma insert_by_id {A} (key : A -> Z) x l :
  Forall (fun y => (key x <= key y)%Z) l -> insert_by key x l = x :: l.
Proof.
  destruct l as [|y l]; intros H; [reflexivity|]; cbn.
  inversion H; subst. destruct (Z.leb_spec (key x) (key y)); [reflexivity|lia].
Qed.

Lemma sort_by_id {A} (key : A -> Z) l :
  StronglySorted (fun a b => (key a <= key b)%Z) l -> sort_by key l = l.
Proof.
  induction l as [|x l IH]; intros H; [reflexivity|].
  apply StronglySorted_inv in H; destruct H as (H & HF).
  cbn. change (fold_right (insert_by key) [] l) with (sort_by key l).
  rewrite IH by exact H. now apply insert_by_id.
Qed.

(** Two sorted permutations agree when the order is antisymmetric on the elements. *)
Lemma sorted_perm_unique {A} (R : A -> A -> Prop) (l m : list A) :
  (forall x y, In x l -> In y l -> R x y -> R y x -> x = y) ->
  StronglySorted R l -> StronglySorted R m -> Permutation l m -> l = m.
Proof.
  revert m; induction l as [|x l IH]; intros m HA HL HM HP.
  - apply Permutation_nil in HP; now subst.
  - destruct m as [|y m]; [symmetry in HP; apply Permutation_nil in HP; discriminate|].
    apply StronglySorted_inv in HL; destruct HL as (HL & HX).
    apply StronglySorted_inv in HM; destruct HM as (HM & HY).
    rewrite Forall_forall in HX, HY.
    assert (x = y) as ->.
    { assert (Ix : In x (y :: m)) by (eapply Permutation_in; [exact HP|left; auto]).
      assert (Iy : In y (x :: l)) by (eapply Permutation_in; [symmetry; exact HP|left; auto]).
      destruct Ix as [->|Ix]; [reflexivity|]. destruct Iy as [->|Iy]; [reflexivity|].
      apply HA; [left; auto|right; auto|apply HX, Iy|apply HY, Ix]. }
    f_equal. apply IH; auto.
    + intros a b Ha Hb; apply HA; right; auto.
    + eapply Permutation_cons_inv; exact HP.
Qed.

(** ** Deduplication *)

Lemma in_dedup {A} `{Eqb A} x (l : list A) : In x (dedup l) <-> In x l.
Proof.
  induction l as [|y l IH]; cbn; [tauto|].
  rewrite filter_In, IH. destruct (eqb_spec y x); cbn; intuition congruence.
Qed.

Lemma NoDup_dedup {A} `{Eqb A} (l : list A) : NoDup (dedup l).
Proof.
  induction l as [|y l IH]; cbn; constructor.
  - rewrite filter_In. destruct (eqb_spec y y); cbn; intuition congruence.
  - now apply NoDup_filter.
Qed.

Lemma filter_all {A} (f : A -> bool) l : (forall x, In x l -> f x = true) -> filter f l = l.
Proof.
  induction l as [|x l IH]; intros HF; [reflexivity|]; cbn.
  rewrite (HF x) by (left; reflexivity). f_equal; apply IH; intros y Hy; apply HF; now right.
Qed.

Lemma dedup_id {A} `{Eqb A} (l : list A) : NoDup l -> dedup l = l.
Proof.
  induction l as [|x l IH]; intros HN; [reflexivity|]; cbn.
  inversion HN; subst. rewrite IH by assumption. f_equal.
  apply filter_all. intros y Hy. destruct (eqb_spec x y); [subst; contradiction|reflexivity].
Qed.

Lemma filter_length_le {A} (f : A -> bool) l : length (filter f l) <= length l.
Proof. induction l as [|x l IH]; cbn; [lia|]; destruct (f x); cbn; lia. Qed.

Lemma dedup_length_le {A} `{Eqb A} (l : list A) : length (dedup l) <= length l.
Proof.
  induction l as [|x l IH]; cbn; [lia|].
  pose proof (filter_length_le (fun y => negb (eqb x y)) (dedup l)); lia.
Qed.

Lemma dedup_length_NoDup {A} `{Eqb A} (l : list A) : length (dedup l) = length l -> NoDup l.
Proof.
  induction l as [|x l IH]; cbn; intros HL; constructor.
  - intros Hx. apply in_dedup in Hx.
    assert (length (filter (fun y => negb (eqb x y)) (dedup l)) < length (dedup l)).
    { clear HL IH. induction (dedup l) as [|y d IHd]; [destruct Hx|]. cbn.
      destruct Hx as [->|Hx].
      - destruct (eqb_spec x x); [|congruence]; cbn.
        pose proof (filter_length_le (fun y => negb (eqb x y)) d); lia.
      - specialize (IHd Hx). destruct (eqb x y); cbn; lia. }
    pose proof (dedup_length_le l); lia.
  - apply IH. pose proof (filter_length_le (fun y => negb (eqb x y)) (dedup l)).
    pose proof (dedup_length_le l); lia.
Qed.

Lemma memb_In {A} `{Eqb A} x (l : list A) : memb x l = true <-> In x l.
Proof.
  unfold memb; rewrite existsb_exists. split.
  - intros (y & Hy & E). destruct (eqb_spec x y); [subst; auto|discriminate].
  - intros Hx; exists x; split; auto. destruct (eqb_spec x x); congruence.
Qed.

Lemma set_eqb_spec {A} `{Eqb A} (a b : list A) :
  set_eqb a b = true <-> (forall x, In x a <-> In x b).
Proof.
  unfold set_eqb; rewrite andb_true_iff, !forallb_forall.
  split.
  - intros (H1 & H2) x; split; intros Hx; apply memb_In; auto.
  - intros HE; split; intros x Hx; apply memb_In, HE, Hx.
Qed.

Lemma eqb_refl_true {A} `{Eqb A} (x : A) : eqb x x = true.
Proof. destruct (eqb_spec x x); congruence. Qed.

Lemma eqb_true_eq {A} `{Eqb A} (x y : A) : eqb x y = true <-> x = y.
Proof. destruct (eqb_spec x y); split; congruence. Qed.

Lemma eqb_false_neq {A} `{Eqb A} (x y : A) : eqb x y = false <-> x <> y.
Proof. destruct (eqb_spec x y); split; congruence. Qed.

(** ** Dictionaries *)

Lemma dict_get_set_same {K V} `{Eqb K} (d : list (K * V)) k v :
  dict_get (dict_set d k v) k = Some v.
Proof.
  induction d as [|[k' v'] d IH]; cbn; [now rewrite eqb_refl_true|].
  destruct (eqb_spec k k') as [->|N]; cbn.
  - now rewrite eqb_refl_true.
  - apply eqb_false_neq in N; now rewrite N.
Qed.

Lemma dict_get_set_other {K V} `{Eqb K} (d : list (K * V)) k k' v :
  k <> k' -> dict_get (dict_set d k v) k' = dict_get d k'.
Proof.
  intros N. induction d as [|[k2 v2] d IH]; cbn.
  - destruct (eqb_spec k' k); congruence.
  - destruct (eqb_spec k k2) as [<-|N2]; cbn.
    + destruct (eqb_spec k' k); congruence.
    + destruct (eqb_spec k' k2); congruence.
Qed.

Lemma dict_get_In {K V} `{Eqb K} (d : list (K * V)) k v :
  dict_get d k = Some v -> In (k, v) d.
Proof.
  induction d as [|[k' v'] d IH]; cbn; [discriminate|].
  destruct (eqb_spec k k') as [->|N]; [intros [= ->]; auto|auto].
Qed.

Lemma dict_get_In_NoDup {K V} `{Eqb K} (d : list (K * V)) k v :
  NoDup (map fst d) -> In (k, v) d -> dict_get d k = Some v.
Proof.
  induction d as [|[k' v'] d IH]; cbn; [tauto|].
  intros HN [E|HI]; inversion HN as [|? ? N1 N2]; subst.
  - injection E as -> ->. now rewrite eqb_refl_true.
  - destruct (eqb_spec k k') as [->|N]; [|auto].
    exfalso; apply N1. apply in_map_iff; exists (k', v); auto.
Qed.

Lemma dict_get_None {K V} `{Eqb K} (d : list (K * V)) k :
  dict_get d k = None <-> ~ In k (map fst d).
Proof.
  induction d as [|[k' v'] d IH]; cbn; [tauto|].
  destruct (eqb_spec k k') as [->|N]; [split; [discriminate|tauto]|].
  rewrite IH; intuition congruence.
Qed.

Lemma u32b_spec z : u32b z = true <-> (0 <= z < two32)%Z.
Proof. unfold u32b; rewrite andb_true_iff, Z.leb_le, Z.ltb_lt; reflexivity. Qed.
