(** Proofs for C79 and C80: mutable objects. *)

From Coq Require Import String.
From Verif Require Import Py PyFacts Json Elements Ops Pipe SpecPipe PipeProofs Heap SpecHeap.
From Coq Require Import List.
Local Open Scope Z_scope.

(** ** Lists *)

Lemma put_length {A} (l : list A) i x : length (put l i x) = length l.
Proof. revert i. induction l as [|y l IH]; intros [|i]; cbn; auto. Qed.
Lemma put_same {A} (l : list A) i x : (i < length l)%nat -> nth_error (put l i x) i = Some x.
Proof. revert i. induction l as [|y l IH]; intros [|i] H; cbn in *; try lia; auto; try (apply IH; lia). Qed.
Lemma put_other {A} (l : list A) i j x : i <> j -> nth_error (put l i x) j = nth_error l j.
Proof. revert i j. induction l as [|y l IH]; intros [|i] [|j] H; cbn; auto; try congruence; try (apply IH; congruence). Qed.

Lemma nth_nth {A} (l : list A) i d : nth i l d = match nth_error l i with Some x => x | None => d end.
Proof. revert i. induction l as [|y l IH]; intros [|i]; cbn; auto. Qed.

Lemma snoc_old {A} (l : list A) x i y : nth_error l i = Some y -> nth_error (l ++ [x]) i = Some y.
Proof. intros H. rewrite nth_error_app1; auto. apply nth_error_Some. congruence. Qed.
Lemma snoc_new {A} (l : list A) (x : A) : nth_error (l ++ [x]) (length l) = Some x.
Proof. rewrite nth_error_app2, Nat.sub_diag by lia. reflexivity. Qed.
Lemma snoc_inv {A} (l : list A) (x : A) i y : nth_error (l ++ [x]) i = Some y ->
  nth_error l i = Some y \/ (i = length l /\ y = x).
Proof.
  intros H. destruct (Nat.lt_ge_cases i (length l)) as [L|L].
  - rewrite nth_error_app1 in H by lia. now left.
  - right. assert (i < length (l ++ [x]))%nat by (apply nth_error_Some; congruence).
    rewrite app_length in *. cbn in *. assert (i = length l) as -> by lia.
    rewrite snoc_new in H. split; congruence.
Qed.

(** ** Well-formed memories *)

Definition pipes_apart (m : memory) : Prop :=
  (forall k rl rd, nth_error (h_pipes m) k = Some (rl, rd) -> (rl < length (h_lists m) /\ rd < length (h_dicts m))%nat) /\
  (forall k k' rl rd rl' rd', nth_error (h_pipes m) k = Some (rl, rd) -> nth_error (h_pipes m) k' = Some (rl', rd') ->
     rl = rl' \/ rd = rd' -> k = k').
Definition ops_exist (m : memory) : Prop :=
  forall r l i, nth_error (h_lists m) r = Some l -> In i l -> (i < length (h_ops m))%nat.
Definition numbers_positive (m : memory) : Prop :=
  forall r d n i, nth_error (h_dicts m) r = Some d -> In (n, i) d -> 0 < i.
Definition ims_have_pipes (m : memory) : Prop :=
  forall i rd coll, nth_error (h_ims m) i = Some (rd, coll) -> exists k rl, nth_error (h_pipes m) k = Some (rl, rd).
Definition keys_apart (m : memory) : Prop :=
  forall r d, nth_error (h_dicts m) r = Some d -> NoDup (map fst d).
Definition refs_of (o : hop) : list arg := h_bound o ++ map snd (h_configs o).
Definition refs_exist (m : memory) : Prop :=
  forall i o c, nth_error (h_ops m) i = Some o -> In (Ref c) (refs_of o) -> (c < length (h_cells m))%nat.

Record wf (m : memory) : Prop := mkWf {
  wf_apart : pipes_apart m;
  wf_ops : ops_exist m;
  wf_ims : ims_have_pipes m;
  wf_keys : keys_apart m;
  wf_refs : refs_exist m
}.

Lemma wf_empty : wf empty_memory.
Proof.
  split.
  - split; intros k; intros; destruct k; discriminate.
  - intros r; intros; destruct r; discriminate.
  - intros i; intros; destruct i; discriminate.
  - intros r; intros; destruct r; discriminate.
  - intros i; intros; destruct i; discriminate.
Qed.

(** where the references of an operator come from *)
Lemma hbind_params_In ps : forall args kwargs bound, hbind_params ps args kwargs = Ok bound ->
  forall c, In (Ref c) bound -> In (Ref c) args \/ In (Ref c) (map snd kwargs).
Proof.
  induction ps as [|[name default] ps IH]; intros args kwargs bound H c Hc; cbn [hbind_params] in H.
  - destruct args; [|discriminate]. injection H as <-. destruct Hc.
  - destruct args as [|a args].
    + destruct (dict_get kwargs name) as [v|] eqn:D.
      * cbn [bind] in H. destruct (hbind_params ps [] kwargs) as [rest|] eqn:R; [|discriminate]. cbn [bind] in H.
        injection H as <-. destruct Hc as [->|Hc]; [|exact (IH _ _ _ R c Hc)].
        right. apply dict_get_In in D. apply in_map_iff. now exists (name, Ref c).
      * destruct default as [v|]; [|discriminate].
        cbn [bind] in H. destruct (hbind_params ps [] kwargs) as [rest|] eqn:R; [|discriminate]. cbn [bind] in H.
        injection H as <-. destruct Hc as [X|Hc]; [discriminate|exact (IH _ _ _ R c Hc)].
    + destruct (guard _ _); [|discriminate]. cbn [bind] in H.
      destruct (hbind_params ps args kwargs) as [rest|] eqn:R; [|discriminate]. cbn [bind] in H.
      injection H as <-. destruct Hc as [->|Hc]; [left; now left|].
      destruct (IH _ _ _ R c Hc); [left; now right|now right].
Qed.

Lemma dict_set_In {V} (d : list (str * V)) k v x : In x (map snd (dict_set d k v)) -> x = v \/ In x (map snd d).
Proof.
  induction d as [|[a b] d IH]; cbn [dict_set].
  - intros [<-|[]]. now left.
  - destruct (eqb k a); cbn [map snd]; intros [<-|H]; auto; [right; now right|right; now left|].
    destruct (IH H); auto. right. now right.
Qed.
Lemma dict_update_In {V} (e : list (str * V)) : forall d x, In x (map snd (dict_update d e)) ->
  In x (map snd d) \/ In x (map snd e).
Proof.
  unfold dict_update. induction e as [|[k v] e IH]; intros d x H; [now left|]. cbn [fold_left fst snd] in H.
  destruct (IH _ _ H) as [H'|H']; [|right; now right]. apply dict_set_In in H' as [->|H']; [right; now left|now left].
Qed.

Lemma hrecord_In ps args kwargs c : In (Ref c) (map snd (hrecord ps args kwargs)) ->
  In (Ref c) args \/ In (Ref c) (map snd kwargs).
Proof.
  unfold hrecord. intros H. apply dict_update_In in H as [H|H].
  - apply dict_update_In in H as [H|H]; [|now right]. left. apply in_map_iff in H as ([a b] & E & H).
    cbn [snd] in E. subst b. now apply in_combine_r in H.
  - exfalso. apply in_map_iff in H as ([a b] & E & H). cbn [snd] in E. subst b. apply filter_In in H as [H _].
    apply in_map_iff in H as ([x y] & E & _). discriminate.
Qed.

Lemma put_self {A} (l : list A) i d : put l i (nth i l d) = l.
Proof. revert i. induction l as [|y l IH]; intros [|i]; cbn; auto. now rewrite IH. Qed.

(** ** One call *)

(** [d'] is [d] with further names, whose numbers are greater than [n] *)
Definition kept (d d' : list (str * Z)) : Prop := forall x i, dict_get d x = Some i -> dict_get d' x = Some i.
Definition grown (n : nat) (d d' : list (str * Z)) : Prop :=
  forall x i, dict_get d x = None -> dict_get d' x = Some i -> Z.of_nat n < i.

Definition change (m : memory) (rl rd : nat) (l : list nat) (d : list (str * Z)) : memory :=
  mkM (h_cells m) (h_ops m) (put (h_lists m) rl l) (put (h_dicts m) rd d) (h_pipes m) (h_ims m).

Definition good_dict (d : list (str * Z)) : Prop := NoDup (map fst d).
Definition positive (d : list (str * Z)) : Prop := forall n i, In (n, i) d -> 0 < i.
Definition good_list (m : memory) (l : list nat) : Prop := forall i, In i l -> (i < length (h_ops m))%nat.

Inductive moves (m : memory) : command -> memory -> Prop :=
| mv_same c : moves m c m
| mv_cell x : moves m (NewCell x) (set_cells m (h_cells m ++ [x]))
| mv_set i x y : nth_error (h_cells m) i = Some y -> same_kind y x = true ->
    moves m (SetCell i x) (set_cells m (put (h_cells m) i x))
| mv_op name args kwargs o : (forall c, In (Ref c) (refs_of o) -> In (Ref c) (args ++ map snd kwargs)) ->
    (forall c, In (Ref c) (args ++ map snd kwargs) -> (c < length (h_cells m))%nat) -> moves m (NewOp name args kwargs) (set_ops m (h_ops m ++ [o]))
| mv_pipe c l d : good_list m l -> good_dict d -> (numbers_positive m -> positive d) -> ~ changes_cell c -> moves m c (fst (new_pipe m l d))
| mv_change c k rl rd extra d : changes_pipe k c -> nth_error (h_pipes m) k = Some (rl, rd) ->
    good_list m extra -> good_dict d -> kept (dict_at m rd) d ->
    (numbers_positive m -> positive d /\ grown (length (list_at m rl)) (dict_at m rd) d) ->
    moves m c (change m rl rd (list_at m rl ++ extra) d)
| mv_direct c k rl rd l d : changes_pipe k c -> direct c -> nth_error (h_pipes m) k = Some (rl, rd) ->
    good_list m l -> good_dict d -> ((forall l', c <> SetSteps k l') -> l = list_at m rl) ->
    ((forall d', c <> SetChecks k d') -> d = dict_at m rd) -> moves m c (change m rl rd l d)
| mv_im k x rl rd coll : nth_error (h_pipes m) k = Some (rl, rd) ->
    length coll = S (length (list_at m rl)) ->
    moves m (Run k x) (set_ims m (h_ims m ++ [(rd, coll)])).

Lemma list_at_good m rl : wf m -> good_list m (list_at m rl).
Proof.
  intros W i H. unfold list_at in H. rewrite nth_nth in H. destruct (nth_error (h_lists m) rl) as [l|] eqn:L; [|destruct H].
  exact (wf_ops m W rl l i L H).
Qed.
Lemma dict_at_good m rd : wf m -> good_dict (dict_at m rd).
Proof.
  intros W. unfold dict_at. rewrite nth_nth. destruct (nth_error (h_dicts m) rd) as [d|] eqn:L.
  - exact (wf_keys m W rd d L).
  - constructor.
Qed.
Lemma dict_at_positive m rd : numbers_positive m -> positive (dict_at m rd).
Proof.
  intros P. unfold dict_at. rewrite nth_nth. destruct (nth_error (h_dicts m) rd) as [d|] eqn:L; [|intros n i []].
  intros n i. exact (P rd d n i L).
Qed.

Lemma dict_get_set {V} (d : list (str * V)) k v x :
  dict_get (dict_set d k v) x = if eqb x k then Some v else dict_get d x.
Proof.
  induction d as [|[a b] d IH]; cbn [dict_set dict_get].
  - reflexivity.
  - destruct (eqb_spec k a) as [->|N]; cbn [dict_get].
    + destruct (eqb_spec x a); reflexivity.
    + rewrite IH. destruct (eqb_spec x a) as [->|]; [|reflexivity]. destruct (eqb_spec a k); congruence.
Qed.

Lemma dict_get_update {V} (e d : list (str * V)) x : NoDup (map fst e) ->
  dict_get (dict_update d e) x = match dict_get e x with Some v => Some v | None => dict_get d x end.
Proof.
  unfold dict_update. revert d. induction e as [|[k v] e IH]; intros d N; [reflexivity|].
  cbn [fold_left fst snd map] in *. inversion N as [|? ? N1 N2]; subst. rewrite IH by assumption.
  cbn [dict_get]. rewrite dict_get_set. destruct (eqb_spec x k) as [->|]; [|reflexivity].
  destruct (dict_get e k) eqn:G; [|reflexivity]. exfalso. apply N1. apply dict_get_In in G.
  apply in_map_iff. now exists (k, v0).
Qed.

Lemma dict_set_good d k v : good_dict d -> good_dict (dict_set d k v).
Proof. apply dict_set_NoDup. Qed.
Lemma dict_set_positive d k v : positive d -> 0 < v -> positive (dict_set d k v).
Proof.
  intros P V n i.
  induction d as [|[a b] d IH]; cbn [dict_set].
  - intros [E|[]]. injection E as <- <-. exact V.
  - destruct (eqb_spec k a) as [->|D].
    + intros [E|H]; [injection E as <- <-; exact V|]. apply (P n). now right.
    + intros [E|H]; [apply (P n); now left|]. apply IH; [|exact H]. intros n' i' H'. apply (P n'). now right.
Qed.

Lemma dict_update_good (e : list (str * Z)) : forall d, good_dict d -> good_dict (dict_update d e).
Proof.
  unfold dict_update. induction e as [|[k v] e IH]; intros d G; [exact G|]. cbn [fold_left fst snd].
  apply IH. now apply dict_set_good.
Qed.
Lemma dict_update_positive e : forall d, positive d -> positive e -> positive (dict_update d e).
Proof.
  unfold dict_update. induction e as [|[k v] e IH]; intros d G H; [exact G|]. cbn [fold_left fst snd].
  apply IH; [|intros n i X; apply (H n); now right]. apply dict_set_positive; [exact G|]. apply (H k). now left.
Qed.

Lemma grown_same n d : grown n d d.
Proof. intros x i; congruence. Qed.
Lemma kept_same d : kept d d.
Proof. intros x i; congruence. Qed.

Lemma run_length_ops E ops : forall x y als coll, run E ops x = Ok (y, als, coll) -> length coll = S (length ops).
Proof.
  induction ops as [|o ops IH]; intros x y als coll H; cbn [run] in H.
  - injection H as <- <- <-. reflexivity.
  - destruct (transform_op E (o_op o) x) as [[z a]|]; [|discriminate]. cbn [bind] in H.
    destruct (run E ops z) as [[[z' als'] coll']|] eqn:R; [|discriminate]. cbn [bind] in H. injection H as <- <- <-.
    cbn [length]. f_equal. exact (IH _ _ _ _ R).
Qed.

Lemma read_list_length m l : good_list m l -> length (read_list m l) = length l.
Proof.
  induction l as [|i l IH]; intros H; [reflexivity|]. cbn [read_list flat_map]. rewrite app_length.
  unfold read_list in IH. rewrite IH by (intros j Hj; apply H; now right).
  unfold op_at. destruct (nth_error (h_ops m) i) eqn:N; [reflexivity|].
  apply nth_error_None in N. specialize (H i (or_introl eq_refl)). lia.
Qed.

Lemma mapM_In {A B} (f : A -> res B) l r : mapM f l = Ok r -> forall y, In y r -> exists x, In x l /\ f x = Ok y.
Proof.
  revert r. induction l as [|a l IH]; intros r H y Hy; cbn in H.
  - injection H as <-. destruct Hy.
  - destruct (f a) as [b|] eqn:F; [|discriminate]. cbn in H. destruct (mapM f l) as [s|]; [|discriminate].
    cbn in H. injection H as <-. destruct Hy as [<-|Hy]; [exists a; split; [now left|exact F]|].
    destruct (IH s eq_refl y Hy) as (x & H1 & H2). exists x. split; [now right|exact H2].
Qed.
Lemma get_item_In {A} (l : list A) i x : get_item l i = Ok x -> In x l.
Proof.
  unfold get_item. destruct (_ && _)%bool; [|discriminate]. destruct (nth_error l _) eqn:N; [|discriminate].
  intros H. injection H as <-. now apply nth_error_In in N.
Qed.
Lemma get_slice_In {A} (l : list A) sl r : get_slice l sl = Ok r -> forall x, In x r -> In x l.
Proof.
  destruct sl as [[start stop] step]. unfold get_slice. destruct (guard _ _); [|discriminate]. cbn [bind].
  destruct (slice_bounds _ _ _ _) as [i b]. intros H x Hx. destruct (mapM_In _ _ _ H x Hx) as (j & _ & G).
  now apply get_item_In in G.
Qed.

Lemma filter_good (d : list (str * Z)) (f : str * Z -> bool) : good_dict d -> good_dict (filter f d).
Proof.
  intros N. unfold good_dict in *.
  induction d as [|[a b] d IH]; [constructor|]. cbn [map] in N. inversion N as [|? ? N1 N2]; subst.
  cbn [filter]. destruct (f (a, b)); [|now apply IH]. cbn [map]. constructor; [|now apply IH].
  intros H. apply N1. apply in_map_iff in H as ([x y] & X & H). apply filter_In in H as [H _]. cbn [fst] in *. subst x.
  apply in_map_iff. now exists (a, y).
Qed.

Lemma set_lists_dicts m rl rd l : set_lists m (put (h_lists m) rl l) = change m rl rd l (dict_at m rd).
Proof. unfold set_lists, change, dict_at. now rewrite put_self. Qed.

Lemma add_op_moves m k rl rd o ck : wf m -> nth_error (h_pipes m) k = Some (rl, rd) -> (o < length (h_ops m))%nat ->
  moves m (AddOp k o ck) (fst (do_add_op m rl rd o ck)).
Proof.
  intros W K O. unfold do_add_op. destruct (match last_opt _ with Some _ => _ | None => _ end); [apply mv_same|].
  assert (B : good_list m [o]) by (intros i [<-|[]]; exact O).
  assert (S : moves m (AddOp k o ck) (set_lists m (put (h_lists m) rl (list_at m rl ++ [o])))).
  { rewrite (set_lists_dicts m rl rd). apply (mv_change m _ k); auto; [constructor|now apply dict_at_good|apply kept_same|].
    intros P. split; [now apply dict_at_positive|apply grown_same]. }
  destruct ck as [name|]; [|exact S]. destruct (dict_mem _ name) eqn:D; [exact S|].
  cbn [fst]. unfold set_dicts, set_lists. cbn [h_cells h_ops h_lists h_dicts h_pipes h_ims].
  destruct (wf_apart m W) as [A1 _]. destruct (A1 k rl rd K) as [A _].
  set (n := Z.of_nat _).
  assert (En : n = Z.of_nat (length (list_at m rl)) + 1).
  { subst n. unfold list_at at 1. cbn [h_lists]. rewrite nth_nth, put_same, app_length by exact A. cbn. lia. }
  unfold dict_mem in D. cbn [h_dicts] in D. unfold dict_at in D at 1. cbn [h_dicts set_lists] in D. fold (dict_at m rd) in D.
  apply (mv_change m _ k rl rd [o] (dict_set (dict_at m rd) name n)); auto; [constructor| | |].
  - apply dict_set_good. now apply dict_at_good.
  - intros x i H. rewrite dict_get_set in *; destruct (eqb_spec x name) as [->|]; [|exact H].
    rewrite H in D. discriminate.
  - intros P. split; [apply dict_set_positive; [now apply dict_at_positive|lia]|].
    intros x i H H'. rewrite dict_get_set in *; destruct (eqb_spec x name) as [->|]; [|congruence].
    injection H' as <-. lia.
Qed.

Lemma map_fst_add (d : list (str * Z)) z : map fst (map (fun kv => (fst kv, snd kv + z)) d) = map fst d.
Proof. rewrite map_map. apply map_ext. reflexivity. Qed.
Lemma dict_get_add (d : list (str * Z)) z x :
  dict_get (map (fun kv => (fst kv, snd kv + z)) d) x = option_map (fun i => i + z) (dict_get d x).
Proof. induction d as [|[a b] d IH]; [reflexivity|]. cbn [map dict_get fst snd]. destruct (eqb x a); auto. Qed.

Lemma iadd_moves_to m c k rl rd ql qd : wf m -> changes_pipe k c -> nth_error (h_pipes m) k = Some (rl, rd) ->
  moves m c (fst (do_iadd m rl rd ql qd)).
Proof.
  intros W C K. unfold do_iadd. destruct (last_opt _) as [a|]; [|apply mv_same].
  destruct (list_at m ql) as [|b q] eqn:Q; [apply mv_same|]. rewrite <- Q. clear Q.
  destruct (differ _ _); [apply mv_same|]. destruct (existsb _ _) eqn:X; [apply mv_same|].
  cbn [fst]. unfold set_dicts, set_lists. cbn [h_cells h_ops h_lists h_dicts h_pipes h_ims].
  set (n := Z.of_nat (length (list_at (mkM _ _ _ _ _ _) rl))).
  assert (En : Z.of_nat (length (list_at m rl)) <= n).
  { subst n. destruct (wf_apart m W) as [A1 _]. destruct (A1 k rl rd K) as [A _].
    unfold list_at at 2. cbn [h_lists]. rewrite nth_nth, put_same, app_length by exact A. lia. }
  clearbody n.
  change (dict_at (mkM _ _ _ _ _ _) rd) with (dict_at m rd). change (dict_at (mkM _ _ _ _ _ _) qd) with (dict_at m qd).
  pose proof (dict_at_good m qd W) as NQ.
  apply (mv_change m _ k); auto.
  - now apply list_at_good.
  - apply dict_update_good. now apply dict_at_good.
  - intros x i H. rewrite dict_get_update, dict_get_add in * by (rewrite map_fst_add; exact NQ).
    destruct (dict_get (dict_at m qd) x) as [j|] eqn:G; [|exact H]. exfalso.
    assert (E : existsb (fun kv : str * Z => dict_mem (dict_at m qd) (fst kv)) (dict_at m rd) = true).
    { apply existsb_exists. exists (x, i). split; [now apply dict_get_In|]. unfold dict_mem. cbn [fst]. now rewrite G. }
    congruence.
  - intros P. pose proof (dict_at_positive m qd P) as PQ. split.
    + apply dict_update_positive; [now apply dict_at_positive|]. intros x i H. apply in_map_iff in H as ([y j] & E & H).
      injection E as <- <-. cbn [snd]. specialize (PQ _ _ H). lia.
    + intros x i H H'. rewrite dict_get_update, dict_get_add in * by (rewrite map_fst_add; exact NQ).
      destruct (dict_get (dict_at m qd) x) as [j|] eqn:G; cbn [option_map] in H'; [|congruence].
      injection H' as <-. apply dict_get_In in G. specialize (PQ _ _ G). lia.
Qed.

(** [k + q]: the copy is a new pipe, and [+=] changes that one only *)
Lemma plus_memory m rl rd ql qd : wf m ->
  (rl < length (h_lists m))%nat -> (rd < length (h_dicts m))%nat -> (ql < length (h_lists m))%nat -> (qd < length (h_dicts m))%nat ->
  let m1 := fst (new_pipe m (list_at m rl) (dict_at m rd)) in
  match do_iadd m rl rd ql qd, do_iadd m1 (length (h_lists m)) (length (h_dicts m)) ql qd with
  | (_, Err e), (_, Err e') => e = e'
  | (_, Ok _), (m2, Ok _) => exists extra d, good_list m extra /\ good_dict d /\ (numbers_positive m -> positive d) /\
      m2 = fst (new_pipe m (list_at m rl ++ extra) d) /\
      fst (do_iadd m rl rd ql qd) = change m rl rd (list_at m rl ++ extra) d
  | _, _ => False
  end.
Proof.
  intros W H1 H2 H3 H4. cbn zeta.
  assert (L : forall i, (i < length (h_lists m))%nat -> list_at (fst (new_pipe m (list_at m rl) (dict_at m rd))) i = list_at m i).
  { intros i Hi. unfold list_at at 1. cbn [new_pipe fst h_lists]. rewrite app_nth1 by exact Hi. reflexivity. }
  assert (D : forall i, (i < length (h_dicts m))%nat -> dict_at (fst (new_pipe m (list_at m rl) (dict_at m rd))) i = dict_at m i).
  { intros i Hi. unfold dict_at at 1. cbn [new_pipe fst h_dicts]. rewrite app_nth1 by exact Hi. reflexivity. }
  assert (LN : list_at (fst (new_pipe m (list_at m rl) (dict_at m rd))) (length (h_lists m)) = list_at m rl).
  { unfold list_at at 1. cbn [new_pipe fst h_lists]. rewrite nth_nth, snoc_new. reflexivity. }
  assert (DN : dict_at (fst (new_pipe m (list_at m rl) (dict_at m rd))) (length (h_dicts m)) = dict_at m rd).
  { unfold dict_at at 1. cbn [new_pipe fst h_dicts]. rewrite nth_nth, snoc_new. reflexivity. }
  unfold do_iadd. rewrite LN, (L ql H3), DN, (D qd H4).
  set (m1 := fst (new_pipe _ _ _)) in *.
  assert (HO : forall i, hout m1 i = hout m i) by reflexivity. assert (HI : forall i, hin m1 i = hin m i) by reflexivity.
  destruct (last_opt (list_at m rl)) as [a|]; [|reflexivity].
  destruct (list_at m ql) as [|b q] eqn:Q; [reflexivity|]. rewrite <- Q. rewrite HO, HI.
  destruct (differ _ _); [reflexivity|]. destruct (existsb _ _); [reflexivity|].
  cbn [fst]. unfold set_dicts, set_lists. cbn [h_cells h_ops h_lists h_dicts h_pipes h_ims].
  set (n := Z.of_nat (length (list_at (mkM _ _ (put (h_lists m) _ _) _ _ _) rl))).
  set (n1 := Z.of_nat (length (list_at (mkM _ _ (put (h_lists m1) _ _) _ _ _) _))).
  assert (En : n = Z.of_nat (length (list_at m rl ++ list_at m ql))).
  { subst n. unfold list_at at 1. cbn [h_lists]. now rewrite nth_nth, put_same by exact H1. }
  assert (En1 : n1 = n).
  { subst n1. rewrite En. unfold list_at at 1. cbn [h_lists]. rewrite nth_nth, put_same; [reflexivity|].
    subst m1. cbn [new_pipe fst h_lists]. rewrite app_length. cbn. lia. }
  rewrite En1. clearbody n n1.
  change (dict_at (mkM (h_cells m) _ _ _ _ _) rd) with (dict_at m rd). change (dict_at (mkM (h_cells m) _ _ _ _ _) qd) with (dict_at m qd).
  change (dict_at (mkM (h_cells m1) (h_ops m1) (put (h_lists m1) (length (h_lists m)) (list_at m rl ++ list_at m ql)) (h_dicts m1) (h_pipes m1) (h_ims m1)) (length (h_dicts m)))
    with (dict_at m1 (length (h_dicts m))).
  change (dict_at (mkM (h_cells m1) (h_ops m1) (put (h_lists m1) (length (h_lists m)) (list_at m rl ++ list_at m ql)) (h_dicts m1) (h_pipes m1) (h_ims m1)) qd)
    with (dict_at m1 qd).
  rewrite DN, (D qd H4).
  exists (list_at m ql), (dict_update (dict_at m rd) (map (fun kv => (fst kv, snd kv + n)) (dict_at m qd))).
  split; [now apply list_at_good|]. split.
  { apply dict_update_good. now apply dict_at_good. }
  split.
  { intros P. apply dict_update_positive; [now apply dict_at_positive|]. intros x i H. apply in_map_iff in H as ([y j] & E & H).
    injection E as <- <-. cbn [snd]. pose proof (dict_at_positive m qd P _ _ H). lia. }
  split; [|reflexivity].
  subst m1. cbn [new_pipe fst h_cells h_ops h_lists h_dicts h_pipes h_ims].
  assert (P : forall {A} (l : list A) x y, put (l ++ [x]) (length l) y = l ++ [y]).
  { intros A l x y. induction l as [|z l IH]; cbn; [reflexivity|]. now rewrite IH. }
  now rewrite !P.
Qed.

Lemma exec_moves E m c : wf m -> moves m c (fst (exec E m c)).
Proof.
  intros W. pose proof (wf_apart m W) as [A1 A2].
  assert (NC : forall k sl, ~ changes_cell (Slice k sl)) by (intros k sl (i & x & H); discriminate).
  destruct c as [x|i x|name args kwargs| |k o ck|k q|k q|k|k sl|k l|k d|k x|i name]; cbn [exec].
  - apply mv_cell.
  - destruct (nth_error (h_cells m) i) as [y|] eqn:C; [|apply mv_same].
    destruct (same_kind y x) eqn:K; [|apply mv_same]. now apply (mv_set m i x y).
  - destruct (dict_get classes name) as [c|]; [|apply mv_same].
    destruct (guard _ _) as [u|] eqn:G; [|apply mv_same]. cbn [bind].
    destruct (hbind_args _ _ _) as [bound|] eqn:B; [|apply mv_same]. cbn [bind].
    destruct (c_init c E _) as [o|]; [|apply mv_same]. cbn [bind fst]. apply mv_op.
    + intros i H. unfold refs_of in H. cbn [h_bound h_configs] in H. apply in_or_app.
      apply in_app_or in H as [H|H]; [|now apply hrecord_In in H].
      unfold hbind_args in B. destruct (guard _ TypeErr); [|discriminate]. cbn [bind] in B.
      exact (hbind_params_In _ _ _ _ B i H).
    + intros i H. unfold guard in G. destruct (forallb _ _) eqn:F; [|discriminate].
      rewrite forallb_forall in F. apply F in H. now apply Nat.ltb_lt in H.
  - apply mv_pipe; [intros i []|constructor|intros _ n i []|intros (i & x & H); discriminate].
  - destruct (nth_error (h_pipes m) k) as [[rl rd]|] eqn:K; [|apply mv_same].
    destruct (nth_error (h_ops m) o) eqn:O; [|apply mv_same]. apply add_op_moves; auto.
    apply nth_error_Some. congruence.
  - destruct (nth_error (h_pipes m) k) as [[rl rd]|] eqn:K; [|apply mv_same].
    destruct (nth_error (h_pipes m) q) as [[ql qd]|] eqn:Q; [|apply mv_same].
    apply (iadd_moves_to m _ k); auto. constructor.
  - destruct (nth_error (h_pipes m) k) as [[rl rd]|] eqn:K; [|apply mv_same].
    destruct (nth_error (h_pipes m) q) as [[ql qd]|] eqn:Q; [|apply mv_same].
    destruct (A1 k rl rd K) as [B1 B2]. destruct (A1 q ql qd Q) as [B3 B4].
    pose proof (plus_memory m rl rd ql qd W B1 B2 B3 B4) as P. cbn zeta in P.
    change (new_pipe m (list_at m rl) (dict_at m rd)) with
      (fst (new_pipe m (list_at m rl) (dict_at m rd)), length (h_pipes m)).
    cbn iota beta. destruct (do_iadd (fst _) _ _ _ _) as [m2 [a|e]]; [|apply mv_same].
    destruct (do_iadd m rl rd ql qd) as [m3 [b|e]]; [|contradiction].
    destruct P as (extra & d & G1 & G2 & G3 & -> & _). cbn [fst]. apply mv_pipe; auto.
    + intros i Hi. apply in_app_or in Hi as [Hi|Hi]; [exact (list_at_good m rl W i Hi)|exact (G1 i Hi)].
    + intros (i & x & H); discriminate.
  - destruct (nth_error (h_pipes m) k) as [[rl rd]|] eqn:K; [|apply mv_same].
    apply (mv_pipe m (Copy k) (list_at m rl) (dict_at m rd)); [now apply list_at_good|now apply dict_at_good|intros P; now apply dict_at_positive|].
    intros (i & x & H); discriminate.
  - destruct (nth_error (h_pipes m) k) as [[rl rd]|] eqn:K; [|apply mv_same].
    destruct (get_slice (list_at m rl) sl) as [l|] eqn:S; [|apply mv_same].
    assert (G : good_list m l) by (intros i Hi; apply (list_at_good m rl W); eapply get_slice_In; eauto).
    pose proof (dict_at_good m rd W) as GD.
    destruct (fst (fst sl)) as [start|].
    + apply (mv_pipe m (Slice k sl) l); auto.
      * unfold good_dict. rewrite map_map. exact (filter_good _ (fun kv => start <? snd kv) GD).
      * intros P n i H. apply in_map_iff in H as ([y j] & E1 & H). injection E1 as <- <-.
        apply filter_In in H as [_ H]. apply Z.ltb_lt in H. cbn [snd] in *. lia.
    + destruct (dict_at m rd); [|apply mv_same]. apply (mv_pipe m (Slice k sl) l []); auto. intros _ n i [].
  - destruct (nth_error (h_pipes m) k) as [[rl rd]|] eqn:K; [|apply mv_same].
    destruct (forallb _ l) eqn:F; [|apply mv_same]. cbn [fst]. rewrite (set_lists_dicts m rl rd).
    apply (mv_direct m _ k); auto; [constructor|left; eauto| |now apply dict_at_good|].
    + rewrite forallb_forall in F. intros i Hi. now apply Nat.ltb_lt, F.
    + intros N. exfalso. now apply (N l).
  - destruct (nth_error (h_pipes m) k) as [[rl rd]|] eqn:K; [|apply mv_same].
    destruct (_ =? _)%nat eqn:F; [|apply mv_same]. cbn [fst].
    assert (S : set_dicts m (put (h_dicts m) rd d) = change m rl rd (list_at m rl) d).
    { unfold set_dicts, change, list_at. now rewrite put_self. }
    rewrite S. apply (mv_direct m _ k); auto; [constructor|right; eauto|now apply list_at_good| |].
    + apply Nat.eqb_eq in F. unfold good_dict. apply dedup_length_NoDup. rewrite map_length. exact F.
    + intros N. exfalso. now apply (N d).
  - destruct (nth_error (h_pipes m) k) as [[rl rd]|] eqn:K; [|apply mv_same].
    destruct (run E _ x) as [[[y als] coll]|] eqn:R; [|apply mv_same].
    apply (mv_im m k x rl); auto. rewrite (run_length_ops _ _ _ _ _ _ R), read_list_length; auto. now apply list_at_good.
  - destruct (nth_error (h_ims m) i) as [[rd coll]|]; apply mv_same.
Qed.

Lemma put_inv {A} (l : list A) i x j y : nth_error (put l i x) j = Some y -> y = x \/ nth_error l j = Some y.
Proof.
  intros H. destruct (Nat.eq_dec i j) as [->|]; [|rewrite put_other in H by assumption; now right].
  left. rewrite put_same in H; [congruence|]. rewrite <- (put_length l j x). apply nth_error_Some. congruence.
Qed.

Lemma moves_wf m c m' : wf m -> moves m c m' -> wf m'.
Proof.
  intros W M. destruct W as [[A1 A2] O I K R]. destruct M as [c|x|i x y C S|name args kwargs o R1 R2|c l d GL GN GP N
     |c k rl rd extra d C Kk GL GN GK G|c k rl rd l d C D Kk GL GN E1 E2|k x rl rd coll Kk L].
  - split; auto. split; auto.
  - split; auto; [split; auto|]. intros i o c H1 H2. cbn [set_cells h_cells h_ops] in *. rewrite app_length.
    specialize (R i o c H1 H2). cbn. lia.
  - split; auto; [split; auto|]. intros j o c H1 H2. cbn [set_cells h_cells h_ops] in *. rewrite put_length.
    exact (R j o c H1 H2).
  - split; auto; [split; auto| |].
    + intros r l j H1 H2. cbn [set_ops h_ops]. rewrite app_length. specialize (O r l j H1 H2). cbn. lia.
    + intros i o' c H1 H2. cbn [set_ops h_ops h_cells] in *. apply snoc_inv in H1 as [H1|[_ ->]]; [exact (R i o' c H1 H2)|auto].
  - cbn [new_pipe fst]. split.
    + split; cbn [h_pipes h_lists h_dicts]; rewrite ?app_length; cbn [length].
      * intros k rl rd H. apply snoc_inv in H as [H|[-> H]]; [specialize (A1 k rl rd H); lia|]. injection H as -> ->. lia.
      * intros k k' rl rd rl' rd' H H' E. apply snoc_inv in H as [H|[-> H]]; apply snoc_inv in H' as [H'|[-> H']].
        -- exact (A2 _ _ _ _ _ _ H H' E).
        -- injection H' as -> ->. specialize (A1 _ _ _ H). lia.
        -- injection H as -> ->. specialize (A1 _ _ _ H'). lia.
        -- reflexivity.
    + intros r l' j H1 H2. cbn [h_lists h_ops] in *. apply snoc_inv in H1 as [H1|[_ ->]]; [exact (O r l' j H1 H2)|exact (GL j H2)].
    + intros i rd coll H. cbn [h_ims h_pipes] in *. destruct (I i rd coll H) as (k & rl & Hk). exists k, rl. now apply snoc_old.
    + intros r d' H. cbn [h_dicts] in H. apply snoc_inv in H as [H|[_ ->]]; [exact (K r d' H)|exact GN].
    + exact R.
  - pose proof @put_inv as X. unfold change. split.
    + split; cbn [h_pipes h_lists h_dicts]; rewrite ?put_length; auto.
    + intros r l j H1 H2. cbn [h_lists h_ops] in *. apply X in H1 as [->|H1]; [|exact (O r l j H1 H2)].
      apply in_app_or in H2 as [H2|H2]; [|exact (GL j H2)]. unfold list_at in H2. rewrite nth_nth in H2.
      destruct (nth_error (h_lists m) rl) as [l0|] eqn:L0; [exact (O rl l0 j L0 H2)|destruct H2].
    + exact I.
    + intros r d' H. cbn [h_dicts] in H. apply X in H as [->|H]; [exact GN|exact (K r d' H)].
    + exact R.
  - pose proof @put_inv as X. unfold change. split.
    + split; cbn [h_pipes h_lists h_dicts]; rewrite ?put_length; auto.
    + intros r l' j H1 H2. cbn [h_lists h_ops] in *. apply X in H1 as [->|H1]; [exact (GL j H2)|exact (O r l' j H1 H2)].
    + exact I.
    + intros r d' H. cbn [h_dicts] in H. apply X in H as [->|H]; [exact GN|exact (K r d' H)].
    + exact R.
  - split; auto; [split; auto|]. intros i rd' coll' H. cbn [set_ims h_ims h_pipes] in *.
    apply snoc_inv in H as [H|[_ H]]; [exact (I i rd' coll' H)|]. injection H as -> ->. eauto.
Qed.

Lemma moves_positive m c m' : moves m c m' -> ~ direct c -> numbers_positive m -> numbers_positive m'.
Proof.
  intros M N P. destruct M as [c|x|i x y C S|name args kwargs o R1 R2|c l d GL GN GP NC
     |c k rl rd extra d C Kk GL GN GK G|c k rl rd l d C D Kk GL GN E1 E2|k x rl rd coll Kk L]; auto.
  - intros r d' n i H1 H2. cbn [new_pipe fst h_dicts] in H1. apply snoc_inv in H1 as [H1|[_ ->]]; [exact (P r d' n i H1 H2)|exact (GP P n i H2)].
  - intros r d' n i H1 H2. cbn [change h_dicts] in H1. apply put_inv in H1 as [->|H1]; [exact (proj1 (G P) n i H2)|exact (P r d' n i H1 H2)].
  - contradiction.
Qed.

Lemma after_app E m h c : after_commands E m (h ++ [c]) = fst (exec E (after_commands E m h) c).
Proof. unfold after_commands. now rewrite fold_left_app. Qed.
Lemma after_app2 E m h h' : after_commands E m (h ++ h') = after_commands E (after_commands E m h) h'.
Proof. unfold after_commands. now rewrite fold_left_app. Qed.

Lemma after_wf E h : wf (after_commands E empty_memory h).
Proof.
  induction h as [|c h IH] using rev_ind; [exact wf_empty|]. rewrite after_app.
  eapply moves_wf; [exact IH|now apply exec_moves].
Qed.

Lemma after_positive E h : (forall c, In c h -> ~ direct c) -> numbers_positive (after_commands E empty_memory h).
Proof.
  induction h as [|c h IH] using rev_ind; intros H; [intros r; intros; destruct r; discriminate|]. rewrite after_app.
  eapply moves_positive; [apply exec_moves, after_wf|apply H, in_or_app; right; now left|].
  apply IH. intros c' Hc. apply H, in_or_app. now left.
Qed.

(** ** Reading *)

Lemma read_op_ext m m' o : (forall a, In a (refs_of o) -> now m' a = now m a) -> read_op m' o = read_op m o.
Proof.
  intros H. unfold read_op. f_equal.
  - apply map_ext_in. intros [k a] Ha. cbn [fst snd]. f_equal. apply H. unfold refs_of. apply in_or_app. right.
    apply in_map_iff. now exists (k, a).
  - unfold acts_as. unfold refs_of in H. destruct (h_made o); auto; destruct (h_bound o) as [|a [|b l]]; auto.
    all: rewrite ?(H a) by (now left); rewrite ?(H b) by (right; now left); reflexivity.
Qed.

Lemma now_moves m c m' i : moves m c m' -> (i < length (h_cells m))%nat -> (forall x, c <> SetCell i x) ->
  now m' (Ref i) = now m (Ref i).
Proof.
  intros M L N. destruct M as [c|x|j x y C S|name args kwargs o R1 R2|c l d GL GN GP NC
     |c k rl rd extra d C Kk GL GN GK G|c k rl rd l d C D Kk GL GN E1 E2|k x rl rd coll Kk Lc]; cbn [now]; try reflexivity.
  - cbn [set_cells h_cells]. now rewrite nth_error_app1.
  - cbn [set_cells h_cells]. rewrite put_other; [reflexivity|]. intros ->. now apply (N x).
Qed.

Lemma op_moves m c m' i o : wf m -> moves m c m' -> nth_error (h_ops m) i = Some o ->
  nth_error (h_ops m') i = Some o /\
  ((forall j x, c = SetCell j x -> ~ In (Ref j) (refs_of o)) -> read_op m' o = read_op m o).
Proof.
  intros W M H. split.
  - destruct M; auto. cbn [set_ops h_ops]. now apply snoc_old.
  - intros N. apply read_op_ext. intros [v|j] Ha; [reflexivity|]. apply (now_moves m c m'); [exact M|exact (wf_refs m W i o j H Ha)|].
    intros x ->. exact (N j x eq_refl Ha).
Qed.

Lemma op_at_moves m c m' i x : wf m -> moves m c m' -> ~ changes_cell c -> op_at m i = Some x -> op_at m' i = Some x.
Proof.
  intros W M N H. unfold op_at in *. destruct (nth_error (h_ops m) i) as [o|] eqn:O; [|discriminate]. cbn in H.
  destruct (op_moves m c m' i o W M O) as [-> R]. cbn. rewrite R; [exact H|]. intros j y ->. exfalso. apply N. now exists j, y.
Qed.

Lemma read_list_moves m c m' l : wf m -> moves m c m' -> ~ changes_cell c -> good_list m l -> read_list m' l = read_list m l.
Proof.
  intros W M N. induction l as [|i l IH]; intros G; [reflexivity|]. cbn [read_list flat_map].
  unfold read_list in IH. rewrite IH by (intros j Hj; apply G; now right). f_equal.
  destruct (op_at m i) as [x|] eqn:O.
  - now rewrite (op_at_moves m c m' i x W M N O).
  - exfalso. unfold op_at in O. destruct (nth_error (h_ops m) i) eqn:X; [discriminate|].
    apply nth_error_None in X. specialize (G i (or_introl eq_refl)). lia.
Qed.

(** ** Who changes a pipe *)

Lemma pipe_refs_moves m c m' k r : moves m c m' -> nth_error (h_pipes m) k = Some r -> nth_error (h_pipes m') k = Some r.
Proof. intros M H. destruct M; auto. now apply snoc_old. Qed.

(** the list and the dict of a pipe after one call *)
Lemma parts_moves m c m' k rl rd : wf m -> moves m c m' -> nth_error (h_pipes m) k = Some (rl, rd) ->
  (~ changes_pipe k c -> list_at m' rl = list_at m rl /\ dict_at m' rd = dict_at m rd) /\
  (~ direct c -> (length (list_at m rl) <= length (list_at m' rl))%nat) /\
  ((forall d, c <> SetChecks k d) -> kept (dict_at m rd) (dict_at m' rd)) /\
  (numbers_positive m -> ~ direct c -> grown (length (list_at m rl)) (dict_at m rd) (dict_at m' rd)).
Proof.
  intros W M K. pose proof (wf_apart m W) as [A1 A2]. destruct (A1 k rl rd K) as [B1 B2].
  assert (S : forall m', list_at m' rl = list_at m rl -> dict_at m' rd = dict_at m rd ->
    (~ changes_pipe k c -> list_at m' rl = list_at m rl /\ dict_at m' rd = dict_at m rd) /\
    (~ direct c -> (length (list_at m rl) <= length (list_at m' rl))%nat) /\
    ((forall d, c <> SetChecks k d) -> kept (dict_at m rd) (dict_at m' rd)) /\
    (numbers_positive m -> ~ direct c -> grown (length (list_at m rl)) (dict_at m rd) (dict_at m' rd))).
  { intros m2 -> ->. split; [auto|]. split; [lia|]. split; [intros _; apply kept_same|intros _ _; apply grown_same]. }
  destruct M as [c|x|i x y C X|name args kwargs o R1 R2|c l d GL GN GP NC
     |c k' rl' rd' extra d C K' GL GN GK G|c k' rl' rd' l d C D K' GL GN E1 E2|k' x rl' rd' coll K' L]; try (now apply S).
  - apply S; unfold list_at, dict_at; cbn [new_pipe fst h_lists h_dicts]; now rewrite app_nth1.
  - destruct (Nat.eq_dec k k') as [<-|NE].
    + rewrite K in K'. injection K' as <- <-. split; [contradiction|].
      unfold list_at at 2, dict_at at 2 4, change. cbn [h_lists h_dicts]. rewrite !nth_nth, !put_same by assumption.
      split; [rewrite app_length; lia|]. split; [intros _; exact GK|intros P _; exact (proj2 (G P))].
    + apply S; unfold list_at, dict_at, change; cbn [h_lists h_dicts]; rewrite !nth_nth, put_other; auto;
        intros ->; apply NE; symmetry; eapply A2; eauto.
  - destruct (Nat.eq_dec k k') as [<-|NE].
    + rewrite K in K'. injection K' as <- <-. split; [contradiction|]. split; [contradiction|]. split; [|contradiction].
      intros H. rewrite (E2 H). unfold change, dict_at at 2. cbn [h_dicts]. rewrite nth_nth, put_same by assumption. apply kept_same.
    + apply S; unfold list_at, dict_at, change; cbn [h_lists h_dicts]; rewrite !nth_nth, put_other; auto;
        intros ->; apply NE; symmetry; eapply A2; eauto.
Qed.

Lemma pipe_at_moves m c m' k p : wf m -> moves m c m' -> ~ changes_pipe k c -> ~ changes_cell c ->
  pipe_at m k = Some p -> pipe_at m' k = Some p.
Proof.
  intros W M N1 N2 H. unfold pipe_at in *. destruct (nth_error (h_pipes m) k) as [[rl rd]|] eqn:K; [|discriminate].
  rewrite (pipe_refs_moves m c m' k _ M K). cbn [option_map fst snd] in *.
  destruct (parts_moves m c m' k rl rd W M K) as [P _]. destruct (P N1) as [-> ->].
  rewrite (read_list_moves m c m' _ W M N2) by (now apply list_at_good). exact H.
Qed.

Theorem others_unchanged E h c k p : has_pipe E h k p -> ~ changes_pipe k c -> ~ changes_cell c -> has_pipe E (h ++ [c]) k p.
Proof.
  intros H N1 N2. unfold has_pipe in *. rewrite after_app. eapply pipe_at_moves; eauto; [apply after_wf|apply exec_moves, after_wf].
Qed.

Theorem ops_unchanged E h c i o : has_op E h i o -> ~ changes_cell c -> has_op E (h ++ [c]) i o.
Proof.
  intros H N. unfold has_op in *. rewrite after_app. eapply op_at_moves; eauto; [apply after_wf|apply exec_moves, after_wf].
Qed.

(** ** What the calls do *)

Definition dummy : opobj := mkObj [] [] Lowercase.
Definition the_op (m : memory) (i : nat) : opobj := match op_at m i with Some o => o | None => dummy end.

Lemma read_list_map m l : good_list m l -> read_list m l = map (the_op m) l.
Proof.
  induction l as [|i l IH]; intros G; [reflexivity|]. cbn [read_list flat_map map]. unfold read_list in IH.
  rewrite IH by (intros j Hj; apply G; now right). unfold the_op. destruct (op_at m i) as [x|] eqn:O; [reflexivity|].
  exfalso. unfold op_at in O. destruct (nth_error (h_ops m) i) eqn:X; [discriminate|].
  apply nth_error_None in X. specialize (G i (or_introl eq_refl)). lia.
Qed.

Lemma acts_types m o : input_type (acts_as m o) = input_type (h_made o) /\ output_type (acts_as m o) = output_type (h_made o).
Proof.
  unfold acts_as. destruct (h_made o); auto; destruct (h_bound o) as [|a [|b l]]; auto; try (destruct (as_index_dict _); auto);
    destruct (as_vocab _); auto.
Qed.
Lemma hin_at m i : (i < length (h_ops m))%nat -> hin m i = Some (in_type (the_op m i)) /\ hout m i = Some (out_type (the_op m i)).
Proof.
  intros H. unfold hin, hout, the_op, op_at. destruct (nth_error (h_ops m) i) as [o|] eqn:O.
  - cbn [option_map]. unfold in_type, out_type, read_op. cbn [o_op]. destruct (acts_types m o) as [-> ->]. auto.
  - apply nth_error_None in O. lia.
Qed.

Lemma last_opt_map {A B} (f : A -> B) l : last_opt (map f l) = option_map f (last_opt l).
Proof. rewrite !last_opt_nth, map_length. apply nth_error_map. Qed.
Lemma last_opt_In {A} (l : list A) x : last_opt l = Some x -> In x l.
Proof. rewrite last_opt_nth. apply nth_error_In. Qed.

Definition answered (r : option exn) : res answer := match r with None => Ok Nothing | Some e => Err e end.

Lemma pipe_at_inv m k p : pipe_at m k = Some p -> exists rl rd, nth_error (h_pipes m) k = Some (rl, rd) /\
  p = mkPipe (read_list m (list_at m rl)) (dict_at m rd).
Proof.
  unfold pipe_at. destruct (nth_error (h_pipes m) k) as [[rl rd]|]; [|discriminate]. cbn. intros H. injection H as <-. eauto.
Qed.

(** the changed pipe, read afterwards *)
Lemma change_at m k rl rd l d : wf m -> nth_error (h_pipes m) k = Some (rl, rd) ->
  pipe_at (change m rl rd l d) k = Some (mkPipe (read_list m l) d).
Proof.
  intros W K. destruct (wf_apart m W) as [A1 _]. destruct (A1 k rl rd K) as [B1 B2].
  unfold pipe_at, change. cbn [h_pipes]. rewrite K. cbn [option_map fst snd]. do 2 f_equal.
  - unfold list_at. cbn [h_lists]. rewrite nth_nth, put_same by exact B1. reflexivity.
  - unfold dict_at. cbn [h_dicts]. rewrite nth_nth, put_same by exact B2. reflexivity.
Qed.

Lemma add_op_does m k o p x ck : wf m -> pipe_at m k = Some p -> op_at m o = Some x ->
  forall E, pipe_at (fst (exec E m (AddOp k o ck))) k = Some (fst (add_op p x ck)) /\
  snd (exec E m (AddOp k o ck)) = answered (snd (add_op p x ck)).
Proof.
  intros W HP HO E. apply pipe_at_inv in HP as (rl & rd & K & ->). cbn [exec]. rewrite K.
  assert (O : (o < length (h_ops m))%nat).
  { apply nth_error_Some. intros N. unfold op_at in HO. rewrite N in HO. discriminate. }
  destruct (nth_error (h_ops m) o) eqn:X; [clear X|apply nth_error_None in X; lia].
  pose proof (list_at_good m rl W) as GL. pose proof (wf_apart m W) as [A1 _]. destruct (A1 k rl rd K) as [B1 B2].
  assert (RL : read_list m (list_at m rl ++ [o]) = read_list m (list_at m rl) ++ [x]).
  { unfold read_list. rewrite flat_map_app. cbn [flat_map]. now rewrite HO. }
  assert (LEN : length (read_list m (list_at m rl)) = length (list_at m rl)) by (now apply read_list_length).
  unfold do_add_op, add_op. cbn [steps checkpoints pipe_output_type].
  assert (T : match last_opt (list_at m rl) with Some a => differ (hin m o) (hout m a) | None => false end =
    match pipe_output_type (mkPipe (read_list m (list_at m rl)) (dict_at m rd)) with
    | Ok t => negb (seqtype_eqb (in_type x) t) | Err _ => false end).
  { unfold pipe_output_type. cbn [steps]. rewrite read_list_map, last_opt_map by exact GL.
    destruct (last_opt (list_at m rl)) as [a|] eqn:L; [|reflexivity]. cbn [option_map].
    destruct (hin_at m o O) as [-> _]. destruct (hin_at m a (GL a (last_opt_In _ _ L))) as [_ ->]. cbn [differ].
    unfold the_op at 1. now rewrite HO. }
  rewrite T. destruct (match pipe_output_type _ with Ok _ => _ | Err _ => _ end).
  { cbn [fst snd answered]. split; [|reflexivity]. unfold pipe_at. now rewrite K. }
  assert (U : pipe_at (set_lists m (put (h_lists m) rl (list_at m rl ++ [o]))) k =
              Some (mkPipe (read_list m (list_at m rl) ++ [x]) (dict_at m rd))).
  { rewrite (set_lists_dicts m rl rd), (change_at m k rl rd) by assumption. now rewrite RL. }
  destruct ck as [name|]; [|cbn [fst snd]; split; [exact U|reflexivity]].
  change (dict_at (set_lists m _) rd) with (dict_at m rd).
  destruct (dict_mem (dict_at m rd) name); cbn [fst snd]; (split; [|reflexivity]); [exact U|].
  change (set_dicts (set_lists m ?l) ?d) with (mkM (h_cells m) (h_ops m) l d (h_pipes m) (h_ims m)).
  cbn [set_lists h_dicts].
  assert (N : length (list_at (set_lists m (put (h_lists m) rl (list_at m rl ++ [o]))) rl) = length (read_list m (list_at m rl) ++ [x])).
  { unfold list_at at 1. cbn [set_lists h_lists]. rewrite nth_nth, put_same, !app_length by exact B1. cbn. lia. }
  rewrite N. rewrite <- RL. exact (change_at m k rl rd _ _ W K).
Qed.

Lemma iadd_does m k q p r : wf m -> pipe_at m k = Some p -> pipe_at m q = Some r ->
  forall E, pipe_at (fst (exec E m (IAdd k q))) k = Some (fst (iadd p r)) /\
  snd (exec E m (IAdd k q)) = answered (snd (iadd p r)).
Proof.
  intros W HP HQ E. apply pipe_at_inv in HP as (rl & rd & K & ->). apply pipe_at_inv in HQ as (ql & qd & Q & ->).
  cbn [exec]. rewrite K, Q. pose proof (list_at_good m rl W) as GL. pose proof (list_at_good m ql W) as GQ.
  pose proof (wf_apart m W) as [A1 _]. destruct (A1 k rl rd K) as [B1 B2].
  unfold do_iadd, iadd, pipe_output_type, pipe_input_type. cbn [steps checkpoints].
  assert (SAME : pipe_at m k = Some (mkPipe (read_list m (list_at m rl)) (dict_at m rd))) by (unfold pipe_at; now rewrite K).
  rewrite (read_list_map m (list_at m rl)), last_opt_map by exact GL.
  destruct (last_opt (list_at m rl)) as [a|] eqn:L; cbn [option_map].
  2:{ cbn [fst snd answered]. split; [rewrite <- (read_list_map m) by exact GL; exact SAME|reflexivity]. }
  rewrite (read_list_map m (list_at m ql)) by exact GQ.
  destruct (list_at m ql) as [|b l] eqn:LQ; cbn [map].
  { cbn [fst snd answered]. split; [rewrite <- (read_list_map m) by exact GL; exact SAME|reflexivity]. }
  rewrite <- LQ in *.
  destruct (hin_at m a (GL a (last_opt_In _ _ L))) as [_ ->].
  assert (Hb : In b (list_at m ql)) by (rewrite LQ; now left). destruct (hin_at m b (GQ b Hb)) as [-> _]. cbn [differ].
  destruct (negb _).
  { cbn [fst snd answered]. split; [rewrite <- (read_list_map m) by exact GL; exact SAME|reflexivity]. }
  destruct (existsb _ _).
  { cbn [fst snd answered]. split; [rewrite <- (read_list_map m) by exact GL; exact SAME|reflexivity]. }
  cbn [fst snd answered]. split; [|reflexivity].
  change (set_dicts (set_lists m ?l) ?d) with (mkM (h_cells m) (h_ops m) l d (h_pipes m) (h_ims m)).
  cbn [set_lists h_dicts].
  change (dict_at (mkM (h_cells m) _ _ _ _ _) rd) with (dict_at m rd). change (dict_at (mkM (h_cells m) _ _ _ _ _) qd) with (dict_at m qd).
  change (mkM (h_cells m) (h_ops m) (put (h_lists m) rl ?x) (put (h_dicts m) rd ?y) (h_pipes m) (h_ims m)) with (change m rl rd x y).
  rewrite (change_at m k rl rd) by assumption.
  assert (RL : read_list m (list_at m rl ++ list_at m ql) = map (the_op m) (list_at m rl) ++ the_op m b :: map (the_op m) l).
  { rewrite read_list_map.
    - rewrite map_app. f_equal. now rewrite LQ.
    - intros i Hi. apply in_app_or in Hi as [Hi|Hi]; auto. }
  rewrite RL. do 3 f_equal. apply map_ext. intros [n i]. cbn [fst snd]. do 2 f_equal. f_equal.
  unfold list_at at 1. cbn [set_lists h_lists]. rewrite nth_nth, put_same, !app_length, map_length by exact B1. f_equal.
  rewrite LQ. cbn [length]. now rewrite map_length.
Qed.

Lemma new_at m l d : good_list m l -> forall p, p = mkPipe (read_list m l) d ->
  pipe_at (fst (new_pipe m l d)) (length (h_pipes m)) = Some p /\ pipe_at m (length (h_pipes m)) = None.
Proof.
  intros G p ->. split.
  - unfold pipe_at. cbn [new_pipe fst h_pipes]. rewrite snoc_new. cbn [option_map fst snd]. do 2 f_equal.
    + unfold list_at. cbn [h_lists]. now rewrite nth_nth, snoc_new.
    + unfold dict_at. cbn [h_dicts]. now rewrite nth_nth, snoc_new.
  - unfold pipe_at. assert (N : nth_error (h_pipes m) (length (h_pipes m)) = None) by (apply nth_error_None; lia). now rewrite N.
Qed.

Lemma plus_does m k q p r : wf m -> pipe_at m k = Some p -> pipe_at m q = Some r -> forall E,
  match concat_pipes p r with
  | Ok s => exists n, snd (exec E m (Plus k q)) = Ok (New n) /\ pipe_at m n = None /\
              pipe_at (fst (exec E m (Plus k q))) n = Some s
  | Err e => snd (exec E m (Plus k q)) = Err e /\ fst (exec E m (Plus k q)) = m
  end.
Proof.
  intros W HP HQ E. pose proof (iadd_does m k q p r W HP HQ E) as [I1 I2].
  apply pipe_at_inv in HP as (rl & rd & K & ->). apply pipe_at_inv in HQ as (ql & qd & Q & ->).
  pose proof (wf_apart m W) as [A1 _]. destruct (A1 k rl rd K) as [B1 B2]. destruct (A1 q ql qd Q) as [B3 B4].
  cbn [exec] in *. rewrite K, Q in *.
  pose proof (plus_memory m rl rd ql qd W B1 B2 B3 B4) as P. cbn zeta in P.
  change (new_pipe m (list_at m rl) (dict_at m rd)) with
    (fst (new_pipe m (list_at m rl) (dict_at m rd)), length (h_pipes m)).
  cbn iota beta. unfold concat_pipes, copy. cbn [steps checkpoints].
  destruct (iadd _ _) as [s [e|]].
  - cbn [fst snd answered] in I2. destruct (do_iadd m rl rd ql qd) as [m3 [b|e']]; [discriminate|]. cbn [snd] in I2.
    destruct (do_iadd (fst _) _ _ _ _) as [m2 [a|e2]]; [contradiction|]. cbn [snd fst]. split; [congruence|reflexivity].
  - cbn [fst snd answered] in I1, I2. destruct (do_iadd m rl rd ql qd) as [m3 [b|e']]; [|discriminate]. cbn [snd fst] in I1, I2.
    destruct (do_iadd (fst _) _ _ _ _) as [m2 [a|e2]]; [|contradiction].
    destruct P as (extra & d & G1 & G2 & G3 & -> & C). cbn [fst] in C. subst m3. rewrite (change_at m k rl rd) in I1 by assumption.
    exists (length (h_pipes m)). cbn [snd fst]. split; [reflexivity|].
    destruct (new_at m (list_at m rl ++ extra) d) with (p := s) as [N1 N2].
    + intros i Hi. apply in_app_or in Hi as [Hi|Hi]; [exact (list_at_good m rl W i Hi)|exact (G1 i Hi)].
    + congruence.
    + split; [exact N2|exact N1].
Qed.

Lemma copy_does m k p : wf m -> pipe_at m k = Some p -> forall E, exists n,
  snd (exec E m (Copy k)) = Ok (New n) /\ pipe_at m n = None /\ pipe_at (fst (exec E m (Copy k))) n = Some p.
Proof.
  intros W HP E. apply pipe_at_inv in HP as (rl & rd & K & ->). cbn [exec]. rewrite K.
  exists (length (h_pipes m)).
  destruct (new_at m (list_at m rl) (dict_at m rd) (list_at_good m rl W) _ eq_refl) as [N1 N2].
  split; [reflexivity|]. split; [exact N2|exact N1].
Qed.

Lemma mapM_comm {A B C} (f : A -> res B) (g : A -> res C) (h : B -> C) l :
  (forall x, g x = match f x with Ok y => Ok (h y) | Err e => Err e end) ->
  mapM g l = match mapM f l with Ok r => Ok (map h r) | Err e => Err e end.
Proof.
  intros H. induction l as [|x l IH]; [reflexivity|]. cbn [mapM]. rewrite H. destruct (f x); [|reflexivity]. cbn [bind].
  rewrite IH. destruct (mapM f l); reflexivity.
Qed.
Lemma get_slice_map {A B} (h : A -> B) l sl :
  get_slice (map h l) sl = match get_slice l sl with Ok r => Ok (map h r) | Err e => Err e end.
Proof.
  destruct sl as [[start stop] step]. unfold get_slice. destruct (guard _ _); [|reflexivity]. cbn [bind].
  rewrite map_length. destruct (slice_bounds _ _ _ _) as [i b]. apply mapM_comm.
  intros x. unfold get_item. rewrite map_length. destruct (_ && _)%bool; [|reflexivity]. rewrite nth_error_map.
  destruct (nth_error l _); reflexivity.
Qed.

Lemma slice_does m k p sl : wf m -> pipe_at m k = Some p -> forall E,
  match getitem_slice p sl with
  | Ok s => exists n, snd (exec E m (Slice k sl)) = Ok (New n) /\ pipe_at m n = None /\
              pipe_at (fst (exec E m (Slice k sl))) n = Some s
  | Err e => snd (exec E m (Slice k sl)) = Err e /\ fst (exec E m (Slice k sl)) = m
  end.
Proof.
  intros W HP E. apply pipe_at_inv in HP as (rl & rd & K & ->). cbn [exec]. rewrite K.
  pose proof (list_at_good m rl W) as GL. unfold getitem_slice. cbn [steps checkpoints].
  rewrite (read_list_map m (list_at m rl)), get_slice_map by exact GL.
  destruct (get_slice (list_at m rl) sl) as [l|e] eqn:S; [|cbn; auto]. cbn [bind].
  assert (G : good_list m l) by (intros i Hi; apply GL; eapply get_slice_In; eauto).
  destruct sl as [[start stop] step]. cbn [fst].
  destruct start as [start|].
  - exists (length (h_pipes m)). cbn [fst snd new_pipe]. split; [reflexivity|].
    destruct (new_at m l (map (fun kv => (fst kv, snd kv - start)) (filter (fun kv => start <? snd kv) (dict_at m rd))) G _ eq_refl) as [N1 N2].
    split; [exact N2|]. rewrite <- (read_list_map m l G). exact N1.
  - destruct (dict_at m rd); [|cbn; auto].
    exists (length (h_pipes m)). cbn [fst snd new_pipe]. split; [reflexivity|].
    destruct (new_at m l [] G _ eq_refl) as [N1 N2]. split; [exact N2|]. rewrite <- (read_list_map m l G). exact N1.
Qed.

Lemma new_pipe_does m E : exists n, snd (exec E m NewPipe) = Ok (New n) /\ pipe_at m n = None /\
  pipe_at (fst (exec E m NewPipe)) n = Some pipe_new.
Proof.
  exists (length (h_pipes m)). cbn [exec new_pipe fst snd]. split; [reflexivity|].
  destruct (new_at m [] [] ltac:(intros i []) _ eq_refl) as [N1 N2]. split; [exact N2|exact N1].
Qed.

Lemma run_does m k p x E : pipe_at m k = Some p ->
  match transform_sequence E p x with
  | Ok (y, als, coll) => exists i, snd (exec E m (Run k x)) = Ok (Ran y als i) /\ exists rl rd,
      nth_error (h_pipes m) k = Some (rl, rd) /\ nth_error (h_ims (fst (exec E m (Run k x)))) i = Some (rd, coll)
  | Err e => snd (exec E m (Run k x)) = Err e
  end.
Proof.
  intros HP. apply pipe_at_inv in HP as (rl & rd & K & ->). cbn [exec]. rewrite K. unfold transform_sequence. cbn [steps].
  destruct (run E _ x) as [[[y als] coll]|e]; [|reflexivity]. exists (length (h_ims m)). split; [reflexivity|].
  exists rl, rd. split; [reflexivity|]. cbn [fst set_ims h_ims]. apply snoc_new.
Qed.


(** ** Histories *)

Lemma grown_trans n n' d d' d'' : (n <= n')%nat -> grown n d d' -> kept d' d'' -> grown n' d' d'' -> grown n d d''.
Proof.
  intros L H2 H3 H4 x i N S. destruct (dict_get d' x) as [j|] eqn:G.
  - pose proof (H3 _ _ G). pose proof (H2 _ _ N G). assert (i = j) as -> by congruence. assumption.
  - specialize (H4 _ _ G S). lia.
Qed.

Lemma after_grown E h2 : forall m k rl rd, wf m -> nth_error (h_pipes m) k = Some (rl, rd) ->
  wf (after_commands E m h2) /\
  nth_error (h_pipes (after_commands E m h2)) k = Some (rl, rd) /\
  ((forall d, ~ In (SetChecks k d) h2) -> kept (dict_at m rd) (dict_at (after_commands E m h2) rd)) /\
  (numbers_positive m -> (forall c, In c h2 -> ~ direct c) ->
   grown (length (list_at m rl)) (dict_at m rd) (dict_at (after_commands E m h2) rd)).
Proof.
  induction h2 as [|c h2 IH]; intros m k rl rd W K.
  - cbn. split; [exact W|]. split; [exact K|]. split; [intros _; apply kept_same|intros _ _; apply grown_same].
  - cbn [after_commands fold_left]. fold (after_commands E (fst (exec E m c)) h2).
    pose proof (exec_moves E m c W) as M. destruct (parts_moves m c _ k rl rd W M K) as (_ & P1 & P2 & P3).
    destruct (IH (fst (exec E m c)) k rl rd (moves_wf _ _ _ W M) (pipe_refs_moves _ _ _ _ _ M K)) as (I1 & I2 & I3 & I4).
    split; [exact I1|]. split; [exact I2|]. split.
    + intros N x i H. apply I3; [intros d Hd; apply (N d); now right|]. apply P2; [|exact H]. intros d ->. apply (N d). now left.
    + intros P N. assert (ND : ~ direct c) by (apply N; now left).
      assert (N2 : forall c, In c h2 -> ~ direct c) by (intros c' Hc; apply N; now right).
      eapply grown_trans; [exact (P1 ND)|exact (P3 P ND)| |apply I4; auto; exact (moves_positive _ _ _ M ND P)].
      apply I3. intros d Hd. apply (N2 _ Hd). right. eauto.
Qed.

Lemma after_ims E h2 : forall m i r, wf m -> nth_error (h_ims m) i = Some r -> nth_error (h_ims (after_commands E m h2)) i = Some r.
Proof.
  induction h2 as [|c h2 IH]; intros m i r W H; [exact H|].
  cbn [after_commands fold_left]. fold (after_commands E (fst (exec E m c)) h2).
  pose proof (exec_moves E m c W) as M. apply IH; [exact (moves_wf _ _ _ W M)|]. destruct M; auto. now apply snoc_old.
Qed.

Lemma after_cons E m c h : after_commands E m (c :: h) = after_commands E (fst (exec E m c)) h.
Proof. reflexivity. Qed.

Theorem add_op_shared E h k o ck p x : has_pipe E h k p -> has_op E h o x ->
  has_pipe E (h ++ [AddOp k o ck]) k (fst (add_op p x ck)) /\
  gives E h (AddOp k o ck) = match snd (add_op p x ck) with None => Ok Nothing | Some e => Err e end.
Proof. intros H1 H2. unfold has_pipe, gives. rewrite after_app. apply add_op_does; auto. apply after_wf. Qed.

Theorem iadd_shared E h k q p r : has_pipe E h k p -> has_pipe E h q r ->
  has_pipe E (h ++ [IAdd k q]) k (fst (iadd p r)) /\
  gives E h (IAdd k q) = match snd (iadd p r) with None => Ok Nothing | Some e => Err e end.
Proof. intros H1 H2. unfold has_pipe, gives. rewrite after_app. apply iadd_does; auto. apply after_wf. Qed.

Lemma new_only E h c n : gives E h c = Ok (New n) -> pipe_at (after_commands E empty_memory h) n = None ->
  (forall k, ~ changes_pipe k c) -> ~ changes_cell c -> new_pipe_only E h c n.
Proof.
  intros H1 H2 N1 N2. split; [exact H1|]. split; [intros p Hp; unfold has_pipe in Hp; congruence|].
  intros k p H. apply others_unchanged; auto.
Qed.
Ltac not_changing := repeat (let k := fresh in intros k); match goal with H : changes_pipe _ _ |- _ => inversion H | H : changes_cell _ |- _ => destruct H as (? & ? & ?); discriminate end.

Theorem plus_fresh E h k q p r : has_pipe E h k p -> has_pipe E h q r ->
  match concat_pipes p r with
  | Ok s => exists n, new_pipe_only E h (Plus k q) n /\ has_pipe E (h ++ [Plus k q]) n s
  | Err e => gives E h (Plus k q) = Err e
  end.
Proof.
  intros H1 H2. pose proof (plus_does _ k q p r (after_wf E h) H1 H2 E) as P. destruct (concat_pipes p r) as [s|e]; [|apply P].
  destruct P as (n & P1 & P2 & P3). exists n. split; [apply new_only; auto; not_changing|]. unfold has_pipe. now rewrite after_app.
Qed.

Theorem copy_fresh E h k p : has_pipe E h k p ->
  exists n, new_pipe_only E h (Copy k) n /\ has_pipe E (h ++ [Copy k]) n p.
Proof.
  intros H1. destruct (copy_does _ k p (after_wf E h) H1 E) as (n & P1 & P2 & P3). exists n.
  split; [apply new_only; auto; not_changing|]. unfold has_pipe. now rewrite after_app.
Qed.

Theorem slice_fresh E h k p sl : has_pipe E h k p ->
  match getitem_slice p sl with
  | Ok s => exists n, new_pipe_only E h (Slice k sl) n /\ has_pipe E (h ++ [Slice k sl]) n s
  | Err e => gives E h (Slice k sl) = Err e
  end.
Proof.
  intros H1. pose proof (slice_does _ k p sl (after_wf E h) H1 E) as P. destruct (getitem_slice p sl) as [s|e]; [|apply P].
  destruct P as (n & P1 & P2 & P3). exists n. split; [apply new_only; auto; not_changing|]. unfold has_pipe. now rewrite after_app.
Qed.

Theorem pipe_fresh E h : exists n, new_pipe_only E h NewPipe n /\ has_pipe E (h ++ [NewPipe]) n pipe_new.
Proof.
  destruct (new_pipe_does (after_commands E empty_memory h) E) as (n & P1 & P2 & P3). exists n.
  split; [apply new_only; auto; not_changing|]. unfold has_pipe. now rewrite after_app.
Qed.

Theorem run_shared E h k p x : has_pipe E h k p ->
  match transform_sequence E p x with
  | Ok (y, als, coll) => exists i, gives E h (Run k x) = Ok (Ran y als i)
  | Err e => gives E h (Run k x) = Err e
  end.
Proof.
  intros H. pose proof (run_does _ k p x E H) as R. destruct (transform_sequence E p x) as [[[y als] coll]|e]; [|exact R].
  destruct R as (i & R & _). now exists i.
Qed.

(** the pipe of a Run, at a later time *)
Lemma run_later E h k p x y als coll i h2 : has_pipe E h k p -> transform_sequence E p x = Ok (y, als, coll) ->
  gives E h (Run k x) = Ok (Ran y als i) ->
  exists rd d', let m2 := after_commands E empty_memory (h ++ Run k x :: h2) in
    wf m2 /\ nth_error (h_ims m2) i = Some (rd, coll) /\ dict_at m2 rd = d' /\
    (forall p2, pipe_at m2 k = Some p2 -> checkpoints p2 = d') /\ (exists p2, pipe_at m2 k = Some p2) /\
    ((forall d, ~ In (SetChecks k d) h2) -> kept (checkpoints p) d') /\
    ((forall c, In c (h ++ h2) -> ~ direct c) -> grown (length (steps p)) (checkpoints p) d') /\ NoDup (map fst (checkpoints p)) /\ length coll = S (length (steps p)).
Proof.
  intros HP T G. pose proof (after_wf E h) as W. pose proof (run_does _ k p x E HP) as R. rewrite T in R.
  destruct R as (i' & R1 & rl & rd & K & I). assert (i' = i) as -> by (unfold gives in G; congruence).
  unfold has_pipe in HP. pose proof HP as HP'. apply pipe_at_inv in HP' as (rl' & rd' & K' & ->).
  rewrite K in K'. injection K' as <- <-.
  rewrite after_app2, after_cons. set (m := after_commands E empty_memory h) in *.
  pose proof (exec_moves E m (Run k x) W) as M. pose proof (moves_wf _ _ _ W M) as W1.
  assert (K1 := pipe_refs_moves _ _ _ _ _ M K).
  assert (ND : ~ direct (Run k x)) by (intros [(? & ? & ?)|(? & ? & ?)]; discriminate).
  destruct (parts_moves m _ _ k rl rd W M K) as (_ & L1 & G1 & G3).
  destruct (after_grown E h2 _ k rl rd W1 K1) as (W2 & K2 & G2 & G4).
  exists rd, (dict_at (after_commands E (fst (exec E m (Run k x))) h2) rd). cbn zeta.
  split; [exact W2|]. split; [now apply after_ims|]. split; [reflexivity|]. unfold pipe_at. rewrite K2. cbn [option_map fst snd].
  split; [intros p2 H2; injection H2 as <-; reflexivity|]. split; [eauto|]. cbn [steps checkpoints].
  rewrite read_list_length by (now apply list_at_good).
  split.
  { intros N a b H. apply (G2 N). apply G1; [discriminate|exact H]. }
  split.
  { intros N. assert (P : numbers_positive m) by (apply after_positive; intros c Hc; apply N, in_or_app; now left).
    assert (N2 : forall c, In c h2 -> ~ direct c) by (intros c Hc; apply N, in_or_app; now right).
    eapply grown_trans; [exact (L1 ND)|exact (G3 P ND)| |apply G4; auto; exact (moves_positive _ _ _ M ND P)].
    apply G2. intros d Hd. apply (N2 _ Hd). right. eauto. }
  split; [apply (dict_at_good m rd W)|].
  unfold transform_sequence in T. cbn [steps] in T. rewrite (run_length_ops _ _ _ _ _ _ T), read_list_length; auto. now apply list_at_good.
Qed.

Theorem intermediate_follows E h k p x y als coll i h2 p2 name : has_pipe E h k p ->
  transform_sequence E p x = Ok (y, als, coll) -> gives E h (Run k x) = Ok (Ran y als i) ->
  has_pipe E (h ++ Run k x :: h2) k p2 ->
  gives E (h ++ Run k x :: h2) (Get i name) = (z <- get_from_checkpoint (checkpoints p2) coll name ;; Ok (Item z)).
Proof.
  intros HP T G HP2. destruct (run_later E h k p x y als coll i h2 HP T G) as (rd & d' & _ & I & D & C & _).
  unfold gives. cbn [exec]. rewrite I. cbn [snd]. now rewrite D, (C p2 HP2).
Qed.

Theorem intermediate_keeps E h k p x y als coll i h2 : has_pipe E h k p ->
  transform_sequence E p x = Ok (y, als, coll) -> gives E h (Run k x) = Ok (Ran y als i) ->
  ((forall d, ~ In (SetChecks k d) h2) -> forall name j, In (name, j) (checkpoints p) ->
     gives E (h ++ Run k x :: h2) (Get i name) = (z <- get_item coll j ;; Ok (Item z))) /\
  (forall name, ~ In name (map fst (checkpoints p)) -> forall p2, has_pipe E (h ++ Run k x :: h2) k p2 ->
     (~ In name (map fst (checkpoints p2)) -> gives E (h ++ Run k x :: h2) (Get i name) = Err KeyErr) /\
     ((forall c, In c (h ++ h2) -> ~ direct c) -> In name (map fst (checkpoints p2)) ->
      gives E (h ++ Run k x :: h2) (Get i name) = Err IndexErr)).
Proof.
  intros HP T G. destruct (run_later E h k p x y als coll i h2 HP T G) as (rd & d' & W & I & D & C & _ & G1 & G2 & N & L).
  unfold gives at 1. unfold gives. cbn [exec]. rewrite I. cbn [snd]. rewrite D. unfold get_from_checkpoint. split.
  - intros ND name j H. rewrite (G1 ND name j); [reflexivity|]. now apply dict_get_In_NoDup.
  - intros name H p2 H2. rewrite (C p2 H2). assert (dict_get (checkpoints p) name = None) as X by (now apply dict_get_None). split.
    + intros Y. apply dict_get_None in Y. now rewrite Y.
    + intros ND Y. destruct (dict_get d' name) as [j|] eqn:J; [|apply dict_get_None in J; contradiction].
      specialize (G2 ND name j X J). unfold get_item. rewrite L.
      destruct (j <? 0) eqn:J0; [apply Z.ltb_lt in J0; lia|].
      destruct ((0 <=? j) && (j <? Z.of_nat (S (length (steps p)))))%bool eqn:B; [|reflexivity].
      apply andb_true_iff in B as [_ B]. apply Z.ltb_lt in B. lia.
Qed.
