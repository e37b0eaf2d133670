(** How lists and nested dicts are shown in the text of an operator. *)

From Coq Require Import String.
From Verif Require Import Py PyFacts Edit Ops Json JsonAscii Elements SpecElements ExpandProofs Pipe TextForms SpecText.
From Coq Require Import List Lia Permutation Sorting.Sorted.
Local Open Scope Z_scope.

Definition key_le (a b : str * str) : Prop := str_le (fst a) (fst b).

Lemma key_leb_spec a b : TextForms.str_leb a b = true -> str_le a b.
Proof.
  revert b; induction a as [|x a IH]; intros [|y b]; cbn; try discriminate; try (intros _; apply le_nil).
  rewrite Bool.orb_true_iff, Bool.andb_true_iff, Z.ltb_lt, Z.eqb_eq. intros [H|(-> & H)]; [now apply le_lt|apply le_cons; now apply IH].
Qed.
Lemma key_leb_total a b : TextForms.str_leb a b = false -> str_le b a.
Proof.
  revert b; induction a as [|x a IH]; intros [|y b]; cbn; try discriminate; try (intros _; apply le_nil).
  rewrite Bool.orb_false_iff, Bool.andb_false_iff, Z.ltb_ge, Z.eqb_neq. intros (H & [N|H']); [apply le_lt; lia|].
  destruct (Z.eq_dec x y) as [->|N]; [apply le_cons; now apply IH|apply le_lt; lia].
Qed.
Lemma insert_key_perm x l : Permutation (insert_key x l) (x :: l).
Proof. induction l as [|y l IH]; cbn; [reflexivity|]. destruct (TextForms.str_leb _ _); [reflexivity|]. rewrite IH. apply perm_swap. Qed.
Lemma sorted_keys_perm l : Permutation (fold_right insert_key [] l) l.
Proof. induction l as [|x l IH]; [reflexivity|]. cbn. rewrite insert_key_perm. now apply perm_skip. Qed.
Lemma sorted_keys_sorted l : StronglySorted key_le (fold_right insert_key [] l).
Proof.
  induction l as [|x l IH]; [constructor|]. cbn [fold_right].
  induction IH as [|y m HS IH HF]; cbn; [repeat constructor|].
  destruct (TextForms.str_leb (fst x) (fst y)) eqn:E.
  - apply key_leb_spec in E. constructor; [now constructor|]. constructor; [exact E|].
    eapply Forall_impl; [|exact HF]. intros z. unfold key_le. now apply str_le_trans.
  - apply key_leb_total in E. constructor; [exact IH|].
    apply Forall_forall. intros z HZ. eapply Permutation_in in HZ; [|apply insert_key_perm].
    destruct HZ as [<-|HZ]; [exact E|]. rewrite Forall_forall in HF. now apply HF.
Qed.

Lemma sorted_map (f : str * jval -> str) d : forall m, Permutation m (map (fun kv => (fst kv, f kv)) d) -> StronglySorted key_le m ->
  exists d', Permutation d d' /\ StronglySorted (fun a b => str_le (fst a) (fst b)) d' /\ m = map (fun kv => (fst kv, f kv)) d'.
Proof.
  intros m HP HS. apply Permutation_map_inv in HP. destruct HP as (d' & -> & HP). exists d'. split; [exact HP|]. split; [|reflexivity].
  clear HP. induction d' as [|x d' IH]; [constructor|]. cbn [map] in HS. inversion HS as [|? ? HS' HF]; subst. constructor; [now apply IH|].
  apply -> Forall_map in HF. exact HF.
Qed.

Theorem nested_dict P d : d <> [] -> exists d', Permutation d d' /\ StronglySorted (fun a b => str_le (fst a) (fst b)) d' /\
  custom_repr P (JList [JDict d]) =
    lit "[{" ++ commas (map (fun kv => custom_repr P (JStr (fst kv)) ++ lit ": " ++ short P 4 (snd kv)) (firstn 4 d') ++
                        (if (4 <? length d)%nat then [lit "..."] else [])) ++ lit "}]".
Proof.
  intros N. destruct d as [|x d]; [congruence|].
  set (f := fun kv : str * jval => short_str P (fst kv) ++ lit ": " ++ short P 4 (snd kv)).
  destruct (sorted_map f (x :: d) (fold_right insert_key [] (map (fun kv => (fst kv, f kv)) (x :: d)))) as (d' & HP & HS & E);
    [apply sorted_keys_perm|apply sorted_keys_sorted|].
  exists d'. split; [exact HP|]. split; [exact HS|].
  change (custom_repr P (JList [JDict (x :: d)])) with
    (lit "[" ++ commas [lit "{" ++ commas (at_most 4 (map snd (fold_right insert_key [] (map (fun kv => (fst kv, f kv)) (x :: d))))) ++ lit "}"] ++ lit "]").
  assert (ONE : forall s, commas [s] = s) by (intros s; unfold commas; cbn [map concat flat_map]; now rewrite ?app_nil_r). rewrite ONE, E. unfold at_most. rewrite map_map. cbn [snd]. rewrite firstn_map, map_length, (Permutation_length HP). fold f.
  change (fun kv : str * jval => custom_repr P (JStr (fst kv)) ++ lit ": " ++ short P 4 (snd kv)) with f.
  change (lit "[{") with (lit "[" ++ lit "{"). change (lit "}]") with (lit "}" ++ lit "]"). now rewrite <- !app_assoc.
Qed.

Theorem six_items P l m : (6 < length l)%nat -> (6 < length m)%nat -> firstn 6 l = firstn 6 m -> custom_repr P (JList l) = custom_repr P (JList m).
Proof.
  intros HL HM E. destruct l as [|x l]; [cbn in HL; lia|]. destruct m as [|y m]; [cbn in HM; lia|].
  change (custom_repr P (JList (x :: l))) with (lit "[" ++ commas (at_most 6 (map (short P 5) (x :: l))) ++ lit "]").
  change (custom_repr P (JList (y :: m))) with (lit "[" ++ commas (at_most 6 (map (short P 5) (y :: m))) ++ lit "]").
  unfold at_most. rewrite !map_length. apply Nat.ltb_lt in HL, HM. rewrite HL, HM. now rewrite !firstn_map, E.
Qed.

(** a dict of five items in a list: the four smallest keys are shown *)
Example ex_nested : custom_repr (fun _ => true) (JList [JDict [(lit "e", JInt 1); (lit "b", JInt 2); (lit "d", JNone); (lit "ab", JInt 4); (lit "a", JInt 5)]]) =
  lit "[{'a': 5, 'ab': 4, 'b': 2, 'd': None, ...}]".
Proof. reflexivity. Qed.
Example ex_six : let l := map JInt [1; 2; 3; 4; 5; 6; 7] in let m := map JInt [1; 2; 3; 4; 5; 6; 8; 9] in
  (6 < length l)%nat /\ (6 < length m)%nat /\ firstn 6 l = firstn 6 m /\ custom_repr (fun _ => true) (JList m) = lit "[1, 2, 3, 4, 5, 6, ...]".
Proof. repeat split; cbn; lia || reflexivity. Qed.
