(** Proofs about Output.v. *)

From Coq Require Import String.
From Verif Require Import Py PyFacts Edit GroupObj SpecGroup GroupProofs Json SpecJson JsonAscii SpecJsonAscii JsonAsciiProofs Ops Elements SpecElements
  DatumProofs PackProofs OrdinalProofs Pipe TextForms Output SpecOutput.
From Coq Require Import List Lia Sorted ZArith Permutation.
Local Open Scope Z_scope.

(** ** pack_to_datum *)

Lemma from_spec : forall ls i cur,
  StronglySorted Z.lt (start_indices_from i cur ls) /\
  forall j, In j (start_indices_from i cur ls) <->
    exists k, j = i + Z.of_nat k /\ (k < length ls)%nat /\ nth_error ls k <> nth_error (cur :: ls) k.
Proof.
  induction ls as [|l ls IH]; intros i cur; [split; [constructor|]; intros j; split; [easy|]; intros (k & _ & H & _); cbn in H; lia|].
  assert (TAIL : forall j, In j (start_indices_from (i + 1) l ls) <->
    exists k, j = i + Z.of_nat (S k) /\ (S k < length (l :: ls))%nat /\ nth_error (l :: ls) (S k) <> nth_error (cur :: l :: ls) (S k)).
  { intros j. destruct (IH (i + 1) l) as (_ & IH2). rewrite IH2. cbn [length nth_error]. split; intros (k & -> & H); exists k; (split; [lia|]); (split; [lia|tauto]). }
  cbn [start_indices_from]. destruct (Z.eqb_spec l cur) as [->|N]; cbn [negb].
  - split; [apply IH|]. intros j. rewrite TAIL. split.
    + intros (k & H). now exists (S k).
    + intros ([|k] & -> & H & D); [now destruct D|]. exists k. auto.
  - split.
    + constructor; [apply IH|]. apply Forall_forall. intros j H. apply TAIL in H. destruct H as (k & -> & _). lia.
    + intros j. cbn [In]. rewrite TAIL. split.
      * intros [<-|(k & H)]; [exists O; split; [lia|]; split; [cbn; lia|]; cbn; congruence|now exists (S k)].
      * intros ([|k] & -> & H & D); [left; lia|right; exists k; auto].
Qed.

Lemma beginnings_spec ls : ls <> [] -> exists l, get_start_indices ls = Ok l /\ beginnings ls l.
Proof.
  destruct ls as [|l ls]; [congruence|]. intros _. eexists. split; [reflexivity|].
  cbn [start_indices_from]. rewrite Z.eqb_refl. cbn [negb]. destruct (from_spec ls (0 + 1) l) as (SO & IN). split.
  - constructor; [exact SO|]. apply Forall_forall. intros j H. apply IN in H. destruct H as (k & -> & _). lia.
  - intros i. cbn [In]. rewrite IN. split.
    + intros [<-|(k & -> & H & D)]; [exists O; cbn; repeat split; auto; lia|]. exists (S k). cbn [length nth_error]. rewrite Nat.sub_succ, Nat.sub_0_r.
      repeat split; [lia|lia|now right].
    + intros ([|k] & -> & H & D); [now left|]. right. exists k. cbn [length nth_error] in *. rewrite Nat.sub_succ, Nat.sub_0_r in D.
      split; [lia|]. split; [lia|]. destruct D; [lia|assumption].
Qed.
Lemma beginnings_unique ls l l' : beginnings ls l -> beginnings ls l' -> l = l'.
Proof.
  intros (S & I) (S' & I'). assert (E : forall i, In i l <-> In i l') by (intros i; rewrite I; symmetry; apply I'). clear I I'.
  revert l' S' E. induction S as [|x l S IH F]; intros l' S' E.
  - destruct l' as [|y l']; [reflexivity|]. destruct (proj2 (E y) (or_introl eq_refl)).
  - destruct S' as [|y l' S' F']; [destruct (proj1 (E x) (or_introl eq_refl))|]. rewrite Forall_forall in F, F'.
    assert (x = y) as ->.
    { destruct (proj1 (E x) (or_introl eq_refl)) as [Q|Q]; [easy|]. destruct (proj2 (E y) (or_introl eq_refl)) as [R|R]; [easy|].
      specialize (F y R). specialize (F' x Q). lia. }
    f_equal. apply IH; [exact S'|]. intros i. specialize (E i). cbn [In] in E. split; intros H.
    + destruct (proj1 E (or_intror H)) as [<-|]; [specialize (F y H); lia|assumption].
    + destruct (proj2 E (or_intror H)) as [<-|]; [specialize (F' y H); lia|assumption].
Qed.

Lemma intents_made ints : (exists l, mapM make_intent (sort_by (fun x => x) (dedup ints)) = Ok l) <-> Forall i32 ints.
Proof.
  assert (P : forall x, In x (sort_by (fun x => x) (dedup ints)) <-> In x ints).
  { intros x. rewrite <- (in_dedup x ints). split; apply Permutation_in; [|symmetry]; apply sort_by_perm. }
  split.
  - intros (l & E). apply Forall_forall. intros x H. apply P in H. apply mapM_to_Forall2 in E.
    clear P. induction E as [|a b m n HA E IH]; [easy|]. destruct H as [<-|H]; [now apply to_i32_inv in HA|now apply IH].
  - intros F. exists (map (fun x => x) (sort_by (fun x => x) (dedup ints))). apply mapM_ok, Forall_forall. intros x H. apply to_i32_ok. rewrite Forall_forall in F. apply F, P, H.
Qed.

Lemma meaningful_made ls : ls <> [] -> exists l, get_meaningful_start_indices ls = Ok l.
Proof. destruct (groups_exist ls) as (gs & <- & G). intros N. eexists. apply meaningful; [exact G|]. now intros ->. Qed.

Theorem pack_prints u ints ls : length u = length ls -> u <> [] -> Forall i32 ints ->
  exists l r, beginnings ls l /\ beginnings (rev ls) r /\ pack_output u ints ls = [Prints (list_text l); Prints (list_text r)].
Proof.
  intros L N I. assert (NL : ls <> []) by (intros ->; now destruct u). assert (NR : rev ls <> []).
  { intros E. apply NL. rewrite <- (rev_involutive ls), E. reflexivity. }
  destruct (beginnings_spec ls NL) as (l & EL & BL). destruct (beginnings_spec _ NR) as (r & ER & BR). exists l, r. split; [exact BL|]. split; [exact BR|].
  unfold pack_output, start_indices_output. rewrite L, Nat.eqb_refl, EL, ER. apply intents_made in I. destruct I as (? & ->). destruct (meaningful_made ls NL) as (? & ->). reflexivity.
Qed.
Theorem pack_silent u ints ls : length u <> length ls \/ u = [] \/ ~ Forall i32 ints -> pack_output u ints ls = [].
Proof.
  intros H. unfold pack_output. destruct (Nat.eqb_spec (length u) (length ls)) as [L|]; [|reflexivity].
  destruct H as [?|[->|H]]; [lia| |].
  - destruct ls; [|discriminate]. destruct (mapM _ _); reflexivity.
  - destruct (mapM _ _) eqn:E; [|reflexivity]. destruct H. apply intents_made. eauto.
Qed.
Theorem line_read l : loads (list_text l) = Ok (JList (map JInt l)).
Proof.
  assert (E : list_text l = dumps_ascii (JList (map JInt l))) by (unfold list_text; cbn [dumps_ascii]; rewrite map_map; reflexivity).
  rewrite E, loads_dumps_ascii; [cbn [as_json]; rewrite map_map; reflexivity|]. cbn [all_texts]. clear E. induction l; cbn; auto.
Qed.

(** ** Groups *)

Theorem group_warns {A} `{Eqb A} (h : list (rcall A)) : Forall rcall_ok h ->
  (finished h -> rg_output (after_calls h) ReadLen = [] /\ rg_output (after_calls h) ReadEqOther = []) /\
  (~ finished h -> exists w, w = Warns (lit "UserWarning") (lit "ReplacementGroup needs validation, please call `done`.") /\
     rg_output (after_calls h) ReadLen = [w] /\ rg_output (after_calls h) ReadEqOther = [w]) /\
  (forall g, rg_output (after_calls h) (ReadEq g) = rg_output (after_calls h) ReadLen ++ rg_output g ReadLen) /\
  (forall i, rg_output (after_calls h) (ReadItem i) = []) /\ rg_output (after_calls h) ReadEmpty = [] /\ rg_output (after_calls h) ReadRepr = [].
Proof.
  intros OK. pose proof (done_flag h OK) as D. cbn [rg_output]. unfold rg_warn at 1 2 3 4. split; [|split; [|repeat split]].
  - intros F. apply D in F. now rewrite F.
  - intros F. destruct (rg_done (after_calls h)) eqn:E; [destruct F; now apply D|]. eauto.
Qed.

Theorem span_group_warns hs :
  (sfinished hs -> sg_output (after_scalls hs) ReadLen = [] /\ sg_output (after_scalls hs) ReadEqOther = []) /\
  (~ sfinished hs -> exists w, w = Warns (lit "UserWarning") (lit "SpanGroup needs validation, please call `done`.") /\
     sg_output (after_scalls hs) ReadLen = [w] /\ sg_output (after_scalls hs) ReadEqOther = [w]) /\
  (forall g, sg_output (after_scalls hs) (ReadEq g) = sg_output (after_scalls hs) ReadLen ++ sg_output g ReadLen) /\
  (forall i, sg_output (after_scalls hs) (ReadItem i) = []) /\ sg_output (after_scalls hs) ReadEmpty = [] /\ sg_output (after_scalls hs) ReadRepr = [].
Proof.
  pose proof (sdone_flag hs) as D. cbn [sg_output]. unfold sg_warn at 1 2 3 4. split; [|split; [|repeat split]].
  - intros F. apply D in F. now rewrite F.
  - intros F. destruct (sg_done (after_scalls hs)) eqn:E; [destruct F; now apply D|]. eauto.
Qed.

(** ** Pipe *)

Theorem add_warns E reg p h :
  snd (build_all E reg p h) =
    repeat (Warns (lit "DeprecationWarning") (lit "This method will be deprecated, please use `add_op`.")) (length (filter (fun c => match c with ByName _ _ _ => true | ByOp _ _ => false end) h)).
Proof.
  revert p; induction h as [|c h IH]; intros p; [reflexivity|]. cbn [build_all]. destruct (build E reg p c) as [e w] eqn:B.
  specialize (IH (fst e)). destruct (build_all E reg (fst e) h) as [q w']. cbn [snd] in *. subst w'. destruct c; cbn [build] in B; injection B as _ <-; reflexivity.
Qed.
