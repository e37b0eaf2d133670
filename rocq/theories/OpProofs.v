(** Lemmas that connect the operators' groups with the specification of [SpecOps]. *)

From Verif Require Import Py PyFacts Edit Labels SpecEdit SpecLabels SpecSeg SpecRuns SpecWords
  SpecOps EditProofs SpanProofs LabelProofs EditApiProofs SegProofs Regex Trie Ops RegexProofs
  PatternProofs TrieProofs WordProofs TouchProofs.

(** ** Aligners *)

Lemma aligns_intro E a (ok : list Z -> Prop) n m F G :
  input_length a = n -> output_length a = m ->
  (forall l, length l = n -> ok l -> align_raw a l = Ok (F l)) ->
  (forall l, length l = n -> ok l -> length (F l) = m) ->
  (forall l, length l = m -> ok l -> align_inverse_raw E a l = Ok (G l)) ->
  (forall l, length l = m -> ok l -> length (G l) = n) ->
  aligns E a ok n m F G.
Proof.
  intros HI HO H1 H2 H3 H4. unfold aligns, align, align_inverse. rewrite HI, HO.
  split; [|split; [|split]]; intros l HL.
  - intros HK. split; [|auto]. rewrite HL, Nat.eqb_refl. cbn [guard bind]. rewrite H1 by auto.
    cbn [bind]. rewrite H2, Nat.eqb_refl by auto. reflexivity.
  - apply Nat.eqb_neq in HL. rewrite HL. reflexivity.
  - intros HK. split; [|auto]. rewrite HL, Nat.eqb_refl. cbn [guard bind]. rewrite H3 by auto.
    cbn [bind]. rewrite H4, Nat.eqb_refl by auto. reflexivity.
  - apply Nat.eqb_neq in HL. rewrite HL. reflexivity.
Qed.

Lemma aligns_ext E a (ok : list Z -> Prop) n m F G F' G' :
  aligns E a ok n m F G ->
  (forall l, length l = n -> F l = F' l) -> (forall l, length l = m -> G l = G' l) ->
  aligns E a ok n m F' G'.
Proof.
  intros (B1 & B2 & B3 & B4) HF HG.
  split; [|split; [exact B2|split; [|exact B4]]]; intros l HL HK.
  - rewrite <- HF by exact HL. auto.
  - rewrite <- HG by exact HL. auto.
Qed.

Lemma aligns_null E ok n : aligns E (ANull n n) ok n n keep keep.
Proof. apply aligns_intro; cbn; auto. Qed.

(** the same whenever the labels can be taken back *)
Lemma str_rewrites_back E o (sg : list (seg Z)) group fwd bwd h k :
  transform_op E o (SStr (olds sg)) =
    (r <- str_result (olds sg) group fwd bwd ;;
     _ <- guard (seqtype_eqb (type_of (fst r)) TStr) TypeErr ;; Ok r) ->
  group = Ok (grp 0 sg) -> rule_ok fwd h sg -> rule_ok bwd k (swap sg) ->
  (forall l, length l = length (news sg) ->
     (x <- inverse (ord_c E) (olds sg) (grp 0 sg) ;; propagate l x bwd) = Ok (relabel k (swap sg) l)) ->
  rewrites E o (olds sg) sg h k.
Proof.
  intros HT HG HF HB HI. split; [reflexivity|].
  unfold str_result in HT. rewrite HG in HT. cbn [bind] in HT. rewrite apply_grp in HT.
  cbn [bind type_of fst seqtype_eqb guard] in HT.
  eexists. split; [exact HT|]. cbn [pseq_length].
  apply aligns_intro; cbn [input_length output_length align_raw align_inverse_raw]; auto.
  - intros l HL _. now apply propagate_grp.
  - intros l HL _. now apply (relabel_length h fwd).
  - intros l HL _. rewrite <- (swap_news sg). apply (relabel_length k bwd); [exact HB|].
    now rewrite swap_olds.
Qed.

Lemma str_rewrites E o (sg : list (seg Z)) group fwd bwd h k :
  transform_op E o (SStr (olds sg)) =
    (r <- str_result (olds sg) group fwd bwd ;;
     _ <- guard (seqtype_eqb (type_of (fst r)) TStr) TypeErr ;; Ok r) ->
  group = Ok (grp 0 sg) -> ord_ok (ord_c E) ->
  rule_ok fwd h sg -> no_touching_deletions (grp 0 sg) -> rule_ok bwd k (swap sg) ->
  rewrites E o (olds sg) sg h k.
Proof.
  intros HT HG HO HF HN HB. apply (str_rewrites_back E o sg group fwd bwd); auto.
  intros l HL. now apply inverse_propagate_grp.
Qed.

Lemma lst_rewrites E o (sg : list (seg elem)) group fwd bwd h k :
  transform_op E o (SLst (olds sg)) =
    (r <- lst_result (olds sg) group fwd bwd ;;
     _ <- guard (seqtype_eqb (type_of (fst r)) TList) TypeErr ;; Ok r) ->
  group = Ok (grp 0 sg) -> ord_ok (ord_e E) ->
  rule_ok fwd h sg -> no_touching_deletions (grp 0 sg) -> rule_ok bwd k (swap sg) ->
  rewrites_lst E o (olds sg) sg h k.
Proof.
  intros HT HG HO HF HN HB. split; [reflexivity|].
  unfold lst_result in HT. rewrite HG in HT. cbn [bind] in HT. rewrite apply_grp in HT.
  cbn [bind type_of fst seqtype_eqb guard] in HT.
  eexists. split; [exact HT|]. cbn [pseq_length].
  apply aligns_intro; cbn [input_length output_length align_raw align_inverse_raw]; auto.
  - intros l HL _. now apply propagate_grp.
  - intros l HL _. now apply (relabel_length h fwd).
  - intros l HL _. now apply inverse_propagate_grp.
  - intros l HL _. rewrite <- (swap_news sg). apply (relabel_length k bwd); [exact HB|].
    now rewrite swap_olds.
Qed.

(** ** Rules of the operators' own transducers *)

Lemma rule_around_most_common tok (sg : list (seg Z)) :
  nonempty_olds sg -> (forall o v, In (o, Some v) sg -> length v = length tok /\ 2 <= length tok) ->
  rule_ok (around_most_common tok) (around by_mode) sg.
Proof.
  intros HN HT o v ls HI HL. destruct (HT _ _ HI) as (EL & L2). specialize (HN _ _ HI).
  unfold around_most_common, around. rewrite most_common_by_mode.
  - cbn [bind]. rewrite <- EL. split; [reflexivity|].
    cbn [length]. rewrite app_length. unfold by_mode. rewrite repeat_length. cbn. lia.
  - destruct ls; [|discriminate]. destruct o; [congruence|discriminate].
Qed.

Lemma rule_around_single (sg : list (seg Z)) :
  (forall o v, In (o, Some v) sg -> length o = 1 /\ length v = 3) ->
  rule_ok around_single (around same) sg.
Proof.
  intros H o v ls HI HL. destruct (H _ _ HI) as (L1 & L3). rewrite L1 in HL. rewrite L3.
  destruct ls as [|x [|]]; try discriminate. cbn. auto.
Qed.

Lemma rule_around_all (sg : list (seg Z)) :
  (forall o v, In (o, Some v) sg -> length v = length o + 2) ->
  rule_ok around_all (around same) sg.
Proof.
  intros H o v ls HI HL. specialize (H _ _ HI).
  unfold around_all, around, same. split; [reflexivity|]. cbn. rewrite app_length. cbn. lia.
Qed.

Lemma drop_ends_eq (ls : list Z) n : length ls = n + 2 -> removelast (tl ls) = firstn n (tl ls).
Proof.
  intros H. destruct ls as [|a ls]; [cbn in H; lia|]. cbn [tl]. cbn in H.
  rewrite removelast_firstn_len. f_equal. lia.
Qed.

Lemma rule_drop_ends (sg : list (seg Z)) :
  (forall o v, In (o, Some v) sg -> length o = length v + 2) ->
  rule_ok drop_ends without_ends sg.
Proof.
  intros H o v ls HI HL. specialize (H _ _ HI). rewrite H in HL.
  unfold drop_ends, without_ends. rewrite (drop_ends_eq ls (length v)) by lia.
  split; [reflexivity|]. rewrite firstn_length. destruct ls; cbn in *; lia.
Qed.

Lemma swap_In {A} (sg : list (seg A)) o v : In (o, Some v) (swap sg) <-> In (v, Some o) sg.
Proof.
  unfold swap. rewrite in_map_iff. split.
  - intros ([a [b|]] & E & HI); cbn in E; [injection E as E1 E2; subst; exact HI|discriminate].
  - intros HI. exists (v, Some o). auto.
Qed.

(** ** Character by character *)

Definition char_seg {A} (newv : A -> option (list A)) (c : A) : seg A := ([c], newv c).

Lemma char_edits_grp {A} (newv : A -> option (list A)) s i acc :
  char_edits newv i s acc = acc ++ grp i (map (char_seg newv) s).
Proof.
  revert i acc; induction s as [|c s IH]; intros i acc; cbn [char_edits map].
  - cbn. now rewrite app_nil_r.
  - rewrite IH. unfold char_seg at 2. replace (S i) with (i + 1) by lia.
    destruct (newv c) as [v|]; cbn [grp length].
    + rewrite radd_ok by lia. now rewrite <- app_assoc.
    + reflexivity.
Qed.

Lemma char_segs_olds {A} (newv : A -> option (list A)) s : olds (map (char_seg newv) s) = s.
Proof.
  unfold olds. rewrite map_map. cbn. induction s as [|c s IH]; [reflexivity|]. cbn. now rewrite IH.
Qed.

Lemma char_segs_news {A} (newv : A -> option (list A)) s :
  news (map (char_seg newv) s)
  = flat_map (fun c => match newv c with Some v => v | None => [c] end) s.
Proof.
  unfold news. rewrite map_map, flat_map_concat_map. f_equal.
Qed.

Lemma char_segs_nonempty {A} (newv : A -> option (list A)) s : nonempty_olds (map (char_seg newv) s).
Proof.
  intros o v HI. apply in_map_iff in HI. destruct HI as (c & E & _).
  unfold char_seg in E. injection E as <- _. discriminate.
Qed.

Lemma char_segs_In {A} (newv : A -> option (list A)) s o v :
  In (o, Some v) (map (char_seg newv) s) <-> exists c, o = [c] /\ In c s /\ newv c = Some v.
Proof.
  rewrite in_map_iff. split.
  - intros (c & E & HI). unfold char_seg in E. injection E as E1 E2. eauto.
  - intros (c & E1 & HI & E2). exists c. unfold char_seg. rewrite E1, E2. auto.
Qed.

Lemma char_group_ok E newv s :
  ord_ok (ord_c E) -> char_group E newv s = Ok (grp 0 (map (char_seg newv) s)).
Proof.
  intros HO. unfold char_group. rewrite char_edits_grp. cbn [app].
  apply rdone_grp; [exact HO|]. apply nonempty_solid, char_segs_nonempty.
Qed.

(** ** Round trips *)

Lemma relabel_app {A} h (a b : list (seg A)) l :
  relabel h (a ++ b) l
  = relabel h a (firstn (length (olds a)) l) ++ relabel h b (skipn (length (olds a)) l).
Proof.
  revert l; induction a as [|[o v] a IH]; intros l; [reflexivity|].
  cbn [app relabel]. rewrite olds_cons, app_length. cbn [old_of fst].
  rewrite IH, <- app_assoc. f_equal; [|f_equal].
  - rewrite firstn_firstn, Nat.min_l by lia. reflexivity.
  - f_equal. rewrite firstn_skipn_comm. f_equal.
  - f_equal. rewrite skipn_skipn_add. reflexivity.
Qed.

(** [k] undoes [h] on every replaced piece. *)
Definition undoes {A} (h k : rule) (sg : list (seg A)) : Prop :=
  forall o v ls, In (o, Some v) sg -> length ls = length o ->
    length (h ls (length v)) = length v /\ k (h ls (length v)) (length o) = ls.

Lemma relabel_round {A} h k (sg : list (seg A)) l :
  undoes h k sg -> length l = length (olds sg) ->
  relabel k (swap sg) (relabel h sg l) = l.
Proof.
  revert l; induction sg as [|[o [v|]] sg IH]; intros l HU HL.
  - destruct l; [reflexivity|discriminate].
  - rewrite olds_cons, app_length in HL. cbn [old_of fst] in HL.
    cbn [swap map swap1 relabel snd fst old_of].
    destruct (HU o v (firstn (length o) l)) as (E1 & E2); [left; auto| |].
    { rewrite firstn_length. lia. }
    rewrite (firstn_app_len (length v)), (skipn_app_len (length v)) by auto.
    rewrite E2. fold (swap sg). rewrite IH.
    + apply firstn_skipn.
    + intros o' v' ls HI. apply HU. now right.
    + rewrite skipn_length. lia.
  - rewrite olds_cons, app_length in HL. cbn [old_of fst] in HL.
    cbn [swap map swap1 relabel snd fst old_of].
    assert (E1 : length (firstn (length o) l) = length o) by (rewrite firstn_length; lia).
    rewrite (firstn_app_len (length o)), (skipn_app_len (length o)) by auto.
    fold (swap sg). rewrite IH.
    + apply firstn_skipn.
    + intros o' v' ls HI. apply HU. now right.
    + rewrite skipn_length. lia.
Qed.
