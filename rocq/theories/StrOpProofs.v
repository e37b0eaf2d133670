(** The str -> str operators meet their specifications. *)

From Coq Require Import String.
From Verif Require Import Py PyFacts Edit Labels SpecEdit SpecLabels SpecSeg SpecRuns SpecWords
  EditProofs SpanProofs LabelProofs EditApiProofs SegProofs Regex Trie Ops RegexProofs
  PatternProofs TrieProofs WordProofs RunsProofs SpecOps OpProofs.
From Coq Require Import List.

(** ** Classes and constants agree *)

Lemma is_upper_ok c : is_upper c = ascii_capital c.
Proof. reflexivity. Qed.

Lemma is_cjk_ok c : is_cjk c = cjk c.
Proof.
  apply eq_true_iff_eq. unfold is_cjk, in_range, cjk, cjk_blocks. cbn [existsb fst snd].
  rewrite !Bool.orb_true_iff, !Bool.andb_true_iff, !Z.leb_le. lia.
Qed.

Lemma is_punctuation_ok E c : is_punctuation E c = punctuation E c.
Proof.
  apply eq_true_iff_eq. unfold is_punctuation, punctuation, in_range, ascii_capital, ascii_small,
    ascii_digit, between. cbn [txt String.list_ascii_of_string List.map].
  rewrite !Bool.orb_true_iff, !Bool.andb_true_iff, Bool.negb_true_iff, !Bool.orb_false_iff,
    !Bool.andb_false_iff, !Z.leb_le, !Z.leb_gt. cbn -[Z.le Z.lt].
  destruct (is_pcat E c); [tauto|]. split; intros [H|H]; try discriminate; left; lia.
Qed.

Lemma digit_ok E c : digit_class E c = digit E c.
Proof.
  apply eq_true_iff_eq. unfold digit_class, digit, in_range. cbn [existsb].
  rewrite !Bool.orb_true_iff, !Bool.andb_true_iff, !Z.leb_le, !Z.eqb_eq.
  destruct (is_digit E c); [tauto|]. split; intros [H|H]; try discriminate; right; lia.
Qed.

Lemma dotdigit_ok E c : dotdigit_class E c = point c || digit E c.
Proof.
  unfold dotdigit_class, point. rewrite digit_ok. cbn [txt String.list_ascii_of_string List.map existsb].
  now rewrite Bool.orb_false_r.
Qed.

Lemma seg_runs_ext p q f g s :
  (forall c, p c = q c) -> (forall r, f r = g r) -> seg_runs p f s = seg_runs q g s.
Proof.
  intros H1 H2. unfold seg_runs. rewrite (runs_ext p q s H1). apply map_ext. intros br. now rewrite H2.
Qed.

(** ** Lowercase *)

Lemma lowercase_maps E s :
  ord_ok (ord_c E) -> maps E Lowercase any_labels (SStr s) (SStr (map lower s)) keep keep.
Proof.
  intros HO. unfold maps, transform_op. cbn [type_of input_type seqtype_eqb guard bind transform_str].
  set (sg := seg_runs is_upper (fun r => Some (ascii_lower r)) s).
  assert (ES : olds sg = s) by apply seg_runs_olds.
  unfold re_lowercase.
  pose proof (scan_group_matches E (RPlus is_upper) ascii_lower sg HO) as HG. rewrite ES in HG.
  rewrite HG.
  - cbn [bind]. assert (EA : apply s (grp 0 sg) = map lower s).
    { pose proof (apply_grp sg) as AG. rewrite ES in AG. rewrite AG. unfold sg, ascii_lower. rewrite seg_runs_map.
      apply map_ext. intros c. unfold lower. rewrite is_upper_ok.
      destruct (ascii_capital c); [|reflexivity]. lia. }
    rewrite EA, map_length, Nat.eqb_refl. cbn [guard bind fst type_of output_type seqtype_eqb].
    eexists. split; [reflexivity|]. cbn [pseq_length]. rewrite map_length. apply aligns_null.
  - apply plus_end.
  - apply plus_matches.
Qed.

Lemma lower_idem c : lower (lower c) = lower c.
Proof.
  assert (U : forall x, lower x = if (65 <=? x)%Z && (x <=? 90)%Z then (x - 65 + 97)%Z else x)
    by reflexivity.
  rewrite !U.
  destruct ((65 <=? c)%Z && (c <=? 90)%Z) eqn:E1; [|now rewrite E1].
  destruct ((65 <=? c - 65 + 97)%Z && (c - 65 + 97 <=? 90)%Z) eqn:E2; [|reflexivity].
  apply andb_prop in E1, E2. rewrite !Z.leb_le in *. lia.
Qed.

(** ** Pattern recognisers *)

Lemma recogniser_rewrites E o r newv fwd bwd h k (sg : list (seg Z)) :
  ord_ok (ord_c E) ->
  (forall s, transform_op E o (SStr s) =
    (r <- str_result s (scan_group E (search r) newv s) fwd bwd ;;
     _ <- guard (seqtype_eqb (type_of (fst r)) TStr) TypeErr ;; Ok r)) ->
  ends r (olds sg) (length (olds sg)) = [] -> matches r newv (olds sg) 0 sg ->
  rule_ok fwd h sg -> no_touching_deletions (grp 0 sg) -> rule_ok bwd k (swap sg) ->
  rewrites E o (olds sg) sg h k.
Proof.
  intros HO HT HE HM HF HN HB.
  apply (str_rewrites E o sg (scan_group E (search r) newv (olds sg)) fwd bwd); auto.
  now apply scan_group_matches.
Qed.

Lemma runs_recogniser E o r p choose newv fwd bwd h k s :
  ord_ok (ord_c E) ->
  (forall s, transform_op E o (SStr s) =
    (r <- str_result s (scan_group E (search r) newv s) fwd bwd ;;
     _ <- guard (seqtype_eqb (type_of (fst r)) TStr) TypeErr ;; Ok r)) ->
  ends r s (length s) = [] -> matches r newv s 0 (seg_runs p choose s) ->
  rule_ok fwd h (seg_runs p choose s) -> nonempty_news (seg_runs p choose s) ->
  rule_ok bwd k (swap (seg_runs p choose s)) ->
  rewrites E o s (seg_runs p choose s) h k.
Proof.
  intros HO HT HE HM HF HN HB. pose proof (seg_runs_olds p choose s) as ES.
  rewrite <- ES at 1. apply (recogniser_rewrites E o r newv fwd bwd); auto.
  - now rewrite ES.
  - now rewrite ES.
  - now apply nonempty_no_touching.
Qed.

Lemma seg_runs_news_in p choose s :
  (forall r v, choose r = Some v -> v <> []) -> nonempty_news (seg_runs p choose s).
Proof. intros H o v HI. apply (H o). now apply (seg_runs_In p choose s). Qed.

Lemma merge_rewrites E s :
  ord_ok (ord_c E) ->
  rewrites E MergeWhiteSpaceCharacters s (seg_runs (is_space E) (fun _ => Some blank) s)
    by_mode by_mode.
Proof.
  intros HO. assert (NN : nonempty_news (seg_runs (is_space E) (fun _ => Some blank) s)).
  { apply seg_runs_news_in. intros r v [= <-]. discriminate. }
  apply (runs_recogniser E _ (re_merge E) _ _ (fun _ => [SPACE]) get_most_common get_most_common);
    auto.
  - apply plus_end.
  - apply (plus_matches (is_space E) (fun _ => [SPACE])).
  - apply rule_most_common, seg_runs_nonempty.
  - apply rule_most_common. now apply nonempty_swap.
Qed.


Lemma forallb_ext_eq (f g : Z -> bool) l : (forall c, f c = g c) -> forallb f l = forallb g l.
Proof. intros H. induction l as [|c l IH]; [reflexivity|]. cbn. now rewrite H, IH. Qed.

Lemma existsb_ext_eq {A} (f g : A -> bool) l : (forall c, f c = g c) -> existsb f l = existsb g l.
Proof. intros H. induction l as [|c l IH]; [reflexivity|]. cbn. now rewrite H, IH. Qed.

Lemma is_decimal_ext f g r : (forall c, f c = g c) -> is_decimal f r = is_decimal g r.
Proof.
  intros H. unfold is_decimal. apply existsb_ext_eq. intros k.
  destruct (skipn k r) as [|d [|e t]]; auto.
  now rewrite !(forallb_ext_eq f g) by exact H.
Qed.

Lemma int_like_ok E tok s :
  int_like E tok s = seg_runs (dotdigit_class E)
    (fun r => if forallb (digit_class E) r then Some tok else None) s.
Proof.
  apply seg_runs_ext; intros x; [symmetry; apply dotdigit_ok|].
  rewrite (forallb_ext_eq (digit E) (digit_class E)); [reflexivity|].
  intros c. symmetry. apply digit_ok.
Qed.

Lemma float_like_ok E tok s :
  float_like E tok s = seg_runs (dotdigit_class E)
    (fun r => if is_decimal (digit_class E) r then Some tok else None) s.
Proof.
  apply seg_runs_ext; intros x; [symmetry; apply dotdigit_ok|].
  rewrite (is_decimal_ext (digit E) (digit_class E)); [reflexivity|].
  intros c. symmetry. apply digit_ok.
Qed.

Lemma choose_if (b : str -> bool) (tok : str) r v :
  (if b r then Some tok else None) = Some v -> v = tok.
Proof. destruct (b r); congruence. Qed.

Lemma number_rewrites E o r (choice : str -> bool) tok fwd h s :
  ord_ok (ord_c E) -> tok <> [] ->
  (forall s, transform_op E o (SStr s) =
    (r <- str_result s (scan_group E (search r) (fun _ => tok) s) fwd except_ne ;;
     _ <- guard (seqtype_eqb (type_of (fst r)) TStr) TypeErr ;; Ok r)) ->
  ends r s (length s) = [] ->
  matches r (fun _ => tok) s 0
    (seg_runs (dotdigit_class E) (fun r => if choice r then Some tok else None) s) ->
  rule_ok fwd h (seg_runs (dotdigit_class E) (fun r => if choice r then Some tok else None) s) ->
  rewrites E o s (seg_runs (dotdigit_class E) (fun r => if choice r then Some tok else None) s)
    h by_entity_mode.
Proof.
  intros HO HT HR HE HM HF.
  apply (runs_recogniser E _ r _ _ (fun _ => tok) fwd except_ne); auto.
  - apply seg_runs_news_in. intros x v Q. apply choose_if in Q. now subst.
  - apply rule_except.
Qed.

Lemma rule_around_runs p (choice : str -> bool) tok s :
  2 <= length tok ->
  rule_ok (around_most_common tok) (around by_mode)
    (seg_runs p (fun r => if choice r then Some tok else None) s).
Proof.
  intros HL. apply rule_around_most_common; [apply seg_runs_nonempty|].
  intros o v HI. apply seg_runs_In in HI. apply choose_if in HI. now subst.
Qed.

Lemma int_rewrites E s : ord_ok (ord_c E) ->
  rewrites E IntToken s (int_like E (txt "_int_") s) by_mode by_entity_mode.
Proof.
  intros HO. rewrite int_like_ok.
  apply (number_rewrites E _ (re_int E) _ _ get_most_common); auto; try discriminate.
  - apply int_end.
  - apply int_matches.
  - apply rule_most_common, seg_runs_nonempty.
Qed.

Lemma int_space_rewrites E s : ord_ok (ord_c E) ->
  rewrites E IntTokenWithSpace s (int_like E (txt " _int_ ") s) (around by_mode) by_entity_mode.
Proof.
  intros HO. rewrite int_like_ok.
  apply (number_rewrites E _ (re_int E) _ _ (around_most_common (with_space INT_TOKEN))); auto;
    try discriminate.
  - apply int_end.
  - apply int_matches.
  - apply rule_around_runs. cbn. lia.
Qed.

Lemma num_space_rewrites E s : ord_ok (ord_c E) ->
  rewrites E NumTokenWithSpace s (int_like E (txt " _num_ ") s) (around by_mode) by_entity_mode.
Proof.
  intros HO. rewrite int_like_ok.
  apply (number_rewrites E _ (re_int E) _ _ (around_most_common (with_space NUM_TOKEN))); auto;
    try discriminate.
  - apply int_end.
  - apply int_matches.
  - apply rule_around_runs. cbn. lia.
Qed.

Lemma float_rewrites E s : ord_ok (ord_c E) ->
  rewrites E FloatToken s (float_like E (txt "_float_") s) by_mode by_entity_mode.
Proof.
  intros HO. rewrite float_like_ok.
  apply (number_rewrites E _ (re_float E) _ _ get_most_common); auto; try discriminate.
  - apply float_end.
  - apply float_matches.
  - apply rule_most_common, seg_runs_nonempty.
Qed.

Lemma float_space_rewrites E s : ord_ok (ord_c E) ->
  rewrites E FloatTokenWithSpace s (float_like E (txt " _float_ ") s) (around by_mode) by_entity_mode.
Proof.
  intros HO. rewrite float_like_ok.
  apply (number_rewrites E _ (re_float E) _ _ (around_most_common (with_space FLOAT_TOKEN))); auto;
    try discriminate.
  - apply float_end.
  - apply float_matches.
  - apply rule_around_runs. cbn. lia.
Qed.

(** No number of the recognised form is left. *)
Lemma number_left E (choice : str -> bool) tok s :
  tok <> [] -> (forall c, In c tok -> point c || digit E c = false) ->
  Forall (fun r => choice r = false)
    (class_runs (fun c => point c || digit E c)
       (news (seg_runs (fun c => point c || digit E c)
          (fun r => if choice r then Some tok else None) s))).
Proof.
  intros HN HC.
  pose proof (seg_runs_left (fun c => point c || digit E c)
    (fun r => if choice r then Some tok else None) s) as H.
  eapply Forall_impl; [|apply H].
  - cbn beta. intros r Q. now destruct (choice r).
  - intros r v Q. apply choose_if in Q. subst v. split; [|exact HN].
    unfold all_in. apply Forall_forall. exact HC.
Qed.

(** ** Strip *)


Lemma lstrip_split p s w1 m w2 :
  s = w1 ++ m ++ w2 -> all_in p true w1 -> (m = [] -> w2 = []) ->
  (forall c, nth_error m 0 = Some c -> p c = false) -> lstrip p s = m ++ w2.
Proof.
  intros -> HA H0 HM. unfold lstrip. rewrite drop_while_all by exact HA.
  apply drop_while_none. intros c HC. destruct m as [|x m].
  - rewrite (H0 eq_refl) in HC. discriminate.
  - now apply HM.
Qed.

Lemma opt_seg_swap_relabel w l :
  relabel by_zero (opt_seg w) l = [] /\
  relabel by_zero (swap (opt_seg w)) l = repeat 0%Z (length w).
Proof. destruct w; cbn; [auto|]. split; [reflexivity|]. now rewrite app_nil_r. Qed.

Lemma strip_maps E s :
  ord_ok (ord_c E) ->
  let p := is_space E in
  maps E StripWhiteSpaceCharacters any_labels (SStr s) (SStr (strip p s))
    (fun l => firstn (length (strip p s)) (skipn (lead p s) l))
    (fun l => repeat 0%Z (lead p s) ++ l ++
              repeat 0%Z (length s - lead p s - length (strip p s))).
Proof.
  intros HO p. destruct (strip_split p s) as (w1 & w2 & ES & A1 & A2 & H0 & H1 & H2).
  set (m := strip p s) in *.
  pose proof (lstrip_split p s w1 m w2 ES A1 H0 H1) as EL.
  assert (ELD : lead p s = length w1).
  { unfold lead. rewrite EL. apply (f_equal (@length Z)) in ES.
    rewrite !app_length in *. lia. }
  set (sg := opt_seg w1 ++ @cons (seg Z) (m, None) (opt_seg w2)).
  assert (EO : olds sg = s).
  { unfold sg. rewrite olds_app, olds_cons, !opt_seg_olds. symmetry. exact ES. }
  assert (EN : news sg = m).
  { unfold sg. rewrite news_app, news_cons, !opt_seg_news. apply app_nil_r. }
  assert (RW : rewrites E StripWhiteSpaceCharacters (olds sg) sg by_zero by_zero).
  { apply (recogniser_rewrites E _ (re_strip E) (fun _ => []) get_not_entity get_not_entity); auto.
    - apply strip_end.
    - rewrite EO. now apply strip_matches.
    - apply rule_zero.
    - unfold sg. destruct w1 as [|a w1], w2 as [|b w2]; cbn; auto.
      split; [|exact I]. intros (_ & _ & Q). destruct m; [|cbn in Q; lia].
      specialize (H0 eq_refl). discriminate.
    - apply rule_zero. }
  destruct RW as (_ & a & HT & HA). rewrite EO, EN in *. exists a. split; [exact HT|].
  cbn [pseq_length] in *. destruct HA as (B1 & B2 & B3 & B4).
  assert (EF : forall l, length l = length s ->
    relabel by_zero sg l = firstn (length m) (skipn (lead p s) l)).
  { intros l HL. unfold sg. rewrite relabel_app, opt_seg_olds.
    rewrite (proj1 (opt_seg_swap_relabel w1 _)). cbn [app relabel snd fst old_of].
    rewrite (proj1 (opt_seg_swap_relabel w2 _)), app_nil_r, ELD. reflexivity. }
  assert (EG : forall l, length l = length m ->
    relabel by_zero (swap sg) l = repeat 0%Z (lead p s) ++ l ++
              repeat 0%Z (length s - lead p s - length m)).
  { intros l HL. unfold sg, swap. rewrite map_app. fold (swap (opt_seg w1)).
    rewrite relabel_app. rewrite swap_olds, opt_seg_news. cbn [length firstn skipn].
    rewrite (proj2 (opt_seg_swap_relabel w1 _)), ELD. f_equal.
    cbn [app map swap1 snd fst relabel old_of]. fold (swap (opt_seg w2)).
    rewrite (proj2 (opt_seg_swap_relabel w2 _)). rewrite <- HL, firstn_all, HL. f_equal. f_equal.
    apply (f_equal (@length Z)) in ES. rewrite !app_length in ES. lia. }
  split; [|split; [exact B2|split; [|exact B4]]]; intros l HL HK.
  - destruct (B1 l HL HK) as (C1 & C2). rewrite EF in * by exact HL. auto.
  - destruct (B3 l HL HK) as (C1 & C2). rewrite EG in * by exact HL. auto.
Qed.

(** ** Character by character *)

Lemma char_rewrites E o newv fwd bwd h k s :
  ord_ok (ord_c E) ->
  (forall s, transform_op E o (SStr s) =
    (r <- str_result s (char_group E newv s) fwd bwd ;;
     _ <- guard (seqtype_eqb (type_of (fst r)) TStr) TypeErr ;; Ok r)) ->
  rule_ok fwd h (map (char_seg newv) s) -> nonempty_news (map (char_seg newv) s) ->
  rule_ok bwd k (swap (map (char_seg newv) s)) ->
  rewrites E o s (map (char_seg newv) s) h k.
Proof.
  intros HO HT HF HN HB. pose proof (char_segs_olds newv s) as ES.
  rewrite <- ES at 1.
  apply (str_rewrites E o _ (char_group E newv (olds (map (char_seg newv) s))) fwd bwd); auto.
  - rewrite ES. now apply char_group_ok.
  - now apply nonempty_no_touching.
Qed.


Lemma spaced_ext p q s : (forall c, p c = q c) -> spaced p s = spaced q s.
Proof. intros H. apply map_ext. intros c. now rewrite H. Qed.

Lemma spaced_In cls s o v :
  In (o, Some v) (spaced cls s) -> exists c, o = [c] /\ v = blank ++ [c] ++ blank /\ In c s.
Proof.
  intros HI. apply (char_segs_In (fun c => if cls c then Some (blank ++ [c] ++ blank) else None)) in HI.
  destruct HI as (c & -> & HC & HV). exists c. destruct (cls c); [|discriminate].
  injection HV as <-. auto.
Qed.

Lemma spaced_rewrites E o (cls : Z -> bool) s :
  ord_ok (ord_c E) ->
  (forall s, transform_op E o (SStr s) =
    (r <- str_result s (char_group E (fun c => if cls c then Some [SPACE; c; SPACE] else None) s)
            around_single except_ne ;;
     _ <- guard (seqtype_eqb (type_of (fst r)) TStr) TypeErr ;; Ok r)) ->
  rewrites E o s (spaced cls s) (around same) by_entity_mode.
Proof.
  intros HO HT.
  apply (char_rewrites E o (fun c => if cls c then Some [SPACE; c; SPACE] else None)
    around_single except_ne); auto.
  - apply rule_around_single. intros o' v HI. apply (spaced_In cls) in HI.
    destruct HI as (c & -> & -> & _). auto.
  - intros o' v HI. apply (spaced_In cls) in HI. destruct HI as (c & -> & -> & _). discriminate.
  - apply rule_except.
Qed.

Lemma cjk_rewrites E s : ord_ok (ord_c E) ->
  rewrites E AddWhitespaceAroundCJK s (spaced cjk s) (around same) by_entity_mode.
Proof.
  intros HO. rewrite <- (spaced_ext is_cjk cjk s is_cjk_ok). apply spaced_rewrites; auto.
Qed.

Lemma punct_rewrites E s : ord_ok (ord_c E) ->
  rewrites E AddWhitespaceAroundPunctuation s (spaced (punctuation E) s) (around same)
    by_entity_mode.
Proof.
  intros HO. rewrite <- (spaced_ext _ _ s (is_punctuation_ok E)).
  apply spaced_rewrites; auto.
Qed.

Lemma entity_mode_around (x : Z) : by_entity_mode [0%Z; x; 0%Z] 1 = [x].
Proof.
  unfold by_entity_mode. cbn [filter]. cbn [Z.eqb negb].
  destruct (Z.eqb_spec x 0) as [->|N]; [reflexivity|]. cbn [negb repeat].
  change [x] with (repeat x 1) at 1. now rewrite mode_repeat by lia.
Qed.

Lemma spaced_undoes cls s : undoes (around same) by_entity_mode (spaced cls s).
Proof.
  intros o v ls HI HL. apply spaced_In in HI. destruct HI as (c & -> & -> & _).
  destruct ls as [|x [|]]; try discriminate. cbn [length app blank around same].
  split; [reflexivity|]. apply entity_mode_around.
Qed.

Lemma spaced_filter cls s :
  filter (fun c => negb (Z.eqb c 32)) (news (spaced cls s)) = filter (fun c => negb (Z.eqb c 32)) s.
Proof.
  unfold news, spaced. rewrite map_map. induction s as [|c s IH]; [reflexivity|].
  cbn [map concat]. rewrite filter_app, IH. unfold new_of. cbn [fst snd].
  destruct (cls c).
  - rewrite !filter_app. cbn [blank txt String.list_ascii_of_string List.map filter].
    cbn -[Z.eqb]. change (32 =? 32)%Z with true. cbn [negb app].
    destruct (Z.eqb c 32); reflexivity.
  - cbn [filter]. destruct (Z.eqb c 32); reflexivity.
Qed.

(** ** Punctuation to whitespace *)



Lemma flat_map_single {A B} (f : A -> B) l : flat_map (fun x => [f x]) l = map f l.
Proof. induction l; cbn; congruence. Qed.

Lemma relabel_single_zero {A B} (f : B -> list A * option (list A)) (p : B -> bool) s l :
  length l = length s ->
  (forall c, In c s -> exists a b, f c = ([a], if p c then Some [b] else None)) ->
  relabel by_zero (map f s) l = map (fun cx => if p (fst cx) then 0%Z else snd cx) (combine s l).
Proof.
  revert l; induction s as [|c s IH]; intros [|x l] HL HF; try discriminate; [reflexivity|].
  cbn [map relabel combine fst snd]. destruct (HF c (or_introl eq_refl)) as (a & b & E).
  rewrite E. cbn [old_of fst snd length firstn skipn].
  rewrite IH; [|cbn in HL; lia|intros d HD; apply HF; now right].
  destruct (p c); reflexivity.
Qed.

Lemma endpoint_maps E s :
  ord_ok (ord_c E) ->
  let p := endless_punct E in
  maps E PunctuationExceptEndpointToWhitespace any_labels (SStr s)
    (SStr (map (fun c => if p c then 32%Z else c) s)) (zero_where p s) (zero_where p s).
Proof.
  intros HO p.
  set (newv := fun c => if is_punctuation E c && negb (Z.eqb c DOT) then Some [SPACE] else None).
  assert (PE : forall c : Z, is_punctuation E c && negb (Z.eqb c DOT) = p c).
  { intros c. unfold p, endless_punct. rewrite is_punctuation_ok. f_equal. f_equal.
    unfold point. cbn [txt String.list_ascii_of_string List.map existsb].
    now rewrite Bool.orb_false_r. }
  assert (RW : rewrites E PunctuationExceptEndpointToWhitespace s (map (char_seg newv) s)
                 by_zero by_zero).
  { apply (char_rewrites E _ newv get_not_entity get_not_entity); auto.
    - apply rule_zero.
    - intros o v HI. apply char_segs_In in HI. destruct HI as (c & _ & _ & HV). unfold newv in HV.
      destruct (_ && _); [|discriminate]. injection HV as <-. discriminate.
    - apply rule_zero. }
  destruct RW as (_ & a & HT & HA).
  assert (EN : news (map (char_seg newv) s) = map (fun c => if p c then 32%Z else c) s).
  { rewrite char_segs_news. rewrite <- flat_map_single.
    rewrite !flat_map_concat_map. f_equal. apply map_ext. intros c. unfold newv. rewrite PE.
    destruct (p c); reflexivity. }
  rewrite EN in *. exists a. split; [exact HT|]. cbn [pseq_length] in *. rewrite map_length in *.
  apply (aligns_ext _ _ _ _ _ _ _ _ _ HA); intros l HL.
  - apply relabel_single_zero; [exact HL|].
    intros c _. exists c, SPACE. unfold char_seg, newv. rewrite PE. now destruct (p c).
  - unfold swap. rewrite map_map. apply (relabel_single_zero _ p); [exact HL|].
    intros c _. unfold char_seg, newv. rewrite PE. unfold swap1. cbn [fst snd].
    destruct (p c); [exists SPACE, c|exists c, c]; reflexivity.
Qed.

(** ** Words and Chinese characters *)


Lemma word_spaced_ok ps : word_spaced ps = map word_seg ps.
Proof.
  apply map_ext. intros [w b]. unfold word_seg. cbn [fst snd].
  rewrite (forallb_ext_eq cjk is_cjk); [reflexivity|]. intros c. symmetry. apply is_cjk_ok.
Qed.

Lemma word_spaced_In ps o v :
  In (o, Some v) (word_spaced ps) -> v = blank ++ o ++ blank /\ exists b, In (o, b) ps.
Proof.
  intros HI. apply in_map_iff in HI. destruct HI as ([w b] & EQ & HI). cbn [fst snd] in EQ.
  injection EQ as -> HV. destruct (_ || _); [|discriminate]. injection HV as <-. eauto.
Qed.

Lemma wordn_rewrites E t ws shortest s :
  ord_ok (ord_c E) -> holds t ws ->
  exists ps, munched shortest ws s ps /\
    rewrites E (AddWhitespaceAroundWordnZhChar t shortest) s (word_spaced ps)
      (around same) without_ends.
Proof.
  intros HO HH. destruct (word_group_munched E t ws shortest s HO HH) as (ps & HM & HG).
  exists ps. split; [exact HM|].
  assert (ES : olds (word_spaced ps) = s).
  { rewrite word_spaced_ok, word_segs_olds. now apply (munched_concat shortest ws). }
  assert (LV : forall o v, In (o, Some v) (word_spaced ps) -> length v = length o + 2).
  { intros o v HI. destruct (word_spaced_In _ _ _ HI) as (-> & _).
    rewrite !app_length. cbn. lia. }
  rewrite <- ES at 1.
  apply (str_rewrites E _ _ (word_group E t shortest (olds (word_spaced ps))) around_all drop_ends);
    auto.
  - now rewrite ES, word_spaced_ok.
  - now apply rule_around_all.
  - apply nonempty_no_touching. intros o v HI. specialize (LV _ _ HI). destruct v; [cbn in LV; lia|].
    discriminate.
  - apply rule_drop_ends. intros o v HI. rewrite swap_In in HI. now apply LV.
Qed.

Lemma word_spaced_undoes ps : undoes (around same) without_ends (word_spaced ps).
Proof.
  intros o v ls HI HL. destruct (word_spaced_In _ _ _ HI) as (-> & _).
  unfold around, same, without_ends. cbn [tl].
  rewrite <- HL. rewrite firstn_app_exact. split; [|reflexivity].
  cbn [length]. rewrite !app_length. cbn. lia.
Qed.

Lemma word_spaced_filter ps :
  filter (fun c => negb (Z.eqb c 32)) (news (word_spaced ps))
  = filter (fun c => negb (Z.eqb c 32)) (olds (word_spaced ps)).
Proof.
  unfold news, olds, word_spaced. rewrite !map_map. induction ps as [|[w b] ps IH]; [reflexivity|].
  cbn [map concat]. rewrite !filter_app, IH. f_equal. unfold new_of, old_of. cbn [fst snd].
  destruct (b || forallb cjk w); [|reflexivity].
  rewrite !filter_app. cbn. now rewrite app_nil_r.
Qed.

(** ** Stopwords *)


Lemma munched_same sh ws ws' s ps :
  (forall w, In w ws <-> In w ws') -> munched sh ws s ps -> munched sh ws' s ps.
Proof.
  intros HW. assert (HB : forall s w, best_word sh ws s w -> best_word sh ws' s w).
  { intros t w. destruct sh; intros (I & N & P & M);
      (split; [now apply HW|split; [exact N|split; [exact P|]]]);
      intros w' I' N' P'; apply M; auto; now apply HW. }
  induction 1 as [|w rest ps HB' H IH|c rest ps HB' H IH]; constructor; auto.
  intros w HI. apply HB'. now apply HW.
Qed.

Lemma stopword_set_ok w : In w stopwords <-> In w stopword_set.
Proof.
  assert (Q1 : forallb (fun w => memb w stopword_set) stopwords = true) by (vm_compute; reflexivity).
  assert (Q2 : forallb (fun w => memb w stopwords) stopword_set = true) by (vm_compute; reflexivity).
  rewrite forallb_forall in Q1, Q2.
  split; intros HI; [specialize (Q1 w HI)|specialize (Q2 w HI)]; now apply memb_In.
Qed.

Lemma stop_rewrites E s :
  ord_ok (ord_c E) ->
  exists ps, munched false stopword_set s ps /\
    rewrites E StopwordsToWhitespace s (stop_spaced ps) by_zero by_zero.
Proof.
  intros HO. destruct (munched_exists false stopwords s) as (ps & HM). exists ps.
  split; [exact (munched_same _ _ _ _ _ stopword_set_ok HM)|].
  assert (ES : olds (stop_spaced ps) = s).
  { unfold stop_spaced. rewrite <- (munched_concat false stopwords s ps HM). apply stop_segs_olds. }
  rewrite <- ES at 1.
  apply (recogniser_rewrites E _ re_stopwords (fun _ => [SPACE]) get_not_entity get_not_entity); auto.
  - apply stop_end.
  - rewrite ES. apply (stop_matches s [] s ps); auto.
  - apply rule_zero.
  - apply nonempty_no_touching. intros o v HI. apply in_map_iff in HI.
    destruct HI as ([w b] & EQ & _). cbn [fst snd] in EQ. destruct b; [|discriminate].
    injection EQ as _ <-. discriminate.
  - apply rule_zero.
Qed.

(** ** Accents *)

Lemma zip_edits_grp s t i acc :
  length s = length t ->
  zip_edits i s t acc
  = acc ++ grp i (map (fun cd : Z * Z => ([fst cd], if Z.eqb (fst cd) (snd cd) then None
                                                    else Some [snd cd])) (combine s t)).
Proof.
  revert t i acc; induction s as [|c s IH]; intros [|d t] i acc HL; try discriminate.
  - cbn. now rewrite app_nil_r.
  - cbn [zip_edits combine map fst snd]. rewrite IH by (cbn in HL; lia).
    replace (S i) with (i + 1) by lia.
    destruct (Z.eqb c d); cbn [grp length]; [reflexivity|].
    rewrite radd_ok by lia. now rewrite <- app_assoc.
Qed.

Lemma combine_olds s t :
  length s = length t ->
  olds (map (fun cd : Z * Z => ([fst cd], if Z.eqb (fst cd) (snd cd) then None
                                          else Some [snd cd])) (combine s t)) = s /\
  news (map (fun cd : Z * Z => ([fst cd], if Z.eqb (fst cd) (snd cd) then None
                                          else Some [snd cd])) (combine s t)) = t.
Proof.
  unfold olds, news. rewrite !map_map.
  revert t; induction s as [|c s IH]; intros [|d t] HL; try discriminate; [auto|].
  destruct (IH t) as (E1 & E2); [cbn in HL; lia|].
  cbn [combine map concat fst snd]. rewrite E1, E2. unfold old_of, new_of. cbn [fst snd].
  destruct (Z.eqb_spec c d) as [->|N]; auto.
Qed.

Lemma entity_mode_one x : by_entity_mode [x] 1 = [x].
Proof. exact (by_entity_mode_repeat x 1 1 (le_n 1)). Qed.

Lemma relabel_ones {B} (f : B -> seg Z) (s : list B) l :
  length l = length s ->
  (forall c, In c s -> exists a, fst (f c) = [a] /\
     match snd (f c) with Some v => length v = 1 | None => True end) ->
  relabel by_entity_mode (map f s) l = l.
Proof.
  revert l; induction s as [|c s IH]; intros [|x l] HL HF; try discriminate; [reflexivity|].
  cbn [map relabel]. destruct (HF c (or_introl eq_refl)) as (a & E1 & E2).
  unfold old_of. rewrite E1. cbn [length firstn skipn].
  rewrite IH; [|cbn in HL; lia|intros d HD; apply HF; now right].
  destruct (snd (f c)) as [v|]; [|reflexivity]. rewrite E2, entity_mode_one. reflexivity.
Qed.


Lemma accent_maps E s :
  ord_ok (ord_c E) ->
  (length (stripped E s) = length s ->
   maps E StripAccentToken any_labels (SStr s) (SStr (stripped E s)) keep keep) /\
  (length (stripped E s) <> length s ->
   transform_op E StripAccentToken (SStr s) = Err AssertionErr).
Proof.
  intros HO. change (stripped E s) with (strip_accents E s). split; intros HL.
  - set (t := strip_accents E s) in *.
    set (f := fun cd : Z * Z => ([fst cd], if Z.eqb (fst cd) (snd cd) then None
                                            else Some [snd cd])).
    set (sg := map f (combine s t)).
    destruct (combine_olds s t (eq_sym HL)) as (E1 & E2).
    change (olds sg = s) in E1. change (news sg = t) in E2.
    assert (NO : nonempty_olds sg).
    { intros o v HI. apply in_map_iff in HI. destruct HI as (cd & EQ & _).
      injection EQ as <- _. discriminate. }
    assert (LC : length (combine s t) = length s) by (rewrite combine_length; lia).
    assert (RW : rewrites E StripAccentToken (olds sg) sg by_entity_mode by_entity_mode).
    { apply (str_rewrites E _ _ (strip_accent_group E (olds sg)) except_ne except_ne); auto.
      - rewrite E1. unfold strip_accent_group. fold t. rewrite HL, Nat.eqb_refl. cbn [guard bind].
        rewrite zip_edits_grp by auto. cbn [app]. apply rdone_grp; auto. now apply nonempty_solid.
      - apply rule_except.
      - apply nonempty_no_touching. intros o v HI. apply in_map_iff in HI.
        destruct HI as (cd & EQ & _). unfold f in EQ. destruct (Z.eqb _ _); [discriminate|].
        injection EQ as _ <-. discriminate.
      - apply rule_except. }
    destruct RW as (_ & a & HT & HA). rewrite E1, E2 in *. exists a. split; [exact HT|].
    cbn [pseq_length] in *. apply (aligns_ext _ _ _ _ _ _ _ _ _ HA); intros l HLL; unfold keep.
    + unfold sg. apply relabel_ones; [congruence|]. intros cd _. exists (fst cd). unfold f. cbn.
      split; [reflexivity|]. now destruct (Z.eqb _ _).
    + unfold sg, swap. rewrite map_map. apply relabel_ones; [congruence|].
      intros cd _. unfold f, swap1. cbn [fst snd]. destruct (Z.eqb _ _); cbn; eauto.
  - unfold transform_op. cbn [type_of input_type seqtype_eqb guard bind transform_str].
    unfold str_result, strip_accent_group.
    destruct (Nat.eqb_spec (length s) (length (strip_accents E s))); [congruence|reflexivity].
Qed.
