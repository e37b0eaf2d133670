(** The results do not depend on the iteration order of sets (C96). *)

From Coq Require Import ZArith Bool Lia Sorted Permutation.
From Verif Require Import Py Edit Labels Regex Ops Elements Pipe SpecEdit SpecLabels SpecSeg SpecOps SpecRuns SpecWords SpecScan SpecOrder.
From Verif Require Import PyFacts EditProofs SpanProofs LabelProofs EditApiProofs SegProofs Trie TrieProofs OpProofs ScanProofs PatternProofs TokProofs StrOpProofs
  WordProofs ListOpProofs AlignProofs TouchProofs SeqAlignProofs PipeProofs.
From Coq Require Import List.
Import ListNotations.
Local Open Scope nat_scope.

(** ** Groups *)

Section Groups.
Context (E : env) (oc : list (repl Z) -> list (repl Z)) (oe : list (repl elem) -> list (repl elem)).
Context (OC : ord_ok (ord_c E)) (OE : ord_ok (ord_e E)) (OC' : ord_ok oc) (OE' : ord_ok oe).
Let E' := reseed E oc oe.

Lemma scan_group_free find newv s : in_bounds find -> scan_group E' find newv s = scan_group E find newv s.
Proof.
  intros HB. destruct (replaced_or_stuck find newv HB s 0 ltac:(lia)) as [(sg & HR)|HS].
  - rewrite (scan_group_replaced E find newv s sg OC HB HR).
    exact (scan_group_replaced E' find newv s sg OC' HB HR).
  - pose proof (scan_stuck find newv HB s 0 ltac:(lia) HS) as H. unfold scan_group. now rewrite !H.
Qed.

Lemma scan_group_in find newv s g : in_bounds find -> scan_group E find newv s = Ok g ->
  group_in 0 (length s) g /\ ((forall w, newv w <> []) -> no_touching_deletions g).
Proof.
  intros HB HG. destruct (replaced_or_stuck find newv HB s 0 ltac:(lia)) as [(sg & HR)|HS].
  - rewrite (scan_group_replaced E find newv s sg OC HB HR) in HG. injection HG as <-.
    assert (ES : olds sg = s) by exact (replaced_ge find newv HB s 0 sg ltac:(lia) HR).
    split.
    + pose proof (grp_group_in 0 sg) as G. cbn [Nat.add] in G. now rewrite ES in G.
    + intros NE. apply no_touching_nonempty. rewrite Forall_forall. intros r Hr.
      destruct (grp_In _ _ _ Hr) as (o & HI & _). clear - NE HI HR.
      induction HR; cbn [In] in HI; try (destruct HI as [Q|HI]; [injection Q as _ Q; rewrite <- Q; apply NE|]); auto.
      all: intuition congruence.
  - pose proof (scan_stuck find newv HB s 0 ltac:(lia) HS) as H. unfold scan_group in HG. rewrite H in HG. discriminate.
Qed.

Lemma char_group_free newv s : char_group E' newv s = char_group E newv s.
Proof. rewrite (char_group_ok E newv s OC). exact (char_group_ok E' newv s OC'). Qed.

Lemma char_group_in newv s g : char_group E newv s = Ok g -> group_in 0 (length s) g.
Proof.
  rewrite (char_group_ok E newv s OC). intros Q. injection Q as <-.
  pose proof (grp_group_in 0 (map (char_seg newv) s)) as G. rewrite char_segs_olds in G. exact G.
Qed.


Lemma accent_group_free s : strip_accent_group E' s = strip_accent_group E s.
Proof.
  unfold strip_accent_group. change (strip_accents E' s) with (strip_accents E s).
  destruct (Nat.eqb_spec (length s) (length (strip_accents E s))) as [Q|Q]; [|reflexivity]. cbn [guard bind].
  rewrite zip_edits_grp by exact Q. cbn [app].
  assert (NO : nonempty_olds (map (fun cd : Z * Z => ([fst cd], if Z.eqb (fst cd) (snd cd) then None
                                          else Some [snd cd])) (combine s (strip_accents E s)))).
  { intros o v HI. apply in_map_iff in HI. destruct HI as (cd & EQ & _). injection EQ as <- _. discriminate. }
  rewrite !rdone_grp; auto using nonempty_solid.
Qed.

Lemma accent_group_in s g : strip_accent_group E s = Ok g -> group_in 0 (length s) g.
Proof.
  unfold strip_accent_group.
  destruct (Nat.eqb_spec (length s) (length (strip_accents E s))) as [Q|Q]; [|discriminate]. cbn [guard bind].
  rewrite zip_edits_grp by exact Q. cbn [app]. destruct (combine_olds _ _ Q) as (EO & _). revert EO.
  set (sg := map _ _). intros EO.
  assert (NO : nonempty_olds sg).
  { intros o v HI. apply in_map_iff in HI. destruct HI as (cd & EQ & _). injection EQ as <- _. discriminate. }
  rewrite rdone_grp by auto using nonempty_solid. intros H. injection H as <-.
  pose proof (grp_group_in 0 sg) as G. now rewrite EO in G.
Qed.

Lemma word_group_free t ws sh s : holds t ws -> word_group E' t sh s = word_group E t sh s /\
  forall g, word_group E t sh s = Ok g -> group_in 0 (length s) g /\ no_touching_deletions g.
Proof.
  intros HH. destruct (word_edits_munched t ws sh s (length s) 0 [] HH) as (ps & H1 & H2); [lia|lia|].
  cbn [skipn] in H1.
  assert (NO : nonempty_olds (map word_seg ps)).
  { intros o v HI. apply in_map_iff in HI. destruct HI as ([w b] & EQ & HI).
    pose proof (munched_nonempty _ _ _ _ H1) as F. rewrite Forall_forall in F.
    specialize (F _ HI). unfold word_seg in EQ. cbn in *. congruence. }
  unfold word_group. rewrite H2. cbn [bind app]. rewrite !rdone_grp by auto using nonempty_solid.
  split; [reflexivity|]. intros g Q. injection Q as <-. split.
  - pose proof (grp_group_in 0 (map word_seg ps)) as G. rewrite word_segs_olds in G.
    now rewrite (munched_concat _ _ _ _ H1) in G.
  - apply no_touching_nonempty. rewrite Forall_forall. intros r Hr.
    destruct (grp_In _ _ _ Hr) as (o & HI & _). apply in_map_iff in HI. destruct HI as ([w b] & EQ & HI).
    unfold word_seg in EQ. cbn [fst snd] in EQ. injection EQ as _ EQ. intros Q. rewrite Q in EQ.
    destruct (_ || _); discriminate.
Qed.

Lemma py_split_from_free s : forall cur, py_split_from E' s cur = py_split_from E s cur.
Proof.
  induction s as [|c s IH]; intros cur; [reflexivity|]. cbn [py_split_from].
  change (is_space E' c) with (is_space E c). destruct (is_space E c); [|apply IH].
  destruct cur; [apply IH|now rewrite IH].
Qed.

Lemma split_on_punc_free s : forall b out, split_on_punc E' s b out = split_on_punc E s b out.
Proof.
  induction s as [|c s IH]; intros b out; [reflexivity|]. cbn [split_on_punc].
  change (is_punctuation E' c) with (is_punctuation E c). destruct (is_punctuation E c); apply IH.
Qed.

Lemma eng_tokenize_free s : eng_tokenize E' s = eng_tokenize E s.
Proof.
  unfold eng_tokenize, py_split. rewrite !py_split_from_free. f_equal. f_equal.
  apply flat_map_ext. intros t. apply split_on_punc_free.
Qed.

Lemma token_group_free s ts :
  gen_replacement_group oc s ts = gen_replacement_group (ord_c E) s ts.
Proof.
  destruct (gen_replacement_group (ord_c E) s ts) as [g|e] eqn:EG.
  - destruct (gen_replacement_group_full Z _ (ord_c E) s ts OC) as (N1 & _).
    unfold gen_replacement_group in *.
    destruct (gen_repl_loop s ts 0 []) as [[sh acc]|] eqn:EL; [|discriminate]. cbn [bind] in *.
    destruct (gen_repl_loop_spec s ts 0 [] sh acc ltac:(lia) EL) as (gs & E1 & E2 & E3 & E4 & _).
    cbn [app] in E1. subst acc.
    assert (EA : (if sh =? length s then gs else radd gs sh (length s) []) =
                 gs ++ (if sh =? length s then [] else [mkR sh (length s) []])).
    { destruct (Nat.eqb_spec sh (length s)); [now rewrite app_nil_r|].
      unfold radd. destruct (Nat.ltb_spec (length s) sh); [lia|reflexivity]. }
    rewrite EA in *. rewrite <- EG. symmetry. apply rdone_order_irrelevant; auto; [tauto|].
    apply lt_distinct. eapply gap_chain_strict; eauto.
  - unfold gen_replacement_group in *.
    destruct (gen_repl_loop s ts 0 []) as [[sh acc]|] eqn:EL; [|exact EG]. exfalso.
    destruct (gen_replacement_group_loop_ok (ord_c E) s ts _ OC EL) as (g & Q).
    unfold gen_replacement_group in Q. rewrite EL in Q. cbn [bind] in *. congruence.
Qed.

Lemma elem_edits_sorted newv l : forall i acc g,
  elem_edits newv i l acc = Ok g -> exists k, g = acc ++ k /\ StronglySorted pos_lt k /\ Forall (fun r => i <= r_start r) k.
Proof.
  induction l as [|x l IH]; intros i acc g H; cbn [elem_edits] in H.
  - injection H as <-. exists []. rewrite app_nil_r. repeat constructor.
  - destruct (newv x) as [v|]; [|discriminate]. cbn [bind] in H.
    destruct (IH _ _ _ H) as (k & -> & HS & HF).
    assert (HF' : Forall (fun r => i <= r_start r) k).
    { rewrite Forall_forall in *. intros r Hr. specialize (HF r Hr). lia. }
    destruct v as [v|]; [|exists k; auto]. unfold radd. destruct (Nat.ltb_spec (i + 1) i); [lia|].
    exists (mkR i (i + 1) v :: k). rewrite <- app_assoc. split; [reflexivity|]. split.
    + constructor; [exact HS|]. rewrite Forall_forall in *. intros r Hr. specialize (HF r Hr).
      unfold pos_lt. cbn [r_start r_end]. lia.
    + constructor; [cbn; lia|exact HF'].
Qed.

Lemma elem_group_free newv l : elem_group E' newv l = elem_group E newv l.
Proof.
  unfold elem_group. destruct (elem_edits newv 0 l []) as [acc|] eqn:EA; [|reflexivity]. cbn [bind].
  destruct (elem_edits_sorted _ _ _ _ _ EA) as (k & -> & HS & _). cbn [app].
  apply rdone_order_irrelevant; auto; [tauto|]. now apply lt_distinct.
Qed.

Lemma pad_group_free m tok l : pad_group E' m tok l = pad_group E m tok l.
Proof.
  assert (ONE : forall t, radd_all oe [t] = radd_all (ord_e E) [t]).
  { intros t. apply radd_all_order_irrelevant; auto; [tauto|]. cbn [filter map].
    destruct (proper t); cbn [map]; intros a b HA HB _ _; [|destruct HA].
    destruct HA as [<-|[]], HB as [<-|[]]. reflexivity. }
  unfold pad_group. change (ord_e E') with oe.
  destruct (Z.eqb _ _); [apply radd_all_order_irrelevant; auto; [tauto|intros a b []]|].
  destruct (Z.ltb _ _); apply ONE.
Qed.

Lemma end_group_free t l : end_group E' t l = end_group E t l.
Proof.
  unfold end_group. change (ord_e E') with oe. apply radd_all_order_irrelevant; auto; [tauto|].
  cbn [filter map]. destruct (proper _); cbn [map]; intros a b HA HB _ _; [|destruct HA].
  destruct HA as [<-|[]], HB as [<-|[]]. reflexivity.
Qed.

Lemma soseos_group_free a b l : l <> [] \/ a = b -> soseos_group E' a b l = soseos_group E a b l.
Proof.
  intros HL. unfold soseos_group. change (ord_e E') with oe. apply radd_all_order_irrelevant; auto; [tauto|].
  intros x y HX HY Q1 Q2.
  assert (D : forall z, In z (map as_repl (filter proper [(0%Z, 0%Z, [a]); (Z.of_nat (length l), Z.of_nat (length l), [b])])) ->
            z = mkR 0 0 [a] \/ z = mkR (length l) (length l) [b]).
  { intros z HZ. apply in_map_iff in HZ. destruct HZ as (t & <- & HF). apply filter_In in HF.
    destruct HF as ([<-|[<-|[]]] & _); [left; reflexivity|right]. unfold as_repl. cbn. now rewrite Nat2Z.id. }
  destruct (D _ HX) as [-> | ->], (D _ HY) as [-> | ->]; cbn [r_start r_end] in *; try reflexivity;
    (destruct HL as [HL|HL]; [destruct l; [congruence|discriminate]|subst b]); rewrite <- ?Q1, ?Q1 in *; congruence.
Qed.

End Groups.

(** ** One operator *)

Lemma transform_op_free E oc oe o x :
  python E -> ord_ok oc -> ord_ok oe -> built E o -> ~ undecided o x ->
  transform_op (reseed E oc oe) o x = transform_op E o x.
Proof.
  intros (OC & OE & HS) OC' OE' HB HU. unfold transform_op.
  destruct x as [s|l]; destruct (seqtype_eqb (type_of _) (input_type o)) eqn:TY; try reflexivity; cbn [guard bind].
  - assert (Q : transform_str (reseed E oc oe) o s = transform_str E o s); [|now rewrite Q].
    assert (SC : forall f nv, in_bounds f -> scan_group (reseed E oc oe) f nv s = scan_group E f nv s)
      by (intros; now apply scan_group_free).
    assert (CH : forall nv, char_group (reseed E oc oe) nv s = char_group E nv s)
      by (intros; now apply char_group_free).
    assert (TK : forall ts f b, tok_result (reseed E oc oe) s ts f b = tok_result E s ts f b).
    { intros ts f b. unfold tok_result. destruct ts as [ts|]; [|reflexivity]. cbn [bind].
      change (ord_c (reseed E oc oe)) with oc. now rewrite (token_group_free E oc OC OC'). }
    destruct HB as [o HI|p b find HC HB|ws sh o HM|ws sh o HM|tok|m tok|? ?|t o HM|v u m|d u o HM|d o HM].
    + repeat (destruct HI as [<-|HI]; [cbn [transform_str]; first
        [ exact (TK _ _ _)
        | unfold py_split; rewrite py_split_from_free; exact (TK _ _ _)
        | rewrite eng_tokenize_free; exact (TK _ _ _)
        | unfold zh_tokenize; rewrite eng_tokenize_free; exact (TK _ _ _)
        | rewrite <- CH; reflexivity
        | rewrite (accent_group_free E oc oe OC OC'); reflexivity
        | rewrite <- SC by apply search_in_bounds; reflexivity ]|]).
      destruct HI.
    + cbn [transform_str]. change (re_compile (reseed E oc oe) p) with (re_compile E p). rewrite HC.
      now rewrite SC.
    + unfold make_wordn in HM. pose proof (make_trie_spec ws) as MT.
      destruct ws as [[|w ws]|]; [rewrite MT in HM; discriminate| |rewrite MT in HM; discriminate].
      destruct MT as [(_ & t & ET & HH)|(_ & ET)]; rewrite ET in HM; [|discriminate].
      injection HM as <-. cbn [transform_str].
      now rewrite (proj1 (word_group_free E oc oe OC OC' t (w :: ws) sh s HH)).
    + unfold make_custom in HM. destruct (make_trie ws); [|discriminate]. injection HM as <-.
      cbn [transform_str]. apply TK.
    + discriminate.
    + discriminate.
    + discriminate.
    + destruct t; [discriminate|]. injection HM as <-. discriminate.
    + discriminate.
    + unfold make_token2index in HM. destruct (validate_continuity d) as [[]|]; [|discriminate]. cbn [bind] in HM.
      destruct (guard _ _) as [[]|]; [|discriminate]. injection HM as <-. discriminate.
    + unfold make_hash in HM. destruct (validate_continuity d) as [[]|]; [|discriminate]. injection HM as <-. discriminate.
  - assert (Q : transform_lst (reseed E oc oe) o l = transform_lst E o l); [|now rewrite Q].
    destruct o; cbn [transform_lst]; try reflexivity.
    + rewrite <- (elem_group_free E oc oe OE OE'). reflexivity.
    + rewrite (pad_group_free E oc oe OE OE'). reflexivity.
    + rewrite (soseos_group_free E oc oe OE OE'); [reflexivity|].
      destruct l; [right|left; discriminate].
      destruct (eqb start_token end_token) eqn:EQ; [now apply eqb_true_eq in EQ|].
      exfalso. apply HU. exists start_token, end_token. repeat split. intros ->. now rewrite eqb_refl_true in EQ.
    + rewrite (end_group_free E oc oe OE OE'). reflexivity.
    + rewrite (elem_group_free E oc oe OE OE'). reflexivity.
    + rewrite (elem_group_free E oc oe OE OE'). reflexivity.
    + rewrite (elem_group_free E oc oe OE OE'). reflexivity.
Qed.

(** ** The way back *)

Lemma inverse_free {A} {EA : Eqb A} ord1 ord2 (s : list A) g f labels :
  ord_ok ord1 -> ord_ok ord2 -> group_in 0 (length s) g -> length labels = length (apply s g) ->
  no_touching_deletions g \/ (zero_on_empty f /\ sized f) ->
  (h <- inverse ord1 s g ;; propagate labels h f) = (h <- inverse ord2 s g ;; propagate labels h f).
Proof.
  intros O1 O2 HG HL [NT|(HZ & HF)].
  - now rewrite (inverse_strict ord1 s g O1 HG NT), (inverse_strict ord2 s g O2 HG NT).
  - assert (GH : forall ord h, ord_ok ord -> inverse ord s g = Ok h -> group_in 0 (length labels) h).
    { intros ord h HO EI. unfold inverse in EI. rewrite gen_inverse_inv_list in EI.
      destruct (rdone ord (inv_list s g)) as [h'|] eqn:ER; [|discriminate]. cbn [bind] in EI.
      destruct (guard _ AssertionErr); [|discriminate]. cbn [bind] in EI. injection EI as ->.
      destruct (rdone_ok ord _ _ HO (inv_list_well_formed s g HG) ER) as (_ & _ & _ & _ & Q).
      apply Q. intros r HR'. rewrite HL. apply (group_in_In _ _ _ _ (inv_list_group_in s g HG) HR'). }
    destruct (inverse_total ord1 s g O1 HG) as [(ND & h1 & I1 & P1)|(ND & I1)];
      destruct (inverse_total ord2 s g O2 HG) as [(ND2 & h2 & I2 & P2)|(ND2 & I2)]; try contradiction;
      rewrite I1, I2; [|reflexivity]. cbn [bind].
    pose proof (GH _ _ O1 I1) as G1. pose proof (GH _ _ O2 I2) as G2.
    rewrite !propagate_gen; eauto.
    apply prop_rec_perm; auto.
    + now rewrite P1, P2.
    + eapply Permutation_NoDup; [symmetry; exact P1|exact ND].
    + now apply (group_in_sorted _ 0 (length labels)).
    + now apply (group_in_sorted _ 0 (length labels)).
    + intros a b HA HB. now apply (group_in_ties h1 0 (length labels)).
Qed.

(** What an operator's aligner satisfies *)
Definition tame (a : aligner) : Prop :=
  match a with
  | ANull _ _ => True
  | AStr s g n _ b => n = length (apply s g) /\ group_in 0 (length s) g /\
      (no_touching_deletions g \/ (zero_on_empty b /\ sized b))
  | ALst s g n _ b => n = length (apply s g) /\ group_in 0 (length s) g /\
      (no_touching_deletions g \/ (zero_on_empty b /\ sized b))
  | ATok s g _ _ _ _ => group_in 0 (length s) g /\ no_touching_deletions g
  end.

Lemma tame_free E oc oe a l : python E -> ord_ok oc -> ord_ok oe -> tame a ->
  align_inverse (reseed E oc oe) a l = align_inverse E a l.
Proof.
  intros (OC & OE & _) OC' OE' HT. unfold align_inverse.
  destruct (Nat.eqb_spec (length l) (output_length a)) as [Q|Q]; [|reflexivity]. cbn [guard bind].
  assert (R : align_inverse_raw (reseed E oc oe) a l = align_inverse_raw E a l); [|now rewrite R].
  destruct a as [n m|s g n f b|s g n f b|s g sp n f b]; cbn [align_inverse_raw output_length] in *.
  - reflexivity.
  - destruct HT as (-> & HG & HD). now apply inverse_free.
  - destruct HT as (-> & HG & HD). now apply inverse_free.
  - destruct HT as (HG & NT). change (ord_c (reseed E oc oe)) with oc.
    now rewrite (inverse_strict oc s g OC' HG NT), (inverse_strict (ord_c E) s g OC HG NT).
Qed.

Lemma not_entity_zero : zero_on_empty get_not_entity.
Proof. intros k. reflexivity. Qed.

Lemma transform_tame E o x y a : python E -> built E o -> transform_op E o x = Ok (y, a) -> tame a.
Proof.
  intros (OC & OE & HS) HB H. pose proof (transform_fine _ _ _ _ _ OE H) as (_ & F).
  unfold transform_op in H.
  destruct (guard (seqtype_eqb (type_of x) (input_type o)) TypeErr) as [[]|] eqn:TY; [|discriminate].
  cbn [bind] in H. destruct x as [s|l].
  - destruct (transform_str E o s) as [(y', a')|] eqn:ET; [|discriminate]. cbn [bind fst] in H.
    destruct (guard (seqtype_eqb (type_of y') _) TypeErr) as [[]|]; [|discriminate]. cbn [bind] in H. injection H as -> ->. clear F.
    assert (ZE : zero_on_empty except_ne /\ sized except_ne) by (split; [exact except_zero|exact sized_except]).
    assert (ZN : zero_on_empty get_not_entity /\ sized get_not_entity) by (split; [exact not_entity_zero|exact sized_not_entity]).
    assert (ST : forall gr f b, str_result s gr f b = Ok (y, a) ->
              (forall g, gr = Ok g -> group_in 0 (length s) g /\ (no_touching_deletions g \/ (zero_on_empty b /\ sized b))) -> tame a).
    { intros gr f b HR HG. unfold str_result in HR. destruct gr as [g|]; [|discriminate]. injection HR as _ <-.
      cbn [tame]. split; [reflexivity|]. now apply HG. }
    assert (TK : forall ts f b, tok_result E s ts f b = Ok (y, a) -> tame a).
    { intros ts f b HR. unfold tok_result in HR. destruct ts as [ts|]; [|discriminate]. cbn [bind] in HR.
      destruct (gen_replacement_group (ord_c E) s ts) as [g|] eqn:EG; [|discriminate]. cbn [bind] in HR.
      destruct (gen_span_group _ ts); [|discriminate]. injection HR as _ <-. cbn [tame].
      destruct (gen_replacement_group_ok (ord_c E) s ts g OC EG) as (C & _). split.
      - apply gap_chain_group_in; [exact C|lia].
      - eapply gap_chain_no_touching. exact C. }
    destruct HB as [o HI|p b find HC HB|ws sh o HM|ws sh o HM|tok|m tok|? ?|t o HM|v u m|d u o HM|d o HM]; try discriminate.
    + repeat (destruct HI as [<-|HI]; [cbn [transform_str] in ET; first
        [ exact (TK _ _ _ ET)
        | destruct (scan_group E (search re_lowercase) ascii_lower s); [|discriminate]; cbn [bind] in ET;
          destruct (guard _ AssertionErr); [|discriminate]; injection ET as _ <-; exact Logic.I
        | apply (ST _ _ _ ET); intros g HG; split;
          [ first [ exact (proj1 (scan_group_in E OC _ _ s g (search_in_bounds _) HG))
                  | exact (char_group_in E OC _ s g HG)
                  | exact (accent_group_in E OC s g HG) ]
          | first [ right; assumption
                  | left; apply (scan_group_in E OC _ _ s g (search_in_bounds _) HG); discriminate ] ] ]|]).
      destruct HI.
    + cbn [transform_str] in ET. rewrite HC in ET. apply (ST _ _ _ ET). intros g HG.
      split; [exact (proj1 (scan_group_in E OC _ _ s g HB HG))|now right].
    + unfold make_wordn in HM. pose proof (make_trie_spec ws) as MT.
      destruct ws as [[|w ws]|]; [rewrite MT in HM; discriminate| |rewrite MT in HM; discriminate].
      destruct MT as [(_ & t & EQ & HH)|(_ & EQ)]; rewrite EQ in HM; [|discriminate].
      injection HM as <-. cbn [transform_str] in ET. apply (ST _ _ _ ET). intros g HG.
      destruct (proj2 (word_group_free E (ord_c E) (ord_e E) OC OC t (w :: ws) sh s HH) g HG) as (G1 & G2).
      split; [exact G1|now left].
    + unfold make_custom in HM. destruct (make_trie ws); [|discriminate]. injection HM as <-.
      cbn [transform_str] in ET. exact (TK _ _ _ ET).
    + destruct t; [discriminate|]. injection HM as <-. discriminate.
    + unfold make_token2index in HM. destruct (validate_continuity d) as [[]|]; [|discriminate]. cbn [bind] in HM.
      destruct (guard _ _) as [[]|]; [|discriminate]. injection HM as <-. discriminate.
    + unfold make_hash in HM. destruct (validate_continuity d) as [[]|]; [|discriminate]. injection HM as <-. discriminate.
  - destruct (transform_lst E o l) as [(y', a')|] eqn:ET; [|discriminate]. cbn [bind fst] in H.
    destruct (guard (seqtype_eqb (type_of y') _) TypeErr) as [[]|]; [|discriminate]. cbn [bind] in H. injection H as -> ->.
    destruct a as [n m|s g n f b|s g n f b|s g sp n f b]; cbn [tame].
    + exact Logic.I.
    + destruct o; cbn [transform_lst] in ET; unfold lst_result, lst_result_null in ET; try discriminate;
        match type of ET with bind ?r _ = _ => destruct r; discriminate end.
    + destruct F as (Q & -> & HG & HF & _). injection Q as ->. split; [reflexivity|]. split; [exact HG|]. right.
      split; [|exact HF].
      destruct o; cbn [transform_lst] in ET; unfold lst_result, lst_result_null in ET; try discriminate;
        match type of ET with bind ?r _ = _ => destruct r; [|discriminate] end; cbn [bind] in ET; try discriminate;
        injection ET as _ _ _ _ <-; first [exact not_entity_zero|exact except_zero].
    + destruct o; cbn [transform_lst] in ET; unfold lst_result, lst_result_null in ET; try discriminate;
        match type of ET with bind ?r _ = _ => destruct r; discriminate end.
Qed.

Theorem operators_free : forall E oc oe o x,
  python E -> ord_ok oc -> ord_ok oe -> built E o -> ~ undecided o x ->
  transform_op (reseed E oc oe) o x = transform_op E o x /\
  forall y a l, transform_op E o x = Ok (y, a) -> align_inverse (reseed E oc oe) a l = align_inverse E a l.
Proof.
  intros E oc oe o x HP OC OE HB HU. split; [now apply transform_op_free|].
  intros y a l HT. apply tame_free; auto. eapply transform_tame; eauto.
Qed.

(** ** Pipes *)

Lemma run_free E oc oe ops : python E -> ord_ok oc -> ord_ok oe ->
  Forall (fun o => built E (o_op o)) ops -> forall x, decided E ops x ->
  Pipe.run (reseed E oc oe) ops x = Pipe.run E ops x /\
  forall y als coll, Pipe.run E ops x = Ok (y, als, coll) -> Forall tame als.
Proof.
  intros HP OC OE. induction 1 as [|o ops HB HF IH]; intros x HD; cbn [Pipe.run].
  - split; [reflexivity|]. intros y als coll H. injection H as _ <- _. constructor.
  - rewrite (transform_op_free E oc oe (o_op o) x HP OC OE HB).
    2: { apply (HD [] o ops x [] [x] eq_refl). reflexivity. }
    destruct (transform_op E (o_op o) x) as [(y, a)|] eqn:ET; [|split; [reflexivity|discriminate]]. cbn [bind].
    destruct (IH y) as (IH1 & IH2).
    { intros before o' after z als coll -> HR. apply (HD (o :: before) o' after z (a :: als) (x :: coll) eq_refl).
      cbn [Pipe.run]. rewrite ET. cbn [bind]. rewrite HR. reflexivity. }
    rewrite IH1. split; [reflexivity|]. intros z als coll H.
    destruct (Pipe.run E ops y) as [((z', als'), coll')|] eqn:ER; [|discriminate]. cbn [bind] in H.
    injection H as <- <- <-. constructor; [eapply transform_tame; eauto|eapply IH2; reflexivity].
Qed.

Lemma align_inverse_all_free E oc oe als : python E -> ord_ok oc -> ord_ok oe -> Forall tame als ->
  forall l, align_inverse_all (reseed E oc oe) als l = align_inverse_all E als l.
Proof.
  intros HP OC OE HF l. unfold align_inverse_all. apply Forall_rev in HF. revert l.
  induction HF as [|a r HA HF IH]; intros l; cbn [foldM]; [reflexivity|].
  rewrite (tame_free E oc oe a l HP OC OE HA). destruct (align_inverse E a l); [apply IH|reflexivity].
Qed.

Theorem pipes_free : forall E oc oe p x,
  python E -> ord_ok oc -> ord_ok oe -> Forall (fun o => built E (o_op o)) (steps p) -> decided E (steps p) x ->
  transform_sequence (reseed E oc oe) p x = transform_sequence E p x /\
  forall y als coll labels, transform_sequence E p x = Ok (y, als, coll) ->
    align_inverse_all (reseed E oc oe) als labels = align_inverse_all E als labels.
Proof.
  intros E oc oe p x HP OC OE HB HD. destruct (run_free E oc oe (steps p) HP OC OE HB x HD) as (H1 & H2).
  split; [exact H1|]. intros y als coll labels H. apply align_inverse_all_free; auto. eapply H2; exact H.
Qed.

Theorem datums_free : forall E oc oe p d,
  python E -> ord_ok oc -> ord_ok oe -> Forall (fun o => built E (o_op o)) (steps p) ->
  decided E (steps p) (SStr (d_utterance d)) ->
  transform (reseed E oc oe) p d = transform E p d.
Proof.
  intros E oc oe p d HP OC OE HB HD. unfold transform.
  destruct (unpack_datum d) as [((u, il), el)|] eqn:EU; [|reflexivity]. cbn [bind].
  assert (u = d_utterance d) as ->.
  { unfold unpack_datum in EU. repeat match type of EU with bind ?r _ = _ => destruct r; [|discriminate]; cbn [bind] in EU end.
    now injection EU as <- _ _. }
  now rewrite (proj1 (pipes_free E oc oe p _ HP OC OE HB HD)).
Qed.

(** A pipe without [AddSosEos], or with two equal tokens, never meets the case. *)
Lemma decided_without E ops x :
  Forall (fun o => forall sos eos, o_op o = AddSosEos sos eos -> sos = eos) ops -> decided E ops x.
Proof.
  intros HF before o after y als coll -> _ (sos & eos & Q & _ & N). apply N.
  rewrite Forall_forall in HF. apply (HF o); [apply in_or_app; right; now left|exact Q].
Qed.

Lemma decided_here E o x als coll before after y :
  decided E (before ++ o :: after) x -> Pipe.run E before x = Ok (y, als, coll) -> ~ undecided (o_op o) y.
Proof. intros H HR. exact (H before o after y als coll eq_refl HR). Qed.

(** ** Building *)

Lemma construct_free E oc oe name args kwargs :
  construct (reseed E oc oe) name args kwargs = construct E name args kwargs.
Proof.
  unfold construct. destruct (dict_get classes name) as [c|] eqn:EC; [|reflexivity].
  destruct (bind_args (c_params c) args kwargs) as [l|]; [|reflexivity]. cbn [bind].
  assert (Q : c_init c (reseed E oc oe) l = c_init c E l); [|now rewrite Q].
  apply dict_get_In in EC. unfold classes in EC. cbn [In] in EC.
  repeat (destruct EC as [EC|EC]; [injection EC as _ <-; destruct l as [|? [|? [|? [|? ?]]]]; reflexivity|]).
  destruct EC.
Qed.

Lemma op_from_dict_free E oc oe reg v : op_from_dict (reseed E oc oe) reg v = op_from_dict E reg v.
Proof.
  unfold op_from_dict, make_registered. destruct (key v K_op_name) as [n|]; [|reflexivity]. cbn [bind].
  destruct (key v K_op_kwargs) as [k|]; [|reflexivity]. cbn [bind].
  destruct n; try reflexivity. destruct (memb s reg); [|reflexivity]. destruct k; try reflexivity. apply construct_free.
Qed.

Theorem building_free : forall E oc oe,
  (forall name args kwargs, construct (reseed E oc oe) name args kwargs = construct E name args kwargs) /\
  (forall reg s, op_deserialize (reseed E oc oe) reg s = op_deserialize E reg s) /\
  (forall reg p name kwargs ck, add (reseed E oc oe) reg p name kwargs ck = add E reg p name kwargs ck) /\
  (forall reg s, pipe_deserialize (reseed E oc oe) reg s = pipe_deserialize E reg s).
Proof.
  intros E oc oe. split; [intros; apply construct_free|]. split; [|split].
  - intros reg s. unfold op_deserialize. destruct (loads s); [apply op_from_dict_free|reflexivity].
  - intros reg p name kwargs ck. unfold add. now rewrite op_from_dict_free.
  - intros reg s. unfold pipe_deserialize. destruct (loads s) as [b|]; [|reflexivity]. cbn [bind].
    destruct (key b K_steps) as [i|]; [|reflexivity]. cbn [bind]. destruct (as_list i) as [l|]; [|reflexivity]. cbn [bind].
    assert (Q : forall l p, foldM (restore_step (reseed E oc oe) reg) l p = foldM (restore_step E reg) l p).
    { clear. induction l as [|v l IH]; intros p; cbn [foldM]; [reflexivity|].
      assert (R : restore_step (reseed E oc oe) reg p v = restore_step E reg p v).
      { unfold restore_step, op_deserialize. destruct v; try reflexivity.
        - destruct (loads s) as [w|]; [|reflexivity]. cbn [bind]. now rewrite op_from_dict_free.
        - now rewrite op_from_dict_free. }
      rewrite R. destruct (restore_step E reg p v); [apply IH|reflexivity]. }
    now rewrite Q.
Qed.

(** ** The case that does depend on the order *)

Theorem undecided_differs : forall E o x,
  python E -> undecided o x -> exists oe y y' a a', ord_ok oe /\
    transform_op E o x = Ok (y, a) /\ transform_op (reseed E (ord_c E) oe) o x = Ok (y', a') /\ y' <> y.
Proof.
  intros E o x (OC & OE & _) (sos & eos & -> & -> & N).
  exists (fun l => rev (ord_e E l)).
  assert (OR : ord_ok (fun l => rev (ord_e E l))) by (intros l; rewrite <- Permutation_rev; apply OE).
  assert (RD : dedup [mkR 0 0 [sos]; mkR 0 0 [eos]] = [mkR 0 0 [sos]; mkR 0 0 [eos]]).
  { apply dedup_id. constructor; [|constructor; [exact (fun H => H)|constructor]].
    intros [R|[]]. injection R as ->. congruence. }
  assert (GR : forall F, ord_e F [mkR 0 0 [sos]; mkR 0 0 [eos]] = [mkR 0 0 [sos]; mkR 0 0 [eos]] \/
                         ord_e F [mkR 0 0 [sos]; mkR 0 0 [eos]] = [mkR 0 0 [eos]; mkR 0 0 [sos]] ->
             soseos_group F sos eos [] = Ok (ord_e F [mkR 0 0 [sos]; mkR 0 0 [eos]])).
  { intros F HF. unfold soseos_group, radd_all. cbn [length].
    change (radd_each [] [(0%Z, 0%Z, [sos]); (Z.of_nat 0, Z.of_nat 0, [eos])])
      with (Ok [mkR 0 0 [sos]; mkR 0 0 [eos]]). cbn [bind]. rewrite rdone_eq, RD.
    destruct HF as [-> | ->]; reflexivity. }
  pose proof (OE [mkR 0 0 [sos]; mkR 0 0 [eos]]) as P.
  apply Permutation_sym, Permutation_length_2_inv in P.
  set (E' := reseed E (ord_c E) (fun l => rev (ord_e E l))).
  assert (Q' : ord_e E' [mkR 0 0 [sos]; mkR 0 0 [eos]] = rev (ord_e E [mkR 0 0 [sos]; mkR 0 0 [eos]])) by reflexivity.
  unfold transform_op. cbn [type_of input_type seqtype_eqb guard bind transform_lst]. unfold lst_result.
  rewrite (GR E) by (destruct P as [-> | ->]; auto).
  rewrite (GR E') by (rewrite Q'; destruct P as [-> | ->]; auto). rewrite Q'.
  cbn [bind fst type_of output_type seqtype_eqb guard].
  do 4 eexists. split; [exact OR|]. split; [reflexivity|]. split; [reflexivity|].
  destruct P as [-> | ->]; intros Q; injection Q; intros; congruence.
Qed.
