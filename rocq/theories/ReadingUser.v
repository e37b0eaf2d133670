(** Labels keep their order: operators written by users. *)

From Coq Require Import Lia ZArith Bool.
From Verif Require Import Py PyFacts Edit Labels SpecEdit SpecLabels SpecSeg EditProofs SpanProofs LabelProofs SegProofs Regex Trie Ops
  SpecScan SpecOps OpProofs ScanProofs TokProofs TouchProofs AlignProofs Elements Pipe UserPipe SpecUserPipe UserPipeProofs UserOps SpecUserOps UserOpsProofs
  SpecReading ReadingProofs.
From Coq Require Import List.
Import ListNotations.
Local Open Scope nat_scope.

Lemma order_inverse_by {A} {EA : Eqb A} ord (s : list A) g bwd : ord_ok ord -> group_in 0 (length s) g -> order_tr bwd -> sized bwd ->
  forall l l', length l = length (apply s g) -> (h <- inverse ord s g ;; propagate l h bwd) = Ok l' -> in_order l l'.
Proof.
  intros HO HG OB SB l l' HL H. pose proof (inv_list_group_in s g HG) as GI.
  destruct (inverse_total ord s g HO HG) as [(ND & h & EI & HP)|(ND & EI)]; rewrite EI in H; cbn [bind] in H; [|discriminate].
  assert (GH : group_in 0 (length (apply s g)) h).
  { unfold inverse in EI. rewrite gen_inverse_inv_list in EI.
    destruct (rdone ord (inv_list s g)) as [h'|] eqn:ER; [|discriminate]. cbn [bind] in EI.
    destruct (guard _ AssertionErr); [|discriminate]. cbn [bind] in EI. injection EI as ->.
    destruct (rdone_ok ord _ _ HO (inv_list_well_formed s g HG) ER) as (_ & _ & _ & _ & Q).
    apply Q. intros r HR. apply (group_in_In _ _ _ _ GI HR). }
  rewrite <- HL in GH. exact (order_propagate bwd l h l' OB SB GH H).
Qed.

Lemma ualign_inv a l l' : ualign a l = Ok l' -> length l = ua_in a /\ ua_fwd a l = Ok l'.
Proof.
  unfold ualign. destruct (Nat.eqb_spec (length l) (ua_in a)) as [Q|Q]; cbn [guard bind]; [|discriminate].
  destruct (ua_fwd a l) as [out|]; cbn [bind]; [|discriminate]. destruct (guard _ _); cbn [bind]; [|discriminate].
  intros [= ->]. auto.
Qed.
Lemma ualign_inverse_inv a l l' : ualign_inverse a l = Ok l' -> length l = ua_out a /\ ua_bwd a l = Ok l'.
Proof.
  unfold ualign_inverse. destruct (Nat.eqb_spec (length l) (ua_out a)) as [Q|Q]; cbn [guard bind]; [|discriminate].
  destruct (ua_bwd a l) as [out|]; cbn [bind]; [|discriminate]. destruct (guard _ _); cbn [bind]; [|discriminate].
  intros [= ->]. auto.
Qed.

Theorem user_recognizer_order E find token fwd bwd s y a : ord_ok (ord_c E) -> in_bounds find ->
  (forall ls k new, fwd ls k = Ok new -> in_order ls new) -> sized fwd ->
  (forall ls k new, bwd ls k = Ok new -> in_order ls new) -> sized bwd ->
  gives (recognizer E find token fwd bwd) s y a -> keeps_order a.
Proof.
  intros HO HB OF SF OB SB H.
  destruct (replaced_or_stuck find (fun _ => token) HB s 0 ltac:(lia)) as [(sg & HR)|HS].
  - assert (ES : olds sg = s) by exact (replaced_ge find (fun _ => token) HB s 0 sg ltac:(lia) HR).
    pose proof (scan_group_replaced E find _ s sg HO HB HR) as HG.
    unfold gives in H. apply utransform_ok in H. destruct H as (_ & H & _). cbn [recognizer u_run] in H.
    unfold str_result in H. rewrite HG in H. cbn [bind] in H. injection H as _ <-.
    pose proof (grp_group_in 0 sg) as GI. cbn [Nat.add] in GI. subst s. split; intros l l' HA.
    + apply ualign_inv in HA. destruct HA as (L & HA). cbn [seen ua_in ua_fwd input_length align_raw] in L, HA.
      rewrite <- L in GI. exact (order_propagate fwd l (grp 0 sg) l' OF SF GI HA).
    + apply ualign_inverse_inv in HA. destruct HA as (L & HA). cbn [seen ua_out ua_bwd output_length align_inverse_raw] in L, HA.
      exact (order_inverse_by (ord_c E) (olds sg) (grp 0 sg) bwd HO GI OB SB l l' L HA).
  - unfold gives in H. apply utransform_ok in H. destruct H as (_ & H & _). cbn [recognizer u_run] in H.
    unfold str_result, scan_group in H. rewrite (scan_stuck find (fun _ => token) HB s 0 ltac:(lia) HS) in H. discriminate.
Qed.

Theorem user_spacer_order E test s y a : ord_ok (ord_c E) -> gives (spacer E test) s y a -> keeps_order a.
Proof.
  intros HO H. destruct (spacer_gives E test s HO) as (a' & HG & (H1 & H2 & H3 & H4) & _).
  unfold gives in *. rewrite HG in H. injection H as <- <-. split; intros l l' HA.
  - destruct (Nat.eq_dec (length l) (length s)) as [Q|Q]; [|rewrite (H2 l Q) in HA; discriminate].
    destruct (H1 l Q Logic.I) as (R & _). rewrite R in HA. injection HA as <-. apply order_relabel; auto with order.
  - destruct (Nat.eq_dec (length l) (length (news (spaced test s)))) as [Q|Q]; [|rewrite (H4 l Q) in HA; discriminate].
    destruct (H3 l Q Logic.I) as (R & _). rewrite R in HA. injection HA as <-. apply order_relabel; auto with order.
Qed.

Lemma order_char_labels_by k ps : (forall gap, In (gap, false) ps -> in_order [] (k [] (length gap))) ->
  forall l, in_order l (char_labels_by k ps l).
Proof.
  induction ps as [|[w kp] ps IH]; intros HK l; cbn [char_labels_by]; [apply (order_zero l 0)|].
  assert (HK' : forall gap, In (gap, false) ps -> in_order [] (k [] (length gap))) by (intros; apply HK; now right).
  destruct kp.
  - destruct l as [|x l]; cbn [hd tl].
    + apply (order_app [] []); [apply order_zero|apply IH; exact HK'].
    + apply (order_app [x] l); [apply order_const; right; now left|apply IH; exact HK'].
  - apply (order_app [] l); [apply HK; now left|apply IH; exact HK'].
Qed.

Theorem user_tokenizer_order E tokenize fwd bwd k s ts ps y a : ord_ok (ord_c E) -> tokenize s = Ok ts -> found ts s ps ->
  drops fwd bwd k ps -> (forall ls n new, bwd ls n = Ok new -> in_order ls new) ->
  gives (tokenizer E tokenize fwd bwd) s y a -> keeps_order a.
Proof.
  intros HO HT HF HD OB H.
  destruct (tokenizer_gives E tokenize fwd bwd k s ts ps HO HT HF HD) as (a' & HG & (H1 & H2 & H3 & H4) & H5 & H6).
  unfold gives in *. rewrite HG in H. injection H as <- <-. split; intros l l' HA.
  - destruct (Nat.eq_dec (length l) (length s)) as [Q|Q]; [|rewrite (H2 l Q) in HA; discriminate].
    rewrite (H5 l Q) in HA. injection HA as <-. apply order_token_labels.
  - destruct (Nat.eq_dec (length l) (length ts)) as [Q|Q]; [|rewrite (H4 l Q) in HA; discriminate].
    destruct (u32_dec l) as [U|U]; [|rewrite (H6 l Q U) in HA; discriminate].
    destruct (H3 l Q U) as (R & _). rewrite R in HA. injection HA as <-. apply order_char_labels_by.
    intros gap HI. destruct (HD gap HI) as (_ & D & _). exact (OB _ _ _ D).
Qed.

Theorem user_pipe_order (V T : Type) (isinst : V -> T -> bool) (ops : list (uop V T)) x y als coll :
  (forall o u v a, In o ops -> u_run o u = Ok (v, a) -> keeps_order a) -> urun isinst ops x = Ok (y, als, coll) ->
  (forall l l', ualign_all als l = Ok l' -> in_order l l') /\
  (forall l l', ualign_inverse_all als l = Ok l' -> in_order l l').
Proof.
  intros HK HR. assert (HF : Forall keeps_order als).
  { revert x als coll HK HR. induction ops as [|o ops IH]; intros x als coll HK; cbn [urun].
    - intros [= _ <- _]. constructor.
    - destruct (utransform isinst o x) as [[m a]|] eqn:HT; cbn [bind]; [|discriminate].
      destruct (urun isinst ops m) as [[[z als'] coll']|] eqn:HR'; cbn [bind]; [|discriminate].
      intros [= -> <- _]. constructor.
      + apply utransform_ok in HT. destruct HT as (_ & HT & _). apply (HK o x m a); [now left|exact HT].
      + apply (IH m als' coll'); [intros; eapply HK; [right|]; eauto|exact HR']. }
  clear HK HR. split; intros l l' HA.
  - unfold ualign_all in HA. revert l HA. induction HF as [|a als (H1 & _) HF IH]; intros l HA; cbn [foldM] in HA.
    + injection HA as <-. apply order_refl.
    + destruct (ualign a l) as [m|] eqn:EA; cbn [bind] in HA; [|discriminate]. apply (order_trans _ m); auto.
  - unfold ualign_inverse_all in HA. apply Forall_rev in HF. revert l HA.
    induction HF as [|a r (_ & H1) HF IH]; intros l HA; cbn [foldM] in HA.
    + injection HA as <-. apply order_refl.
    + destruct (ualign_inverse a l) as [m|] eqn:EA; cbn [bind] in HA; [|discriminate]. apply (order_trans _ m); auto.
Qed.
