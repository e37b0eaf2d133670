(** Proofs about operator classes whose [__init__] has any parameters. *)

From Coq Require Import Lia String.
From Verif Require Import Py PyFacts Json SpecJson JsonProofs Elements Pipe SpecPipe PipeProofs ObjProofs EqProofs
  SpecCalls CallProofs Factory SpecFactory FactoryProofs Custom SpecCustom CustomProofs Signature SpecSignature.
From Coq Require Import List.

(** ** Parting keywords *)

Lemma filter_nil {A} (f : A -> bool) l : (forall x, In x l -> f x = false) -> filter f l = [].
Proof.
  induction l as [|x l IH]; intros H; [reflexivity|]. cbn [filter]. rewrite (H x) by now left. apply IH.
  intros y HI. apply H. now right.
Qed.

Lemma get_filter {V} (f : str -> bool) (d : list (str * V)) n :
  dict_get (filter (fun kv => f (fst kv)) d) n = if f n then dict_get d n else None.
Proof.
  induction d as [|[k v] d IH]; cbn [filter dict_get fst]; [now destruct (f n)|].
  destruct (f k) eqn:F; cbn [dict_get]; destruct (eqb_spec n k) as [<-|]; rewrite ?F, ?IH; auto; now rewrite F.
Qed.

Lemma part_filter ns kwargs : part ns kwargs (filter (fun kv => memb (fst kv) ns) kwargs)
  (filter (fun kv => negb (memb (fst kv) ns)) kwargs).
Proof.
  induction kwargs as [|[n v] kwargs IH]; cbn [filter fst]; [constructor|].
  destruct (memb n ns) eqn:M; cbn [negb]; constructor; auto.
  - now apply memb_In.
  - intros HI. apply memb_In in HI. congruence.
Qed.
Lemma part_is ns kwargs mine others : part ns kwargs mine others ->
  mine = filter (fun kv => memb (fst kv) ns) kwargs /\ others = filter (fun kv => negb (memb (fst kv) ns)) kwargs.
Proof.
  induction 1 as [|n v kwargs mine others HI _ [-> ->]|n v kwargs mine others HI _ [-> ->]]; cbn [filter fst]; auto.
  - apply memb_In in HI. now rewrite HI.
  - destruct (memb n ns) eqn:M; [now apply memb_In in M|]. cbn [negb]. auto.
Qed.

(** ** Binding *)

Lemma bind_params_get ps : forall args kw kw', (forall n, In n (map fst ps) -> dict_get kw n = dict_get kw' n) ->
  bind_params ps args kw = bind_params ps args kw'.
Proof.
  induction ps as [|[n d] ps IH]; intros args kw kw' H; [reflexivity|]. cbn [bind_params map fst] in *.
  assert (R : forall args, bind_params ps args kw = bind_params ps args kw') by (intros; apply IH; intros m HM; apply H; now right).
  destruct args as [|a args].
  - rewrite (H n) by now left. now rewrite R.
  - unfold dict_mem. rewrite (H n) by now left. now rewrite R.
Qed.

Definition mine_of (ps : list (str * option jval)) (kwargs : list (str * jval)) : list (str * jval) :=
  filter (fun kv => memb (fst kv) (map fst ps)) kwargs.

Lemma mine_get ps kwargs n : In n (map fst ps) -> dict_get (mine_of ps kwargs) n = dict_get kwargs n.
Proof. intros HI. unfold mine_of. rewrite (get_filter (fun n => memb n (map fst ps))). apply memb_In in HI. now rewrite HI. Qed.

Lemma bind_mine ps args kwargs : bind_params ps args kwargs = bind_args ps args (mine_of ps kwargs).
Proof.
  unfold bind_args. replace (forallb _ _) with true.
  - cbn [guard bind]. apply bind_params_get. intros n HI. now rewrite mine_get.
  - symmetry. apply forallb_forall. intros [n v] HI. apply filter_In in HI. tauto.
Qed.

Lemma kwonly_values kwargs l :
  (forall vs, mapM (kwonly_value kwargs) l = Ok vs <-> length vs = length l /\
     forall k n d, nth_error l k = Some (n, d) ->
       nth_error vs k = match dict_get kwargs n with Some v => Some v | None => d end) /\
  (forall e, mapM (kwonly_value kwargs) l = Err e -> e = TypeErr).
Proof.
  induction l as [|[n d] l [IH1 IH2]]; split; cbn [mapM].
  - intros vs. split; [injection 1 as <-; split; [reflexivity|]; intros [|k]; discriminate|].
    intros [L _]. destruct vs; [reflexivity|discriminate].
  - discriminate.
  - intros vs. split.
    + unfold kwonly_value at 1. cbn [fst snd].
      destruct (dict_get kwargs n) as [v|] eqn:G; [|destruct d as [v|]]; cbn [bind]; try discriminate;
        (destruct (mapM (kwonly_value kwargs) l) as [ws|e] eqn:M; cbn [bind]; [|discriminate]); injection 1 as <-;
        destruct (proj1 (IH1 ws) eq_refl) as [L M']; (split; [cbn; now rewrite L|]); intros [|k] m d'; cbn [nth_error]; intros Q;
        [injection Q as <- <-; now rewrite G|exact (M' _ _ _ Q)|injection Q as <- <-; now rewrite G|exact (M' _ _ _ Q)].
    + intros [L M]. destruct vs as [|v vs]; [discriminate|]. pose proof (M 0 n d eq_refl) as Q. cbn [nth_error] in Q.
      assert (R : mapM (kwonly_value kwargs) l = Ok vs).
      { apply IH1. split; [now injection L|]. intros k. exact (M (S k)). }
      unfold kwonly_value at 1. cbn [fst snd]. rewrite R.
      destruct (dict_get kwargs n) as [w|]; [injection Q as ->; reflexivity|]. rewrite <- Q. reflexivity.
  - intros e. unfold kwonly_value at 1. cbn [fst snd].
    destruct (dict_get kwargs n) as [v|]; [|destruct d as [v|]]; cbn [bind]; try (injection 1 as <-; reflexivity);
      (destruct (mapM (kwonly_value kwargs) l) as [ws|e'] eqn:M; cbn [bind]; [discriminate|]); injection 1 as <-; eapply IH2; eauto.
Qed.

Section one.
  Context (s : signature) (ps : list (str * option jval)) (D : declared s ps).

  Lemma names_are : s_names s = map fst ps. Proof. apply D. Qed.
  Lemma params_are : params (s_names s) (s_defaults s) = ps. Proof. apply declares_params. apply D. Qed.
  Lemma ps_NoDup : NoDup (map fst ps). Proof. destruct D as [(N & Q & _) _]. now rewrite <- Q. Qed.
  Lemma kwonly_apart n : In n (map fst ps) -> In n (map fst (s_kwonly s)) -> False.
  Proof.
    destruct D as [_ N]. inversion N as [|x l _ N2]; subst. intros H1 H2. revert N2 H1 H2. generalize (map fst ps), (map fst (s_kwonly s)).
    intros a b. induction a as [|x a IH]; cbn; [tauto|]. intros N2 [<-|H1] H2.
    - inversion N2 as [|? ? X _]; subst. apply X. apply in_app_iff. auto.
    - inversion N2; subst. auto.
  Qed.
  Lemma self_apart n : In n (map fst ps) -> n <> SELF.
  Proof. destruct D as [_ N]. inversion N as [|x l X _]; subst. intros H ->. apply X. apply in_app_iff. now left. Qed.

  (** [bind_any] is [receives] *)
  Lemma bind_any_is args kwargs r : bind_any s args kwargs = Ok r <-> receives s ps args kwargs r.
  Proof.
    unfold bind_any. rewrite params_are, names_are, map_length. unfold receives.
    change (lit "self") with SELF.
    split.
    - destruct (dict_mem kwargs SELF) eqn:M; cbn [negb guard bind]; [discriminate|].
      destruct (s_rest s || (length args <=? length ps)) eqn:R; cbn [guard bind]; [|discriminate].
      destruct (s_options s || forallb (fun kv => named s (fst kv)) kwargs) eqn:O; cbn [guard bind]; [|discriminate].
      rewrite bind_mine.
      destruct (bind_args ps (firstn (length ps) args) (mine_of ps kwargs)) as [vals|e] eqn:B; cbn [bind]; [|discriminate].
      destruct (mapM (kwonly_value kwargs) (s_kwonly s)) as [ks|e] eqn:K; cbn [bind]; [|discriminate].
      injection 1 as <-. cbn [r_rest r_params r_kwonly r_options].
      apply (bind_args_binds _ _ _ _ ps_NoDup) in B. apply kwonly_values in K. destruct K as [K1 K2].
      split. { intros HI. apply dict_mem_spec in HI. congruence. }
      split.
      { exists (firstn (length ps) args), (mine_of ps kwargs), (filter (fun kv => negb (memb (fst kv) (map fst ps))) kwargs).
        split; [now rewrite firstn_skipn|]. split; [apply part_filter|]. split; [exact B|].
        intros HN. rewrite firstn_length. destruct (Nat.le_gt_cases (length args) (length ps)) as [L|L]; [|lia].
        exfalso. apply HN. now apply skipn_all2. }
      split. { intros RF. rewrite RF in R. cbn in R. apply Nat.leb_le in R. now apply skipn_all2. }
      split; [exact K1|]. split; [exact K2|]. split.
      { eexists. rewrite <- names_are. apply part_filter. }
      intros OF. rewrite OF in O. cbn in O. rewrite forallb_forall in O. apply filter_nil. intros x HI. now rewrite (O x HI).
    - intros (M & (first & mine & others & QA & QP & B & L) & R & K1 & K2 & (mine' & QO) & O).
      apply part_is in QP. destruct QP as [-> _]. apply part_is in QO. destruct QO as [_ QO].
      assert (M' : dict_mem kwargs SELF = false).
      { destruct (dict_mem kwargs SELF) eqn:X; [|reflexivity]. apply dict_mem_spec in X. contradiction. }
      rewrite M'. cbn [negb guard bind].
      assert (LF : length first <= length ps) by apply B.
      assert (F1 : firstn (length ps) args = first).
      { rewrite QA. destruct (r_rest r) as [|x rest] eqn:QR.
        - rewrite app_nil_r. now apply firstn_all2.
        - rewrite <- L by discriminate. rewrite firstn_app, firstn_all, Nat.sub_diag. cbn. apply app_nil_r. }
      assert (F2 : skipn (length ps) args = r_rest r).
      { rewrite QA. destruct (r_rest r) as [|x rest] eqn:QR.
        - rewrite app_nil_r. now apply skipn_all2.
        - rewrite <- L by discriminate. rewrite skipn_app, skipn_all, Nat.sub_diag. reflexivity. }
      replace (s_rest s || (length args <=? length ps)) with true; cbn [guard bind].
      2:{ symmetry. destruct (s_rest s); [reflexivity|]. cbn. apply Nat.leb_le. rewrite QA, (R eq_refl), app_nil_r. exact LF. }
      replace (s_options s || forallb (fun kv => named s (fst kv)) kwargs) with true; cbn [guard bind].
      2:{ symmetry. destruct (s_options s); [reflexivity|]. cbn. rewrite (O eq_refl) in QO. apply forallb_forall.
          intros x HI. unfold named. rewrite names_are. destruct (memb _ _) eqn:X; [reflexivity|].
          assert (In x []); [|contradiction]. rewrite QO. apply filter_In. rewrite X. auto. }
      rewrite F1, F2, bind_mine.
      apply (bind_args_binds _ _ _ _ ps_NoDup) in B. fold (mine_of ps kwargs) in B. rewrite B. cbn [bind].
      assert (K : mapM (kwonly_value kwargs) (s_kwonly s) = Ok (r_kwonly r)) by now apply kwonly_values.
      rewrite K. cbn [bind]. f_equal. destruct r as [a b c d]. cbn in *. f_equal. rewrite QO. unfold named. now rewrite names_are.
  Qed.

  Lemma bind_any_errors args kwargs e : bind_any s args kwargs = Err e -> e = TypeErr.
  Proof.
    unfold bind_any. rewrite params_are, bind_mine.
    destruct (guard _ _) as [[]|x] eqn:G; cbn [bind]; [|unfold guard in G; destruct (negb _); congruence]. clear G.
    destruct (guard _ _) as [[]|x] eqn:G; cbn [bind]; [|unfold guard in G; destruct (_ || _); congruence]. clear G.
    destruct (guard _ _) as [[]|x] eqn:G; cbn [bind]; [|unfold guard in G; destruct (_ || _); congruence]. clear G.
    destruct (bind_args _ _ _) as [vals|x] eqn:B; cbn [bind].
    - destruct (mapM _ _) as [ks|x] eqn:K; cbn [bind]; [discriminate|]. injection 1 as <-. eapply kwonly_values; eauto.
    - injection 1 as <-. eapply bind_args_errors; eauto.
  Qed.
End one.

(** ** Recording *)

Section recorded.
  Context (s : signature) (ps : list (str * option jval)) (D : declared s ps).
  Context (args : list jval) (kwargs : list (str * jval)) (r : received).
  Context (NK : NoDup (map fst kwargs)) (HR : receives s ps args kwargs r).

  Definition firsts : list jval := firstn (length ps) args.
  Lemma firsts_bound : bind_args ps firsts (mine_of ps kwargs) = Ok (r_params r).
  Proof.
    apply (bind_any_is s ps D) in HR. unfold bind_any in HR. rewrite (params_are s ps D), (names_are s ps D), map_length, bind_mine in HR.
    destruct (guard _ _) as [[]|x]; cbn [bind] in HR; [|discriminate].
    destruct (guard _ _) as [[]|x]; cbn [bind] in HR; [|discriminate].
    destruct (guard _ _) as [[]|x]; cbn [bind] in HR; [|discriminate].
    fold firsts in HR. destruct (bind_args ps firsts (mine_of ps kwargs)); cbn [bind] in HR; [|discriminate].
    destruct (mapM _ _); cbn [bind] in HR; [|discriminate]. now injection HR as <-.
  Qed.
  Lemma options_are : r_options r = filter (fun kv => negb (named s (fst kv))) kwargs.
  Proof.
    destruct HR as (_ & _ & _ & _ & _ & (mine & QO) & _). apply part_is in QO. destruct QO as [_ ->].
    unfold named. now rewrite (names_are s ps D).
  Qed.
  Lemma mine_NoDup : NoDup (map fst (mine_of ps kwargs)).
  Proof. now apply filter_NoDup_keys. Qed.
  Lemma positional_same : combine (map fst ps) args = positional ps firsts.
  Proof. unfold positional, firsts. rewrite <- (map_length fst ps). apply combine_firstn_l. Qed.
  Lemma apart_kwargs n : In n (map fst kwargs) -> ~ In n (map fst (positional ps firsts)).
  Proof.
    intros HI HP. assert (In n (map fst ps)) as HN.
    { unfold positional in HP. rewrite combine_keys in HP. rewrite <- (firstn_skipn (length firsts)). apply in_app_iff. now left. }
    apply (positional_kwargs ps firsts (mine_of ps kwargs) (r_params r) firsts_bound n); [|exact HP].
    apply in_map_iff in HI. destruct HI as ([m v] & Q & HI). cbn in Q. subst m. apply (in_map fst _ (n, v)).
    apply filter_In. split; [exact HI|]. now apply memb_In.
  Qed.
  Definition left_out : list (str * jval) := missing ps firsts (mine_of ps kwargs).

  Lemma own_form : record_any false s args kwargs = (positional ps firsts ++ kwargs) ++ left_out.
  Proof.
    unfold record_any. destruct D as [DD _]. rewrite (declares_defaults _ _ _ DD), (names_are s ps D), positional_same.
    rewrite (dict_update_app (positional ps firsts) kwargs NK apart_kwargs).
    replace (filter _ (defaults_of ps)) with left_out.
    - apply dict_update_app; [apply filter_NoDup_keys, defaults_NoDup, (ps_NoDup s ps D)|].
      intros k HI HN. apply in_map_iff in HI. destruct HI as ([k' v] & <- & HI). apply filter_In in HI. destruct HI as [HI1 HI].
      apply defaults_In, (in_map fst) in HI1. cbn [fst] in *. apply negb_true_iff in HI.
      rewrite map_app, in_app_iff in HN. apply not_true_iff_false in HI. apply HI. apply dict_mem_spec.
      rewrite map_app, in_app_iff. destruct HN as [HN|HN]; [now left|right].
      apply in_map_iff in HN. destruct HN as ([m w] & Q & HN). cbn in Q. subst m. apply (in_map fst _ (k', w)).
      apply filter_In. split; [exact HN|]. now apply memb_In.
    - apply filter_ext_in. intros [n v] HI. apply defaults_In, (in_map fst) in HI. cbn [fst] in *. f_equal.
      unfold dict_mem. rewrite !dict_get_app, (mine_get _ _ _ HI). reflexivity.
  Qed.

  Lemma own_get_param n : In n (map fst ps) ->
    dict_get (record_any false s args kwargs) n = dict_get (record_configs ps firsts (mine_of ps kwargs)) n.
  Proof.
    intros HI. rewrite own_form, (record_form ps firsts _ (r_params r) (ps_NoDup s ps D) mine_NoDup firsts_bound).
    rewrite !dict_get_app, (mine_get _ _ _ HI). reflexivity.
  Qed.
  Lemma own_get_other n : ~ In n (map fst ps) -> dict_get (record_any false s args kwargs) n = dict_get kwargs n.
  Proof.
    intros HI. rewrite own_form, !dict_get_app.
    assert (P1 : dict_get (positional ps firsts) n = None).
    { apply dict_get_None. unfold positional. rewrite combine_keys. intros HP. apply HI.
      rewrite <- (firstn_skipn (length firsts)). apply in_app_iff. now left. }
    assert (P2 : dict_get left_out n = None).
    { apply dict_get_None. intros HP. apply HI. apply in_map_iff in HP. destruct HP as ([m v] & <- & HP).
      apply filter_In in HP. destruct HP as [HP _]. apply defaults_In, (in_map fst) in HP. exact HP. }
    rewrite P1, P2. now destruct (dict_get kwargs n).
  Qed.
  Lemma own_complete : complete ps (record_any false s args kwargs) (r_params r).
  Proof.
    destruct (record_complete ps firsts (mine_of ps kwargs) (r_params r) (ps_NoDup s ps D) mine_NoDup firsts_bound) as [L C].
    split; [exact L|]. intros k n d Hk. rewrite own_get_param; [eauto|]. apply (in_map fst ps (n, d)). eapply nth_error_In; eauto.
  Qed.
  Lemma own_NoDup : NoDup (map fst (record_any false s args kwargs)).
  Proof.
    rewrite own_form, !map_app. apply NoDup_app_disjoint; [apply NoDup_app_disjoint| |].
    - unfold positional. rewrite combine_keys. apply NoDup_firstn, (ps_NoDup s ps D).
    - exact NK.
    - exact apart_kwargs.
    - apply filter_NoDup_keys, defaults_NoDup, (ps_NoDup s ps D).
    - intros n HI HN. apply in_map_iff in HI. destruct HI as ([k' v] & <- & HI). apply filter_In in HI. destruct HI as [HI1 HI].
      apply defaults_In, (in_map fst) in HI1. cbn [fst] in *. apply negb_true_iff, not_true_iff_false in HI. apply HI.
      apply dict_mem_spec. rewrite map_app, in_app_iff. rewrite in_app_iff in HN. destruct HN as [HN|HN]; [now left|right].
      apply in_map_iff in HN. destruct HN as ([m w] & Q & HN). cbn in Q. subst m. apply (in_map fst _ (k', w)).
      apply filter_In. split; [exact HN|]. now apply memb_In.
  Qed.
  Lemma own_others : filter (fun kv => negb (named s (fst kv))) (record_any false s args kwargs) = r_options r.
  Proof.
    rewrite own_form, !filter_app, options_are.
    assert (Z0 : forall l : list (str * jval), (forall n, In n (map fst l) -> In n (map fst ps)) ->
                 filter (fun kv => negb (named s (fst kv))) l = []).
    { intros l H. apply filter_nil. intros [n v] HI. cbn [fst]. apply negb_false_iff. unfold named. apply memb_In.
      apply in_app_iff. left. rewrite (names_are s ps D). apply H. now apply (in_map fst l (n, v)). }
    rewrite (Z0 (positional ps firsts)), (Z0 left_out).
    - now rewrite app_nil_r.
    - intros n HP. apply in_map_iff in HP. destruct HP as ([m v] & <- & HP).
      apply filter_In in HP. destruct HP as [HP _]. apply defaults_In, (in_map fst) in HP. exact HP.
    - intros n. unfold positional. rewrite combine_keys. intros HP. rewrite <- (firstn_skipn (length firsts)). apply in_app_iff. now left.
  Qed.
  Lemma own_self : ~ In SELF (map fst (record_any false s args kwargs)).
  Proof.
    intros HI. apply dict_mem_spec in HI. unfold dict_mem in HI. rewrite own_get_other in HI.
    - destruct HR as (HS & _). change (lit "self") with SELF in HS. apply dict_get_None in HS. now rewrite HS in HI.
    - intros HP. now apply (self_apart s ps D) in HP.
  Qed.
End recorded.

(** calling with the record as keywords gives the same, without [*rest] *)
Lemma own_again s ps args kwargs r : declared s ps -> NoDup (map fst kwargs) -> receives s ps args kwargs r ->
  receives s ps [] (record_any false s args kwargs) (without_rest r) /\
  record_any false s [] (record_any false s args kwargs) = record_any false s args kwargs.
Proof.
  intros D NK HR. set (configs := record_any false s args kwargs).
  assert (HA : bind_any s [] configs = Ok (without_rest r)).
  { unfold bind_any. rewrite (params_are s ps D).
    destruct (dict_mem configs SELF) eqn:M.
    { apply dict_mem_spec in M. now apply (own_self s ps D args kwargs r NK HR) in M. }
    cbn [negb guard bind length Nat.leb]. rewrite orb_true_r. cbn [guard bind].
    assert (O : s_options s || forallb (fun kv => named s (fst kv)) configs = true).
    { destruct (s_options s) eqn:SO; [reflexivity|]. cbn [orb]. apply forallb_forall. intros x HI.
      assert (X : filter (fun kv => negb (named s (fst kv))) configs = []).
      { unfold configs. rewrite (own_others s ps D args kwargs r NK HR). apply HR. exact SO. }
      destruct (named s (fst x)) eqn:N; [reflexivity|]. assert (In x []); [|contradiction]. rewrite <- X.
      apply filter_In. rewrite N. auto. }
    rewrite O. cbn [guard bind]. rewrite firstn_nil, skipn_nil.
    rewrite (bind_complete ps configs (r_params r) (own_complete s ps D args kwargs r NK HR)). cbn [bind].
    assert (K : mapM (kwonly_value configs) (s_kwonly s) = Ok (r_kwonly r)).
    { apply kwonly_values. pose proof HR as HR0. destruct HR0 as (_ & _ & _ & K1 & K2 & _). split; [exact K1|]. intros k n d Hk.
      rewrite (K2 k n d Hk). unfold configs. rewrite (own_get_other s ps D args kwargs r NK HR); [reflexivity|].
      intros HI. apply (kwonly_apart s ps D n HI). apply (in_map fst _ (n, d)). eapply nth_error_In; eauto. }
    rewrite K. cbn [bind]. unfold configs. rewrite (own_others s ps D args kwargs r NK HR). reflexivity. }
  apply (bind_any_is s ps D) in HA. split; [exact HA|].
  rewrite (own_form s ps D [] configs (without_rest r)); auto.
  2: exact (own_NoDup s ps D args kwargs r NK HR).
  unfold positional, firsts, left_out. rewrite firstn_nil. replace (combine (map fst ps) []) with (@nil (str * jval)) by (destruct (map fst ps); reflexivity).
  cbn [app]. unfold missing, positional. rewrite filter_nil; [apply app_nil_r|].
  intros [n v] HI. apply defaults_In in HI. cbn [fst]. apply negb_false_iff. unfold firsts. rewrite firstn_nil.
  replace (combine (map fst ps) []) with (@nil (str * jval)) by (destruct (map fst ps); reflexivity). cbn [app].
  unfold dict_mem. rewrite mine_get by (apply (in_map fst) in HI; exact HI).
  apply In_nth_error in HI. destruct HI as (k & Hk). destruct (own_complete s ps D args kwargs r NK HR) as [L C].
  unfold configs. rewrite (C k n (Some v) Hk). destruct (nth_error (r_params r) k) eqn:X; [reflexivity|].
  apply nth_error_None in X. assert (k < length ps) by (apply nth_error_Some; congruence). lia.
Qed.

(** ** Objects *)

Theorem receives_fun s ps args kwargs r r' : declared s ps ->
  receives s ps args kwargs r -> receives s ps args kwargs r' -> r = r'.
Proof. intros D H H'. apply (bind_any_is s ps D) in H, H'. congruence. Qed.

Theorem any_call c ps args kwargs : declared (sc_sig c) ps ->
  ((forall r, ~ receives (sc_sig c) ps args kwargs r) -> make_any c args kwargs = Err TypeErr) /\
  (forall r, receives (sc_sig c) ps args kwargs r ->
     (forall e, sc_body c r = Some e -> make_any c args kwargs = Err e) /\
     (sc_body c r = None -> exists o, make_any c args kwargs = Ok o /\ so_class o = c /\ so_got o = r)).
Proof.
  intros D. unfold make_any. split.
  - intros N. destruct (bind_any (sc_sig c) args kwargs) as [r|e] eqn:B; cbn [bind].
    + apply (bind_any_is _ _ D) in B. now apply N in B.
    + now rewrite (bind_any_errors _ _ D _ _ _ B).
  - intros r H. apply (bind_any_is _ _ D) in H. rewrite H. cbn [bind]. split.
    + now intros e ->.
    + intros ->. eexists. split; [reflexivity|]. auto.
Qed.

Lemma make_inv c ps args kwargs o : declared (sc_sig c) ps -> make_any c args kwargs = Ok o ->
  exists r, receives (sc_sig c) ps args kwargs r /\ sc_body c r = None /\
    o = mkSO c (record_any (sc_inherited c) (sc_sig c) args kwargs) r.
Proof.
  intros D. unfold make_any. destruct (bind_any (sc_sig c) args kwargs) as [r|e] eqn:B; cbn [bind]; [|discriminate].
  apply (bind_any_is _ _ D) in B. destruct (sc_body c r) eqn:X; [discriminate|]. injection 1 as <-. eauto.
Qed.

Theorem any_ordinary s ps args kwargs r : declared s ps -> s_rest s = false -> s_kwonly s = [] -> s_options s = false ->
  (receives s ps args kwargs r <-> exists vals, r = mkR vals [] [] [] /\ call_binds ps args kwargs vals).
Proof.
  intros D R K O. split.
  - intros (HS & (first & mine & others & QA & QP & B & L) & QR & K1 & K2 & (mine' & QO) & HO).
    specialize (QR R). specialize (HO O). rewrite K in K1. destruct r as [a b c d]. cbn in *. subst b d.
    destruct c; [|discriminate]. exists a. split; [reflexivity|]. rewrite app_nil_r in QA. subst first.
    rewrite K in QO. cbn in QO. rewrite app_nil_r in QO. apply part_is in QO, QP. destruct QO as [_ QO], QP as [-> _].
    assert (X : filter (fun kv => memb (fst kv) (map fst ps)) kwargs = kwargs); [|now rewrite X in B].
    symmetry in QO. clear -QO. induction kwargs as [|[n v] l IH]; [reflexivity|]. cbn [filter fst] in *.
    destruct (memb n (map fst ps)); cbn [negb] in QO; [|discriminate]. now rewrite IH.
  - intros (vals & -> & B). unfold receives. cbn [r_rest r_params r_kwonly r_options].
    assert (HK : forall n, In n (map fst kwargs) -> In n (map fst ps)).
    { intros n HI. destruct B as (_ & _ & X & _). destruct (X n HI) as (k & d & Hk & _). apply (in_map fst ps (n, d)). eapply nth_error_In; eauto. }
    assert (P : part (map fst ps) kwargs kwargs []).
    { clear -HK. induction kwargs as [|[n v] l IH]; constructor; [apply HK; now left|]. apply IH. intros m HI. apply HK. now right. }
    split. { intros HI. apply HK in HI. now apply (self_apart s ps D) in HI. }
    split. { exists args, kwargs, []. split; [now rewrite app_nil_r|]. split; [exact P|]. split; [exact B|congruence]. }
    split; [auto|]. rewrite K. split; [reflexivity|]. split; [intros [|k]; discriminate|].
    split; [exists kwargs; cbn; now rewrite app_nil_r|auto].
Qed.

Section own.
  Context (c : sclass) (ps : list (str * option jval)) (D : declared (sc_sig c) ps) (OWN : sc_inherited c = false).

  Theorem any_recorded args kwargs o : NoDup (map fst kwargs) -> make_any c args kwargs = Ok o ->
    NoDup (map fst (so_configs o)) /\
    forall n v, In (n, v) (so_configs o) <->
      (exists k d, nth_error ps k = Some (n, d) /\ nth_error (r_params (so_got o)) k = Some v) \/
      (~ In n (map fst ps) /\ In (n, v) kwargs).
  Proof.
    intros NK HM. destruct (make_inv c ps args kwargs o D HM) as (r & HR & _ & ->). cbn [so_configs so_got]. rewrite OWN.
    pose proof (own_NoDup _ ps D args kwargs r NK HR) as ND. split; [exact ND|].
    destruct (own_complete _ ps D args kwargs r NK HR) as [L C]. intros n v.
    transitivity (dict_get (record_any false (sc_sig c) args kwargs) n = Some v).
    { split; [now apply dict_get_Some|apply dict_get_In]. }
    destruct (memb n (map fst ps)) eqn:M.
    - apply memb_In in M. split.
      + intros G. left. apply in_map_iff in M. destruct M as ([m d] & Q & M). cbn in Q. subst m. apply In_nth_error in M.
        destruct M as (k & Hk). exists k, d. split; [exact Hk|]. rewrite <- (C k n d Hk). exact G.
      + intros [(k & d & Hk & G)|[X _]]; [|contradiction]. now rewrite (C k n d Hk).
    - assert (N : ~ In n (map fst ps)) by (intros HI; apply memb_In in HI; congruence).
      rewrite (own_get_other _ ps D args kwargs r NK HR n N). split.
      + intros G. right. split; [exact N|]. now apply dict_get_In.
      + intros [(k & d & Hk & _)|[_ G]]; [|now apply dict_get_Some].
        exfalso. apply N. apply (in_map fst ps (n, d)). eapply nth_error_In; eauto.
  Qed.

  Theorem any_read_back args kwargs o f : NoDup (map fst kwargs) -> make_any c args kwargs = Ok o ->
    fget f (sc_name c) = Ok c ->
    from_dict_any f (sc_name c) (so_configs o) =
      match sc_body c (without_rest (so_got o)) with
      | Some e => Err e
      | None => Ok (mkSO c (so_configs o) (without_rest (so_got o)))
      end.
  Proof.
    intros NK HM HF. destruct (make_inv c ps args kwargs o D HM) as (r & HR & _ & ->). cbn [so_configs so_got]. rewrite OWN.
    unfold from_dict_any. rewrite HF. cbn [bind]. destruct (own_again _ ps args kwargs r D NK HR) as [H1 H2].
    apply (bind_any_is _ _ D) in H1. unfold make_any. rewrite H1. cbn [bind]. rewrite OWN, H2. reflexivity.
  Qed.

  Lemma few_rest args kwargs r : receives (sc_sig c) ps args kwargs r -> length args <= length ps -> without_rest r = r.
  Proof.
    intros (_ & (first & mine & others & QA & _ & (LF & _) & L) & _) LA. destruct r as [a [|x b] k d]; [reflexivity|].
    cbn in *. assert (length first = length ps) by (apply L; discriminate). rewrite QA, app_length in LA. cbn in LA. lia.
  Qed.

  Theorem any_round_trip args kwargs o f : NoDup (map fst kwargs) -> make_any c args kwargs = Ok o ->
    fget f (sc_name c) = Ok c -> length args <= length ps -> from_dict_any f (sc_name c) (so_configs o) = Ok o.
  Proof.
    intros NK HM HF LA. rewrite (any_read_back args kwargs o f NK HM HF).
    destruct (make_inv c ps args kwargs o D HM) as (r & HR & HB & ->). cbn [so_configs so_got].
    rewrite (few_rest args kwargs r HR LA), HB. reflexivity.
  Qed.

  Lemma options_NoDup args kwargs r : NoDup (map fst kwargs) -> receives (sc_sig c) ps args kwargs r -> NoDup (map fst (r_options r)).
  Proof. intros NK HR. rewrite (options_are _ ps D args kwargs r HR). now apply filter_NoDup_keys. Qed.
  Lemma options_get args kwargs r n : receives (sc_sig c) ps args kwargs r ->
    dict_get (r_options r) n = if named (sc_sig c) n then None else dict_get kwargs n.
  Proof.
    intros HR. rewrite (options_are _ ps D args kwargs r HR), (get_filter (fun n => negb (named (sc_sig c) n))).
    now destruct (named (sc_sig c) n).
  Qed.

  Theorem any_equal args kwargs args' kwargs' o o' :
    NoDup (map fst kwargs) -> NoDup (map fst kwargs') ->
    make_any c args kwargs = Ok o -> make_any c args' kwargs' = Ok o' ->
    value (JDict (so_configs o)) -> value (JDict (so_configs o')) ->
    (sobj_eqb o o' = true <->
       Forall2 same (r_params (so_got o)) (r_params (so_got o')) /\
       same (JDict (r_options (so_got o))) (JDict (r_options (so_got o'))) /\
       forall n, In n (map fst (s_kwonly (sc_sig c))) -> same_options (dict_get kwargs n) (dict_get kwargs' n)).
  Proof.
    intros NK NK' HM HM' HV HV'.
    destruct (make_inv c ps args kwargs o D HM) as (r & HR & _ & ->).
    destruct (make_inv c ps args' kwargs' o' D HM') as (r' & HR' & _ & ->).
    cbn [so_configs so_got] in *. unfold sobj_eqb. cbn [so_class so_configs].
    destruct (eqb_spec (sc_name c) (sc_name c)) as [_|?]; [|congruence]. cbn [andb].
    rewrite (py_eqb_same _ _ HV HV'). rewrite OWN in *. clear HV HV' HM HM'.
    pose proof (own_NoDup _ ps D args kwargs r NK HR) as N1. pose proof (own_NoDup _ ps D args' kwargs' r' NK' HR') as N2.
    destruct (own_complete _ ps D args kwargs r NK HR) as [L C]. destruct (own_complete _ ps D args' kwargs' r' NK' HR') as [L' C'].
    pose proof (own_get_other _ ps D args kwargs r NK HR) as G. pose proof (own_get_other _ ps D args' kwargs' r' NK' HR') as G'.
    split.
    - intros HS. pose proof (fun n => same_lookup _ _ n N1 N2 HS) as H. split; [|split].
      + assert (X : forall k v w, nth_error (r_params r) k = Some v -> nth_error (r_params r') k = Some w -> same v w).
        { intros k v w Hv Hw. destruct (nth_error ps k) as [[n d]|] eqn:Hk.
          - specialize (H n). rewrite (C k n d Hk), (C' k n d Hk), Hv, Hw in H. exact H.
          - apply nth_error_None in Hk. assert (k < length (r_params r)) by (apply nth_error_Some; congruence). lia. }
        rewrite <- L' in L. clear - L X. revert L X. generalize (r_params r) (r_params r'). induction l as [|v l IH]; intros [|w m] L X; try discriminate; constructor.
        * exact (X 0 v w eq_refl eq_refl).
        * apply IH; [now injection L|]. intros k. exact (X (S k)).
      + apply lookup_same; [exact (options_NoDup _ _ _ NK HR)|exact (options_NoDup _ _ _ NK' HR')|]. intros n.
        rewrite (options_get _ _ _ n HR), (options_get _ _ _ n HR'). destruct (named (sc_sig c) n) eqn:N; [exact Logic.I|].
        assert (NP : ~ In n (map fst ps)).
        { intros HI. apply not_true_iff_false in N. apply N. unfold named. apply memb_In, in_app_iff. left. now rewrite (names_are _ ps D). }
        specialize (H n). now rewrite (G n NP), (G' n NP) in H.
      + intros n HI. assert (NP : ~ In n (map fst ps)) by (intros X; now apply (kwonly_apart _ ps D n X)).
        specialize (H n). rewrite (G n NP), (G' n NP) in H. exact H.
    - intros (HF & HO & HK). apply lookup_same; auto. intros n.
      destruct (memb n (map fst ps)) eqn:M.
      + apply memb_In in M. apply in_map_iff in M. destruct M as ([m d] & Q & M). cbn in Q. subst m. apply In_nth_error in M.
        destruct M as (k & Hk). rewrite (C k n d Hk), (C' k n d Hk).
        clear - HF. revert k. induction HF as [|v w l m HS _ IH]; intros [|k]; cbn; auto; apply IH.
      + assert (NP : ~ In n (map fst ps)) by (intros HI; apply memb_In in HI; congruence).
        rewrite (G n NP), (G' n NP). destruct (memb n (map fst (s_kwonly (sc_sig c)))) eqn:MK.
        * apply memb_In in MK. exact (HK n MK).
        * assert (N : named (sc_sig c) n = false).
          { unfold named. apply not_true_iff_false. intros X. apply memb_In, in_app_iff in X. rewrite (names_are _ ps D) in X.
            destruct X as [X|X]; [now apply NP|]. apply memb_In in X. congruence. }
          pose proof (same_lookup _ _ n (options_NoDup _ _ _ NK HR) (options_NoDup _ _ _ NK' HR') HO) as X.
          now rewrite (options_get _ _ _ n HR), (options_get _ _ _ n HR'), N in X.
  Qed.
End own.

Theorem any_stored f o : text (sc_name (so_class o)) -> value (JDict (so_configs o)) -> no_tuple (JDict (so_configs o)) ->
  deserialize_sobj f (serialize_sobj o) = from_dict_any f (sc_name (so_class o)) (so_configs o).
Proof.
  intros HT HV HN. unfold deserialize_sobj, serialize_sobj. rewrite loads_dumps.
  - apply as_json_same in HN. cbn [as_json] in HN. injection HN as HN.
    cbn [bind as_json map fst snd]. change (map (fun kv => (fst kv, as_json (snd kv))) (so_configs o)) with (json_dict (so_configs o)) in *.
    rewrite HN. reflexivity.
  - apply value_dict. split; [apply nodupb_ok; reflexivity|].
    apply Forall_cons; [|apply Forall_cons; [|constructor]]; cbn [fst snd]; (split; [apply text_lit; reflexivity|auto]).
Qed.

Theorem any_inherited c ps args kwargs o f : declared (sc_sig c) ps -> sc_inherited c = true -> NoDup (map fst kwargs) ->
  make_any c args kwargs = Ok o -> fget f (sc_name c) = Ok c ->
  so_configs o = kwargs /\ from_dict_any f (sc_name c) (so_configs o) = make_any c [] kwargs /\
  (forall k n, nth_error ps k = Some (n, None) -> k < length args ->
     from_dict_any f (sc_name c) (so_configs o) = Err TypeErr).
Proof.
  intros D IN NK HM HF. destruct (make_inv c ps args kwargs o D HM) as (r & HR & _ & ->). cbn [so_configs]. rewrite IN.
  assert (Q : record_any true (sc_sig c) args kwargs = kwargs).
  { unfold record_any. cbn [combine rev app filter]. rewrite (dict_update_app [] kwargs) by (auto; intros ? ? []). reflexivity. }
  rewrite Q. split; [reflexivity|]. unfold from_dict_any. rewrite HF. cbn [bind]. split; [reflexivity|].
  intros k n Hk LK. apply (any_call c ps [] kwargs D). intros r' (_ & (first & mine & others & QA & QP & B & _) & _).
  destruct first; [|discriminate]. destruct B as (_ & LV & _ & BV). specialize (BV k n None Hk).
  replace (nth_error (@nil jval) k) with (@None jval) in BV by (destruct k; reflexivity).
  pose proof HR as HR0. destruct HR0 as (_ & (first & mine0 & others0 & QA0 & QP0 & B0 & L0) & _).
  apply part_is in QP, QP0. destruct QP as [-> _], QP0 as [-> _]. destruct B0 as (LF & _ & BK & _).
  destruct (dict_get _ n) as [v|] eqn:G.
  - apply dict_get_In, (in_map fst) in G. destruct (BK _ G) as (j & d & Hj & LJ). cbn [fst] in Hj.
    rewrite (nth_name _ _ _ _ _ _ (ps_NoDup _ ps D) Hj Hk) in LJ.
    assert (k < length ps) by (apply nth_error_Some; congruence).
    destruct (r_rest r) as [|x rest] eqn:QR.
    + rewrite app_nil_r in QA0. subst first. lia.
    + rewrite L0 in LJ by discriminate. lia.
  - apply nth_error_None in BV. assert (k < length ps) by (apply nth_error_Some; congruence). lia.
Qed.

Theorem any_other_class o o' : sobj_eqb o o' = true -> sc_name (so_class o) = sc_name (so_class o').
Proof.
  unfold sobj_eqb. destruct (eqb_spec (sc_name (so_class o)) (sc_name (so_class o'))); [auto|discriminate].
Qed.
