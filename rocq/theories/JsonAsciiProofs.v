(** Proofs about JSON in ASCII and the stored form of labels. *)

From Coq Require Import String Decimal.
From Verif Require Import Py PyFacts Json SpecJson JsonProofs SpecOps Elements SpecElements
  SpecOrdinal Pipe JsonAscii SpecJsonAscii.
From Coq Require Import List.
Local Open Scope Z_scope.

(** ** Strings *)

Lemma unhex4_u4 n s : 0 <= n < 65536 -> exists a b c d,
  u4 n = BACKSLASH :: 117 :: [a; b; c; d] /\ unhex4 (a :: b :: c :: d :: s) = Some (n, s).
Proof.
  intros H. unfold u4. do 4 eexists. split; [reflexivity|]. unfold unhex4.
  assert (forall m, 0 <= m mod 16 < 16) as M by (intros; apply Z.mod_pos_bound; lia).
  rewrite !hex_range; auto.
  - f_equal. f_equal.
    pose proof (Z.div_mod n 16 ltac:(lia)). pose proof (Z.div_mod (n / 16) 16 ltac:(lia)).
    pose proof (Z.div_mod (n / 16 / 16) 16 ltac:(lia)).
    rewrite !Z.div_div in * by lia. change (16 * 16) with 256 in *. change (256 * 16) with 4096 in *.
    lia.
  - split; [apply Z.div_pos; lia|apply Z.div_lt_upper_bound; lia].
Qed.

Definition low (c : Z) : Prop := 56320 <= c <= 57343.
Definition high (c : Z) : Prop := 55296 <= c <= 56319.

(** what follows does not continue a high surrogate *)
Definition calm (s : str) : Prop :=
  forall s', s = BACKSLASH :: 117 :: s' -> exists v s'', unhex4 s' = Some (v, s'') /\ ~ low v.

Lemma parse_u_plain n s : 0 <= n < 65536 -> (high n -> calm s) -> forall a b c d,
  u4 n = BACKSLASH :: 117 :: [a; b; c; d] -> parse_u (a :: b :: c :: d :: s) = Some (n, s).
Proof.
  intros Hn Hc a b c d E. destruct (unhex4_u4 n s Hn) as (a' & b' & c' & d' & E' & U).
  rewrite E in E'. injection E' as -> -> -> ->. unfold parse_u. rewrite U.
  destruct ((55296 <=? n) && (n <=? 56319)) eqn:B; [|reflexivity].
  apply andb_prop in B as [B1 B2]. apply Z.leb_le in B1, B2.
  specialize (Hc (conj B1 B2)). unfold calm in Hc.
  destruct s as [|x s]; [reflexivity|].
  destruct (Z.eq_dec x 92) as [->|N].
  2:{ destruct x as [|p|p]; try reflexivity.
      do 7 (destruct p as [p|p|]; try reflexivity; try (exfalso; apply N; reflexivity)). }
  destruct s as [|y s]; [reflexivity|].
  destruct (Z.eq_dec y 117) as [->|N].
  2:{ destruct y as [|p|p]; try reflexivity.
      do 7 (destruct p as [p|p|]; try reflexivity; try (exfalso; apply N; reflexivity)). }
  destruct (Hc s eq_refl) as (v & s'' & U' & Nl). rewrite U'.
  destruct ((56320 <=? v) && (v <=? 57343)) eqn:B; [|reflexivity].
  apply andb_prop in B as [B3 B4]. apply Z.leb_le in B3, B4. exfalso. apply Nl. split; auto.
Qed.

Lemma parse_u_pair h l s : high h -> low l -> forall a b c d,
  u4 h = BACKSLASH :: 117 :: [a; b; c; d] ->
  parse_u (a :: b :: c :: d :: u4 l ++ s) = Some (65536 + ((h - 55296) * 1024 + (l - 56320)), s).
Proof.
  intros Hh Hl a b c d E. unfold high, low in *.
  destruct (unhex4_u4 h (u4 l ++ s) ltac:(lia)) as (a' & b' & c' & d' & E' & U).
  rewrite E in E'. injection E' as -> -> -> ->. unfold parse_u. rewrite U.
  replace (55296 <=? h) with true by (symmetry; apply Z.leb_le; lia).
  replace (h <=? 56319) with true by (symmetry; apply Z.leb_le; lia). cbn [andb].
  destruct (unhex4_u4 l s ltac:(lia)) as (a2 & b2 & c2 & d2 & E2 & U2).
  rewrite E2. unfold BACKSLASH. cbn [app]. rewrite U2.
  replace (56320 <=? l) with true by (symmetry; apply Z.leb_le; lia).
  replace (l <=? 57343) with true by (symmetry; apply Z.leb_le; lia). reflexivity.
Qed.

Lemma escape_ascii_len c : (1 <= length (escape_ascii c))%nat.
Proof. unfold escape_ascii. repeat (destruct (_ : bool); [cbn; lia|]). cbn; lia. Qed.

Lemma parse_char_ascii c f s acc :
  0 <= c <= 1114111 -> (high c -> calm s) ->
  parse_str (S f) (escape_ascii c ++ s) acc = parse_str f s (acc ++ [c]).
Proof.
  intros Hc Hs. unfold escape_ascii.
  destruct (Z.eqb_spec c QUOTE) as [->|N1]; [reflexivity|].
  destruct (Z.eqb_spec c BACKSLASH) as [->|N2]; [reflexivity|].
  destruct (Z.eqb_spec c 10) as [->|N3]; [reflexivity|].
  destruct (Z.eqb_spec c 13) as [->|N4]; [reflexivity|].
  destruct (Z.eqb_spec c 9) as [->|N5]; [reflexivity|].
  destruct (Z.eqb_spec c 12) as [->|N6]; [reflexivity|].
  destruct (Z.eqb_spec c 8) as [->|N7]; [reflexivity|].
  assert (forall r, parse_str (S f) (BACKSLASH :: 117 :: r) acc
            = match parse_u r with Some (x, t) => parse_str f t (acc ++ [x]) | None => None end)
    as PU by reflexivity.
  destruct ((32 <=? c) && (c <=? 126)) eqn:B.
  - apply andb_prop in B as [B1 B2]. apply Z.leb_le in B1, B2. cbn [app parse_str].
    replace (c =? QUOTE) with false by (symmetry; apply Z.eqb_neq; auto).
    replace (c =? BACKSLASH) with false by (symmetry; apply Z.eqb_neq; auto).
    replace (c <? 32) with false by (symmetry; apply Z.ltb_ge; lia). reflexivity.
  - destruct (Z.ltb_spec c 65536) as [L|L].
    + destruct (unhex4_u4 c s ltac:(lia)) as (a1 & b1 & c1 & d1 & E & _).
      pose proof (parse_u_plain c s ltac:(lia) Hs _ _ _ _ E) as P.
      rewrite E. cbn [app]. rewrite PU, P. reflexivity.
    + assert (0 <= (c - 65536) / 1024 < 1024) as D.
      { split; [apply Z.div_pos; lia|apply Z.div_lt_upper_bound; lia]. }
      assert (0 <= (c - 65536) mod 1024 < 1024) as M by (apply Z.mod_pos_bound; lia).
      set (h := 55296 + (c - 65536) / 1024) in *. set (l := 56320 + (c - 65536) mod 1024) in *.
      assert (high h) as Hh by (unfold high; lia). assert (low l) as Hl by (unfold low; lia).
      destruct (unhex4_u4 h s ltac:(unfold high in *; lia)) as (a1 & b1 & c1 & d1 & E & _).
      pose proof (parse_u_pair h l s Hh Hl _ _ _ _ E) as P.
      rewrite <- app_assoc, E. cbn [app]. rewrite PU, P.
      replace (65536 + ((h - 55296) * 1024 + (l - 56320))) with c; [reflexivity|].
      pose proof (Z.div_mod (c - 65536) 1024 ltac:(lia)). lia.
Qed.

Lemma calm_escape c s : 0 <= c <= 1114111 -> ~ low c -> calm (escape_ascii c ++ s).
Proof.
  intros Hc Nl s' E. unfold escape_ascii in E.
  repeat match type of E with
  | (if ?a =? ?b then _ else _) ++ _ = _ =>
      destruct (Z.eqb_spec a b); [cbn in E; discriminate E|]
  end.
  destruct ((32 <=? c) && (c <=? 126)) eqn:B.
  { cbn in E. injection E as -> _. exfalso. auto. }
  destruct (Z.ltb_spec c 65536) as [L|L].
  - destruct (unhex4_u4 c s ltac:(lia)) as (a1 & b1 & c1 & d1 & E1 & U).
    rewrite E1 in E. cbn [app] in E. injection E as <-. eauto.
  - assert (0 <= (c - 65536) / 1024 < 1024) as D.
    { split; [apply Z.div_pos; lia|apply Z.div_lt_upper_bound; lia]. }
    set (h := 55296 + (c - 65536) / 1024) in *. rewrite <- app_assoc in E.
    destruct (unhex4_u4 h (u4 (56320 + (c - 65536) mod 1024) ++ s) ltac:(lia))
      as (a1 & b1 & c1 & d1 & E1 & U).
    rewrite E1 in E. cbn [app] in E. injection E as <-. do 2 eexists.
    split; [exact U|]. unfold low. lia.
Qed.

Lemma calm_quote s : calm (QUOTE :: s).
Proof. intros s' E. discriminate E. Qed.

Lemma no_pair_tail c s : no_surrogate_pair (c :: s) -> no_surrogate_pair s.
Proof. intros H l a b r E. apply (H (c :: l) a b r). now rewrite E. Qed.

Lemma parse_dump_str_ascii s : sound s -> forall f rest acc,
  (length (flat_map escape_ascii s) < f)%nat ->
  parse_str f (flat_map escape_ascii s ++ QUOTE :: rest) acc = Some (acc ++ s, rest).
Proof.
  unfold sound, code_points. intros [T NP]. revert NP.
  induction T as [|c s Hc Hs IH]; intros NP f rest acc Hf.
  - destruct f; [cbn in Hf; lia|]. cbn. now rewrite app_nil_r.
  - cbn [flat_map] in *. rewrite app_length in Hf. pose proof (escape_ascii_len c).
    destruct f; [lia|]. rewrite <- app_assoc, parse_char_ascii; auto.
    + rewrite IH by (eauto using no_pair_tail; lia). rewrite <- app_assoc. reflexivity.
    + intros Hi. destruct Hs as [|d s Hd Hs].
      * apply calm_quote.
      * cbn [flat_map]. rewrite <- app_assoc. apply calm_escape; auto.
        intros Lo. apply (NP [] c d s eq_refl). split; auto.
Qed.

(** ** Values *)

Lemma dumps_ascii_head v : exists c t, dumps_ascii v = c :: t /\ opens c.
Proof.
  unfold opens.
  destruct v as [|[]|z|s|l|l|d];
    try (eexists _, _; split; [reflexivity|]; repeat split; discriminate).
  destruct (dump_int_head z) as (c & t & E & O & _). exists c, t. auto.
Qed.

Definition areads (v : jval) : Prop := forall f rest,
  stops rest -> (2 * length (dumps_ascii v) + 1 <= f)%nat ->
  parse_value f (dumps_ascii v ++ rest) = Some (as_json v, rest).

Lemma areads_elems l : forall v, Forall areads (v :: l) -> forall f rest,
  (2 * length (commas (map dumps_ascii (v :: l))) + 2 <= f)%nat ->
  parse_elems f (commas (map dumps_ascii (v :: l)) ++ 93 :: rest) = Some (map as_json (v :: l), rest).
Proof.
  induction l as [|w l IH]; intros v F f rest Hf; inversion F as [|v' l' Rv Rl]; subst.
  - cbn [map commas flat_map] in *. rewrite app_nil_r in *.
    destruct f as [|f]; [lia|]. cbn [parse_elems]. rewrite Rv by (cbn; auto; lia). reflexivity.
  - destruct f as [|f]; [lia|]. cbn [parse_elems].
    assert (commas (map dumps_ascii (v :: w :: l)) =
            dumps_ascii v ++ 44 :: 32 :: commas (map dumps_ascii (w :: l))) as E by reflexivity.
    rewrite E in *. rewrite app_length in Hf. cbn [length] in Hf. rewrite <- app_assoc.
    rewrite Rv; [|cbn; auto|lia]. cbn [app skip_ws]. change (is_ws 44) with false. cbv iota.
    cbn [skip_ws]. change (is_ws 32) with true. cbv iota.
    destruct (dumps_ascii_head w) as (c & t & Ec & O & _).
    assert (forall x, skip_ws (commas (map dumps_ascii (w :: l)) ++ x)
              = commas (map dumps_ascii (w :: l)) ++ x) as ->.
    { intros x. cbn [map commas]. rewrite Ec. cbn [app]. now apply skip_opens. }
    rewrite IH by (auto; lia). reflexivity.
Qed.

Definition amember (kv : str * jval) : str :=
  dump_str_ascii (fst kv) ++ [58; 32] ++ dumps_ascii (snd kv).

Lemma areads_members d : forall kv, Forall (fun kv => sound (fst kv) /\ areads (snd kv)) (kv :: d) ->
  forall f rest acc,
  NoDup (map fst (acc ++ kv :: d)) ->
  (2 * length (commas (map amember (kv :: d))) + 2 <= f)%nat ->
  parse_members f (commas (map amember (kv :: d)) ++ 125 :: rest) acc
  = Some (acc ++ map seen (kv :: d), rest).
Proof.
  induction d as [|kw d IH]; intros [k v] F f rest acc ND Hf; inversion F as [|? ? [Tk Rv] Rl]; subst.
  - cbn [map commas flat_map] in *. unfold amember, dump_str_ascii in *. cbn [fst snd] in *.
    rewrite app_nil_r in *.
    rewrite ?app_length in Hf; cbn [app length] in Hf; rewrite ?app_length in Hf; cbn [length] in Hf.
    destruct f as [|f]; [lia|]. cbn [app parse_members]. unfold QUOTE at 1.
    rewrite <- !app_assoc. cbn [app]. rewrite parse_dump_str_ascii by (auto; lia). cbn [app skip_ws].
    change (is_ws 58) with false. cbv iota. cbn [skip_ws]. change (is_ws 32) with true. cbv iota.
    destruct (dumps_ascii_head v) as (c & t & Ec & O & _).
    assert (skip_ws (dumps_ascii v ++ 125 :: rest) = dumps_ascii v ++ 125 :: rest) as ->.
    { rewrite Ec. cbn [app]. now apply skip_opens. }
    rewrite Rv by (cbn; auto; lia). cbn [skip_ws].
    change (is_ws 125) with false. cbv iota. rewrite dict_set_new; [reflexivity|].
    rewrite map_app in ND. cbn in ND. apply NoDup_remove_2 in ND. now rewrite app_nil_r in ND.
  - assert (commas (map amember ((k, v) :: kw :: d)) =
            amember (k, v) ++ 44 :: 32 :: commas (map amember (kw :: d))) as E by reflexivity.
    rewrite E in *. rewrite app_length in Hf. cbn [length] in Hf.
    unfold amember at 1 in Hf. unfold amember at 1. unfold dump_str_ascii in *. cbn [fst snd] in *.
    rewrite !app_length in Hf; cbn [app length] in Hf; rewrite ?app_length in Hf; cbn [length] in Hf.
    destruct f as [|f]; [lia|]. cbn [app parse_members]. unfold QUOTE at 1.
    rewrite <- !app_assoc. cbn [app].
    rewrite <- ?app_assoc. rewrite parse_dump_str_ascii by (auto; lia). cbn [app skip_ws].
    change (is_ws 58) with false. cbv iota. cbn [skip_ws]. change (is_ws 32) with true. cbv iota.
    destruct (dumps_ascii_head v) as (c & t & Ec & O & _).
    match goal with |- context [skip_ws (dumps_ascii v ++ ?x)] =>
      assert (skip_ws (dumps_ascii v ++ x) = dumps_ascii v ++ x) as -> end.
    { rewrite Ec. cbn [app]. now apply skip_opens. }
    rewrite Rv by (cbn; auto; lia). cbn [app skip_ws].
    change (is_ws 44) with false. cbv iota. cbn [skip_ws]. change (is_ws 32) with true. cbv iota.
    assert (forall x, skip_ws (commas (map amember (kw :: d)) ++ x) = commas (map amember (kw :: d)) ++ x) as ->.
    { intros x. cbn [map commas]. unfold amember, dump_str_ascii. cbn [app].
      now apply skip_opens. }
    rewrite dict_set_new.
    2:{ rewrite map_app in ND. cbn in ND. apply NoDup_remove_2 in ND. rewrite in_app_iff in ND. tauto. }
    rewrite IH; [|auto| |lia].
    + rewrite <- app_assoc. reflexivity.
    + rewrite <- app_assoc. cbn [app]. rewrite map_app in *. exact ND.
Qed.

Lemma areads_list l : Forall areads l -> forall f rest,
  (2 * length (dumps_ascii (JList l)) + 1 <= f)%nat ->
  parse_value f (dumps_ascii (JList l) ++ rest) = Some (JList (map as_json l), rest).
Proof.
  intros R f rest Hf. destruct f as [|f]; [lia|].
  destruct l as [|v l]; [reflexivity|].
  cbn [dumps_ascii] in *. cbn [app length] in *.
  cbn [parse_value]. change (91 =? QUOTE) with false. change (91 =? 91) with true. cbv iota.
  rewrite app_length in Hf. cbn [length] in Hf. rewrite <- app_assoc.
  pose proof (areads_elems l v R f rest ltac:(lia)) as P. cbn [app].
  destruct (dumps_ascii_head v) as (c & t & Ec & O & O1 & _).
  cbn [map commas] in P |- *. rewrite Ec in *. cbn [app] in P |- *. rewrite skip_opens by auto.
  etransitivity; [apply (match_bracket c _ (fun r => Some (JList [], r))
    (fun t => match parse_elems f t with Some (l, r) => Some (JList l, r) | None => None end)); auto|].
  cbv beta.
  rewrite P. reflexivity.
Qed.

Lemma areads_all v : all_texts sound v -> areads v.
Proof.
  induction v as [ |b|z|s|l IH|l IH|d IH] using jval_rec'; intros W; intros f rest St Hf.
  - destruct f; [lia|]. reflexivity.
  - destruct f; [lia|]. destruct b; reflexivity.
  - destruct f; [lia|]. cbn [dumps_ascii] in *.
    destruct (dump_int_head z) as (c & t & E & O & N1 & N2 & N3 & N4 & N5 & N6).
    pose proof (parse_dump_int z rest St) as P. rewrite E in *. cbn [app] in *.
    cbn [parse_value]. rewrite N1, N2, N3, N4, N5, N6. rewrite P. reflexivity.
  - destruct f; [lia|]. cbn [dumps_ascii all_texts] in *. unfold dump_str_ascii in *. cbn [app parse_value].
    change (QUOTE =? QUOTE) with true. cbv iota. cbn [length] in Hf. rewrite app_length in Hf. cbn [length] in Hf.
    rewrite <- app_assoc. cbn [app]. rewrite parse_dump_str_ascii by (auto; lia). reflexivity.
  - apply areads_list; auto. cbn [all_texts] in W. rewrite fold_Forall in W.
    rewrite Forall_forall in *. auto.
  - change (dumps_ascii (JTuple l)) with (dumps_ascii (JList l)) in *. cbn [as_json].
    apply areads_list; auto. cbn [all_texts] in W. rewrite fold_Forall in W.
    rewrite Forall_forall in *. auto.
  - destruct f as [|f]; [lia|]. destruct d as [|kv d]; [reflexivity|].
    cbn [all_texts] in W. destruct W as [ND W]. rewrite fold_Forall in W.
    cbn [dumps_ascii] in *. cbn [app length] in *.
    cbn [parse_value]. change (123 =? QUOTE) with false. change (123 =? 91) with false.
    change (123 =? 123) with true. cbv iota.
    rewrite app_length in Hf. cbn [length] in Hf. rewrite <- app_assoc. cbn [app].
    change (map (fun kv => dump_str_ascii (fst kv) ++ 58 :: 32 :: dumps_ascii (snd kv)) (kv :: d))
      with (map amember (kv :: d)).
    change (map _ (kv :: d)) with (map amember (kv :: d)) in Hf.
    assert (Forall (fun kv => sound (fst kv) /\ areads (snd kv)) (kv :: d)) as R.
    { rewrite Forall_forall in *. intros x Hx. specialize (W x Hx). specialize (IH x Hx). tauto. }
    pose proof (areads_members d kv R f rest [] ND ltac:(lia)) as P.
    cbn [map commas] in P |- *. unfold amember at 1 in P. unfold amember at 1. unfold dump_str_ascii at 1 in P.
    unfold dump_str_ascii at 1. cbn [app] in P |- *.
    rewrite skip_opens by reflexivity. unfold QUOTE at 1. unfold QUOTE at 1 in P.
    rewrite P. reflexivity.
Qed.

Theorem loads_dumps_ascii v : all_texts sound v -> loads (dumps_ascii v) = Ok (as_json v).
Proof.
  intros W. unfold loads. destruct (dumps_ascii_head v) as (c & t & Ec & O & _).
  assert (skip_ws (dumps_ascii v) = dumps_ascii v) as -> by (rewrite Ec; now apply skip_opens).
  pose proof (areads_all v W (2 * length (dumps_ascii v) + 2)%nat [] I ltac:(lia)) as P.
  rewrite app_nil_r in P. rewrite P. reflexivity.
Qed.

(** ** Only ASCII is written *)

Lemma hex_ascii n : 0 <= n < 16 -> 32 <= hex n <= 126.
Proof. unfold hex. destruct (Z.ltb_spec n 10); lia. Qed.

Lemma u4_ascii n : 0 <= n < 65536 -> printable_ascii (u4 n).
Proof.
  intros H. assert (forall m, 0 <= m mod 16 < 16) as M by (intros; apply Z.mod_pos_bound; lia).
  assert (0 <= n / 4096 < 16) by (split; [apply Z.div_pos; lia|apply Z.div_lt_upper_bound; lia]).
  unfold u4, printable_ascii.
  repeat apply Forall_cons; try apply Forall_nil; try apply hex_ascii; auto; unfold BACKSLASH; lia.
Qed.

Lemma escape_printable c : 0 <= c <= 1114111 -> printable_ascii (escape_ascii c).
Proof.
  intros Hc. unfold escape_ascii.
  repeat match goal with
  | |- printable_ascii (if ?a =? ?b then _ else _) =>
      destruct (a =? b); [repeat constructor; unfold BACKSLASH, QUOTE; lia|]
  end.
  destruct ((32 <=? c) && (c <=? 126)) eqn:B.
  { apply andb_prop in B as [B1 B2]. apply Z.leb_le in B1, B2. repeat constructor; auto. }
  destruct (Z.ltb_spec c 65536) as [L|L]; [apply u4_ascii; lia|].
  apply Forall_app. split; apply u4_ascii.
  - assert (0 <= (c - 65536) / 1024 < 1024).
    { split; [apply Z.div_pos; lia|apply Z.div_lt_upper_bound; lia]. } lia.
  - assert (0 <= (c - 65536) mod 1024 < 1024) by (apply Z.mod_pos_bound; lia). lia.
Qed.

Lemma dump_str_printable s : code_points s -> printable_ascii (dump_str_ascii s).
Proof.
  intros H. unfold dump_str_ascii. apply Forall_cons; [unfold QUOTE; lia|].
  apply Forall_app. split; [|repeat constructor; unfold QUOTE; lia].
  induction H as [|c s Hc Hs IH]; cbn [flat_map]; [constructor|].
  apply Forall_app. split; [now apply escape_printable|exact IH].
Qed.

Lemma dump_uint_printable u : printable_ascii (dump_uint u).
Proof. induction u; cbn [dump_uint]; constructor; auto; lia. Qed.

Lemma commas_printable l : Forall printable_ascii l -> printable_ascii (commas l).
Proof.
  intros H. destruct H as [|x l Hx Hl]; [constructor|]. apply Forall_app. split; auto.
  induction Hl as [|y l Hy Hl IH]; cbn [flat_map]; [constructor|].
  apply Forall_app. split; [|exact IH]. repeat (constructor; [lia|]). exact Hy.
Qed.

Lemma dumps_printable v : all_texts code_points v -> printable_ascii (dumps_ascii v).
Proof.
  induction v as [ |b|z|s|l IH|l IH|d IH] using jval_rec'; cbn [all_texts dumps_ascii]; intros W.
  - repeat constructor; lia.
  - destruct b; repeat constructor; lia.
  - unfold dump_int. destruct (Z.to_int z); [apply dump_uint_printable|].
    constructor; [lia|apply dump_uint_printable].
  - now apply dump_str_printable.
  - rewrite fold_Forall in W. constructor; [lia|]. apply Forall_app. split; [|repeat constructor; lia].
    apply commas_printable. rewrite Forall_map. rewrite Forall_forall in *. auto.
  - rewrite fold_Forall in W. constructor; [lia|]. apply Forall_app. split; [|repeat constructor; lia].
    apply commas_printable. rewrite Forall_map. rewrite Forall_forall in *. auto.
  - destruct W as [_ W]. rewrite fold_Forall in W.
    constructor; [lia|]. apply Forall_app. split; [|repeat constructor; lia].
    apply commas_printable. rewrite Forall_map. rewrite Forall_forall in *. intros kv Hkv.
    destruct (W kv Hkv) as [W1 W2]. apply Forall_app. split; [now apply dump_str_printable|].
    repeat (constructor; [lia|]). apply IH; auto.
Qed.

(** ** Labels *)

Lemma keys_are : (K_INTENT2INDEX, K_ENTITY2INDEX, K_NOT_ENTITY_INDEX)
  = (txt "intent2index", txt "entity2index", txt "not_entity_index").
Proof. reflexivity. Qed.

Lemma serialize_stored o :
  ordinal_serialize o = dumps_ascii (stored (intent2index o) (entity2index o) (not_entity_index o)).
Proof. reflexivity. Qed.

Lemma stored_texts (P : str -> Prop) i2i e2i ne :
  P (txt "intent2index") -> P (txt "entity2index") -> P (txt "not_entity_index") ->
  is_dict i2i -> is_dict e2i -> Forall P (map fst i2i) -> Forall P (map fst e2i) ->
  all_texts P (stored i2i e2i ne).
Proof.
  intros P1 P2 P3 D1 D2 F1 F2. unfold stored. cbn [all_texts map fst snd fold_right].
  assert (forall m, is_dict m -> Forall P (map fst m) ->
    NoDup (map fst (map (fun kv => (fst kv, JInt (snd kv))) m)) /\
    fold_right (fun kv Q => (P (fst kv) /\ all_texts P (snd kv)) /\ Q) True
      (map (fun kv => (fst kv, JInt (snd kv))) m)) as G.
  { intros m D F. split; [now rewrite map_map|].
    rewrite (fold_Forall (fun kv => P (fst kv) /\ all_texts P (snd kv))), Forall_map.
    rewrite Forall_map in F. eapply Forall_impl; [|exact F]. intros [k v] H. cbn in *. auto. }
  repeat match goal with |- _ /\ _ => split end; auto; try (apply G; auto).
  repeat constructor; cbn; intuition discriminate.
Qed.

Lemma sound_printable s : printable_ascii s -> sound s.
Proof.
  intros H. split.
  - eapply Forall_impl; [|exact H]. cbn. intros; lia.
  - intros l a b r ->. unfold printable_ascii in H. rewrite Forall_app in H. destruct H as [_ H].
    inversion H; subst. lia.
Qed.

Ltac printable := unfold printable_ascii, txt; cbn; repeat constructor; lia.

Lemma stored_sound i2i e2i ne : is_dict i2i -> is_dict e2i ->
  Forall sound (map fst i2i) -> Forall sound (map fst e2i) -> all_texts sound (stored i2i e2i ne).
Proof.
  intros. apply stored_texts; auto; apply sound_printable; printable.
Qed.

Lemma as_index_dict_stored m :
  as_index_dict (JDict (map (fun kv => (fst kv, JInt (snd kv))) m)) = Ok m.
Proof.
  cbn [as_index_dict]. induction m as [|[k v] m IH]; [reflexivity|].
  cbn in *. rewrite IH. reflexivity.
Qed.

Lemma deserialize_stored i2i e2i ne : is_dict i2i -> is_dict e2i ->
  Forall sound (map fst i2i) -> Forall sound (map fst e2i) ->
  ordinal_deserialize (dumps_ascii (stored i2i e2i ne)) = make_ordinal i2i e2i ne.
Proof.
  intros D1 D2 F1 F2. unfold ordinal_deserialize.
  rewrite loads_dumps_ascii by now apply stored_sound.
  rewrite as_json_same.
  2:{ unfold stored. cbn [no_tuple fold_right snd].
      assert (forall m : list (str * Z), fold_right (fun kv P => no_tuple (snd kv) /\ P) True
        (map (fun kv => (fst kv, JInt (snd kv))) m)) as G.
      { intros m. rewrite (fold_Forall (fun kv => no_tuple (snd kv))), Forall_map.
        apply Forall_forall. intros; exact I. }
      auto. }
  cbn [bind]. unfold stored.
  change (key (JDict ((txt "intent2index", ?a) :: _)) K_INTENT2INDEX) with (Ok a). cbn [bind].
  change (key (JDict (_ :: (txt "entity2index", ?a) :: _)) K_ENTITY2INDEX) with (Ok a). cbn [bind].
  change (key (JDict (_ :: _ :: (txt "not_entity_index", ?a) :: _)) K_NOT_ENTITY_INDEX) with (Ok a).
  cbn [bind]. rewrite !as_index_dict_stored. reflexivity.
Qed.

Lemma made_fields i2i e2i ne o : make_ordinal i2i e2i ne = Ok o -> o = mkOrdinal i2i e2i ne.
Proof.
  unfold make_ordinal. destruct (is_valid_mapping i2i); [|discriminate]. cbn [guard bind].
  destruct (is_valid_mapping _); [|discriminate]. cbn [guard bind]. now injection 1.
Qed.

Lemma serialize_round_trip o : is_ordinal o -> names_are sound o ->
  ordinal_deserialize (ordinal_serialize o) = Ok o.
Proof.
  intros (i2i & e2i & ne & D1 & D2 & E) [N1 N2]. pose proof (made_fields _ _ _ _ E) as ->.
  cbn in N1, N2. rewrite serialize_stored. cbn [intent2index entity2index not_entity_index].
  rewrite deserialize_stored; auto.
Qed.

Lemma serialize_injective o1 o2 : is_ordinal o1 -> is_ordinal o2 ->
  names_are sound o1 -> names_are sound o2 -> ordinal_serialize o1 = ordinal_serialize o2 -> o1 = o2.
Proof.
  intros I1 I2 N1 N2 E. pose proof (serialize_round_trip o1 I1 N1) as R1.
  rewrite E, (serialize_round_trip o2 I2 N2) in R1. congruence.
Qed.

Lemma serialize_reads o : is_ordinal o -> names_are sound o ->
  loads (ordinal_serialize o) = Ok (stored (intent2index o) (entity2index o) (not_entity_index o)).
Proof.
  intros (i2i & e2i & ne & D1 & D2 & E) [N1 N2]. pose proof (made_fields _ _ _ _ E) as ->.
  cbn in N1, N2. rewrite serialize_stored. cbn [intent2index entity2index not_entity_index].
  rewrite loads_dumps_ascii by now apply stored_sound. f_equal. apply as_json_same.
  unfold stored. cbn [no_tuple fold_right snd].
  assert (forall m : list (str * Z), fold_right (fun kv P => no_tuple (snd kv) /\ P) True
    (map (fun kv => (fst kv, JInt (snd kv))) m)) as G.
  { intros m. rewrite (fold_Forall (fun kv => no_tuple (snd kv))), Forall_map.
    apply Forall_forall. intros; exact I. }
  auto.
Qed.

Lemma serialize_printable o : is_ordinal o -> names_are code_points o ->
  printable_ascii (ordinal_serialize o).
Proof.
  intros (i2i & e2i & ne & D1 & D2 & E) [N1 N2]. pose proof (made_fields _ _ _ _ E) as ->.
  cbn in N1, N2. rewrite serialize_stored. cbn [intent2index entity2index not_entity_index].
  apply dumps_printable. apply stored_texts; auto;
    (apply sound_printable; printable).
Qed.
