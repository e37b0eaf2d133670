(** Plain texts, escaped texts, alternatives of words and the patterns of the repository:
    what [parse] makes of them and where they are found. *)

From Coq Require Import String Ascii.
From Verif Require Import Py PyFacts SpecOps Regex RegexProofs SpecScan Ops PyRe SpecRe ReProofs ReParse ReWritten.
From Coq Require Import List Lia PeanoNat Bool ZArith.

(** ** Parsing *)

Definition chars (t : str) : list pitem := map (fun c => (KOther, xchar c)) t.

Lemma meta_false c (z : Z) : ~ meta c -> meta z -> (c =? z)%Z = false.
Proof. intros N M. apply Z.eqb_neq. intros ->. auto. Qed.

Lemma seq_char n acc c t : ~ meta c -> parse_seq (S n) acc (c :: t) = parse_seq n ((KOther, xchar c) :: acc) t.
Proof.
  intros N. cbn [parse_seq].
  rewrite !(meta_false c) by (auto; unfold meta; cbn; tauto). reflexivity.
Qed.
Lemma seq_plain t : plain t -> forall n acc v, length t <= n ->
  parse_seq n acc (t ++ v) = parse_seq (n - length t) (rev (chars t) ++ acc) v.
Proof.
  induction t as [|c t IH]; intros HP n acc v HN; [now rewrite Nat.sub_0_r|]. cbn in HN.
  destruct n as [|n]; [lia|]. cbn [app]. rewrite seq_char by (apply HP; now left).
  rewrite IH; [|intros d Hd; apply HP; now right|lia]. cbn [length Nat.sub chars map rev]. now rewrite <- app_assoc.
Qed.

Lemma escaped_meta c : ~ In c escaped_chars -> ~ meta c.
Proof. intros N [H| ->]; apply N; [|now left]. cbn in H |- *. intuition. Qed.
Lemma escape_escaped c t : In c escaped_chars -> escape c t = Read ((KOther, xchar c), t).
Proof. cbn. intuition (subst; reflexivity). Qed.

Lemma seq_escaped t : forall n acc v, length t <= n ->
  parse_seq n acc (escaped t ++ v) = parse_seq (n - length t) (rev (chars t) ++ acc) v.
Proof.
  induction t as [|c t IH]; intros n acc v HN; [now rewrite Nat.sub_0_r|]. cbn in HN.
  destruct n as [|n]; [lia|].
  assert (ST : parse_seq (S n) acc (escaped (c :: t) ++ v) = parse_seq n ((KOther, xchar c) :: acc) (escaped t ++ v)).
  { unfold escaped. cbn [flat_map]. destruct (existsb (Z.eqb c) escaped_chars) eqn:EX.
    - apply existsb_exists in EX. destruct EX as (x & HI & EQ). apply Z.eqb_eq in EQ. subst x.
      cbn [app parse_seq]. cbn [Z.eqb Pos.eqb orb]. now rewrite escape_escaped.
    - cbn [app]. apply seq_char. apply escaped_meta. intros HI.
      assert (existsb (Z.eqb c) escaped_chars = true) by (apply existsb_exists; exists c; split; [exact HI|apply Z.eqb_refl]).
      congruence. }
  rewrite ST, IH by lia. cbn [length Nat.sub chars map rev]. now rewrite <- app_assoc.
Qed.

Definition xword (t : str) : rx := xseq (map xchar t).

Lemma chars_word t : xseq (rev (map snd (rev (chars t) ++ []))) = xword t.
Proof. rewrite app_nil_r, map_rev, rev_involutive. unfold chars, xword. now rewrite map_map. Qed.

Lemma behind_seq l : Forall (fun r => behind_ok r = true) l -> behind_ok (xseq l) = true.
Proof.
  induction 1 as [|a l Ha Hl IH]; [reflexivity|]. destruct l; [exact Ha|].
  change (behind_ok a && behind_ok (xseq (r :: l)) = true). now rewrite Ha, IH.
Qed.
Lemma behind_word t : behind_ok (xword t) = true.
Proof. apply behind_seq. apply Forall_map. apply Forall_forall. reflexivity. Qed.

Lemma parse_sub_word s t n v : closed v ->
  (forall n acc, length t <= n -> parse_seq n acc (s ++ v) = parse_seq (n - length t) (rev (chars t) ++ acc) v) ->
  length t + 2 <= n -> parse_sub n (s ++ v) = Read (xword t, v).
Proof.
  intros C H HN. destruct n as [|n]; [lia|]. apply sub_of_seq; [exact C|]. rewrite H by lia.
  replace (n - length t) with (S (n - length t - 1)) by lia. rewrite seq_stops by (now left). now rewrite chars_word.
Qed.

Lemma escaped_length t : length t <= length (escaped t).
Proof.
  induction t as [|c t IH]; [cbn; lia|]. unfold escaped in *. cbn [flat_map].
  destruct (existsb _ _); cbn [app length]; lia.
Qed.

Lemma parse_plain t : plain t -> parse t = Read (xword t).
Proof.
  intros P. unfold parse. rewrite <- (app_nil_r t) at 2.
  rewrite (parse_sub_word t t _ []); [|now left|intros; now apply seq_plain|lia].
  cbn. now rewrite behind_word.
Qed.
Lemma parse_escaped t : parse (escaped t) = Read (xword t).
Proof.
  unfold parse. rewrite <- (app_nil_r (escaped t)) at 2. pose proof (escaped_length t).
  rewrite (parse_sub_word (escaped t) t _ []); [|now left|intros; now apply seq_escaped|lia].
  cbn. now rewrite behind_word.
Qed.

(** w1|w2|..|wn *)
Fixpoint xwords (ws : list str) : rx :=
  match ws with
  | [] => XEmpty
  | [w] => xword w
  | w :: ws => XAlt (xword w) (xwords ws)
  end.
Lemma behind_words ws : behind_ok (xwords ws) = true.
Proof.
  induction ws as [|w ws IH]; [reflexivity|]. destruct ws; [apply behind_word|].
  change (behind_ok (xword w) && behind_ok (xwords (l :: ws)) = true). now rewrite behind_word, IH.
Qed.

Lemma bars_cons w x ws : bars (w :: x :: ws) = w ++ 124%Z :: bars (x :: ws).
Proof. reflexivity. Qed.

Lemma sub_words ws : forall n v, Forall plain ws -> closed v -> length (bars ws) + 2 <= n ->
  parse_sub n (bars ws ++ v) = Read (xwords ws, v).
Proof.
  induction ws as [|w ws IH]; intros n v HP C HN.
  - cbn in *. destruct n as [|[|n]]; [lia|lia|]. apply sub_of_seq; [exact C|]. now rewrite seq_stops by (now left).
  - inversion HP as [|? ? PW PS]; subst. destruct ws as [|x ws].
    + apply parse_sub_word; [exact C|intros; now apply seq_plain|cbn in HN; lia].
    + rewrite bars_cons in *. rewrite <- app_assoc. cbn [app].
      rewrite app_length in HN. cbn [length] in HN.
      destruct n as [|n]; [lia|]. cbn [parse_sub]. rewrite seq_plain by (auto; lia).
      replace (n - length w) with (S (n - length w - 1)) by lia.
      rewrite seq_stops by (right; eauto). rewrite chars_word. cbn [rbind]. change (124 =? 124)%Z with true. cbv iota.
      rewrite IH by (auto; lia). reflexivity.
Qed.

Lemma parse_bars ws : Forall plain ws -> parse (bars ws) = Read (xwords ws).
Proof.
  intros P. unfold parse. rewrite <- (app_nil_r (bars ws)) at 2.
  rewrite sub_words; [|exact P|now left|lia]. cbn. now rewrite behind_words.
Qed.
Lemma parse_group ws : Forall plain ws ->
  parse (txt "(" ++ bars ws ++ txt ")") = Read (xwords ws).
Proof.
  intros P. unfold parse. set (N := 2 * length (txt "(" ++ bars ws ++ txt ")") + 2).
  assert (EN : exists n, N = S (S (S (S n))) /\ length (bars ws) + 2 <= S (S n)).
  { exists (N - 4). unfold N. rewrite !app_length. cbn [length txt list_ascii_of_string List.map]. lia. }
  clearbody N. destruct EN as (n & -> & HN).
  assert (O : group_open (bars ws ++ txt ")") = Read (fun a => a, bars ws ++ txt ")")).
  { unfold group_open. destruct (bars ws ++ txt ")") as [|q t] eqn:EB; [reflexivity|].
    destruct (Z.eqb_spec q 63) as [->|_]; [exfalso|reflexivity].
    destruct ws as [|w ws]; [discriminate|]. inversion P as [|? ? PW PS]; subst.
    destruct w as [|d w].
    - destruct ws; cbn in EB; discriminate.
    - assert (d = 63%Z) by (destruct ws; cbn in EB; congruence). subst d.
      apply (PW 63%Z); [now left|]. left. cbn. tauto. }
  assert (Q : parse_sub (S (S (S (S n)))) (txt "(" ++ bars ws ++ txt ")") = Read (xwords ws, [])).
  { apply sub_of_seq; [now left|].
    change (parse_seq (S (S (S n))) [] (txt "(" ++ bars ws ++ txt ")")) with
      (rbind (group_open (bars ws ++ txt ")")) (fun '(f, u) =>
              rbind (parse_sub (S (S n)) u) (fun '(a, v) =>
                match v with
                | z :: w => if (z =? 41)%Z then parse_seq (S (S n)) [(KOther, f a)] w else Bad
                | [] => Bad
                end))).
    rewrite O. cbn [rbind]. rewrite sub_words; [reflexivity|exact P|right; eexists; reflexivity|exact HN]. }
  rewrite Q. cbn. now rewrite behind_words.
Qed.

(** ** Where they are found *)

Definition same_ends (k : classes) (r : rx) (q : re) : Prop :=
  forall s i, i <= length s -> xends k s r i = ends q s i.

Lemma same_search k r q : same_ends k r q -> forall s p, xsearch k r s p = search q s p.
Proof.
  intros H s p. unfold xsearch, search. destruct (Nat.ltb_spec (length s) p); [reflexivity|].
  assert (Q : forall n i, i + n <= length s -> xsearch_at k r s n i = search_at q s n i).
  { induction n as [|n IH]; intros i HI; cbn; rewrite H by lia; destruct (ends q s i); try reflexivity.
    apply IH. lia. }
  apply Q. lia.
Qed.

Lemma flat_map_ext_in {A B} (f g : A -> list B) l : (forall x, In x l -> f x = g x) -> flat_map f l = flat_map g l.
Proof. induction l as [|a l IH]; cbn; intros H; [reflexivity|]. rewrite H, IH; auto. Qed.

Lemma same_seq k a b p q : same_ends k a p -> same_ends k b q -> same_ends k (XSeq a b) (RSeq p q).
Proof.
  intros HA HB s i HI. cbn. rewrite HA by exact HI. apply flat_map_ext_in. intros e He. apply HB.
  apply ends_bounds in He; lia.
Qed.
Lemma same_alt k a b p q : same_ends k a p -> same_ends k b q -> same_ends k (XAlt a b) (RAlt p q).
Proof. intros HA HB s i HI. cbn. now rewrite HA, HB. Qed.

Lemma skipn_cons {A} (s : list A) i x : nth_error s i = Some x -> skipn i s = x :: skipn (S i) s.
Proof.
  revert i. induction s as [|a s IH]; intros i; destruct i; cbn; try discriminate; [congruence|]. apply IH.
Qed.
Lemma skipn_none {A} (s : list A) i : nth_error s i = None -> skipn i s = [].
Proof. intros H. apply skipn_all2. now apply nth_error_None. Qed.

Lemma prefixb_nil {A} `{Eqb A} (l : list A) : prefixb [] l = true.
Proof. destruct l; reflexivity. Qed.
Lemma same_char k c : same_ends k (xchar c) (RLit [c]).
Proof.
  intros s i HI. cbn. destruct (nth_error s i) as [x|] eqn:EX.
  - rewrite (skipn_cons s i x EX). cbn. unfold set_has. cbn. rewrite orb_false_r.
    replace ((c <=? x) && (x <=? c))%Z with (c =? x)%Z.
    + destruct (c =? x)%Z; cbn; [f_equal; lia|reflexivity].
    + destruct (Z.eqb_spec c x) as [->|NE].
      * symmetry. apply andb_true_iff. rewrite !Z.leb_le. lia.
      * symmetry. apply andb_false_iff. rewrite !Z.leb_gt. lia.
  - now rewrite (skipn_none s i EX).
Qed.

Lemma same_word k t : same_ends k (xword t) (RLit t).
Proof.
  induction t as [|c t IH]; intros s i HI.
  - cbn. f_equal. lia.
  - destruct t as [|d t]; [now apply same_char|].
    change (xword (c :: d :: t)) with (XSeq (xchar c) (xword (d :: t))).
    cbn [xends]. rewrite (same_char k c s i HI). cbn [ends].
    destruct (nth_error s i) as [x|] eqn:EX.
    + rewrite (skipn_cons s i x EX). cbn [prefixb]. change (Py.eqb c x) with (Z.eqb c x). destruct (c =? x)%Z.
      * assert (i < length s) by (apply nth_error_Some; congruence).
        cbn [andb flat_map length]. rewrite IH by lia. rewrite app_nil_r.
        cbn [ends]. replace (i + 1) with (S i) by lia.
        change (match skipn (S i) s with [] => false | y :: s0 => Py.eqb d y && prefixb t s0 end) with (prefixb (d :: t) (skipn (S i) s)).
        destruct (prefixb (d :: t) (skipn (S i) s)); [f_equal; cbn; lia|reflexivity].
      * reflexivity.
    + now rewrite (skipn_none s i EX).
Qed.

Fixpoint rwords (ws : list str) : re :=
  match ws with [] => RLit [] | [w] => RLit w | w :: ws => RAlt (RLit w) (rwords ws) end.
Lemma same_words k ws : same_ends k (xwords ws) (rwords ws).
Proof.
  induction ws as [|w ws IH]; [intros s i HI; cbn; f_equal; lia|].
  destruct ws as [|x ws]; [apply same_word|].
  change (same_ends k (XAlt (xword w) (xwords (x :: ws))) (RAlt (RLit w) (rwords (x :: ws)))).
  apply same_alt; [apply same_word|exact IH].
Qed.
Lemma ends_fold s i rs : forall r, ends (fold_left RAlt rs r) s i = ends r s i ++ flat_map (fun r => ends r s i) rs.
Proof.
  induction rs as [|x rs IH]; intros r; cbn [fold_left flat_map]; [now rewrite app_nil_r|].
  rewrite IH. cbn [ends]. now rewrite <- app_assoc.
Qed.
Lemma ends_words s i ws : ws <> [] -> ends (rwords ws) s i = flat_map (fun w => ends (RLit w) s i) ws.
Proof.
  induction ws as [|w ws IH]; [congruence|]. intros _. destruct ws as [|x ws]; [cbn [flat_map]; now rewrite app_nil_r|].
  change (ends (rwords (w :: x :: ws)) s i) with (ends (RLit w) s i ++ ends (rwords (x :: ws)) s i).
  rewrite IH by discriminate. reflexivity.
Qed.

(** one character *)
Definition steps_by (c : Z -> bool) (s : str) (f : nat -> list nat) : Prop :=
  forall i, f i = match nth_error s i with Some x => if c x then [S i] else [] | None => [] end.

Lemma more_run c s f : steps_by c s f -> forall n i, run_length c (skipn i s) <= n ->
  more n true f i = map (fun k => i + k) (rev (seq 0 (S (run_length c (skipn i s))))).
Proof.
  intros HF. induction n as [|n IH]; intros i HN.
  - replace (run_length c (skipn i s)) with 0 by lia. cbn. now rewrite Nat.add_0_r.
  - cbn [more]. rewrite HF. destruct (nth_error s i) as [x|] eqn:EX.
    + rewrite (skipn_cons s i x EX) in *. cbn [run_length] in *. destruct (c x).
      * cbn [flat_map]. destruct (Nat.eqb_spec (S i) i); [lia|]. rewrite app_nil_r, IH by lia.
        set (r := run_length c (skipn (S i) s)). change (seq 0 (S (S r))) with (0 :: seq 1 (S r)).
        cbn [rev]. rewrite map_app. cbn [map]. rewrite Nat.add_0_r. f_equal.
        rewrite <- seq_shift, <- map_rev, map_map. apply map_ext. intros a. lia.
      * cbn. now rewrite Nat.add_0_r.
    + rewrite (skipn_none s i EX). cbn. now rewrite Nat.add_0_r.
Qed.

Lemma same_plus k neg l c : (forall x, set_has k neg l x = c x) ->
  same_ends k (XRep 1 None true (XSet neg l)) (RPlus c).
Proof.
  intros HC s i HI. cbn [ends].
  assert (F : steps_by c s (xends k s (XSet neg l))).
  { intros j. cbn. destruct (nth_error s j); [now rewrite HC|reflexivity]. }
  change (xends k s (XRep 1 None true (XSet neg l)) i) with
    (flat_map (more (S (length s)) true (xends k s (XSet neg l))) (flat_map (fun j => [j]) (xends k s (XSet neg l) i))).
  rewrite F. destruct (nth_error s i) as [x|] eqn:EX.
  - rewrite (skipn_cons s i x EX). cbn [run_length]. destruct (c x); [|reflexivity].
    cbn [flat_map app]. rewrite app_nil_r.
    rewrite (more_run c s _ F).
    + rewrite <- seq_shift, <- map_rev, map_map. apply map_ext. intros a. lia.
    + pose proof (run_length_le c (skipn (S i) s)). rewrite skipn_length in H. lia.
  - now rewrite (skipn_none s i EX).
Qed.
Lemma same_behind k neg l c : (forall x, set_has k neg l x = c x) ->
  same_ends k (XLook false false (XSet neg l)) (RNotBehind c).
Proof.
  intros HC s i HI. cbn. destruct i as [|j]; [reflexivity|]. cbn. rewrite Nat.sub_0_r.
  destruct (nth_error s j) as [x|]; [|reflexivity]. rewrite HC. now destruct (c x).
Qed.
Lemma same_ahead k neg l c : (forall x, set_has k neg l x = c x) ->
  same_ends k (XLook true false (XSet neg l)) (RNotAhead c).
Proof.
  intros HC s i HI. cbn. destruct (nth_error s i) as [x|]; [|reflexivity]. rewrite HC. now destruct (c x).
Qed.
Lemma same_begin k : same_ends k XBegin RBegin.
Proof. intros s i HI. reflexivity. Qed.
Lemma same_end k : same_ends k XEnd REnd.
Proof. intros s i HI. reflexivity. Qed.
