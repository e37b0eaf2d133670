(** Proofs for C78: [json.loads] reads exactly the JSON texts. *)

From Coq Require Import Decimal DecimalZ String.
From Verif Require Import Py PyFacts Json SpecJson JsonProofs Pipe SpecGrammar.
From Coq Require Import List.
Local Open Scope Z_scope.

(** ** The parsers, with tests instead of patterns *)

Ltac digits p := do 7 (destruct p as [p|p|]; try reflexivity).

Lemma parse_value_S f c t :
  parse_value (S f) (c :: t) =
  if c =? QUOTE then
    match parse_str f t [] with Some (x, r) => Some (JStr x, r) | None => None end
  else if c =? 91 then
    match skip_ws t with
    | d :: r => if d =? 93 then Some (JList [], r)
                else match parse_elems f (d :: r) with Some (l, r) => Some (JList l, r) | None => None end
    | [] => match parse_elems f [] with Some (l, r) => Some (JList l, r) | None => None end
    end
  else if c =? 123 then
    match skip_ws t with
    | d :: r => if d =? 125 then Some (JDict [], r)
                else match parse_members f (d :: r) [] with Some (l, r) => Some (JDict l, r) | None => None end
    | [] => match parse_members f [] [] with Some (l, r) => Some (JDict l, r) | None => None end
    end
  else if c =? 110 then keyword [110; 117; 108; 108] JNone (c :: t)
  else if c =? 116 then keyword [116; 114; 117; 101] (JBool true) (c :: t)
  else if c =? 102 then keyword [102; 97; 108; 115; 101] (JBool false) (c :: t)
  else match parse_int (c :: t) with Some (z, r) => Some (JInt z, r) | None => None end.
Proof.
  cbn [parse_value]. destruct (c =? QUOTE); [reflexivity|]. destruct (c =? 91).
  { destruct (skip_ws t) as [|d r]; [reflexivity|]. destruct d as [|p|p]; try reflexivity. digits p. }
  destruct (c =? 123); [|reflexivity].
  destruct (skip_ws t) as [|d r]; [reflexivity|]. destruct d as [|p|p]; try reflexivity. digits p.
Qed.

Lemma parse_elems_S f s :
  parse_elems (S f) s =
  match parse_value f s with
  | None => None
  | Some (v, r) =>
      match skip_ws r with
      | [] => None
      | d :: r => if d =? 93 then Some ([v], r)
                  else if d =? 44 then match parse_elems f (skip_ws r) with
                                       | Some (l, r) => Some (v :: l, r)
                                       | None => None
                                       end
                  else None
      end
  end.
Proof.
  cbn [parse_elems]. destruct (parse_value f s) as [[v r]|]; [|reflexivity].
  destruct (skip_ws r) as [|d r']; [reflexivity|]. destruct d as [|p|p]; try reflexivity. digits p.
Qed.

Lemma parse_members_S f s acc :
  parse_members (S f) s acc =
  match s with
  | [] => None
  | q :: s =>
      if q =? QUOTE then
        match parse_str f s [] with
        | None => None
        | Some (k, r) =>
            match skip_ws r with
            | [] => None
            | e :: r =>
                if e =? 58 then
                  match parse_value f (skip_ws r) with
                  | None => None
                  | Some (v, r) =>
                      match skip_ws r with
                      | [] => None
                      | d :: r => if d =? 125 then Some (dict_set acc k v, r)
                                  else if d =? 44 then parse_members f (skip_ws r) (dict_set acc k v)
                                  else None
                      end
                  end
                else None
            end
        end
      else None
  end.
Proof.
  cbn [parse_members]. destruct s as [|q s]; [reflexivity|].
  destruct (Z.eqb_spec q QUOTE) as [->|N].
  2:{ destruct q as [|p|p]; try reflexivity. do 6 (destruct p as [p|p|]; try reflexivity). contradiction N; reflexivity. }
  cbn [QUOTE]. destruct (parse_str f s []) as [[k r]|]; [|reflexivity].
  destruct (skip_ws r) as [|e r']; [reflexivity|].
  destruct (Z.eqb_spec e 58) as [->|N].
  2:{ destruct e as [|p|p]; try reflexivity. do 6 (destruct p as [p|p|]; try reflexivity). contradiction N; reflexivity. }
  destruct (parse_value f (skip_ws r')) as [[v r2]|]; [|reflexivity].
  destruct (skip_ws r2) as [|d r3]; [reflexivity|]. destruct d as [|p|p]; try reflexivity. digits p.
Qed.

(** ** Blanks *)

Lemma is_ws_blank c : is_ws c = true <-> In c [32; 9; 10; 13].
Proof. unfold is_ws. cbn [In]. rewrite !orb_true_iff, !Z.eqb_eq. intuition (auto; congruence). Qed.

Lemma skip_ws_app w s : blank w -> skip_ws (w ++ s) = skip_ws s.
Proof.
  induction 1 as [|c w H _ IH]; [reflexivity|]. apply is_ws_blank in H. cbn. now rewrite H.
Qed.

Lemma skip_ws_split s : exists w, blank w /\ s = w ++ skip_ws s.
Proof.
  induction s as [|c s (w & B & E)]; cbn.
  - exists []. now split; [constructor|].
  - destruct (is_ws c) eqn:W.
    + exists (c :: w). split; [constructor; [now apply is_ws_blank|exact B]|]. cbn. now rewrite <- E.
    + exists []. now split; [constructor|].
Qed.

Lemma skip_ws_head s : match skip_ws s with c :: _ => is_ws c = false | [] => True end.
Proof. induction s as [|c s IH]; cbn; [exact I|]. destruct (is_ws c) eqn:W; [exact IH|exact W]. Qed.

(** ** Hexadecimal digits *)

Lemma unhex_digit c d : unhex c = Some d <-> hex_digit c d.
Proof.
  unfold unhex. split.
  - destruct (Z.leb_spec 48 c); destruct (Z.leb_spec c 57); cbn [andb].
    1:{ intros E; injection E as <-. replace c with (48 + (c - 48)) at 1 by lia. constructor. lia. }
    all: destruct (Z.leb_spec 97 c); destruct (Z.leb_spec c 102); cbn [andb];
      try (intros E; injection E as <-; replace c with (97 + (c - 97)) at 1 by lia;
           replace (c - 87) with (10 + (c - 97)) by lia; constructor; lia).
    all: destruct (Z.leb_spec 65 c); destruct (Z.leb_spec c 70); cbn [andb]; try discriminate;
      try (intros E; injection E as <-; replace c with (65 + (c - 65)) at 1 by lia;
           replace (c - 55) with (10 + (c - 65)) by lia; constructor; lia).
    all: exfalso; lia.
  - destruct 1 as [d H|d H|d H].
    + replace (48 <=? 48 + d) with true by (symmetry; apply Z.leb_le; lia).
      replace (48 + d <=? 57) with true by (symmetry; apply Z.leb_le; lia). cbn [andb]. f_equal; lia.
    + replace (97 + d <=? 57) with false by (symmetry; apply Z.leb_gt; lia). rewrite andb_false_r.
      replace (97 <=? 97 + d) with true by (symmetry; apply Z.leb_le; lia).
      replace (97 + d <=? 102) with true by (symmetry; apply Z.leb_le; lia). cbn [andb]. f_equal; lia.
    + replace (65 + d <=? 57) with false by (symmetry; apply Z.leb_gt; lia). rewrite andb_false_r.
      replace (97 <=? 65 + d) with false by (symmetry; apply Z.leb_gt; lia). cbn [andb].
      replace (65 <=? 65 + d) with true by (symmetry; apply Z.leb_le; lia).
      replace (65 + d <=? 70) with true by (symmetry; apply Z.leb_le; lia). cbn [andb]. f_equal; lia.
Qed.

Lemma hex_digit_range c d : hex_digit c d -> 0 <= d <= 15.
Proof. destruct 1; lia. Qed.

Lemma unit_range u h : unit_escape u h -> 0 <= u <= 65535.
Proof.
  destruct 1 as [a b c d p q r s A B C D].
  apply hex_digit_range in A, B, C, D. lia.
Qed.

Lemma unhex4_iff s u r : unhex4 s = Some (u, r) <-> exists h, unit_escape u (92 :: 117 :: h) /\ s = h ++ r.
Proof.
  split.
  - destruct s as [|a [|b [|c [|d s]]]]; try discriminate. cbn [unhex4].
    destruct (unhex a) as [p|] eqn:A; [|discriminate]. destruct (unhex b) as [q|] eqn:B; [|discriminate].
    destruct (unhex c) as [x|] eqn:C; [|discriminate]. destruct (unhex d) as [y|] eqn:D; [|discriminate].
    intros E; injection E as <- <-. exists [a; b; c; d]. split; [|reflexivity].
    replace (((p * 16 + q) * 16 + x) * 16 + y) with (p * 4096 + q * 256 + x * 16 + y) by lia.
    constructor; now apply unhex_digit.
  - intros (h & U & ->). inversion U as [a b c d p q x y A B C D Eu Eh]; subst.
    cbn [app unhex4]. apply unhex_digit in A, B, C, D. rewrite A, B, C, D. f_equal. f_equal. lia.
Qed.

Lemma unit_shape u h : unit_escape u h -> exists k, h = 92 :: 117 :: k /\ List.length k = 4%nat.
Proof. destruct 1. eexists; split; reflexivity. Qed.

Lemma unit_unique u h t v k t' : unit_escape u h -> unit_escape v k -> h ++ t = k ++ t' -> h = k /\ t = t' /\ u = v.
Proof.
  destruct 1 as [a b c d p q r s A B C D]. destruct 1 as [a' b' c' d' p' q' r' s' A' B' C' D'].
  cbn [app]. intros E. injection E as -> -> -> -> ->.
  assert (U : forall c d d', hex_digit c d -> hex_digit c d' -> d = d').
  { intros z e e' H H'. apply unhex_digit in H, H'. congruence. }
  rewrite (U _ _ _ A A'), (U _ _ _ B B'), (U _ _ _ C C'), (U _ _ _ D D'). auto.
Qed.

(** ** String literals *)

Lemma simple_escape_iff e c : simple_escape e = Some c <-> In (e, c) short_escapes.
Proof.
  unfold simple_escape, short_escapes, QUOTE, BACKSLASH. cbn [In].
  split.
  - repeat match goal with |- context [e =? ?b] =>
      destruct (Z.eqb_spec e b) as [->|?]; [intros E; injection E as <-; tauto|] end.
    discriminate.
  - intros H. repeat (destruct H as [H|H]; [injection H as <- <-; reflexivity|]). contradiction.
Qed.

Lemma no_u_escape c : ~ In (117, c) short_escapes.
Proof. intros H. apply simple_escape_iff in H. discriminate. Qed.

Lemma some_pair {A B} (a c : A) (b d : B) : Some (a, b) = Some (c, d) -> a = c /\ b = d.
Proof. intros E; injection E; auto. Qed.

(** reading a [\u] escape *)
Lemma parse_u_sound s x r : parse_u s = Some (x, r) ->
  (exists h, unit_escape x (92 :: 117 :: h) /\ s = h ++ r /\
     (high_surrogate x -> forall v k t', unit_escape v k -> low_surrogate v -> r <> k ++ t')) \/
  (exists u h v k, unit_escape u (92 :: 117 :: h) /\ unit_escape v k /\ high_surrogate u /\ low_surrogate v /\
     x = 0x10000 + (u - 0xD800) * 1024 + (v - 0xDC00) /\ s = h ++ k ++ r).
Proof.
  unfold parse_u. destruct (unhex4 s) as [[u s1]|] eqn:U; [|discriminate].
  apply unhex4_iff in U as (h & U & ->).
  destruct ((55296 <=? u) && (u <=? 56319)) eqn:H.
  2:{ intros E; injection E as <- <-. left. exists h. refine (conj U (conj eq_refl _)).
      intros [L1 L2]. exfalso. apply andb_false_iff in H as [H|H]; apply Z.leb_gt in H; lia. }
  apply andb_true_iff in H as [H1 H2]. apply Z.leb_le in H1, H2.
  assert (HS : high_surrogate u) by (split; assumption).
  intros E.
  assert (C : (exists s', s1 = 92 :: 117 :: s') \/ (forall s', s1 <> 92 :: 117 :: s')).
  { destruct s1 as [|a [|b s']]; [right; discriminate|right; discriminate|].
    destruct (Z.eq_dec a 92) as [->|]; [|right; congruence].
    destruct (Z.eq_dec b 117) as [->|]; [|right; congruence]. left; eauto. }
  destruct C as [(s' & ->)|N].
  - destruct (unhex4 s') as [[v s'']|] eqn:V; [|discriminate].
    pose proof V as V'. apply unhex4_iff in V as (k & V & ->).
    destruct ((56320 <=? v) && (v <=? 57343)) eqn:L.
    + apply andb_true_iff in L as [L1 L2]. apply Z.leb_le in L1, L2.
      apply some_pair in E as [<- <-]. right. exists u, h, v, (92 :: 117 :: k).
      refine (conj U (conj V (conj HS (conj (conj L1 L2) (conj _ _))))); [lia|reflexivity].
    + injection E as <- <-. left. exists h. refine (conj U (conj eq_refl _)).
      intros _ v' k' t' Uv' [L1 L2] E. change (92 :: 117 :: k ++ s'') with ((92 :: 117 :: k) ++ s'') in E.
      destruct (unit_unique _ _ _ _ _ _ V Uv' E) as (_ & _ & ->).
      apply andb_false_iff in L as [L|L]; apply Z.leb_gt in L; lia.
  - assert (Some (u, s1) = Some (x, r)) as E'.
    { rewrite <- E. clear E. destruct s1 as [|a [|b s']]; try reflexivity.
      - destruct a as [|p|p]; try reflexivity. digits p.
      - assert (a <> 92 \/ b <> 117) as [Na|Nb].
        { destruct (Z.eq_dec a 92) as [->|]; [|now left]. right. intros ->. now apply (N s'). }
        + destruct a as [|p|p]; try reflexivity.
          do 7 (destruct p as [p|p|]; try reflexivity). contradiction Na; reflexivity.
        + destruct a as [|p|p]; try reflexivity.
          do 7 (destruct p as [p|p|]; try reflexivity).
          destruct b as [|p|p]; try reflexivity.
          do 7 (destruct p as [p|p|]; try reflexivity). contradiction Nb; reflexivity. }
    injection E' as <- <-. left. exists h. refine (conj U (conj eq_refl _)).
    intros _ v k t' Uv _ ->. apply unit_shape in Uv as (k' & -> & _). now apply (N (k' ++ t')).
Qed.

Lemma parse_u_pair u h v k r : unit_escape u (92 :: 117 :: h) -> unit_escape v (92 :: 117 :: k) ->
  high_surrogate u -> low_surrogate v ->
  parse_u (h ++ 92 :: 117 :: k ++ r) = Some (0x10000 + (u - 0xD800) * 1024 + (v - 0xDC00), r).
Proof.
  intros U V [H1 H2] [L1 L2]. unfold parse_u.
  rewrite (proj2 (unhex4_iff (h ++ 92 :: 117 :: k ++ r) u (92 :: 117 :: k ++ r))) by eauto.
  replace ((55296 <=? u) && (u <=? 56319)) with true
    by (symmetry; apply andb_true_iff; split; apply Z.leb_le; lia).
  rewrite (proj2 (unhex4_iff (k ++ r) v r)) by eauto.
  replace ((56320 <=? v) && (v <=? 57343)) with true
    by (symmetry; apply andb_true_iff; split; apply Z.leb_le; lia).
  f_equal. f_equal. lia.
Qed.

(** [r] is not the start of an escape with bad digits *)
Lemma parse_u_unit u h r : unit_escape u (92 :: 117 :: h) ->
  (forall r', r = 92 :: 117 :: r' -> unhex4 r' <> None) ->
  (high_surrogate u -> forall v k t', unit_escape v k -> low_surrogate v -> r <> k ++ t') ->
  parse_u (h ++ r) = Some (u, r).
Proof.
  intros U G N. unfold parse_u.
  rewrite (proj2 (unhex4_iff (h ++ r) u r)) by eauto.
  destruct ((55296 <=? u) && (u <=? 56319)) eqn:H; [|reflexivity].
  apply andb_true_iff in H as [H1 H2]. apply Z.leb_le in H1, H2.
  specialize (N (conj H1 H2)).
  destruct r as [|a [|b r]]; try reflexivity.
  - destruct a as [|p|p]; try reflexivity. digits p.
  - destruct (Z.eq_dec a 92) as [->|Na].
    2:{ destruct a as [|p|p]; try reflexivity.
        do 7 (destruct p as [p|p|]; try reflexivity). contradiction Na; reflexivity. }
    destruct (Z.eq_dec b 117) as [->|Nb].
    2:{ destruct b as [|p|p]; try reflexivity.
        do 7 (destruct p as [p|p|]; try reflexivity). contradiction Nb; reflexivity. }
    specialize (G r eq_refl). destruct (unhex4 r) as [[v r']|] eqn:V; [|contradiction].
    apply unhex4_iff in V as (k & V & ->).
    destruct ((56320 <=? v) && (v <=? 57343)) eqn:L; [|reflexivity].
    apply andb_true_iff in L as [L1 L2]. apply Z.leb_le in L1, L2.
    exfalso. now apply (N v (92 :: 117 :: k) r' V (conj L1 L2)).
Qed.

Lemma in_quotes_escape t : forall s, in_quotes s t -> forall r r', t ++ 34 :: r = 92 :: 117 :: r' -> unhex4 r' <> None.
Proof.
  intros s H. destruct H as [|c s t A B C H|e c s t A H|u h s t U H N|u h v k s t U V HS LS H]; intros r r' E.
  - discriminate.
  - injection E as -> _. now contradiction C.
  - injection E as -> _. now apply no_u_escape in A.
  - destruct (unit_shape _ _ U) as (k & -> & _). injection E as <-. rewrite <- app_assoc.
    rewrite (proj2 (unhex4_iff (k ++ t ++ 34 :: r) u (t ++ 34 :: r))) by eauto. discriminate.
  - destruct (unit_shape _ _ U) as (k' & -> & _). injection E as <-. rewrite <- !app_assoc.
    rewrite (proj2 (unhex4_iff (k' ++ k ++ t ++ 34 :: r) u (k ++ t ++ 34 :: r))) by eauto. discriminate.
Qed.

Lemma parse_str_sound f : forall s acc x r, parse_str f s acc = Some (x, r) ->
  exists y t, x = acc ++ y /\ s = t ++ 34 :: r /\ in_quotes y t.
Proof.
  induction f as [|f IH]; intros s acc x r; [discriminate|]. cbn [parse_str].
  destruct s as [|c s]; [discriminate|].
  destruct (Z.eqb_spec c QUOTE) as [->|Nq].
  { intros E; injection E as <- <-. exists [], []. rewrite app_nil_r. repeat split; constructor. }
  destruct (Z.eqb_spec c BACKSLASH) as [->|Nb].
  - destruct s as [|e s]; [discriminate|]. destruct (Z.eqb_spec e 117) as [->|Nu].
    + destruct (parse_u s) as [[z s']|] eqn:U; [|discriminate].
      intros E. apply IH in E as (y & t & -> & -> & Q).
      exists (z :: y). apply parse_u_sound in U as [(h & U & -> & N)|(u & h & v & k & U & V & HS & LS & -> & ->)].
      * exists ((92 :: 117 :: h) ++ t). rewrite <- app_assoc. split; [reflexivity|].
        split; [cbn; now rewrite <- app_assoc|]. apply quotes_unit; auto.
        intros HS v k t' V LS ->. apply (N HS v k (t' ++ 34 :: r) V LS). now rewrite <- app_assoc.
      * exists ((92 :: 117 :: h) ++ k ++ t). rewrite <- app_assoc. split; [reflexivity|].
        split; [cbn; now rewrite <- !app_assoc|]. now apply quotes_pair.
    + destruct (simple_escape e) as [z|] eqn:S; [|discriminate].
      intros E. apply IH in E as (y & t & -> & -> & Q). apply simple_escape_iff in S.
      exists (z :: y), (92 :: e :: t). rewrite <- app_assoc. repeat split. now apply quotes_short.
  - destruct (Z.ltb_spec c 32); [discriminate|].
    intros E. apply IH in E as (y & t & -> & -> & Q).
    exists (c :: y), (c :: t). rewrite <- app_assoc. repeat split. now constructor.
Qed.

Lemma parse_str_complete y t : in_quotes y t -> forall f acc r, (List.length t < f)%nat ->
  parse_str f (t ++ 34 :: r) acc = Some (acc ++ y, r).
Proof.
  induction 1 as [|c s t A B C H IH|e c s t A H IH|u h s t U H IH N|u h v k s t U V HS LS H IH]; intros f acc r F;
    (destruct f as [|f]; [cbn in F; lia|]).
  - cbn. now rewrite app_nil_r.
  - cbn [app parse_str]. destruct (Z.eqb_spec c QUOTE); [contradiction|].
    destruct (Z.eqb_spec c BACKSLASH); [contradiction|]. destruct (Z.ltb_spec c 32); [lia|].
    rewrite IH by (cbn in F; lia). now rewrite <- app_assoc.
  - cbn [app parse_str]. cbn [Z.eqb QUOTE BACKSLASH Pos.eqb].
    destruct (Z.eqb_spec e 117) as [->|]; [now apply no_u_escape in A|].
    pose proof (proj2 (simple_escape_iff _ _) A) as E. rewrite E.
    rewrite IH by (cbn in F; lia). now rewrite <- app_assoc.
  - destruct (unit_shape _ _ U) as (k & -> & L). cbn [app parse_str]. cbn [Z.eqb QUOTE BACKSLASH Pos.eqb].
    rewrite <- app_assoc, (parse_u_unit u k (t ++ 34 :: r) U).
    + rewrite IH by (cbn in F; rewrite app_length in F; lia). now rewrite <- app_assoc.
    + intros r' E. eapply in_quotes_escape; eauto.
    + intros HS v h t' V LS E. assert (exists t'', t = h ++ t'') as (t'' & ->).
      { (* the digits end before the quote *)
        destruct V as [a b c d p q x z A B C D]. cbn [app] in E.
        assert (Q : forall a p, hex_digit a p -> a <> 34) by (destruct 1; lia).
        destruct t as [|t1 [|t2 [|t3 [|t4 [|t5 [|t6 t]]]]]]; cbn [app] in E; try discriminate.
        - injection E as -> -> E _. exfalso; now apply (Q _ _ A).
        - injection E as -> -> -> E _. exfalso; now apply (Q _ _ B).
        - injection E as -> -> -> -> E _. exfalso; now apply (Q _ _ C).
        - injection E as -> -> -> -> -> E _. exfalso; now apply (Q _ _ D).
        - injection E as -> -> -> -> -> -> _. now exists t. }
      now apply (N HS v h t'' V LS).
  - destruct (unit_shape _ _ U) as (h' & -> & L). destruct (unit_shape _ _ V) as (k' & -> & L').
    cbn [app parse_str]. cbn [Z.eqb QUOTE BACKSLASH Pos.eqb].
    rewrite <- app_assoc. cbn [app]. rewrite <- app_assoc, (parse_u_pair u h' v k') by assumption.
    rewrite IH by (cbn in F; rewrite app_length in F; cbn in F; rewrite app_length in F; lia).
    now rewrite <- app_assoc.
Qed.

(** ** Numbers *)

Lemma parse_uint_digits ds : Forall (fun d => 48 <= d <= 57) ds -> forall r, not_digit r ->
  parse_uint (ds ++ r) = (fst (parse_uint ds), r).
Proof.
  induction 1 as [|d ds D _ IH]; intros r N.
  - now apply parse_not_digit.
  - cbn [app parse_uint]. rewrite (IH _ N). destruct (parse_uint ds) as [u r']. cbn [fst].
    repeat match goal with |- context [d =? ?b] => destruct (Z.eqb_spec d b); [reflexivity|] end. lia.
Qed.

Lemma parse_uint_split s : forall u r, parse_uint s = (u, r) -> exists ds,
  s = ds ++ r /\ Forall (fun d => 48 <= d <= 57) ds /\ not_digit r /\ u = fst (parse_uint ds).
Proof.
  induction s as [|c s IH]; intros u r E.
  - injection E as <- <-. exists []. repeat split; constructor.
  - cbn [parse_uint] in E. destruct (parse_uint s) as [u' r'] eqn:P.
    destruct (IH _ _ eq_refl) as (ds & -> & F & N & U).
    repeat match type of E with context [c =? ?b] => destruct (Z.eqb_spec c b) as [->|];
      [injection E as <- <-;
       eexists (_ :: ds); split; [reflexivity|]; split; [constructor; [lia|exact F]|]; split; [exact N|];
       cbn [parse_uint]; destruct (parse_uint ds) as [? ?]; cbn [fst] in U; subst; reflexivity|] end.
    injection E as <- <-. exists []. cbn [app]. repeat split; [constructor|]. cbn. lia.
Qed.

Lemma of_uint_acc_value ds : Forall (fun d => 48 <= d <= 57) ds -> forall a,
  Zpos (Pos.of_uint_acc (fst (parse_uint ds)) a) = fold_left (fun a d => 10 * a + (d - 48)) ds (Zpos a).
Proof.
  induction 1 as [|d ds D _ IH]; intros a; [reflexivity|].
  cbn [parse_uint fold_left]. destruct (parse_uint ds) as [u r]. cbn [fst] in IH.
  repeat match goal with |- context [d =? ?b] => destruct (Z.eqb_spec d b) as [->|];
    [cbn [fst Pos.of_uint_acc]; rewrite IH; f_equal; lia|] end. lia.
Qed.

Lemma of_uint_value ds : Forall (fun d => 48 <= d <= 57) ds -> Z.of_uint (fst (parse_uint ds)) = digits_value ds.
Proof.
  unfold digits_value. induction 1 as [|d ds D F IH]; [reflexivity|].
  cbn [parse_uint fold_left]. pose proof (of_uint_acc_value ds F) as A.
  destruct (parse_uint ds) as [u r]. cbn [fst] in A, IH.
  destruct (Z.eqb_spec d 48) as [->|]; [exact IH|].
  repeat match goal with |- context [d =? ?b] => destruct (Z.eqb_spec d b) as [->|];
    [cbn [fst Z.of_uint Pos.of_uint Z.of_N]; rewrite A; reflexivity|] end. lia.
Qed.

Lemma is_number_digits ds : is_number ds -> Forall (fun d => 48 <= d <= 57) ds /\ ds <> [].
Proof.
  intros [->|(d & ds' & -> & D & F)]; (split; [|discriminate]); constructor; auto; lia.
Qed.

Lemma parse_nat_S s : parse_nat s =
  match s with
  | [] => None
  | d :: t => if d =? 48 then Some (D0 Nil, t)
              else match fst (parse_uint (d :: t)) with Nil => None | u => Some (u, snd (parse_uint (d :: t))) end
  end.
Proof.
  destruct s as [|d t]; [reflexivity|]. destruct (Z.eqb_spec d 48) as [->|N]; [reflexivity|].
  transitivity (match parse_uint (d :: t) with (Nil, _) => None | (u, s) => Some (u, s) end).
  - unfold parse_nat. destruct d as [|p|p]; try reflexivity.
    do 6 (destruct p as [p|p|]; try reflexivity). contradiction N; reflexivity.
  - destruct (parse_uint (d :: t)) as [[] r]; reflexivity.
Qed.

Lemma parse_nat_sound s u r : parse_nat s = Some (u, r) ->
  exists ds, s = ds ++ r /\ is_number ds /\ Z.of_uint u = digits_value ds.
Proof.
  rewrite parse_nat_S. destruct s as [|d t]; [discriminate|].
  destruct (Z.eqb_spec d 48) as [->|N].
  { intros E; injection E as <- <-. exists [48]. repeat split. now left. }
  destruct (parse_uint (d :: t)) as [u' r'] eqn:P. cbn [fst snd].
  intros E. assert (u = u' /\ r = r' /\ u' <> Nil) as (-> & -> & NN).
  { destruct u'; try discriminate; injection E as <- <-; repeat split; discriminate. }
  apply parse_uint_split in P as (ds & E' & F & ND & ->).
  exists ds. split; [exact E'|]. split; [|now apply of_uint_value].
  right. destruct ds as [|d' ds]; [contradiction NN; reflexivity|].
  injection E' as <- ->. inversion F; subst. exists d, ds. repeat split; auto; lia.
Qed.

Lemma parse_nat_complete ds r : is_number ds -> not_digit r ->
  exists u, parse_nat (ds ++ r) = Some (u, r) /\ Z.of_uint u = digits_value ds.
Proof.
  intros H N. rewrite parse_nat_S. destruct H as [->|(d & ds' & -> & D & F)].
  { exists (D0 Nil). now split. }
  assert (F' : Forall (fun d => 48 <= d <= 57) (d :: ds')) by (constructor; [lia|exact F]).
  cbn [app]. destruct (Z.eqb_spec d 48); [lia|].
  pose proof (parse_uint_digits _ F' _ N) as P. cbn [app] in P. rewrite P. cbn [fst snd].
  exists (fst (parse_uint (d :: ds'))). split; [|now apply of_uint_value].
  cbn [parse_uint]. destruct (parse_uint ds') as [u r'].
  repeat match goal with |- context [d =? ?b] => destruct (Z.eqb_spec d b) as [->|]; [reflexivity|] end. lia.
Qed.

Lemma parse_int_S s : parse_int s =
  match s with
  | [] => None
  | d :: t =>
      if d =? 45 then
        match parse_nat t with
        | Some (u, s) => if no_fraction s then Some (Z.of_int (Neg u), s) else None
        | None => None
        end
      else
        match parse_nat s with
        | Some (u, s) => if no_fraction s then Some (Z.of_int (Pos u), s) else None
        | None => None
        end
  end.
Proof.
  destruct s as [|d t]; [reflexivity|]. destruct (Z.eqb_spec d 45) as [->|N]; [reflexivity|].
  unfold parse_int. destruct d as [|p|p]; try reflexivity.
  do 6 (destruct p as [p|p|]; try reflexivity). contradiction N; reflexivity.
Qed.

Lemma parse_int_sound s z r : parse_int s = Some (z, r) -> exists t, s = t ++ r /\ says (JInt z) t.
Proof.
  rewrite parse_int_S. destruct s as [|d t]; [discriminate|].
  destruct (Z.eqb_spec d 45) as [->|N].
  - destruct (parse_nat t) as [[u s]|] eqn:P; [|discriminate]. destruct (no_fraction s); [|discriminate].
    intros E. apply some_pair in E as [<- <-]. apply parse_nat_sound in P as (ds & -> & I & V).
    exists (45 :: ds). split; [reflexivity|]. cbn [Z.of_int]. rewrite V. now constructor.
  - destruct (parse_nat (d :: t)) as [[u s]|] eqn:P; [|discriminate]. destruct (no_fraction s); [|discriminate].
    intros E. apply some_pair in E as [<- <-]. apply parse_nat_sound in P as (ds & -> & I & V).
    exists ds. split; [reflexivity|]. cbn [Z.of_int]. rewrite V. now constructor.
Qed.

(** what may follow a value *)
Definition ends (s : str) : Prop :=
  match s with [] => True | c :: _ => In c [32; 9; 10; 13; 44; 93; 125] end.

Lemma ends_not_digit s : ends s -> not_digit s.
Proof. destruct s; cbn; [auto|]. intuition lia. Qed.
Lemma ends_no_fraction s : ends s -> no_fraction s = true.
Proof. destruct s as [|c s]; cbn; [reflexivity|]. intros H. repeat (destruct H as [<-|H]; [reflexivity|]). contradiction. Qed.

Lemma parse_nat_int ds r : is_number ds -> ends r -> parse_int (ds ++ r) = Some (digits_value ds, r).
Proof.
  intros H N. rewrite parse_int_S. destruct (parse_nat_complete _ _ H (ends_not_digit _ N)) as (u & P & V).
  destruct ds as [|d ds]; [destruct (proj2 (is_number_digits _ H)); reflexivity|].
  destruct (is_number_digits _ H) as [F _]. inversion F; subst. cbn [app] in *.
  destruct (Z.eqb_spec d 45); [lia|]. rewrite P, ends_no_fraction by assumption. cbn [Z.of_int]. now rewrite V.
Qed.

Lemma parse_neg_int ds r : is_number ds -> ends r -> parse_int (45 :: ds ++ r) = Some (- digits_value ds, r).
Proof.
  intros H N. rewrite parse_int_S. destruct (parse_nat_complete _ _ H (ends_not_digit _ N)) as (u & P & V).
  cbn [Z.eqb Pos.eqb]. rewrite P, ends_no_fraction by assumption. cbn [Z.of_int]. now rewrite V.
Qed.

(** ** Values: what is read is what is written *)

Lemma elements_blank l t w : blank w -> elements l t -> elements l (w ++ t).
Proof.
  intros B H. destruct H; rewrite app_assoc; constructor; auto; apply Forall_app; auto.
Qed.
Lemma members_blank l t w : blank w -> members l t -> members l (w ++ t).
Proof.
  intros B H. destruct H; rewrite app_assoc; constructor; auto; apply Forall_app; auto.
Qed.

Lemma keyword_sound w v s v' r : keyword w v s = Some (v', r) -> v' = v /\ s = w ++ r.
Proof.
  unfold keyword. destruct (prefixb w s) eqn:P; [|discriminate]. intros E; injection E as <- <-.
  split; [reflexivity|]. apply prefixb_spec in P as (t & ->). now rewrite skipn_app, skipn_all, Nat.sub_diag.
Qed.

Notation merged := (fold_left (fun o kv => dict_set o (fst kv) (snd kv))).

Lemma parse_sound f :
  (forall s v r, parse_value f s = Some (v, r) -> exists t, s = t ++ r /\ says v t) /\
  (forall s l r, parse_elems f s = Some (l, r) -> exists t, s = t ++ 93 :: r /\ elements l t) /\
  (forall s acc d r, parse_members f s acc = Some (d, r) ->
     exists ms t, s = t ++ 125 :: r /\ members ms t /\ d = merged ms acc).
Proof.
  induction f as [|f (IHv & IHe & IHm)]; [repeat split; discriminate|]. split; [|split].
  - intros s v r. destruct s as [|c t]; [discriminate|]. rewrite parse_value_S.
    destruct (Z.eqb_spec c QUOTE) as [->|N1].
    { destruct (parse_str f t []) as [[x r']|] eqn:P; [|discriminate]. intros E; injection E as <- <-.
      apply parse_str_sound in P as (y & u & -> & -> & Q). exists (34 :: u ++ [34]). cbn [app].
      rewrite <- app_assoc. split; [reflexivity|]. constructor. exists u. now split. }
    destruct (Z.eqb_spec c 91) as [->|N2].
    { destruct (skip_ws_split t) as (w & B & E). destruct (skip_ws t) as [|d r'].
      - destruct (parse_elems f []) as [[l r']|] eqn:P; [|discriminate].
        apply IHe in P as ([|] & P & _); discriminate.
      - destruct (Z.eqb_spec d 93) as [->|N].
        + intros E'; injection E' as <- <-. exists (91 :: w ++ [93]). cbn [app].
          rewrite <- app_assoc. split; [now rewrite E|]. now constructor.
        + destruct (parse_elems f (d :: r')) as [[l r2]|] eqn:P; [|discriminate].
          intros E'; injection E' as <- <-. apply IHe in P as (u & P & H). rewrite P in E. subst t.
          exists (91 :: (w ++ u) ++ [93]). split.
          { cbn [app]. now rewrite <- !app_assoc. }
          apply says_list. now apply elements_blank. }
    destruct (Z.eqb_spec c 123) as [->|N3].
    { destruct (skip_ws_split t) as (w & B & E). destruct (skip_ws t) as [|d r'].
      - destruct (parse_members f [] []) as [[l r']|] eqn:P; [|discriminate].
        apply IHm in P as (ms & [|] & P & _); discriminate.
      - destruct (Z.eqb_spec d 125) as [->|N].
        + intros E'; injection E' as <- <-. exists (123 :: w ++ [125]). cbn [app].
          rewrite <- app_assoc. split; [now rewrite E|]. now constructor.
        + destruct (parse_members f (d :: r') []) as [[l r2]|] eqn:P; [|discriminate].
          intros E'; injection E' as <- <-. apply IHm in P as (ms & u & P & H & ->). rewrite P in E. subst t.
          exists (123 :: (w ++ u) ++ [125]). split.
          { cbn [app]. now rewrite <- !app_assoc. }
          apply says_object. now apply members_blank. }
    destruct (Z.eqb_spec c 110) as [->|N4].
    { intros E. apply keyword_sound in E as [-> E]. exists [110; 117; 108; 108]. split; [exact E|constructor]. }
    destruct (Z.eqb_spec c 116) as [->|N5].
    { intros E. apply keyword_sound in E as [-> E]. exists [116; 114; 117; 101]. split; [exact E|constructor]. }
    destruct (Z.eqb_spec c 102) as [->|N6].
    { intros E. apply keyword_sound in E as [-> E]. exists [102; 97; 108; 115; 101]. split; [exact E|constructor]. }
    destruct (parse_int (c :: t)) as [[z r']|] eqn:P; [|discriminate]. intros E; apply some_pair in E as [<- <-].
    now apply parse_int_sound.
  - intros s l r. rewrite parse_elems_S. destruct (parse_value f s) as [[v r1]|] eqn:P; [|discriminate].
    apply IHv in P as (t & -> & S). destruct (skip_ws_split r1) as (w & B & E).
    destruct (skip_ws r1) as [|d r2]; [discriminate|]. subst r1.
    destruct (Z.eqb_spec d 93) as [->|N].
    { intros E; injection E as <- <-. exists (t ++ w). rewrite <- app_assoc. split; [reflexivity|].
      apply (last_element v [] t w); auto. constructor. }
    destruct (Z.eqb_spec d 44) as [->|]; [|discriminate].
    destruct (parse_elems f (skip_ws r2)) as [[l' r3]|] eqn:P; [|discriminate].
    intros E; injection E as <- <-. apply IHe in P as (u & P & H).
    destruct (skip_ws_split r2) as (w' & B' & E'). rewrite P in E'. subst r2.
    exists (t ++ w ++ 44 :: w' ++ u). split.
    { repeat (rewrite <- app_assoc; cbn [app]). reflexivity. }
    apply (next_element v [] t w l' (w' ++ u)); auto; [constructor|]. now apply elements_blank.
  - intros s acc d r. rewrite parse_members_S. destruct s as [|q s]; [discriminate|].
    destruct (Z.eqb_spec q QUOTE) as [->|]; [|discriminate].
    destruct (parse_str f s []) as [[k r1]|] eqn:P; [|discriminate].
    apply parse_str_sound in P as (y & u & -> & -> & Q). cbn [app].
    destruct (skip_ws_split r1) as (w1 & B1 & E1). destruct (skip_ws r1) as [|e r2]; [discriminate|]. subst r1.
    destruct (Z.eqb_spec e 58) as [->|]; [|discriminate].
    destruct (parse_value f (skip_ws r2)) as [[v r3]|] eqn:P; [|discriminate].
    apply IHv in P as (t & P & S). destruct (skip_ws_split r2) as (w2 & B2 & E2). rewrite P in E2. subst r2.
    destruct (skip_ws_split r3) as (w3 & B3 & E3). destruct (skip_ws r3) as [|g r4]; [discriminate|]. subst r3.
    assert (QQ : quoted y (34 :: u ++ [34])) by (exists u; now split).
    destruct (Z.eqb_spec g 125) as [->|].
    { intros E; injection E as <- <-. exists [(y, v)], (34 :: u ++ 34 :: w1 ++ 58 :: w2 ++ t ++ w3). split.
      { cbn [app]. repeat (rewrite <- app_assoc; cbn [app]). reflexivity. }
      split; [|reflexivity].
      pose proof (last_member y v [] _ w1 w2 t w3 (Forall_nil _) QQ B1 B2 S B3) as M.
      cbn [app] in M. rewrite <- app_assoc in M. exact M. }
    destruct (Z.eqb_spec g 44) as [->|]; [|discriminate].
    intros E. apply IHm in E as (ms & x & E & M & ->).
    destruct (skip_ws_split r4) as (w4 & B4 & E4). rewrite E in E4. subst r4.
    exists ((y, v) :: ms), (34 :: u ++ 34 :: w1 ++ 58 :: w2 ++ t ++ w3 ++ 44 :: w4 ++ x). split.
    { cbn [app]. repeat (rewrite <- app_assoc; cbn [app]). reflexivity. }
    split; [|reflexivity].
    pose proof (next_member y v [] _ w1 w2 t w3 ms (w4 ++ x) (Forall_nil _) QQ B1 B2 S B3
                  (members_blank _ _ _ B4 M)) as M'.
    cbn [app] in M'. rewrite <- app_assoc in M'. exact M'.
Qed.

(** ** Values: what is written is read *)

Scheme says_mut := Induction for says Sort Prop
  with elements_mut := Induction for elements Sort Prop
  with members_mut := Induction for members Sort Prop.

Lemma says_opens v t : says v t -> exists c t', t = c :: t' /\ opens c.
Proof.
  assert (N : forall ds, is_number ds -> exists c t', ds = c :: t' /\ 48 <= c <= 57).
  { intros ds H. destruct (is_number_digits _ H) as [F NE]. destruct ds as [|d ds]; [contradiction|].
    inversion F; subst. eauto. }
  assert (O : forall c, 48 <= c <= 57 -> opens c).
  { intros c H. unfold opens. split; [|lia]. unfold is_ws.
    repeat match goal with |- context [c =? ?b] => destruct (Z.eqb_spec c b); [lia|] end. reflexivity. }
  destruct 1 as [| | |ds H|ds H|s t (u & -> & _)| | | | ];
    try (eexists _, _; split; [reflexivity|]; unfold opens; repeat split; discriminate).
  destruct (N _ H) as (c & t' & -> & C). eauto.
Qed.

Lemma blank_ends w r : blank w -> ends r -> ends (w ++ r).
Proof.
  destruct 1 as [|c w H _]; [auto|]. intros _. cbn in *. intuition auto.
Qed.

Lemma skip_says v t r : says v t -> skip_ws (t ++ r) = t ++ r.
Proof. intros H. destruct (says_opens _ _ H) as (c & t' & -> & W & _). cbn. now rewrite W. Qed.

Lemma skip_quoted k kt r : quoted k kt -> skip_ws (kt ++ r) = kt ++ r.
Proof. intros (u & -> & _). reflexivity. Qed.

Definition P_says (v : jval) (t : str) : Prop := forall f r, (2 * List.length t <= f)%nat -> ends r ->
  parse_value f (t ++ r) = Some (v, r).
Definition P_elements (l : list jval) (t : str) : Prop := forall f r, (2 * List.length t + 1 <= f)%nat ->
  parse_elems f (skip_ws (t ++ 93 :: r)) = Some (l, r).
Definition P_members (d : list (str * jval)) (t : str) : Prop := forall f r acc, (2 * List.length t + 1 <= f)%nat ->
  parse_members f (skip_ws (t ++ 125 :: r)) acc = Some (merged d acc, r).

Lemma elements_head l t r : elements l t -> exists d u, skip_ws (t ++ r) = d :: u /\ d <> 93.
Proof.
  destruct 1 as [v w t w' B S B'|v w t w' l t' B S B' _].
  all: rewrite <- app_assoc, skip_ws_app by assumption; rewrite <- app_assoc, (skip_says _ _ _ S).
  all: destruct (says_opens _ _ S) as (c & u & -> & _ & N & _); cbn [app]; eauto.
Qed.

Lemma members_head l t r : members l t -> exists u, skip_ws (t ++ r) = 34 :: u.
Proof.
  destruct 1 as [k v w kt w1 w2 t w' B Q B1 B2 S B'|k v w kt w1 w2 t w' d t' B Q B1 B2 S B' _].
  all: rewrite <- app_assoc, skip_ws_app by assumption; rewrite <- app_assoc, (skip_quoted _ _ _ Q).
  all: destruct Q as (x & -> & _); cbn [app]; eauto.
Qed.

Lemma parse_complete : forall v t, says v t -> P_says v t.
Proof.
  apply (says_mut (fun v t _ => P_says v t) (fun l t _ => P_elements l t) (fun d t _ => P_members d t));
    unfold P_says, P_elements, P_members.
  1-3: intros f r F _; destruct f; [cbn in F; lia|]; reflexivity.
  - intros ds H f r F E. destruct f as [|f]; [destruct ds; [now destruct (is_number_digits _ H)|cbn in F; lia]|].
    pose proof (parse_nat_int _ _ H E) as P.
    destruct (is_number_digits _ H) as [D NE]. destruct ds as [|d ds]; [contradiction|].
    inversion D; subst. cbn [app] in *. rewrite parse_value_S. unfold QUOTE.
    repeat match goal with |- context [d =? ?b] => destruct (Z.eqb_spec d b); [lia|] end. now rewrite P.
  - intros ds H f r F E. destruct f as [|f]; [cbn in F; lia|]. cbn [app]. rewrite parse_value_S.
    cbn [Z.eqb Pos.eqb QUOTE]. now rewrite parse_neg_int.
  - intros s t (u & -> & Q) f r F _. destruct f as [|f]; [cbn in F; lia|]. cbn [app]. rewrite parse_value_S.
    cbn [Z.eqb Pos.eqb QUOTE]. rewrite <- app_assoc. cbn [app].
    rewrite (parse_str_complete s u Q) by (cbn [List.length] in F; rewrite app_length in F; cbn in F; lia).
    reflexivity.
  - intros w B f r F _. destruct f as [|f]; [cbn in F; lia|]. cbn [app]. rewrite parse_value_S.
    cbn [Z.eqb Pos.eqb QUOTE]. rewrite <- app_assoc, skip_ws_app by assumption. reflexivity.
  - intros l t H IH f r F _. destruct f as [|f]; [cbn in F; lia|]. cbn [app]. rewrite parse_value_S.
    cbn [Z.eqb Pos.eqb QUOTE]. rewrite <- app_assoc. cbn [app].
    destruct (elements_head l t (93 :: r) H) as (d & u & E & N).
    specialize (IH f r ltac:(cbn [List.length] in F; rewrite app_length in F; cbn in F; lia)).
    rewrite E in *. destruct (Z.eqb_spec d 93); [contradiction|]. now rewrite IH.
  - intros w B f r F _. destruct f as [|f]; [cbn in F; lia|]. cbn [app]. rewrite parse_value_S.
    cbn [Z.eqb Pos.eqb QUOTE]. rewrite <- app_assoc, skip_ws_app by assumption. reflexivity.
  - intros d t H IH f r F _. destruct f as [|f]; [cbn in F; lia|]. cbn [app]. rewrite parse_value_S.
    cbn [Z.eqb Pos.eqb QUOTE]. rewrite <- app_assoc. cbn [app].
    destruct (members_head d t (125 :: r) H) as (u & E).
    specialize (IH f r [] ltac:(cbn [List.length] in F; rewrite app_length in F; cbn in F; lia)).
    rewrite E in *. cbn [Z.eqb Pos.eqb]. now rewrite IH.
  - intros v w t w' B S IH B' f r F. rewrite !app_length in F.
    rewrite <- app_assoc, skip_ws_app by assumption. rewrite <- app_assoc, (skip_says v) by assumption.
    destruct f as [|f]; [lia|]. rewrite parse_elems_S.
    rewrite IH; [|lia|apply blank_ends; [exact B'|cbn; tauto]].
    rewrite skip_ws_app by assumption. reflexivity.
  - intros v w t w' l t' B S IH B' H IH' f r F. repeat (rewrite app_length in F; cbn [List.length] in F).
    rewrite <- app_assoc, skip_ws_app by assumption. rewrite <- app_assoc, (skip_says v) by assumption.
    destruct f as [|f]; [lia|]. rewrite parse_elems_S. rewrite <- app_assoc. cbn [app].
    rewrite IH; [|lia|apply blank_ends; [exact B'|cbn; tauto]].
    rewrite skip_ws_app by assumption. cbn [skip_ws is_ws Z.eqb Pos.eqb orb].
    rewrite IH' by lia. reflexivity.
  - intros k v w kt w1 w2 t w' B Q B1 B2 S IH B' f r acc F.
    repeat (rewrite app_length in F; cbn [List.length] in F).
    rewrite <- app_assoc, skip_ws_app by assumption. rewrite <- app_assoc, (skip_quoted k) by assumption.
    destruct f as [|f]; [lia|]. rewrite parse_members_S. destruct Q as (u & -> & Q).
    cbn [app List.length] in *. rewrite app_length in F. cbn [List.length] in F.
    cbn [Z.eqb Pos.eqb QUOTE]. rewrite <- app_assoc. cbn [app].
    rewrite (parse_str_complete k u Q) by lia. cbn [app].
    rewrite <- app_assoc, skip_ws_app by assumption. cbn [app skip_ws is_ws Z.eqb Pos.eqb orb].
    rewrite <- app_assoc, skip_ws_app by assumption. rewrite <- app_assoc, (skip_says v) by assumption.
    rewrite IH; [|lia|apply blank_ends; [exact B'|cbn; tauto]].
    rewrite skip_ws_app by assumption. reflexivity.
  - intros k v w kt w1 w2 t w' d t' B Q B1 B2 S IH B' H IH' f r acc F.
    repeat (rewrite app_length in F; cbn [List.length] in F).
    rewrite <- app_assoc, skip_ws_app by assumption. rewrite <- app_assoc, (skip_quoted k) by assumption.
    destruct f as [|f]; [lia|]. rewrite parse_members_S. destruct Q as (u & -> & Q).
    cbn [app List.length] in *. rewrite app_length in F. cbn [List.length] in F.
    cbn [Z.eqb Pos.eqb QUOTE]. rewrite <- app_assoc. cbn [app].
    rewrite (parse_str_complete k u Q) by lia. cbn [app].
    rewrite <- app_assoc, skip_ws_app by assumption. cbn [app skip_ws is_ws Z.eqb Pos.eqb orb].
    rewrite <- app_assoc, skip_ws_app by assumption. rewrite <- app_assoc, (skip_says v) by assumption.
    rewrite <- app_assoc. cbn [app].
    rewrite IH; [|lia|apply blank_ends; [exact B'|cbn; tauto]].
    rewrite skip_ws_app by assumption. cbn [skip_ws is_ws Z.eqb Pos.eqb orb].
    rewrite IH' by lia. reflexivity.
Qed.

(** ** json.loads *)

Lemma loads_iff s v : loads s = Ok v <-> json_text v s.
Proof.
  unfold loads. split.
  - destruct (parse_value _ (skip_ws s)) as [[v' r]|] eqn:P; [|discriminate].
    destruct (skip_ws_split r) as (w' & B' & E'). destruct (skip_ws r); [|discriminate].
    intros E; injection E as <-. apply parse_sound in P as (t & P & S).
    destruct (skip_ws_split s) as (w & B & E). rewrite P in E. rewrite app_nil_r in E'. subst r.
    exists w, t, w'. auto.
  - intros (w & t & w' & -> & B & B' & S). rewrite skip_ws_app by assumption. rewrite (skip_says v) by assumption.
    rewrite (parse_complete v t S).
    + replace (skip_ws w') with (@nil Z); [reflexivity|]. rewrite <- (app_nil_r w'), skip_ws_app by assumption. reflexivity.
    + rewrite !app_length. lia.
    + rewrite <- (app_nil_r w'). apply blank_ends; [assumption|exact I].
Qed.

Lemma loads_none s : (forall v, ~ json_text v s) -> loads s = Err ValueErr.
Proof.
  intros H. destruct (loads s) as [v|e] eqn:E; [now apply loads_iff, H in E|].
  f_equal. unfold loads in E. destruct (parse_value _ _) as [[v r]|]; [|now injection E].
  destruct (skip_ws r); [discriminate|now injection E].
Qed.

Lemma json_text_unique s v v' : json_text v s -> json_text v' s -> v = v'.
Proof. intros H H'. apply loads_iff in H, H'. congruence. Qed.
