(** [parse] of patterns that are put together from patterns. *)

From Coq Require Import String Ascii.
From Verif Require Import Py SpecOps PyRe SpecRe ReProofs ReParse ReShape ReWritten.
From Coq Require Import List Lia PeanoNat Bool ZArith.

(** ** What is behind a pattern does not matter, if it closes it *)

Definition halts (v : str) : Prop := v = [] \/ exists c w, v = c :: w /\ (c = 41 \/ c = 124)%Z.

Section Behind.
Context (v : str) (HV : halts v).

Definition extends {A} (x y : reading (A * str)) : Prop :=
  match x with Read (a, t) => y = Read (a, t ++ v) | _ => True end.

Lemma extends_bind {A B} (x y : reading (A * str)) (f g : A * str -> reading (B * str)) :
  extends x y -> (forall a t, extends (f (a, t)) (g (a, t ++ v))) -> extends (rbind x f) (rbind y g).
Proof. destruct x as [[a t]| | |]; cbn; try exact (fun _ _ => I). intros -> H. cbn. apply H. Qed.

Lemma hex_num_extends n : forall acc s, match hex_num n acc s with
  | Some (z, t) => hex_num n acc (s ++ v) = Some (z, t ++ v) | None => True end.
Proof.
  induction n as [|n IH]; cbn; intros acc s; [reflexivity|]. destruct s as [|c s]; [exact I|]. cbn.
  destruct (hex_digit c); [|exact I]. apply IH.
Qed.
Lemma hex_escape_extends n s : extends (hex_escape n s) (hex_escape n (s ++ v)).
Proof.
  unfold hex_escape. pose proof (hex_num_extends n 0 s) as H. destruct (hex_num n 0 s) as [[z t]|]; [|exact I].
  rewrite H. destruct (z <=? _)%Z; [reflexivity|exact I].
Qed.
Lemma char_escape_extends c s : extends (char_escape c s) (char_escape c (s ++ v)).
Proof.
  unfold char_escape.
  repeat match goal with |- extends (if ?b then _ else _) _ => destruct b end; try exact I; try reflexivity;
    apply hex_escape_extends.
Qed.
Lemma class_escape_extends c s : extends (class_escape c s) (class_escape c (s ++ v)).
Proof.
  unfold class_escape. destruct (c =? 98)%Z; [reflexivity|]. destruct (class_kind c); [reflexivity|].
  apply extends_bind; [apply char_escape_extends|]. reflexivity.
Qed.
Lemma class_char_extends c s : extends (class_char c s) (class_char c (s ++ v)).
Proof.
  unfold class_char. destruct (c =? 92)%Z; [|reflexivity]. destruct s as [|d u]; [exact I|]. cbn.
  apply class_escape_extends.
Qed.
Lemma parse_class_extends n : forall seen s m, n <= m -> extends (parse_class n seen s) (parse_class m seen (s ++ v)).
Proof.
  induction n as [|n IH]; intros seen s m LE; [exact I|]. destruct m as [|m]; [lia|].
  destruct s as [|c t]; [exact I|]. cbn [parse_class app].
  destruct ((c =? 93)%Z && negb (nilb seen)); [reflexivity|].
  apply extends_bind; [apply class_char_extends|]. intros x t1. cbn beta iota.
  destruct t1 as [|k t2].
  - destruct n; exact I.
  - cbn [app]. destruct (k =? 45)%Z; [|apply (IH (x :: seen) (k :: t2)); lia].
    destruct t2 as [|d t3]; [exact I|]. cbn [app]. destruct (d =? 93)%Z; [reflexivity|].
    apply extends_bind; [apply class_char_extends|]. intros y t4. cbn beta iota.
    destruct x; try exact I. destruct y; try exact I. destruct (_ <? _)%Z; [exact I|]. apply IH. lia.
Qed.

Lemma dec_digits_extends s : forall acc, dec_digits acc (s ++ v) = (fst (dec_digits acc s), snd (dec_digits acc s) ++ v).
Proof.
  induction s as [|c s IH]; intros acc; cbn.
  - destruct HV as [->|(c & w & -> & [->| ->])]; reflexivity.
  - destruct (ascii_digit c); [apply IH|reflexivity].
Qed.

Lemma quantifier_extends c s : match quantifier c s with
  | Read None => quantifier c (s ++ v) = Read None
  | Read (Some (lo, hi, u)) => quantifier c (s ++ v) = Read (Some (lo, hi, u ++ v))
  | _ => True
  end.
Proof.
  unfold quantifier. destruct (c =? 42)%Z; [reflexivity|]. destruct (c =? 43)%Z; [reflexivity|].
  destruct (c =? 63)%Z; [reflexivity|].
  destruct s as [|m s'].
  - destruct HV as [->|(d & w & -> & [->| ->])]; reflexivity.
  - cbn [app]. destruct (m =? 125)%Z; [reflexivity|].
    change (m :: s' ++ v) with ((m :: s') ++ v). rewrite dec_digits_extends.
    destruct (dec_digits None (m :: s')) as [lo t]. cbn [fst snd].
    assert (Q : forall q, q = match t with [] => (lo, t) | k :: t' => if (k =? 44)%Z then dec_digits None t' else (lo, t) end ->
      match t ++ v with [] => (lo, t ++ v) | k :: t' => if (k =? 44)%Z then dec_digits None t' else (lo, t ++ v) end =
      (fst q, snd q ++ v)).
    { intros q ->. destruct t as [|k t'].
      - destruct HV as [->|(d & w & -> & [->| ->])]; reflexivity.
      - cbn [app]. destruct (k =? 44)%Z; [apply dec_digits_extends|reflexivity]. }
    rewrite (Q _ eq_refl). clear Q.
    set (q := match t with [] => (lo, t) | k :: t' => if (k =? 44)%Z then dec_digits None t' else (lo, t) end).
    destruct q as [hi u]. cbn [fst snd].
    destruct u as [|z u].
    + destruct HV as [->|(d & w & -> & [->| ->])]; reflexivity.
    + cbn [app]. destruct (z =? 125)%Z; [|reflexivity]. destruct (big lo || big hi); [exact I|].
      destruct hi as [h|]; [|reflexivity]. destruct (_ <? _); [exact I|reflexivity].
Qed.

Lemma escape_extends c s : extends (escape c s) (escape c (s ++ v)).
Proof.
  unfold escape.
  do 4 (match goal with |- extends (if ?b then _ else _) _ => destruct b; [reflexivity|] end).
  destruct (class_kind c); [reflexivity|]. apply extends_bind; [apply char_escape_extends|reflexivity].
Qed.
Lemma repeat_last_extends acc lo hi s : extends (repeat_last acc lo hi s) (repeat_last acc lo hi (s ++ v)).
Proof.
  unfold repeat_last. destruct acc as [|[[] a] acc]; try exact I. destruct s as [|m t].
  - cbn. destruct HV as [EV|(d & w & EV & [->| ->])]; now rewrite EV.
  - cbn [app]. destruct (m =? 63)%Z; [reflexivity|]. destruct (m =? 43)%Z; [exact I|reflexivity].
Qed.
Lemma group_open_extends s : extends (group_open s) (group_open (s ++ v)).
Proof.
  unfold group_open. destruct s as [|q t].
  - cbn. destruct HV as [EV|(d & w & EV & [->| ->])]; now rewrite EV.
  - cbn [app]. destruct (q =? 63)%Z; [|reflexivity]. destruct t as [|o u]; [exact I|]. cbn [app].
    destruct (o =? 58)%Z; [reflexivity|]. destruct (o =? 61)%Z; [reflexivity|]. destruct (o =? 33)%Z; [reflexivity|].
    destruct (o =? 60)%Z; [|exact I]. destruct u as [|d w]; [exact I|]. cbn [app].
    destruct (d =? 61)%Z; [reflexivity|]. destruct (d =? 33)%Z; [reflexivity|exact I].
Qed.

(** with nothing left, only a closing parenthesis ends the whole *)
Definition sub_extends (x y : reading (rx * str)) : Prop :=
  match x with
  | Read (a, t) => t <> [] \/ v = [] \/ (exists w, v = 41%Z :: w) -> y = Read (a, t ++ v)
  | _ => True
  end.

Lemma parse_extends n :
  (forall s m, n <= m -> sub_extends (parse_sub n s) (parse_sub m (s ++ v))) /\
  (forall acc s m, n <= m -> extends (parse_seq n acc s) (parse_seq m acc (s ++ v))).
Proof.
  induction n as [|n (IHsub & IHseq)]; [split; intros; exact I|]. split.
  - intros s m LE. destruct m as [|m]; [lia|]. cbn [parse_sub].
    pose proof (IHseq [] s m ltac:(lia)) as HQ.
    destruct (parse_seq n [] s) as [[a t]| | |]; try exact I. cbn in HQ. rewrite HQ. cbn [rbind].
    destruct t as [|c u].
    + cbn [sub_extends app]. intros [|[EV|(w & EV)]]; [congruence|now rewrite EV|now rewrite EV].
    + cbn [app]. destruct (c =? 124)%Z; [|intros _; reflexivity].
      pose proof (IHsub u m ltac:(lia)) as HS. destruct (parse_sub n u) as [[b x]| | |]; try exact I. cbn [rbind].
      cbn [sub_extends] in *. intros C. now rewrite HS.
  - intros acc s m LE. destruct m as [|m]; [lia|]. destruct s as [|c t].
    + cbn [parse_seq app extends]. apply seq_stops. destruct HV as [EV|(c & w & EV & [->| ->])]; [left; left|left; right|right]; eauto.
    + cbn [parse_seq app].
      destruct ((c =? 124)%Z || (c =? 41)%Z); [reflexivity|].
      destruct (c =? 92)%Z.
      { destruct t as [|d u]; [exact I|]. cbn [app].
        apply extends_bind; [apply escape_extends|]. intros x w. apply IHseq. lia. }
      destruct (c =? 91)%Z.
      { set (p := match t with [] => (false, t) | k :: t' => if (k =? 94)%Z then (true, t') else (false, t) end).
        assert (Q : t = [] /\ p = (false, []) \/
          match t ++ v with [] => (false, t ++ v) | k :: t' => if (k =? 94)%Z then (true, t') else (false, t ++ v) end =
          (fst p, snd p ++ v)).
        { unfold p. destruct t as [|k t']; [left; auto|right]. cbn [app]. now destruct (k =? 94)%Z. }
        destruct Q as [(-> & ->)|Q].
        - cbn [fst snd]. destruct n; exact I.
        - rewrite Q. destruct p as [neg u]. cbn [fst snd].
          apply extends_bind; [apply parse_class_extends; lia|]. intros x w. apply IHseq. lia. }
      destruct ((c =? 42)%Z || (c =? 43)%Z || (c =? 63)%Z || (c =? 123)%Z).
      { pose proof (quantifier_extends c t) as Q. destruct (quantifier c t) as [[[[lo hi] u]|]| | |]; try exact I; rewrite Q; cbn [rbind].
        - apply extends_bind; [apply repeat_last_extends|]. intros x w. apply IHseq. lia.
        - apply IHseq. lia. }
      destruct (c =? 46)%Z; [apply IHseq; lia|]. destruct (c =? 94)%Z; [apply IHseq; lia|].
      destruct (c =? 36)%Z; [apply IHseq; lia|].
      destruct (c =? 40)%Z; [|apply IHseq; lia].
      apply extends_bind; [apply group_open_extends|]. intros f u. cbn beta iota.
      pose proof (IHsub u m ltac:(lia)) as HS. destruct (parse_sub n u) as [[a x]| | |]; try exact I. cbn [rbind].
      destruct x as [|z x]; [exact I|]. cbn [sub_extends] in HS. rewrite HS by (left; discriminate).
      cbn [rbind app]. destruct (z =? 41)%Z; [|exact I]. apply IHseq. lia.
Qed.
End Behind.

Lemma parse_inv p r : parse p = Read r -> parse_sub (2 * length p + 2) p = Read (r, []) /\ behind_ok r = true.
Proof.
  unfold parse. destruct (parse_sub _ p) as [[a t]| | |]; try discriminate. cbn [rbind].
  destruct t; [|discriminate]. destruct (behind_ok a) eqn:EB; [|discriminate]. intros [= <-]. auto.
Qed.

Lemma parse_later p r n : parse p = Read r -> 2 * length p + 2 <= n -> parse_sub n p = Read (r, []).
Proof.
  intros HP HN. destruct (parse_inv p r HP) as (HS & _).
  pose proof (proj1 (parse_extends [] ltac:(now left) (2 * length p + 2)) p n HN) as Q.
  rewrite HS, app_nil_r in Q. apply Q. auto.
Qed.
Lemma inside_group p r n v : parse p = Read r -> 2 * length p + 2 <= n ->
  parse_sub n (p ++ 41%Z :: v) = Read (r, 41%Z :: v).
Proof.
  intros HP HN. destruct (parse_inv p r HP) as (HS & _).
  pose proof (proj1 (parse_extends (41%Z :: v) ltac:(right; eauto) (2 * length p + 2)) p n HN) as Q.
  rewrite HS in Q. apply Q. right. eauto.
Qed.

Lemma group_step p r : parse p = Read r -> forall (o : str) f n acc v,
  group_open (o ++ p ++ 41%Z :: v) = Read (f, p ++ 41%Z :: v) ->
  2 * length p + 2 <= n ->
  parse_seq (S n) acc (40%Z :: o ++ p ++ 41%Z :: v) = parse_seq n ((KOther, f r) :: acc) v.
Proof.
  intros HP o f n acc v HO HN. cbn [parse_seq]. change ((40 =? 124)%Z || (40 =? 41)%Z) with false.
  cbn [Z.eqb Pos.eqb orb]. rewrite HO. cbn [rbind]. rewrite (inside_group p r n v HP HN). reflexivity.
Qed.

(** a repeat needs something to repeat *)
Lemma repeat_nothing c t : In c (txt "*+?") -> parse (c :: t) = Bad.
Proof.
  intros H. unfold parse. replace (2 * length (c :: t) + 2) with (S (S (2 * length t + 2))) by (cbn; lia).
  cbn [parse_sub]. cbn in H. now destruct H as [<-|[<-|[<-|[]]]].
Qed.
Lemma no_repeat_first p r t : parse p = Read r -> p <> 63%Z :: t.
Proof. intros H ->. rewrite repeat_nothing in H; [discriminate|]. cbn. auto. Qed.

(** ** Groups *)

Definition group (o p : str) : str := txt "(" ++ o ++ p ++ txt ")".

(** what stands behind the parenthesis, and what it makes of the expression *)
Inductive opening : str -> (rx -> rx) -> Prop :=
| o_plain : opening [] (fun a => a)
| o_colon : opening (txt "?:") (fun a => a)
| o_ahead : opening (txt "?=") (XLook true true)
| o_not_ahead : opening (txt "?!") (XLook true false)
| o_behind : opening (txt "?<=") (XLook false true)
| o_not_behind : opening (txt "?<!") (XLook false false).

Lemma opening_opens o f p r v : opening o f -> parse p = Read r ->
  group_open (o ++ p ++ 41%Z :: v) = Read (f, p ++ 41%Z :: v).
Proof.
  intros [] HP; try reflexivity. cbn [app]. unfold group_open. destruct p as [|c p]; [reflexivity|]. cbn [app].
  destruct (Z.eqb_spec c 63) as [->|_]; [|reflexivity]. now destruct (no_repeat_first _ _ p HP).
Qed.

Lemma group_shape o p v : group o p ++ v = 40%Z :: o ++ p ++ 41%Z :: v.
Proof. unfold group. cbn. now rewrite <- !app_assoc. Qed.

Lemma step_group o f p r n acc v : opening o f -> parse p = Read r -> 2 * length p + 2 <= n ->
  parse_seq (S n) acc (group o p ++ v) = parse_seq n ((KOther, f r) :: acc) v.
Proof. intros HO HP HN. rewrite group_shape. apply group_step; auto. eapply opening_opens; eauto. Qed.

Lemma group_length o p : length (group o p) = S (S (length o + length p)).
Proof. unfold group. rewrite !app_length. cbn. lia. Qed.

Definition finish (r : rx) : reading rx := if behind_ok r then Read r else Bad.

Lemma parse_of_sub p r : parse_sub (2 * length p + 2) p = Read (r, []) -> parse p = finish r.
Proof. unfold parse. now intros ->. Qed.

Lemma parse_one_group o f p r : opening o f -> parse p = Read r -> parse (group o p) = finish (f r).
Proof.
  intros HO HP. apply parse_of_sub. replace (2 * length (group o p) + 2) with (S (S (S (2 * length (group o p) - 1)))) by (rewrite group_length; lia).
  apply sub_of_seq; [now left|]. rewrite <- (app_nil_r (group o p)) at 2.
  rewrite (step_group o f p r _ _ _ HO HP) by (rewrite group_length; lia). reflexivity.
Qed.
Lemma parse_two_groups o f p r o' f' q r' : opening o f -> parse p = Read r -> opening o' f' -> parse q = Read r' ->
  parse (group o p ++ group o' q) = finish (XSeq (f r) (f' r')).
Proof.
  intros HO HP HO' HQ. apply parse_of_sub.
  replace (2 * length (group o p ++ group o' q) + 2) with (S (S (S (S (2 * length (group o p ++ group o' q) - 2)))))
    by (rewrite app_length, !group_length; lia).
  apply sub_of_seq; [now left|].
  rewrite (step_group o f p r _ _ _ HO HP) by (rewrite app_length, !group_length; lia).
  rewrite <- (app_nil_r (group o' q)) at 2.
  rewrite (step_group o' f' q r' _ _ _ HO' HQ) by (rewrite app_length, !group_length; lia). reflexivity.
Qed.

Lemma parse_groups ps rs : Forall2 (fun p r => parse p = Read r) ps rs ->
  parse (flat_map (group (txt "?:")) ps) = Read (xseq rs).
Proof.
  intros H.
  assert (Q : forall n acc, 2 * length (flat_map (group (txt "?:")) ps) < n ->
    parse_seq n acc (flat_map (group (txt "?:")) ps) = Read (xseq (rev (map snd acc) ++ rs), [])).
  { induction H as [|p r ps rs HP H IH]; intros n acc HN.
    - cbn. destruct n; [cbn in HN; lia|]. cbn. now rewrite app_nil_r.
    - cbn [flat_map] in *. rewrite app_length, group_length in HN. destruct n as [|n]; [lia|].
      rewrite (step_group _ _ p r n acc _ o_colon HP) by lia.
      etransitivity; [apply IH; lia|]. cbn [map snd rev]. now rewrite <- app_assoc. }
  assert (B : behind_ok (xseq rs) = true).
  { clear Q. induction H as [|p r ps rs HP H IH]; [reflexivity|]. apply parse_inv in HP. destruct HP as (_ & HB).
    destruct rs as [|x rs]; [exact HB|]. change (behind_ok r && behind_ok (xseq (x :: rs)) = true). now rewrite HB, IH. }
  unfold parse.
  assert (S2 : parse_sub (2 * length (flat_map (group (txt "?:")) ps) + 2) (flat_map (group (txt "?:")) ps) = Read (xseq rs, [])).
  { replace (2 * length (flat_map (group (txt "?:")) ps) + 2) with (S (2 * length (flat_map (group (txt "?:")) ps) + 1)) by lia.
    apply sub_of_seq; [now left|]. now rewrite Q by lia. }
  rewrite S2. cbn [rbind]. now rewrite B.
Qed.

(** ** Repeats *)

Lemma written_count_shape n : exists c t, written_count n = c :: t /\ (48 <= c < 58)%Z.
Proof.
  unfold written_count. cbn [map]. eexists. eexists. split; [reflexivity|].
  pose proof (Z.mod_pos_bound (Z.of_nat n / 1000) 10 ltac:(lia)). lia.
Qed.

Lemma step_counts q lo hi : counts q lo hi -> forall n a acc v,
  parse_seq (S n) ((KOther, a) :: acc) (q ++ v) =
  rbind (repeat_last ((KOther, a) :: acc) lo hi v) (fun '(acc, v) => parse_seq n acc v).
Proof.
  intros [] n a acc v; try reflexivity.
  - rewrite <- !app_assoc. change (txt "{" ++ ?x) with (123%Z :: x). apply seq_brace.
    change (txt ",}" ++ v) with (txt "," ++ [] ++ txt "}" ++ v).
    apply (quantifier_written lo0 None); [assumption|discriminate].
  - rewrite <- !app_assoc. change (txt "{" ++ ?x) with (123%Z :: x). apply seq_brace.
    apply (quantifier_written lo0 (Some hi0)); [assumption|]. intros h [= <-]. auto.
Qed.

Lemma counts_length q lo hi : counts q lo hi -> 1 <= length q.
Proof. intros []; cbn; lia. Qed.

Lemma parse_repeat q lo hi (greedy : bool) o f p r : counts q lo hi -> opening o f -> parse p = Read r ->
  parse (group o p ++ q ++ (if greedy then [] else txt "?")) = finish (XRep lo hi greedy (f r)).
Proof.
  intros HC HO HP. apply parse_of_sub. set (w := group o p ++ q ++ (if greedy then [] else txt "?")).
  assert (LW : length w >= 3 + length p) by (unfold w; rewrite !app_length, group_length; pose proof (counts_length _ _ _ HC); lia).
  replace (2 * length w + 2) with (S (S (S (S (2 * length w - 2))))) by lia. unfold w at 2.
  apply sub_of_seq; [now left|].
  rewrite (step_group o f p r _ _ _ HO HP) by lia.
  rewrite (step_counts q lo hi HC). destruct greedy; reflexivity.
Qed.
(** ... but not twice *)
Lemma parse_repeat_twice q lo hi o f p r t : counts q lo hi -> opening o f -> parse p = Read r ->
  parse (group o p ++ q ++ txt "*" ++ t) = Bad.
Proof.
  intros HC HO HP. unfold parse. set (w := group o p ++ q ++ txt "*" ++ t).
  assert (LW : length w >= 3 + length p) by (unfold w; rewrite !app_length, group_length; pose proof (counts_length _ _ _ HC); lia).
  replace (2 * length w + 2) with (S (S (S (S (2 * length w - 2))))) by lia. unfold w at 2.
  set (n := S (S (2 * length w - 2))).
  assert (Q : parse_seq (S n) [] (group o p ++ q ++ txt "*" ++ t) = Bad).
  { rewrite (step_group o f p r _ _ _ HO HP) by (unfold n; lia). unfold n. rewrite (step_counts q lo hi HC). reflexivity. }
  change (parse_sub (S (S n)) ?x) with
    (rbind (parse_seq (S n) [] x) (fun '(a, t) =>
        match t with
        | c :: u =>
            if (c =? 124)%Z then rbind (parse_sub (S n) u) (fun '(b, v) => Read (XAlt a b, v))
            else Read (a, t)
        | [] => Read (a, t)
        end)). now rewrite Q.
Qed.

(** ** Alternatives *)

Lemma sub_alternatives k q r2 : forall n p r1 N, parse_sub n p = Read (r1, []) ->
  (forall m, N <= m -> parse_sub m q = Read (r2, [])) ->
  exists x, (forall m, n + N <= m -> parse_sub m (p ++ 124%Z :: q) = Read (x, [])) /\
    behind_ok x = behind_ok r1 && behind_ok r2 /\
    forall s i, xends k s x i = xends k s (XAlt r1 r2) i.
Proof.
  induction n as [|n IH]; intros p r1 N H HQ; [discriminate|]. cbn [parse_sub] in H.
  pose proof (proj2 (parse_extends (124%Z :: q) ltac:(right; eauto) n) [] p) as EX.
  destruct (parse_seq n [] p) as [[a t]| | |]; try discriminate. cbn [rbind extends] in *.
  destruct t as [|c u].
  - injection H as <-. exists (XAlt a r2). split; [|split; reflexivity].
    intros m HM. destruct m as [|m]; [lia|]. cbn [parse_sub]. rewrite EX by lia. cbn [rbind app].
    change (124 =? 124)%Z with true. cbv iota. now rewrite HQ by lia.
  - destruct (Z.eqb_spec c 124) as [->|NE]; [|discriminate].
    destruct (parse_sub n u) as [[b w]| | |] eqn:EU; try discriminate. cbn [rbind] in H. injection H as <- ->.
    destruct (IH u b N EU HQ) as (x & X1 & X2 & X3). exists (XAlt a x). split; [|split].
    + intros m HM. destruct m as [|m]; [lia|]. cbn [parse_sub]. rewrite EX by lia. cbn [rbind app].
      change (124 =? 124)%Z with true. cbv iota. now rewrite X1 by lia.
    + cbn [behind_ok]. rewrite X2. now rewrite andb_assoc.
    + intros s i. cbn [xends]. rewrite X3. cbn [xends]. now rewrite app_assoc.
Qed.

Lemma parse_alternatives k p q r1 r2 : parse p = Read r1 -> parse q = Read r2 ->
  exists x, parse (p ++ txt "|" ++ q) = Read x /\ forall s i, xends k s x i = xends k s (XAlt r1 r2) i.
Proof.
  intros HP HQ. destruct (parse_inv p r1 HP) as (SP & BP). destruct (parse_inv q r2 HQ) as (_ & BQ).
  destruct (sub_alternatives k q r2 _ p r1 (2 * length q + 2) SP (fun m H => parse_later q r2 m HQ H)) as (x & X1 & X2 & X3).
  exists x. split; [|exact X3]. change (txt "|" ++ q) with (124%Z :: q).
  rewrite (parse_of_sub _ x).
  - unfold finish. now rewrite X2, BP, BQ.
  - apply X1. rewrite app_length. cbn. lia.
Qed.

(** ** Parentheses that do not match *)

Lemma parse_closed_early p r t : parse p = Read r -> parse (p ++ txt ")" ++ t) = Bad.
Proof.
  intros HP. unfold parse. change (txt ")" ++ t) with (41%Z :: t). rewrite (inside_group p r) by (auto; rewrite app_length; lia).
  reflexivity.
Qed.
Lemma parse_not_closed p r : parse p = Read r -> parse (txt "(" ++ p) = Bad.
Proof.
  intros HP. unfold parse. change (txt "(" ++ p) with (40%Z :: p).
  replace (2 * length (40%Z :: p) + 2) with (S (S (2 * length p + 2))) by (cbn; lia).
  assert (Q : parse_seq (S (2 * length p + 2)) [] (40%Z :: p) = Bad).
  { change (parse_seq (S (2 * length p + 2)) [] (40%Z :: p)) with
      (rbind (group_open p) (fun '(f, u) =>
              rbind (parse_sub (2 * length p + 2) u) (fun '(a, v) =>
                match v with
                | z :: w => if (z =? 41)%Z then parse_seq (2 * length p + 2) [(KOther, f a)] w else Bad
                | [] => Bad
                end))).
    assert (G : group_open p = Read (fun a => a, p)).
    { unfold group_open. destruct p as [|c p]; [reflexivity|]. destruct (Z.eqb_spec c 63) as [->|]; [|reflexivity].
      now destruct (no_repeat_first _ _ p HP). }
    rewrite G. cbn [rbind]. now rewrite (parse_later p r _ HP (Nat.le_refl _)). }
  change (parse_sub (S (S (2 * length p + 2))) ?x) with
    (rbind (parse_seq (S (2 * length p + 2)) [] x) (fun '(a, t) =>
        match t with
        | c :: u =>
            if (c =? 124)%Z then rbind (parse_sub (S (2 * length p + 2)) u) (fun '(b, v) => Read (XAlt a b, v))
            else Read (a, t)
        | [] => Read (a, t)
        end)). now rewrite Q.
Qed.

(** ** The same with the final check spelled out *)

Lemma finish_repeat p r lo hi g : parse p = Read r -> finish (XRep lo hi g r) = Read (XRep lo hi g r).
Proof. intros HP. apply parse_inv in HP. unfold finish. cbn. now rewrite (proj2 HP). Qed.
Lemma finish_ahead p r pos : parse p = Read r -> finish (XLook true pos r) = Read (XLook true pos r).
Proof. intros HP. apply parse_inv in HP. unfold finish. cbn. now rewrite (proj2 HP). Qed.
Lemma finish_behind p r pos : parse p = Read r ->
  finish (XLook false pos r) = match maxw r with Some w => if w =? minw r then Read (XLook false pos r) else Bad | None => Bad end.
Proof.
  intros HP. apply parse_inv in HP. unfold finish. cbn. rewrite (proj2 HP). cbn. destruct (maxw r); [|reflexivity].
  now destruct (_ =? _).
Qed.

Lemma patterns_group p r : parse p = Read r ->
  parse (txt "(" ++ p ++ txt ")") = Read r /\ parse (txt "(?:" ++ p ++ txt ")") = Read r /\
  parse (txt "(?=" ++ p ++ txt ")") = Read (XLook true true r) /\
  parse (txt "(?!" ++ p ++ txt ")") = Read (XLook true false r).
Proof.
  intros HP. assert (F : finish r = Read r) by (apply parse_inv in HP; unfold finish; now rewrite (proj2 HP)).
  split; [rewrite <- F; exact (parse_one_group _ _ p r o_plain HP)|].
  split; [rewrite <- F; exact (parse_one_group _ _ p r o_colon HP)|].
  split; [rewrite <- (finish_ahead p r true HP); exact (parse_one_group _ _ p r o_ahead HP)|].
  rewrite <- (finish_ahead p r false HP); exact (parse_one_group _ _ p r o_not_ahead HP).
Qed.
Lemma parse_counted p r : parse p = Read r -> counted r.
Proof.
  unfold parse. pose proof (proj1 (parse_ends (2 * length p + 2)) p (Nat.le_refl _)) as H.
  destruct (parse_sub _ p) as [[r' t]| | |]; cbn in *; try discriminate.
  destruct t; [|discriminate]. destruct (behind_ok r'); [|discriminate]. intros [= <-]. tauto.
Qed.
Lemma patterns_behind p r : parse p = Read r ->
  (one_width r -> parse (txt "(?<=" ++ p ++ txt ")") = Read (XLook false true r) /\
                  parse (txt "(?<!" ++ p ++ txt ")") = Read (XLook false false r)) /\
  (~ one_width r -> parse (txt "(?<=" ++ p ++ txt ")") = Bad /\ parse (txt "(?<!" ++ p ++ txt ")") = Bad).
Proof.
  intros HP. pose proof (parse_one_group _ _ p r o_behind HP) as A. pose proof (parse_one_group _ _ p r o_not_behind HP) as B.
  rewrite (finish_behind p r _ HP) in A. rewrite (finish_behind p r _ HP) in B.
  pose proof (one_width_iff r (parse_counted p r HP)) as W.
  destruct (maxw r) as [w|]; [destruct (w =? minw r)|]; (split; intros H; [|]); try tauto; try (apply W in H; discriminate); exfalso; apply H; now apply W.
Qed.
Lemma patterns_repeat p r q lo hi (greedy : bool) : parse p = Read r -> counts q lo hi ->
  parse (txt "(?:" ++ p ++ txt ")" ++ q ++ (if greedy then [] else txt "?")) = Read (XRep lo hi greedy r) /\
  forall t, parse (txt "(?:" ++ p ++ txt ")" ++ q ++ txt "*" ++ t) = Bad.
Proof.
  intros HP HC. pose proof (parse_repeat q lo hi greedy _ _ p r HC o_colon HP) as A. rewrite (finish_repeat p r _ _ _ HP) in A.
  assert (G : forall v, txt "(?:" ++ p ++ txt ")" ++ v = group (txt "?:") p ++ v).
  { intros v. unfold group. now rewrite <- !app_assoc. }
  split; [rewrite G; exact A|]. intros t. rewrite G. exact (parse_repeat_twice q lo hi _ _ p r t HC o_colon HP).
Qed.
Lemma patterns_sequence ps rs : Forall2 (fun p r => parse p = Read r) ps rs ->
  parse (flat_map (fun p => txt "(?:" ++ p ++ txt ")") ps) = Read (xseq rs).
Proof. exact (parse_groups ps rs). Qed.
