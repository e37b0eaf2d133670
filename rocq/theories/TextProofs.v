(** Proofs about the texts that objects show. *)

From Coq Require Import String Decimal DecimalZ.
From Verif Require Import Py PyFacts Edit Ops SpecOps Json SpecJson JsonProofs JsonAscii Elements Pipe SpecPipe ObjProofs PipeProofs
  PipeAlign PipeLaws TextForms SpecText.
From Coq Require Import List Lia Sorting.Sorted.
Local Open Scope Z_scope.

(** ** [repr] of a text *)

Definition unhexes (acc : Z) (l : list Z) : option Z :=
  fold_left (fun a c => match a, unhex c with Some a, Some d => Some (16 * a + d) | _, _ => None end) l (Some acc).
(** reading one character *)
Definition unrepr (l : str) : option (Z * str) :=
  match l with
  | [] => None
  | c :: l =>
      if c =? BACKSLASH then
        match l with
        | [] => None
        | d :: l =>
            if d =? 116 then Some (9, l) else if d =? 110 then Some (10, l) else if d =? 114 then Some (13, l)
            else if d =? 120 then match unhexes 0 (firstn 2 l) with Some z => Some (z, skipn 2 l) | None => None end
            else if d =? 117 then match unhexes 0 (firstn 4 l) with Some z => Some (z, skipn 4 l) | None => None end
            else if d =? 85 then match unhexes 0 (firstn 8 l) with Some z => Some (z, skipn 8 l) | None => None end
            else Some (d, l)
        end
      else Some (c, l)
  end.

Definition is_quote (q : Z) : Prop := q = QUOTE \/ q = APOSTROPHE.
Lemma quote_of_quote s : is_quote (quote_of s).
Proof. unfold quote_of, is_quote. destruct (_ && _)%bool; auto. Qed.

Lemma unhexes_cons n acc l : 0 <= n < 16 -> unhexes acc (hex n :: l) = unhexes (16 * acc + n) l.
Proof. intros H. unfold unhexes. cbn [fold_left]. now rewrite hex_range. Qed.

Lemma unrepr_char P q c l : is_quote q -> 0 <= c < 1114112 -> unrepr (repr_char P q c ++ l) = Some (c, l).
Proof.
  intros HQ HC. unfold repr_char.
  destruct ((c =? q) || (c =? BACKSLASH))%bool eqn:E1.
  { assert (D : c = QUOTE \/ c = APOSTROPHE \/ c = BACKSLASH).
    { apply orb_true_iff in E1. destruct E1 as [E1|E1]; apply Z.eqb_eq in E1; subst; [destruct HQ; auto|auto]. }
    destruct D as [-> | [-> | ->]]; reflexivity. }
  apply orb_false_iff in E1. destruct E1 as [_ E1].
  destruct (c =? 9) eqn:E2; [apply Z.eqb_eq in E2; subst; reflexivity|].
  destruct (c =? 10) eqn:E3; [apply Z.eqb_eq in E3; subst; reflexivity|].
  destruct (c =? 13) eqn:E4; [apply Z.eqb_eq in E4; subst; reflexivity|].
  assert (X : c <= 255 -> unrepr ([BACKSLASH; 120; hex (c / 16); hex (c mod 16)] ++ l) = Some (c, l)).
  { intros HL. cbn [app unrepr Z.eqb BACKSLASH Pos.eqb firstn skipn].
    assert (0 <= c / 16 < 16) by (split; [apply Z.div_pos; lia|apply Z.div_lt_upper_bound; lia]).
    assert (0 <= c mod 16 < 16) by (apply Z.mod_pos_bound; lia).
    rewrite !unhexes_cons by assumption. unfold unhexes. cbn [fold_left].
    pose proof (Z.div_mod c 16 ltac:(lia)). do 2 f_equal. lia. }
  assert (R : unrepr ([c] ++ l) = Some (c, l)) by (cbn [app unrepr]; now rewrite E1).
  destruct ((c <? 32) || (c =? 127))%bool eqn:E5.
  { apply X. apply orb_true_iff in E5. destruct E5 as [E5|E5]; [apply Z.ltb_lt in E5|apply Z.eqb_eq in E5]; lia. }
  destruct (c <? 127); [exact R|]. destruct (P c); [exact R|].
  destruct (c <=? 255) eqn:E6; [apply X; now apply Z.leb_le|].
  assert (B : forall k, 0 <= k mod 16 < 16) by (intros k; apply Z.mod_pos_bound; lia).
  destruct (c <=? 65535) eqn:E7.
  - apply Z.leb_le in E7. unfold u4. cbn [app unrepr Z.eqb BACKSLASH Pos.eqb firstn skipn].
    assert (0 <= c / 4096 < 16) by (split; [apply Z.div_pos; lia|apply Z.div_lt_upper_bound; lia]).
    rewrite !unhexes_cons by auto. unfold unhexes. cbn [fold_left]. do 2 f_equal.
    rewrite (Z.mod_eq c 16), (Z.mod_eq (c / 16) 16), (Z.mod_eq (c / 256) 16) by lia.
    rewrite !Z.div_div by lia. change (16 * 16) with 256. change (256 * 16) with 4096. lia.
  - apply Z.leb_gt in E7. cbn [app unrepr Z.eqb BACKSLASH Pos.eqb firstn skipn].
    assert (0 <= c / 268435456 < 16) by (split; [apply Z.div_pos; lia|apply Z.div_lt_upper_bound; lia]).
    rewrite !unhexes_cons by auto. unfold unhexes. cbn [fold_left]. do 2 f_equal.
    rewrite (Z.mod_eq c 16), (Z.mod_eq (c / 16) 16), (Z.mod_eq (c / 256) 16), (Z.mod_eq (c / 4096) 16),
      (Z.mod_eq (c / 65536) 16), (Z.mod_eq (c / 1048576) 16), (Z.mod_eq (c / 16777216) 16) by lia.
    rewrite !Z.div_div by lia. change (16 * 16) with 256. change (256 * 16) with 4096. change (4096 * 16) with 65536.
    change (65536 * 16) with 1048576. change (1048576 * 16) with 16777216. change (16777216 * 16) with 268435456. lia.
Qed.

Lemma repr_char_head P q c : is_quote q -> exists d l, repr_char P q c = d :: l /\ d <> q.
Proof.
  intros HQ. unfold repr_char. destruct ((c =? q) || (c =? BACKSLASH))%bool eqn:E1.
  { eexists _, _. split; [reflexivity|]. destruct HQ as [-> | ->]; discriminate. }
  apply orb_false_iff in E1. destruct E1 as [E1 _]. apply Z.eqb_neq in E1.
  assert (B : BACKSLASH <> q) by (destruct HQ as [-> | ->]; discriminate).
  repeat match goal with |- context [if ?b then _ else _] => destruct b; [eexists _, _; split; [reflexivity|assumption]|] end.
  destruct (c <=? 65535); eexists _, _; (split; [reflexivity|assumption]).
Qed.

Lemma body_prefix P q s t r r' : is_quote q -> code_points s -> code_points t ->
  flat_map (repr_char P q) s ++ q :: r = flat_map (repr_char P q) t ++ q :: r' -> s = t /\ r = r'.
Proof.
  intros HQ HS. revert t. induction HS as [|a s HA HS IH]; intros t HT E.
  - destruct t as [|b t]; [now injection E|]. exfalso. cbn [flat_map app] in E.
    destruct (repr_char_head P q b HQ) as (d & l & Q & N). rewrite Q in E. cbn in E. injection E as E _. now subst.
  - destruct t as [|b t].
    { exfalso. cbn [flat_map app] in E. destruct (repr_char_head P q a HQ) as (d & l & Q & N). rewrite Q in E. cbn in E.
      injection E as E _. now subst. }
    inversion HT as [|? ? HB HT']; subst. cbn [flat_map] in E. rewrite <- !app_assoc in E.
    apply (f_equal unrepr) in E. rewrite !unrepr_char in E by assumption. injection E as -> E.
    destruct (IH t HT' E) as [-> ->]. auto.
Qed.

Lemma repr_prefix P s t r r' : code_points s -> code_points t ->
  repr_str P s ++ r = repr_str P t ++ r' -> s = t /\ r = r'.
Proof.
  intros HS HT. unfold repr_str. cbn zeta. cbn [app]. intros E. injection E as EQ E. rewrite <- EQ in E.
  rewrite <- !app_assoc in E. apply (body_prefix P (quote_of s)); auto using quote_of_quote.
Qed.

Theorem repr_injective P s t : code_points s -> code_points t -> repr_str P s = repr_str P t -> s = t.
Proof.
  intros HS HT E. apply (repr_prefix P s t [] []); auto. now rewrite E.
Qed.

Lemma hex_visible n : 0 <= n < 16 -> 32 <= hex n.
Proof. unfold hex. destruct (n <? 10); lia. Qed.

Theorem repr_visible P s : code_points s -> Forall (fun c => 32 <= c /\ c <> 127) (repr_str P s).
Proof.
  intros HS. unfold repr_str. cbn zeta.
  assert (Q : 32 <= quote_of s /\ quote_of s <> 127).
  { destruct (quote_of_quote s) as [-> | ->]; split; try discriminate; unfold QUOTE, APOSTROPHE; lia. }
  constructor; [exact Q|]. apply Forall_app. split; [|repeat constructor; apply Q].
  apply Forall_flat_map. apply Forall_forall. intros c HC. unfold code_points in HS. rewrite Forall_forall in HS. specialize (HS c HC). clear HC.
  set (q := quote_of s) in *. clearbody q. unfold repr_char.
  assert (H0 : forall k, 0 <= k mod 16 < 16) by (intros k; apply Z.mod_pos_bound; lia).
  assert (B : 32 <= BACKSLASH /\ BACKSLASH <> 127) by (unfold BACKSLASH; lia).
  assert (HB : forall n, 0 <= n < 16 -> 32 <= hex n /\ hex n <> 127).
  { intros n HN. unfold hex. destruct (n <? 10); lia. }
  destruct ((c =? q) || (c =? BACKSLASH))%bool eqn:E1.
  { apply orb_true_iff in E1. constructor; [exact B|]. constructor; [|constructor].
    destruct E1 as [E1|E1]; apply Z.eqb_eq in E1; subst; [exact Q|exact B]. }
  destruct (c =? 9); [constructor; [exact B|]; constructor; [lia|constructor]|]. destruct (c =? 10); [constructor; [exact B|]; constructor; [lia|constructor]|].
  destruct (c =? 13); [constructor; [exact B|]; constructor; [lia|constructor]|].
  destruct ((c <? 32) || (c =? 127))%bool eqn:E5.
  { assert (c <= 255).
    { apply orb_true_iff in E5. destruct E5 as [E5|E5]; [apply Z.ltb_lt in E5|apply Z.eqb_eq in E5]; lia. }
    assert (0 <= c / 16 < 16) by (split; [apply Z.div_pos; lia|apply Z.div_lt_upper_bound; lia]).
    constructor; [exact B|]. constructor; [lia|]. constructor; [now apply HB|]. constructor; [now apply HB|constructor]. }
  apply orb_false_iff in E5. destruct E5 as [E5 E6]. apply Z.ltb_ge in E5. apply Z.eqb_neq in E6.
  destruct (c <? 127); [constructor; [lia|constructor]|]. destruct (P c); [constructor; [lia|constructor]|].
  destruct (c <=? 255) eqn:E7.
  { apply Z.leb_le in E7. assert (0 <= c / 16 < 16) by (split; [apply Z.div_pos; lia|apply Z.div_lt_upper_bound; lia]).
    constructor; [exact B|]. constructor; [lia|]. constructor; [now apply HB|]. constructor; [now apply HB|constructor]. }
  destruct (c <=? 65535) eqn:E8.
  - apply Z.leb_le in E8. assert (0 <= c / 4096 < 16) by (split; [apply Z.div_pos; lia|apply Z.div_lt_upper_bound; lia]).
    unfold u4. constructor; [exact B|]. constructor; [lia|]. repeat (constructor; [now apply HB|]). constructor.
  - assert (0 <= c / 268435456 < 16) by (split; [apply Z.div_pos; lia|apply Z.div_lt_upper_bound; lia]).
    constructor; [exact B|]. constructor; [lia|]. repeat (constructor; [now apply HB|]). constructor.
Qed.

(** ** Scalars *)

Definition ends (r : str) : Prop := match r with 44 :: _ | 41 :: _ => True | _ => False end.

Lemma uint_digits u : Forall (fun c => 48 <= c <= 57) (dump_uint u).
Proof. induction u; cbn; constructor; auto; lia. Qed.

Lemma int_prefix z z' r r' : ends r -> ends r' -> dump_int z ++ r = dump_int z' ++ r' -> z = z' /\ r = r'.
Proof.
  intros HR HR' E.
  assert (ND : not_digit r) by (destruct r as [|c r]; [contradiction|]; cbn in *; destruct c as [|p|p]; try contradiction; repeat (destruct p as [p|p|]; try contradiction; try lia)).
  assert (ND' : not_digit r') by (destruct r' as [|c r']; [contradiction|]; cbn in *; destruct c as [|p|p]; try contradiction; repeat (destruct p as [p|p|]; try contradiction; try lia)).
  assert (HZ : forall z, Z.of_int (Z.to_int z) = z) by apply DecimalZ.of_to.
  assert (A : Z.to_int z = Z.to_int z' /\ r = r').
  { unfold dump_int in E. destruct (Z.to_int z) as [u|u] eqn:U, (Z.to_int z') as [v|v] eqn:V; cbn [app] in E.
    - apply (f_equal parse_uint) in E. rewrite !parse_dump_uint in E by assumption. injection E as -> ->. auto.
    - exfalso. pose proof (uint_digits u) as D. destruct (dump_uint u) as [|c t] eqn:X.
      + cbn in E. destruct r as [|d r]; [contradiction|]. injection E as -> _. contradiction.
      + inversion D; subst. cbn in E. injection E as E _. lia.
    - exfalso. pose proof (uint_digits v) as D. destruct (dump_uint v) as [|c t] eqn:X.
      + cbn in E. destruct r' as [|d r']; [contradiction|]. injection E as <- _. contradiction.
      + inversion D; subst. cbn in E. injection E as E _. lia.
    - injection E as E. apply (f_equal parse_uint) in E. rewrite !parse_dump_uint in E by assumption. injection E as -> ->. auto. }
  destruct A as [A ->]. split; [|reflexivity]. now rewrite <- (HZ z), A, HZ.
Qed.

Lemma dump_int_first z : exists c t, dump_int z = c :: t /\ (c = 45 \/ 48 <= c <= 57).
Proof.
  pose proof (to_int_canonical z) as C. unfold dump_int. destruct (Z.to_int z) as [u|u]; [|eexists _, _; split; [reflexivity|auto]].
  destruct u; cbn; try (eexists _, _; split; [reflexivity|lia]). exfalso. cbn in C. congruence.
Qed.

Lemma short_whole P n v : shown_whole P v -> short P n v = repr P v.
Proof.
  destruct v as [| [] | z | s | l | l | d]; cbn [shown_whole short repr]; try contradiction; try reflexivity.
  - intros H. unfold short_int. apply Nat.leb_le in H. now rewrite H.
  - intros [_ H]. unfold short_str. assert (L : (length s <= 30)%nat).
    { unfold repr_str in H. cbn [length] in H. rewrite app_length in H.
      enough (length s <= length (flat_map (repr_char P (quote_of s)) s))%nat by lia. generalize (quote_of s) as q. clear.
      induction s as [|c s IH]; intros q; [auto|]. cbn [flat_map length]. rewrite app_length.
      assert (1 <= length (repr_char P q c))%nat; [|specialize (IH q); lia].
      unfold repr_char. repeat (match goal with |- context [if ?b then _ else _] => destruct b end); cbn; lia. }
    rewrite firstn_all2 by exact L. apply Nat.leb_le in H. now rewrite H.
Qed.

Lemma scalar_prefix P v w r r' : shown_whole P v -> shown_whole P w -> ends r -> ends r' ->
  repr P v ++ r = repr P w ++ r' -> v = w /\ r = r'.
Proof.
  intros HV HW HR HR' E.
  assert (Q : forall s t, exists c l, repr_str P s ++ t = c :: l /\ is_quote c).
  { intros s t. eexists _, _. split; [reflexivity|]. apply quote_of_quote. }
  assert (I : forall z t, exists c l, dump_int z ++ t = c :: l /\ (c = 45 \/ 48 <= c <= 57)).
  { intros z t. destruct (dump_int_first z) as (c & l & X & Y). rewrite X. eexists _, _. split; [reflexivity|exact Y]. }
  assert (K : forall b : bool, exists l, (if b then lit "True" else lit "False") = (if b then 84 else 70) :: l)
    by (intros []; eexists; reflexivity).
  destruct v as [| [] | z | s | l | l | d]; try contradiction;
    destruct w as [| [] | z' | s' | l' | l' | d']; try contradiction; cbn [repr] in E.
  all: try (destruct (I z r) as (c & l & X & Y)); try (destruct (I z' r') as (c' & l' & X' & Y'));
       try (destruct (Q s r) as (c & l & X & Y)); try (destruct (Q s' r') as (c' & l' & X' & Y'));
       try (rewrite X in E); try (rewrite X' in E); cbn in E;
       try (apply (f_equal (fun l => match l with c :: _ => Some c | [] => None end)) in E; injection E as E;
            unfold is_quote, QUOTE, APOSTROPHE in *; exfalso; lia).
  1,2,3: injection E as E; auto.
  - rewrite <- X, <- X' in E. destruct (int_prefix _ _ _ _ HR HR' E) as [-> ->]. auto.
  - rewrite <- X, <- X' in E. destruct HV as [V _], HW as [W _]. destruct (repr_prefix P s s' r r' V W E) as [-> ->]. auto.
Qed.

(** ** Texts of operators *)

Lemma split_at (c : Z) k k' r r' : ~ In c k -> ~ In c k' -> k ++ c :: r = k' ++ c :: r' -> k = k' /\ r = r'.
Proof.
  revert k'. induction k as [|a k IH]; intros [|b k'] HK HK' E; cbn in *.
  - injection E as E. auto.
  - injection E as E _. exfalso. apply HK'. now left.
  - injection E as E _. exfalso. apply HK. now left.
  - injection E as -> E. destruct (IH k') as [-> ->]; auto.
Qed.

Definition arg (P : Z -> bool) (kv : str * jval) : str := fst kv ++ lit "=" ++ custom_repr P (snd kv).
Definition decodable (P : Z -> bool) (kv : str * jval) : Prop := ~ In 61 (fst kv) /\ shown_whole P (snd kv).

Lemma custom_whole P v : shown_whole P v -> custom_repr P v = repr P v.
Proof. intros H. destruct v; try contradiction; now apply (short_whole P 6). Qed.

Lemma arg_prefix P x y r r' : decodable P x -> decodable P y -> ends r -> ends r' ->
  arg P x ++ r = arg P y ++ r' -> x = y /\ r = r'.
Proof.
  intros [KX WX] [KY WY] HR HR' E. unfold arg in E. rewrite !custom_whole in E by assumption.
  rewrite <- !app_assoc in E. cbn [app] in E. change (lit "=") with [61] in E. cbn [app] in E.
  destruct (split_at 61 _ _ _ _ KX KY E) as [EK EV].
  destruct (scalar_prefix P _ _ _ _ WX WY HR HR' EV) as [E2 ->]. destruct x, y. cbn in *. subst. auto.
Qed.

Lemma args_prefix P l m : Forall (decodable P) l -> Forall (decodable P) m ->
  commas (map (arg P) l) ++ lit ")" = commas (map (arg P) m) ++ lit ")" -> l = m.
Proof.
  change (lit ")") with [41]. intros HL HM E.
  assert (G : forall l m, Forall (decodable P) l -> Forall (decodable P) m ->
    flat_map (fun y => 44 :: 32 :: y) (map (arg P) l) ++ [41] = flat_map (fun y => 44 :: 32 :: y) (map (arg P) m) ++ [41] -> l = m).
  { clear. induction l as [|x l IH]; intros [|y m] HL HM E; cbn in E; try discriminate; auto.
    injection E as E. rewrite <- !app_assoc in E. inversion HL; inversion HM; subst.
    assert (EN : forall k, ends (flat_map (fun y => 44 :: 32 :: y) (map (arg P) k) ++ [41])) by (intros [|a k]; exact I).
    destruct (arg_prefix P x y _ _ ltac:(assumption) ltac:(assumption) (EN l) (EN m) E) as [-> E']. f_equal. now apply IH. }
  assert (EN : forall k, ends (flat_map (fun y => 44 :: 32 :: y) (map (arg P) k) ++ [41])) by (intros [|a k]; exact I).
  assert (NE : forall x t, arg P x ++ t <> [41] \/ ~ decodable P x).
  { intros [k v] t. destruct k as [|c k].
    - left. cbn. discriminate.
    - left. intros Q. apply (f_equal (@length Z)) in Q. unfold arg in Q. cbn in Q. rewrite !app_length in Q. cbn in Q. lia. }
  destruct l as [|x l], m as [|y m]; cbn [map commas] in E; auto.
  - exfalso. cbn [app] in E. rewrite <- app_assoc in E. inversion HM; subst.
    destruct (NE y (flat_map (fun y => 44 :: 32 :: y) (map (arg P) m) ++ [41])) as [Q|Q]; [now apply Q|contradiction].
  - exfalso. cbn [app] in E. rewrite <- app_assoc in E. inversion HL; subst.
    destruct (NE x (flat_map (fun y => 44 :: 32 :: y) (map (arg P) l) ++ [41])) as [Q|Q]; [now apply Q|contradiction].
  - rewrite <- !app_assoc in E. inversion HL; inversion HM; subst.
    destruct (arg_prefix P x y _ _ ltac:(assumption) ltac:(assumption) (EN l) (EN m) E) as [-> E']. f_equal. now apply G.
Qed.

Definition name_ok (s : str) : bool := forallb (fun c => (negb (c =? 61) && negb (c =? 40) && negb (c =? 10))%bool) s.
Lemma name_ok_spec s : name_ok s = true -> ~ In 61 s /\ ~ In 40 s /\ ~ In 10 s.
Proof.
  unfold name_ok. rewrite forallb_forall. intros H. repeat split; intros HI; specialize (H _ HI); discriminate.
Qed.
Lemma class_names : forall n c, dict_get classes n = Some c -> name_ok n = true /\ forall k, In k (map fst (c_params c)) -> name_ok k = true.
Proof.
  assert (T : forallb (fun nc : str * opclass => (name_ok (fst nc) && forallb name_ok (map fst (c_params (snd nc))))%bool) classes = true) by reflexivity.
  rewrite forallb_forall in T. intros n c H. apply dict_get_In in H. specialize (T _ H). cbn [fst snd] in T.
  apply andb_true_iff in T. destruct T as [T1 T2]. rewrite forallb_forall in T2. auto.
Qed.

Lemma made_names E o : made E o -> name_ok (o_class o) = true /\ forall k, In k (map fst (o_configs o)) -> name_ok k = true.
Proof.
  intros HM. destruct (made_coherent E o HM) as (c & bound & HG & _ & _ & _ & HK & _ & _).
  destruct (class_names _ _ HG) as [N1 N2]. split; [exact N1|]. intros k HI. apply N2. now apply HK.
Qed.

Theorem op_str_injective E P a b : made E a -> made E b ->
  Forall (fun kv => shown_whole P (snd kv)) (o_configs a) -> Forall (fun kv => shown_whole P (snd kv)) (o_configs b) ->
  op_str P a = op_str P b -> a = b.
Proof.
  intros MA MB WA WB E1.
  destruct (made_names E a MA) as [NA KA]. destruct (made_names E b MB) as [NB KB].
  apply name_ok_spec in NA, NB. unfold op_str in E1. fold (arg P) in E1. change (lit "(") with [40] in E1. cbn [app] in E1.
  destruct (split_at 40 _ _ _ _ (proj1 (proj2 NA)) (proj1 (proj2 NB)) E1) as [EC EA].
  assert (D : forall o, (forall k, In k (map fst (o_configs o)) -> name_ok k = true) ->
    Forall (fun kv => shown_whole P (snd kv)) (o_configs o) -> Forall (decodable P) (o_configs o)).
  { intros o KO WO. rewrite Forall_forall in *. intros kv HI. split; [|auto]. apply name_ok_spec, KO. now apply in_map. }
  assert (EQ : o_configs a = o_configs b) by (apply (args_prefix P); auto).
  destruct (made_coherent E a MA) as (c & bound & CA). destruct (made_coherent E b MB) as (c' & bound' & CB).
  pose proof (construct_again E a c bound _ CA (or_introl eq_refl)) as XA.
  pose proof (construct_again E b c' bound' _ CB (or_introl eq_refl)) as XB.
  rewrite EC, EQ in XA. rewrite XA in XB. injection XB as XB. destruct a, b. cbn in *. now subst.
Qed.

(** *** one line *)

Lemma Forall_front {A} (Q : A -> Prop) n l : Forall Q l -> Forall Q (firstn n l).
Proof. intros H. rewrite <- (firstn_skipn n l) in H. now apply Forall_app in H. Qed.

Lemma one_app a b : one_line a -> one_line b -> one_line (a ++ b).
Proof. intros HA HB HI. apply in_app_or in HI. destruct HI; auto. Qed.
Lemma one_lit s : forallb (fun c => negb (c =? 10)) s = true -> one_line s.
Proof. rewrite forallb_forall. intros H HI. specialize (H _ HI). discriminate. Qed.
Ltac one_lit := apply one_lit; reflexivity.
Lemma one_firstn n s : one_line s -> one_line (firstn n s).
Proof. intros H HI. apply H. rewrite <- (firstn_skipn n s). apply in_or_app. now left. Qed.
Lemma one_skipn n s : one_line s -> one_line (skipn n s).
Proof. intros H HI. apply H. rewrite <- (firstn_skipn n s). apply in_or_app. now right. Qed.

Lemma one_int z : one_line (dump_int z).
Proof.
  intros HI. unfold dump_int in HI. destruct (Z.to_int z) as [u|u]; pose proof (uint_digits u) as D; rewrite Forall_forall in D.
  - specialize (D _ HI). lia.
  - destruct HI as [HI|HI]; [discriminate|]. specialize (D _ HI). lia.
Qed.
Lemma one_hex n : (0 <= n < 16 -> False) \/ hex n <> 10.
Proof. destruct (Z.le_gt_cases 0 n) as [A|A]; [|left; lia]. right. unfold hex. destruct (n <? 10); lia. Qed.
Lemma one_repr_str P s : text s -> one_line (repr_str P s).
Proof.
  intros HS. unfold repr_str. cbn zeta. intros HI.
  assert (Q : forall s, quote_of s <> 10) by (intros t; destruct (quote_of_quote t) as [-> | ->]; discriminate).
  destruct HI as [HI|HI]; [now apply (Q s)|]. apply in_app_or in HI. destruct HI as [HI|[HI|[]]]; [|now apply (Q s)].
  apply in_flat_map in HI. destruct HI as (c & HC & HI). unfold text in HS. rewrite Forall_forall in HS. specialize (HS c HC).
  assert (HX : forall k, 0 <= k -> hex k <> 10) by (intros k HK; unfold hex; destruct (k <? 10); lia).
  assert (HD : forall k, 0 < k -> 0 <= c / k) by (intros; apply Z.div_pos; lia).
  assert (HM : forall k, 0 <= k mod 16) by (intros k; apply Z.mod_pos_bound; lia).
  unfold repr_char in HI. destruct ((c =? _) || (c =? BACKSLASH))%bool eqn:E1.
  { apply orb_true_iff in E1. destruct HI as [HI|[HI|[]]]; [discriminate|]. subst c.
    destruct E1 as [E1|E1]; apply Z.eqb_eq in E1; [now apply (Q s)|discriminate]. }
  destruct (c =? 9); [destruct HI as [HI|[HI|[]]]; discriminate|]. destruct (c =? 10) eqn:E10; [destruct HI as [HI|[HI|[]]]; discriminate|].
  destruct (c =? 13); [destruct HI as [HI|[HI|[]]]; discriminate|]. apply Z.eqb_neq in E10.
  repeat match type of HI with context [if ?b then _ else _] => destruct b end; unfold u4 in HI; cbn [In] in HI;
    repeat (destruct HI as [HI|HI]; [first [discriminate HI|contradiction|revert HI; apply HX; auto; apply HD; lia]|]); contradiction.
Qed.
Lemma one_commas l : Forall one_line l -> one_line (commas l).
Proof.
  intros H. destruct H as [|x l HX HL]; [intros []|]. cbn [commas]. apply one_app; [exact HX|].
  induction HL as [|y l HY HL IH]; [intros []|]. cbn [flat_map].
  apply one_app; [|exact IH]. change (44 :: 32 :: y) with ([44; 32] ++ y). apply one_app; [one_lit|exact HY].
Qed.

Section values.
Context (P : Z -> bool).
Fixpoint one_repr (v : jval) : value v -> one_line (repr P v).
Proof.
  destruct v as [| [] | z | s | l | l | d]; cbn [value repr]; intros HV; try one_lit.
  - apply one_int.
  - now apply one_repr_str.
  - apply one_app; [one_lit|]. apply one_app; [|one_lit]. apply one_commas. induction l as [|v l IH]; constructor.
    + apply one_repr, HV.
    + apply IH, HV.
  - apply one_app; [one_lit|]. apply one_app; [|apply one_app; [destruct (length l =? 1)%nat; one_lit|one_lit]].
    apply one_commas. induction l as [|v l IH]; constructor; [apply one_repr, HV|apply IH, HV].
  - apply one_app; [one_lit|]. apply one_app; [|one_lit]. apply one_commas. destruct HV as [_ HV].
    induction d as [|[k v] d IH]; constructor; [|apply IH, HV]. cbn [fst snd].
    apply one_app; [apply one_repr_str, HV|]. apply one_app; [one_lit|]. apply one_repr, HV.
Qed.

Lemma one_short_int z : one_line (short_int z).
Proof.
  unfold short_int. destruct (_ <=? _)%nat; [apply one_int|]. unfold cut_middle, from_end.
  apply one_app; [apply one_firstn, one_int|]. apply one_app; [one_lit|apply one_skipn, one_int].
Qed.
Lemma one_short_str s : text s -> one_line (short_str P s).
Proof.
  intros HS. unfold short_str. cbn zeta.
  assert (HF : forall n, text (firstn n s)) by (intros n; unfold text in *; now apply Forall_front).
  assert (HK : forall n, text (skipn n s)).
  { intros n. unfold text in *. rewrite <- (firstn_skipn n s) in HS. now apply Forall_app in HS. }
  destruct (_ <=? _)%nat; [apply one_repr_str, HF|]. unfold cut_middle, from_end.
  assert (O : one_line (repr_str P (firstn 13 s ++ skipn (adj (length s) (Z.of_nat (length s) - Z.of_nat 14)) s)))
    by (apply one_repr_str; apply Forall_app; split; [apply HF|apply HK]).
  apply one_app; [apply one_firstn, O|]. apply one_app; [one_lit|apply one_skipn, O].
Qed.
Lemma one_at_most n l : Forall one_line l -> Forall one_line (at_most n l).
Proof.
  intros H. unfold at_most. apply Forall_app. split; [now apply Forall_front|].
  destruct (_ <? _)%nat; repeat constructor. one_lit.
Qed.
Lemma sorted_lines d : Forall (fun x : str * str => one_line (snd x)) d -> Forall one_line (map snd (fold_right insert_key [] d)).
Proof.
  intros H. enough (G : Forall (fun x : str * str => one_line (snd x)) (fold_right insert_key [] d)).
  { rewrite Forall_forall in *. intros x HI. apply in_map_iff in HI. destruct HI as (y & <- & HI). now apply G. }
  induction H as [|x d HX HD IH]; [constructor|]. cbn [fold_right]. revert IH. generalize (fold_right insert_key [] d) as l.
  induction l as [|y l IHl]; intros HL; cbn [insert_key]; [now repeat constructor|]. inversion HL; subst.
  destruct (str_leb (fst x) (fst y)); constructor; auto.
Qed.
Fixpoint one_short (v : jval) : forall level, value v -> one_line (short P level v).
Proof.
  intros level. destruct v as [| [] | z | s | l | l | d]; intros HV; try (cbn [short]; one_lit).
  - apply one_short_int.
  - now apply one_short_str.
  - destruct l as [|w l]; [cbn; one_lit|]. destruct level as [|level]; [cbn; one_lit|].
    change (one_line (lit "[" ++ commas (at_most 6 (map (short P level) (w :: l))) ++ lit "]")).
    apply one_app; [one_lit|]. apply one_app; [|one_lit]. apply one_commas, one_at_most. cbn [value] in HV.
    revert HV. generalize (w :: l) as m. clear w l. induction m as [|v m IH]; intros HV; constructor; [apply one_short, HV|apply IH, HV].
  - destruct l as [|w l]; [cbn; one_lit|]. destruct level as [|level]; [cbn; one_lit|].
    change (one_line (lit "(" ++ commas (at_most 6 (map (short P level) (w :: l))) ++ (if (length (w :: l) =? 1)%nat then lit "," else []) ++ lit ")")).
    apply one_app; [one_lit|]. apply one_app; [|apply one_app; [destruct (_ =? 1)%nat; one_lit|one_lit]].
    apply one_commas, one_at_most. cbn [value] in HV.
    revert HV. generalize (w :: l) as m. clear w l. induction m as [|v m IH]; intros HV; constructor; [apply one_short, HV|apply IH, HV].
  - destruct d as [|w d]; [cbn; one_lit|]. destruct level as [|level]; [cbn; one_lit|].
    change (one_line (lit "{" ++ commas (at_most 4 (map snd (fold_right insert_key []
      (map (fun kv => (fst kv, short_str P (fst kv) ++ lit ": " ++ short P level (snd kv))) (w :: d))))) ++ lit "}")).
    apply one_app; [one_lit|]. apply one_app; [|one_lit]. apply one_commas, one_at_most, sorted_lines.
    cbn [value] in HV. destruct HV as [_ HV].
    revert HV. generalize (w :: d) as m. clear w d. induction m as [|[k v] m IH]; intros HV; constructor; [|apply IH, HV]. cbn [fst snd].
    apply one_app; [apply one_short_str, HV|]. apply one_app; [one_lit|]. apply one_short, HV.
Qed.
Lemma one_custom v : value v -> one_line (custom_repr P v).
Proof.
  intros HV. destruct v as [| b | z | s | l | l | d]; try (now apply (one_short _ 6)). unfold custom_repr.
  apply one_app; [one_lit|]. apply one_app; [|one_lit]. apply one_commas. apply ObjProofs.value_dict in HV. destruct HV as [_ HV].
  assert (F : Forall (fun kv : str * jval => text (fst kv) /\ value (snd kv)) (firstn 2 d)) by now apply Forall_front.
  induction F as [|[k v] d' [HK HX] HD IH]; constructor; auto. cbn [fst snd] in *.
  apply one_app; [now apply one_repr_str|]. apply one_app; [one_lit|now apply one_repr].
Qed.
Lemma one_op_str E o : made E o -> one_line (op_str P o).
Proof.
  intros HM. destruct (made_names E o HM) as [N K]. destruct (made_coherent E o HM) as (c & bound & _ & _ & _ & _ & _ & HV & _).
  apply name_ok_spec in N. unfold op_str. apply one_app; [apply N|]. apply one_app; [one_lit|]. apply one_app; [|one_lit].
  apply one_commas. apply ObjProofs.value_dict in HV. destruct HV as [_ HV]. rewrite Forall_forall in *.
  intros l HL. apply in_map_iff in HL. destruct HL as (kv & <- & HI). specialize (HV kv HI).
  apply one_app; [apply name_ok_spec, K; now apply in_map|]. apply one_app; [one_lit|]. now apply one_custom.
Qed.
End values.

(** ** The summary of a pipe *)

Lemma after_prefix_app p x : after_prefix p (p ++ x) = Some x.
Proof. induction p as [|a p IH]; [reflexivity|]. cbn. now rewrite Z.eqb_refl. Qed.

Section summaries.
Context (P : Z -> bool).

Lemma shown_app what n l m : shown_at what n (l ++ m) =
  shown_at what n l ++ shown_at what (n + Z.of_nat (length (operators_shown l))) m.
Proof.
  revert n. induction l as [|x l IH]; intros n; [now rewrite Z.add_0_r|]. cbn [app shown_at]. rewrite <- app_assoc. f_equal.
  rewrite IH. f_equal. f_equal. unfold operators_shown. cbn [flat_map]. rewrite app_length.
  destruct (after_prefix (lit " |    ") x); cbn [length]; lia.
Qed.
Lemma operators_app l m : operators_shown (l ++ m) = operators_shown l ++ operators_shown m.
Proof. apply flat_map_app. Qed.

Lemma op_line x : after_prefix (lit " |    ") (lit " |    " ++ x) = Some x.
Proof. apply after_prefix_app. Qed.
Lemma ck_line x : after_prefix (lit " @--> checkpoint: ") (lit " @--> checkpoint: " ++ x) = Some x.
Proof. apply after_prefix_app. Qed.

(** what stands between two operator lines *)
Definition between (t t' : seqtype) (name : option str) : list str :=
  (if seqtype_eqb t' t then [] else [lit " v"; type_name t'; lit " v"]) ++
  (match name with
   | Some name => [lit " |"; lit " @--> checkpoint: " ++ repr_str P name; lit " |"]
   | None => []
   end).
Lemma between_ops t t' name : operators_shown (between t t' name) = [].
Proof. destruct t, t', name; reflexivity. Qed.
Lemma between_cks t t' name n : shown_at (after_prefix (lit " @--> checkpoint: ")) n (between t t' name) =
  match name with Some x => [(n, repr_str P x)] | None => [] end.
Proof. destruct t, t', name; reflexivity. Qed.
Definition type_line (l : str) : option str := if (eqb l (lit "str") || eqb l (lit "list"))%bool then Some l else None.
Lemma between_types t t' name n : shown_at type_line n (between t t' name) =
  if seqtype_eqb t' t then [] else [(n, type_name t')].
Proof. destruct t, t', name; reflexivity. Qed.

Lemma steps_cons names idx prev o ops : summary_steps P names idx prev (o :: ops) =
  (lit " |    " ++ op_str P o) :: between prev (out_type o) (dict_get names idx) ++
  summary_steps P names (idx + 1) (out_type o) ops.
Proof. cbn [summary_steps]. unfold between. now rewrite <- app_assoc. Qed.

Lemma steps_ops names ops : forall idx prev, operators_shown (summary_steps P names idx prev ops) = map (op_str P) ops.
Proof.
  induction ops as [|o ops IH]; intros idx prev; [reflexivity|]. rewrite steps_cons. unfold operators_shown. cbn [flat_map].
  rewrite op_line. fold (operators_shown (between prev (out_type o) (dict_get names idx) ++ summary_steps P names (idx + 1) (out_type o) ops)).
  rewrite operators_app, between_ops, IH. reflexivity.
Qed.

Lemma steps_cks names ops : forall idx prev,
  shown_at (after_prefix (lit " @--> checkpoint: ")) (idx - 1) (summary_steps P names idx prev ops) =
  flat_map (fun k => match dict_get names k with Some x => [(k, repr_str P x)] | None => [] end)
    (map (fun k => idx + Z.of_nat k) (seq 0 (length ops))).
Proof.
  induction ops as [|o ops IH]; intros idx prev; [reflexivity|]. rewrite steps_cons. cbn [shown_at].
  rewrite op_line. change (after_prefix (lit " @--> checkpoint: ") (lit " |    " ++ op_str P o)) with (@None str).
  cbn [app]. replace (idx - 1 + 1) with idx by lia. rewrite shown_app, between_cks, between_ops. cbn [length].
  rewrite Z.add_0_r. replace idx with (idx + 1 - 1) at 2 by lia. rewrite IH. cbn [length seq map flat_map].
  rewrite Z.add_0_r. f_equal. rewrite <- seq_shift, map_map. f_equal. apply map_ext. intros k. lia.
Qed.

Lemma steps_types names ops : forall idx prev,
  shown_at type_line (idx - 1) (summary_steps P names idx prev ops) =
  flat_map (fun k => match nth_error ops k with
                     | Some o => if seqtype_eqb (out_type o) (match k with O => prev | S k => match nth_error ops k with Some o' => out_type o' | None => prev end end)
                                 then [] else [(idx + Z.of_nat k, type_name (out_type o))]
                     | None => [] end) (seq 0 (length ops)).
Proof.
  induction ops as [|o ops IH]; intros idx prev; [reflexivity|]. rewrite steps_cons. cbn [shown_at].
  rewrite op_line. change (type_line (lit " |    " ++ op_str P o)) with (@None str).
  cbn [app]. replace (idx - 1 + 1) with idx by lia. rewrite shown_app, between_types, between_ops. cbn [length].
  rewrite Z.add_0_r. replace idx with (idx + 1 - 1) at 2 by lia. rewrite IH. cbn [length seq flat_map nth_error].
  rewrite Z.add_0_r. f_equal. rewrite <- seq_shift, flat_map_concat_map, flat_map_concat_map, map_map. f_equal. apply map_ext. intros k.
  cbn [nth_error]. destruct (nth_error ops k) as [o'|] eqn:Q; [|reflexivity].
  replace (idx + 1 + Z.of_nat k) with (idx + Z.of_nat (S k)) by lia. destruct k as [|k]; [reflexivity|].
  cbn [nth_error]. destruct (nth_error ops k) eqn:Q'; [reflexivity|]. exfalso.
  apply nth_error_None in Q'. assert (S k < length ops)%nat by (apply nth_error_Some; congruence). lia.
Qed.

Lemma inverse_get ck : forall i name, dict_get (inverse_checkpoint ck) i = Some name <-> last_with ck i name.
Proof.
  unfold inverse_checkpoint, last_with. induction ck as [|[n j] ck IH] using rev_ind; intros i name.
  - split; [discriminate|]. intros (b & a & Q & _). destruct b; discriminate.
  - rewrite fold_left_app. cbn [fold_left fst snd]. destruct (Z.eq_dec j i) as [->|NE].
    + rewrite dict_get_set_same. split.
      * intros [= <-]. exists ck, []. split; [reflexivity|]. intros [].
      * intros (b & a & Q & N). destruct a as [|x a] using rev_ind; [|clear IHa].
        { apply app_inj_tail in Q. destruct Q as [_ Q]. congruence. }
        exfalso. apply N. rewrite app_comm_cons, app_assoc in Q. apply app_inj_tail in Q. destruct Q as [_ <-].
        rewrite map_app. apply in_or_app. right. now left.
    + rewrite dict_get_set_other by exact NE. rewrite IH. split.
      * intros (b & a & -> & N). exists b, (a ++ [(n, j)]). split; [now rewrite <- app_assoc|].
        rewrite map_app. intros HI. apply in_app_or in HI. destruct HI as [HI|[HI|[]]]; auto.
      * intros (b & a & Q & N). destruct a as [|x a] using rev_ind; [|clear IHa].
        { apply app_inj_tail in Q. destruct Q as [_ Q]. congruence. }
        rewrite app_comm_cons, app_assoc in Q. apply app_inj_tail in Q. destruct Q as [-> _]. exists b, a. split; [reflexivity|].
        intros HI. apply N. rewrite map_app. apply in_or_app. now left.
Qed.

(** the summary of a pipe with operators *)
Lemma summary_shape p o ops : steps p = o :: ops -> exists t', pipe_output_type p = Ok t' /\
  summary P p = [repeat 95 80; lit "Type  Operator"; repeat 61 80; type_name (in_type o); lit " v"] ++
    summary_steps P (inverse_checkpoint (checkpoints p)) 1 (in_type o) (steps p) ++
    [lit " v"; repeat 61 80; type_name (in_type o) ++ lit " -> " ++ type_name t';
     lit "Total operators: " ++ dump_int (Z.of_nat (length (steps p)));
     lit "Total checkpoints: " ++ dump_int (Z.of_nat (length (checkpoints p))); repeat 95 80].
Proof.
  intros HS. assert (HI : pipe_input_type p = Ok (in_type o)) by (unfold pipe_input_type; now rewrite HS).
  assert (HO : exists t', pipe_output_type p = Ok t').
  { unfold pipe_output_type. rewrite HS. unfold last_opt. eexists. reflexivity. }
  destruct HO as (t' & HO). exists t'. split; [exact HO|]. unfold summary. rewrite HI, HO. now rewrite <- !app_assoc.
Qed.
Lemma summary_empty p : steps p = [] ->
  summary P p = [repeat 95 80; lit "Type  Operator"; repeat 61 80;
     lit "Total operators: 0"; lit "Total checkpoints: " ++ dump_int (Z.of_nat (length (checkpoints p))); repeat 95 80].
Proof. intros HS. unfold summary, pipe_input_type. rewrite HS. reflexivity. Qed.

Theorem summary_ops p : operators_shown (summary P p) = map (op_str P) (steps p).
Proof.
  destruct (steps p) as [|o ops] eqn:HS.
  - rewrite (summary_empty p HS). reflexivity.
  - destruct (summary_shape p o ops HS) as (t' & _ & ->). rewrite !operators_app, steps_ops, HS.
    destruct (in_type o), t'; cbn [type_name]; apply app_nil_r.
Qed.

Theorem summary_checkpoints p i r : In (i, r) (checkpoints_shown (summary P p)) <->
  exists name, r = repr_str P name /\ last_with (checkpoints p) i name /\ 1 <= i <= Z.of_nat (length (steps p)).
Proof.
  unfold checkpoints_shown. destruct (steps p) as [|o ops] eqn:HS.
  - rewrite (summary_empty p HS). split; [intros []|]. intros (n & _ & _ & H). cbn in H. lia.
  - destruct (summary_shape p o ops HS) as (t' & _ & ->). rewrite !shown_app, HS.
    replace (shown_at _ 0 [_; _; _; _; _]) with (@nil (Z * str)) by (destruct (in_type o); reflexivity).
    replace (operators_shown [_; _; _; _; _]) with (@nil str) by (destruct (in_type o); reflexivity).
    change (Z.of_nat (length (@nil str))) with 0. rewrite Z.add_0_l. cbn [app]. change 0 with (1 - 1) at 1. rewrite steps_cks.
    rewrite in_app_iff. split.
    + intros [H|H].
      * apply in_flat_map in H. destruct H as (k & HK & H). apply in_map_iff in HK. destruct HK as (j & <- & HJ). apply in_seq in HJ.
        destruct (dict_get (inverse_checkpoint (checkpoints p)) (1 + Z.of_nat j)) as [x|] eqn:G; [|contradiction].
        destruct H as [H|[]]. assert (i = 1 + Z.of_nat j) by congruence. assert (r = repr_str P x) by congruence. subst i r.
        exists x. split; [reflexivity|]. split; [now apply inverse_get|]. cbn [length] in *. lia.
      * exfalso. destruct (in_type o), t'; exact H.
    + intros (name & -> & HL & HI). left. apply in_flat_map. exists i. split.
      * apply in_map_iff. exists (Z.to_nat (i - 1)). split; [lia|]. apply in_seq. cbn [length] in *. lia.
      * apply inverse_get in HL. rewrite HL. now left.
Qed.

Lemma sorted_pieces {A} (f : Z -> list (Z * A)) n : (forall k x, In x (f k) -> fst x = k) -> (forall k, (length (f k) <= 1)%nat) ->
  forall i, StronglySorted Z.lt (map fst (flat_map f (map (fun k => i + Z.of_nat k) (seq 0 n)))) /\
            Forall (fun z => i <= z) (map fst (flat_map f (map (fun k => i + Z.of_nat k) (seq 0 n)))).
Proof.
  intros HF HL. induction n as [|n IH]; intros i; [split; constructor|].
  cbn [seq map flat_map]. rewrite Z.add_0_r. rewrite <- seq_shift, map_map.
  rewrite (map_ext (fun x => i + Z.of_nat (S x)) (fun x => (i + 1) + Z.of_nat x)) by (intros; lia).
  destruct (IH (i + 1)) as [S1 S2]. specialize (HL i). pose proof (HF i) as HI.
  destruct (f i) as [|x [|y l]]; [|cbn [app map]|cbn in HL; lia].
  - split; [exact S1|]. eapply Forall_impl; [|exact S2]. cbn. lia.
  - assert (fst x = i) as -> by (apply HI; now left). split; constructor; auto.
    + eapply Forall_impl; [|exact S2]. cbn. lia.
    + lia.
    + eapply Forall_impl; [|exact S2]. cbn. lia.
Qed.
Theorem summary_once p : StronglySorted Z.lt (map fst (checkpoints_shown (summary P p))).
Proof.
  unfold checkpoints_shown. destruct (steps p) as [|o ops] eqn:HS.
  - rewrite (summary_empty p HS). constructor.
  - destruct (summary_shape p o ops HS) as (t' & _ & ->). rewrite !shown_app.
    replace (shown_at _ 0 [_; _; _; _; _]) with (@nil (Z * str)) by (destruct (in_type o); reflexivity).
    replace (operators_shown [_; _; _; _; _]) with (@nil str) by (destruct (in_type o); reflexivity).
    change (Z.of_nat (length (@nil str))) with 0. rewrite Z.add_0_l. cbn [app]. change 0 with (1 - 1) at 1. rewrite steps_cks.
    replace (shown_at _ _ [_; _; _; _; _; _]) with (@nil (Z * str)) by (destruct (in_type o), t'; reflexivity).
    rewrite app_nil_r. apply (sorted_pieces (fun k => match dict_get (inverse_checkpoint (checkpoints p)) k with
      Some x => [(k, repr_str P x)] | None => [] end)).
    + intros k x. destruct (dict_get _ k); [|contradiction]. intros [<-|[]]. reflexivity.
    + intros k. destruct (dict_get _ k); cbn; lia.
Qed.

Theorem summary_types p k n : chained (steps p) -> (In (k, n) (types_shown (summary P p)) <->
  (exists o, nth_error (steps p) 0 = Some o /\ k = 0 /\ n = type_name (in_type o)) \/
  (exists j o, nth_error (steps p) j = Some o /\ k = Z.of_nat j + 1 /\ out_type o <> in_type o /\ n = type_name (out_type o))).
Proof.
  intros HC. unfold types_shown. fold type_line. destruct (steps p) as [|o ops] eqn:HS.
  - rewrite (summary_empty p HS). split; [intros []|]. intros [(x & Q & _)|(j & x & Q & _)]; [discriminate|destruct j; discriminate].
  - destruct (summary_shape p o ops HS) as (t' & _ & ->). rewrite !shown_app, HS.
    replace (shown_at _ 0 [_; _; _; _; _]) with [(0, type_name (in_type o))] by (destruct (in_type o); reflexivity).
    replace (operators_shown [_; _; _; _; _]) with (@nil str) by (destruct (in_type o); reflexivity).
    change (Z.of_nat (length (@nil str))) with 0. rewrite Z.add_0_l. cbn [app]. change 0 with (1 - 1) at 2. rewrite steps_types.
    replace (shown_at _ _ [_; _; _; _; _; _]) with (@nil (Z * str)) by (destruct (in_type o), t'; reflexivity). rewrite app_nil_r.
    cbn [In]. split.
    + intros [H|H].
      * injection H as <- <-. left. exists o. auto.
      * right. apply in_flat_map in H. destruct H as (j & HJ & H). exists j.
        destruct (nth_error (o :: ops) j) as [x|] eqn:X; [|contradiction]. exists x.
        match type of H with In _ (if seqtype_eqb _ ?t then _ else _) => assert (T : t = in_type x) end.
        { destruct j as [|j]; [now injection X as ->|]. destruct (nth_error (o :: ops) j) as [y|] eqn:Y.
          - exact (HC j y x Y X).
          - exfalso. apply nth_error_None in Y. assert (S j < length (o :: ops))%nat by (apply nth_error_Some; congruence). lia. }
        rewrite T in H. destruct (seqtype_eqb (out_type x) (in_type x)) eqn:Q; [contradiction|]. destruct H as [H|[]].
        assert (k = 1 + Z.of_nat j) by congruence. assert (n = type_name (out_type x)) by congruence. subst k n.
        split; [reflexivity|]. split; [lia|]. split; [|reflexivity]. intros Q'. rewrite Q' in Q. destruct (in_type x); discriminate.
    + intros [(x & [= <-] & -> & ->)|(j & x & X & -> & NE & ->)]; [now left|]. right. apply in_flat_map. exists j. split.
      * apply in_seq. split; [lia|]. apply nth_error_Some. congruence.
      * rewrite X.
        match goal with |- In _ (if seqtype_eqb _ ?t then _ else _) => assert (T : t = in_type x) end.
        { destruct j as [|j]; [now injection X as ->|]. destruct (nth_error (o :: ops) j) as [y|] eqn:Y.
          - exact (HC j y x Y X).
          - exfalso. apply nth_error_None in Y. assert (S j < length (o :: ops))%nat by (apply nth_error_Some; congruence). lia. }
        rewrite T. destruct (seqtype_eqb (out_type x) (in_type x)) eqn:Q.
        { exfalso. apply NE. destruct (out_type x), (in_type x); auto; discriminate. }
        left. f_equal. lia.
Qed.

Theorem summary_end p : exists front,
  summary P p = front ++
    match nth_error (steps p) 0, last_opt (steps p) with
    | Some a, Some b => [type_name (in_type a) ++ lit " -> " ++ type_name (out_type b)]
    | _, _ => []
    end ++
    [lit "Total operators: " ++ dump_int (Z.of_nat (length (steps p)));
     lit "Total checkpoints: " ++ dump_int (Z.of_nat (length (checkpoints p))); repeat 95 80].
Proof.
  destruct (steps p) as [|o ops] eqn:HS.
  - rewrite (summary_empty p HS). now exists [repeat 95 80; lit "Type  Operator"; repeat 61 80].
  - destruct (summary_shape p o ops HS) as (t' & HO & ->). rewrite HS. unfold pipe_output_type in HO. rewrite HS in HO.
    cbn [nth_error]. destruct (last_opt (o :: ops)) as [b|] eqn:B; [|discriminate]. injection HO as <-.
    exists ([repeat 95 80; lit "Type  Operator"; repeat 61 80; type_name (in_type o); lit " v"] ++
      summary_steps P (inverse_checkpoint (checkpoints p)) 1 (in_type o) (o :: ops) ++ [lit " v"; repeat 61 80]).
    rewrite <- !app_assoc. reflexivity.
Qed.

(** *** checkpoints of pipes that were made by [add_op] *)

Lemma after_snoc p h c : after p (h ++ [c]) = fst (add_op (after p h) (fst c) (snd c)).
Proof. unfold after. now rewrite fold_left_app. Qed.

Lemma after_numbers h : let p := after pipe_new h in
  StronglySorted Z.lt (map snd (checkpoints p)) /\ Forall (fun kv => 1 <= snd kv <= Z.of_nat (length (steps p))) (checkpoints p).
Proof.
  induction h as [|[o ck] h IH] using rev_ind; [split; constructor|]. rewrite after_snoc. cbn zeta in *. revert IH.
  generalize (after pipe_new h) as p. intros p [S1 S2]. cbn [fst snd]. unfold add_op.
  destruct (match pipe_output_type p with Ok t => negb (seqtype_eqb (in_type o) t) | Err _ => false end); [split; assumption|].
  assert (W : Forall (fun kv : str * Z => 1 <= snd kv <= Z.of_nat (length (steps p ++ [o]))) (checkpoints p)).
  { eapply Forall_impl; [|exact S2]. rewrite app_length. cbn. lia. }
  destruct ck as [name|]; [|split; assumption]. destruct (dict_mem (checkpoints p) name) eqn:M; [split; assumption|].
  assert (D : forall (d : list (str * Z)) v, dict_mem d name = false -> dict_set d name v = d ++ [(name, v)]).
  { clear. induction d as [|[k x] d IH]; intros v H; [reflexivity|]. unfold dict_mem in *. cbn [dict_get dict_set app] in *.
    destruct (eqb_spec name k) as [->|N]; [discriminate|]. f_equal. now apply IH. }
  cbn [fst checkpoints steps]. rewrite D by exact M. split.
  - rewrite map_app. cbn [map snd]. clear -S1 S2. induction (checkpoints p) as [|[k v] d IH]; cbn; [repeat constructor|].
    inversion S1; subst. inversion S2; subst. constructor; [now apply IH|]. apply Forall_app. split; [assumption|].
    constructor; [|constructor]. rewrite app_length. cbn in *. lia.
  - apply Forall_app. split; [exact W|]. constructor; [|constructor]. cbn. rewrite app_length. cbn. lia.
Qed.

Theorem summary_after h name i : let p := after pipe_new h in
  In (name, i) (checkpoints p) -> In (i, repr_str P name) (checkpoints_shown (summary P p)).
Proof.
  intros p HI. destruct (after_numbers h) as [S1 S2]. fold p in S1, S2. apply summary_checkpoints. exists name. split; [reflexivity|].
  split; [|rewrite Forall_forall in S2; exact (S2 _ HI)]. clear -S1 HI. induction (checkpoints p) as [|[k v] d IH]; [contradiction|].
  inversion S1; subst. destruct HI as [[= -> ->]|HI].
  - exists [], d. split; [reflexivity|]. rewrite Forall_forall in *. intros HI.
    match goal with H : forall x, In x _ -> _ < x |- _ => specialize (H i HI); cbn in H; lia end.
  - destruct (IH HI ltac:(assumption)) as (b & a & -> & N). exists ((k, v) :: b), a. split; [reflexivity|exact N].
Qed.
Theorem summary_after_count h : let p := after pipe_new h in
  length (checkpoints_shown (summary P p)) = length (checkpoints p).
Proof.
  intros p. destruct (after_numbers h) as [S1 S2]. fold p in S1, S2.
  assert (ND : forall l : list Z, StronglySorted Z.lt l -> NoDup l).
  { induction 1 as [|a l HL IH HF]; constructor; auto. rewrite Forall_forall in HF. intros HI. specialize (HF _ HI). lia. }
  rewrite <- (map_length fst (checkpoints_shown _)), <- (map_length snd (checkpoints p)). apply Nat.le_antisymm.
  - apply NoDup_incl_length; [apply ND, summary_once|]. intros i HI. apply in_map_iff in HI. destruct HI as ([j r] & <- & HI).
    apply summary_checkpoints in HI. destruct HI as (name & _ & (b & a & Q & _) & _). rewrite Q, map_app. apply in_or_app. right. now left.
  - apply NoDup_incl_length; [apply ND, S1|]. intros i HI. apply in_map_iff in HI. destruct HI as ([name j] & <- & HI).
    apply (in_map fst _ _ (summary_after h name j HI)).
Qed.

(** *** lines *)

Lemma one_type t : one_line (type_name t).
Proof. destruct t; one_lit. Qed.
Theorem summary_lines E p : reachable E p -> Forall text (map fst (checkpoints p)) -> Forall one_line (summary P p).
Proof.
  intros HR HT. destruct (reachable_sound E p HR) as [HM _]. unfold summary.
  apply Forall_app. split; [repeat constructor; one_lit|]. apply Forall_app. split.
  - destruct (pipe_input_type p) as [t|]; [|constructor]. destruct (pipe_output_type p) as [t'|]; [|constructor].
    apply Forall_app. split; [repeat constructor; [apply one_type|one_lit]|]. apply Forall_app. split.
    + assert (HN : forall i name, dict_get (inverse_checkpoint (checkpoints p)) i = Some name -> text name).
      { intros i name HG. apply inverse_get in HG. destruct HG as (b & a & Q & _). rewrite Q, map_app, Forall_app in HT.
        destruct HT as [_ HT]. now inversion HT. }
      revert HN. generalize (inverse_checkpoint (checkpoints p)) as names. intros names HN. generalize 1 as idx. revert t.
      induction HM as [|o ops HO HM IH]; intros t idx; [constructor|]. rewrite steps_cons.
      constructor; [apply one_app; [one_lit|now apply (one_op_str P E)]|]. apply Forall_app. split; [|apply IH].
      unfold between. apply Forall_app. split.
      * destruct (seqtype_eqb _ _); repeat constructor; try one_lit. apply one_type.
      * destruct (dict_get names idx) as [name|] eqn:G; repeat constructor; try one_lit. apply one_app; [one_lit|].
        apply one_repr_str. now apply (HN idx).
    + repeat constructor; try one_lit. apply one_app; [apply one_type|]. apply one_app; [one_lit|apply one_type].
  - repeat constructor; try one_lit; (apply one_app; [one_lit|apply one_int]).
Qed.
Theorem printed_lines l m : Forall one_line l -> Forall one_line m -> printed l = printed m -> l = m.
Proof.
  intros HL. revert m. induction HL as [|x l HX HL IH]; intros m HM E; destruct HM as [|y m HY HM].
  - reflexivity.
  - exfalso. unfold printed in E. cbn in E. destruct y; discriminate.
  - exfalso. unfold printed in E. cbn in E. destruct x; discriminate.
  - unfold printed in E. cbn [flat_map] in E. rewrite <- !app_assoc in E. cbn [app] in E.
    destruct (split_at 10 _ _ _ _ HX HY E) as [-> E']. f_equal. now apply IH.
Qed.
End summaries.

(** ** Long values *)

Lemma from_end_length j s : (length (from_end j s) <= j)%nat.
Proof.
  unfold from_end, adj. rewrite skipn_length. destruct (_ <? 0) eqn:Q; [apply Z.ltb_lt in Q|apply Z.ltb_ge in Q]; lia.
Qed.
Lemma cut_length i j s : (length (cut_middle i j s) <= i + 3 + j)%nat.
Proof.
  unfold cut_middle. rewrite !app_length, firstn_length. pose proof (from_end_length j s).
  change (length (lit "...")) with 3%nat. lia.
Qed.
Theorem shown_length P : (forall s, (length (custom_repr P (JStr s)) <= 30)%nat) /\
  (forall z, (length (custom_repr P (JInt z)) <= 40)%nat).
Proof.
  split; intros x; cbn [custom_repr short]; unfold short_str, short_int; cbn zeta;
    destruct (_ <=? _)%nat eqn:Q; try (now apply Nat.leb_le); apply cut_length.
Qed.
Theorem shown_exactly P v : shown_whole P v -> custom_repr P v = repr P v.
Proof. apply custom_whole. Qed.

(** ** Edit structures and elements *)

Lemma nat_prefix a b r r' : ends r -> ends r' -> dump_nat a ++ r = dump_nat b ++ r' -> a = b /\ r = r'.
Proof. intros HR HR' E. unfold dump_nat in E. destruct (int_prefix _ _ _ _ HR HR' E) as [Q ->]. split; [lia|reflexivity]. Qed.

Theorem span_text a b : (span_str a = span_str b -> a = b) /\ (span_repr a = span_repr b -> a = b).
Proof.
  enough (G : span_str a = span_str b -> a = b).
  { split; [exact G|]. intros E. apply G. unfold span_repr in E. now apply app_inv_head in E. }
  destruct a as [s e], b as [s' e']. unfold span_str. cbn [fst snd]. intros E. apply app_inv_head in E.
  apply nat_prefix in E; [|exact I|exact I]. destruct E as [-> E1]. apply app_inv_head in E1.
  apply nat_prefix in E1; [|exact I|exact I]. destruct E1 as [-> _]. reflexivity.
Qed.

Theorem repl_text a b : repl_str a = repl_str b -> a = b.
Proof.
  destruct a as [s e v], b as [s' e' v']. unfold repl_str. cbn [r_start r_end Edit.r_new]. intros E. apply app_inv_head in E.
  apply nat_prefix in E; [|exact I|exact I]. destruct E as [-> E1]. apply app_inv_head in E1.
  apply nat_prefix in E1; [|exact I|exact I]. destruct E1 as [-> E2]. apply app_inv_head in E2. apply app_inv_tail in E2. now subst.
Qed.

Theorem intent_text a b : intent_repr a = intent_repr b -> a = b.
Proof.
  unfold intent_repr. intros E. apply app_inv_head in E. apply app_inv_tail in E.
  apply (int_prefix a b [41] [41]); [exact I|exact I|]. now rewrite E.
Qed.
