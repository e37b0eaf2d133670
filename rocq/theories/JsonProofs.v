(** Proofs about JSON: what is written is read back. *)

From Verif Require Import Py PyFacts Json SpecJson.
From Coq Require Import Decimal DecimalFacts DecimalZ.
From Coq Require Import List.
Local Open Scope Z_scope.

(** ** Induction on values *)

Section ind.
  Context (P : jval -> Prop).
  Context (HN : P JNone) (HB : forall b, P (JBool b)) (HI : forall z, P (JInt z))
    (HS : forall s, P (JStr s)).
  Context (HL : forall l, Forall P l -> P (JList l)) (HT : forall l, Forall P l -> P (JTuple l)).
  Context (HD : forall d, Forall (fun kv => P (snd kv)) d -> P (JDict d)).

  Fixpoint jval_rec' (v : jval) : P v :=
    let go := fix go (l : list jval) : Forall P l :=
      match l with [] => Forall_nil _ | x :: l => Forall_cons _ (jval_rec' x) (go l) end in
    let god := fix god (d : list (str * jval)) : Forall (fun kv => P (snd kv)) d :=
      match d with
      | [] => Forall_nil _
      | kv :: d => Forall_cons kv (jval_rec' (snd kv)) (god d)
      end in
    match v with
    | JNone => HN
    | JBool b => HB b
    | JInt z => HI z
    | JStr s => HS s
    | JList l => HL l (go l)
    | JTuple l => HT l (go l)
    | JDict d => HD d (god d)
    end.
End ind.

Lemma fold_Forall {A} (Q : A -> Prop) l : fold_right (fun v P => Q v /\ P) True l <-> Forall Q l.
Proof.
  induction l as [|x l IH]; cbn.
  - split; auto.
  - rewrite IH. split; [intros [? ?]; auto|inversion 1; auto].
Qed.

(** ** Strings *)

Lemma hex_range n : 0 <= n < 16 -> unhex (hex n) = Some n.
Proof.
  intros Hn. unfold hex, unhex.
  destruct (Z.ltb_spec n 10).
  - replace (48 <=? 48 + n) with true by (symmetry; apply Z.leb_le; lia).
    replace (48 + n <=? 57) with true by (symmetry; apply Z.leb_le; lia). cbn [andb]. f_equal. lia.
  - replace (87 + n <=? 57) with false by (symmetry; apply Z.leb_gt; lia).
    rewrite andb_false_r.
    replace (97 <=? 87 + n) with true by (symmetry; apply Z.leb_le; lia).
    replace (87 + n <=? 102) with true by (symmetry; apply Z.leb_le; lia). cbn [andb]. f_equal. lia.
Qed.

Lemma escape_len c : (1 <= length (escape c))%nat.
Proof. unfold escape. repeat (destruct (_ : bool); [cbn; lia|]). cbn; lia. Qed.

Lemma parse_char c f s acc :
  0 <= c -> parse_str (S f) (escape c ++ s) acc = parse_str f s (acc ++ [c]).
Proof.
  intros Hc. unfold escape.
  destruct (Z.eqb_spec c QUOTE) as [->|N1]; [reflexivity|].
  destruct (Z.eqb_spec c BACKSLASH) as [->|N2]; [reflexivity|].
  destruct (Z.eqb_spec c 10) as [->|N3]; [reflexivity|].
  destruct (Z.eqb_spec c 13) as [->|N4]; [reflexivity|].
  destruct (Z.eqb_spec c 9) as [->|N5]; [reflexivity|].
  destruct (Z.eqb_spec c 12) as [->|N6]; [reflexivity|].
  destruct (Z.eqb_spec c 8) as [->|N7]; [reflexivity|].
  destruct (Z.ltb_spec c 32) as [L|L].
  - change ([BACKSLASH; 117; 48; 48; hex (c / 16); hex (c mod 16)] ++ s)
      with (BACKSLASH :: 117 :: 48 :: 48 :: hex (c / 16) :: hex (c mod 16) :: s).
    assert (forall r, parse_str (S f) (BACKSLASH :: 117 :: r) acc
              = match parse_u r with Some (x, t) => parse_str f t (acc ++ [x]) | None => None end)
      as -> by reflexivity.
    unfold parse_u, unhex4.
    assert (c / 16 = 0 \/ c / 16 = 1) as H16.
    { assert (0 <= c / 16) by (apply Z.div_pos; lia).
      assert (c / 16 < 2) by (apply Z.div_lt_upper_bound; lia). lia. }
    assert (0 <= c mod 16 < 16) as M by (apply Z.mod_pos_bound; lia).
    rewrite (hex_range (c / 16)) by lia. rewrite (hex_range (c mod 16)) by lia.
    change (unhex 48) with (Some 0). cbv iota beta.
    replace ((0 * 16 + 0) * 16 + c / 16) with (c / 16) by lia.
    assert (c / 16 * 16 + c mod 16 = c) as -> by (rewrite (Z.div_mod c 16) at 3; lia).
    replace (55296 <=? c) with false by (symmetry; apply Z.leb_gt; lia). reflexivity.
  - cbn [app parse_str].
    replace (c =? QUOTE) with false by (symmetry; apply Z.eqb_neq; auto).
    replace (c =? BACKSLASH) with false by (symmetry; apply Z.eqb_neq; auto).
    replace (c <? 32) with false by (symmetry; apply Z.ltb_ge; lia). reflexivity.
Qed.

Lemma parse_dump_str s : text s -> forall f rest acc,
  (length (flat_map escape s) < f)%nat ->
  parse_str f (flat_map escape s ++ QUOTE :: rest) acc = Some (acc ++ s, rest).
Proof.
  induction 1 as [|c s Hc Hs IH]; intros f rest acc Hf.
  - destruct f; [cbn in Hf; lia|]. cbn. now rewrite app_nil_r.
  - cbn [flat_map] in *. rewrite app_length in Hf. pose proof (escape_len c).
    destruct f; [lia|]. rewrite <- app_assoc, parse_char by auto.
    rewrite IH by lia. rewrite <- app_assoc. reflexivity.
Qed.

(** ** Integers *)

Definition not_digit (s : str) : Prop :=
  match s with [] => True | c :: _ => c < 48 \/ 57 < c end.

Lemma parse_not_digit s : not_digit s -> parse_uint s = (Nil, s).
Proof.
  destruct s as [|c s]; [reflexivity|]. cbn. intros H.
  destruct (parse_uint s) as [u r].
  repeat (match goal with |- context [?a =? ?b] => destruct (Z.eqb_spec a b); [lia|] end).
  reflexivity.
Qed.

Lemma parse_dump_uint u rest : not_digit rest -> parse_uint (dump_uint u ++ rest) = (u, rest).
Proof.
  intros H. induction u; cbn [dump_uint app parse_uint]; try (rewrite IHu; reflexivity).
  now apply parse_not_digit.
Qed.

(** no leading zero, and not empty *)
Definition canonical (u : uint) : Prop :=
  match u with Nil => False | D0 Nil => True | D0 _ => False | _ => True end.

Lemma unorm_canonical u : canonical (unorm u).
Proof.
  unfold unorm. destruct (nzhead u) eqn:E; cbn; auto.
  exfalso. revert E. clear. induction u; cbn; try discriminate; auto.
Qed.

Lemma to_int_canonical z :
  match Z.to_int z with Pos u => canonical u | Neg u => canonical u end.
Proof.
  destruct z as [|p|p]; cbn.
  - exact I.
  - assert (Z.to_int (Z.of_int (Z.to_int (Zpos p))) = norm (Z.to_int (Zpos p))) as H by apply to_of.
    rewrite of_to in H. cbn in H. injection H as H. rewrite H. apply unorm_canonical.
  - assert (Z.to_int (Z.of_int (Z.to_int (Zneg p))) = norm (Z.to_int (Zneg p))) as H by apply to_of.
    rewrite of_to in H. cbn in H.
    destruct (nzhead (Pos.to_uint p)) eqn:E; try discriminate; injection H as H; rewrite H; exact I || cbn.
    all: try exact I.
    all: exfalso; revert E; clear; generalize (Pos.to_uint p); intros v; induction v; cbn; try discriminate; auto.
Qed.

Lemma parse_nat_ok u rest :
  canonical u -> not_digit rest -> parse_nat (dump_uint u ++ rest) = Some (u, rest).
Proof.
  intros C H. unfold parse_nat.
  destruct u; cbn [canonical] in C; try contradiction;
    try (rewrite parse_dump_uint by auto; reflexivity).
  destruct u; try contradiction. reflexivity.
Qed.

(** what follows a value inside the output *)
Definition stops (s : str) : Prop :=
  match s with [] => True | c :: _ => c = 10 \/ c = 44 \/ c = 93 \/ c = 125 end.

Lemma stops_not_digit s : stops s -> not_digit s.
Proof. destruct s; cbn; lia. Qed.
Lemma stops_no_fraction s : stops s -> no_fraction s = true.
Proof. destruct s as [|c s]; cbn; [reflexivity|]. intros [-> | [-> | [-> | ->]]]; reflexivity. Qed.

Lemma parse_dump_int z rest : stops rest -> parse_int (dump_int z ++ rest) = Some (z, rest).
Proof.
  intros H. pose proof (stops_not_digit _ H) as D. pose proof (stops_no_fraction _ H) as F.
  pose proof (to_int_canonical z) as C. pose proof (of_to z) as Z0.
  unfold dump_int, parse_int. destruct (Z.to_int z) as [u|u].
  - assert (exists c t, dump_uint u = c :: t /\ c <> 45) as (c & t & Eu & Nc).
    { destruct u; cbn in C; try contradiction; eexists _, _; (split; [reflexivity|discriminate]). }
    assert (parse_nat (dump_uint u ++ rest) = Some (u, rest)) as P by now apply parse_nat_ok.
    rewrite Eu in *. cbn [app] in *. rewrite P, F.
    replace (Z.of_int (Pos u)) with z by auto.
    destruct c as [|p|p]; try reflexivity.
    do 6 (destruct p as [p|p|]; try reflexivity; try (exfalso; apply Nc; reflexivity)).
  - cbn [app]. rewrite parse_nat_ok by auto. rewrite F.
    replace (Z.of_int (Neg u)) with z by auto. reflexivity.
Qed.

(** ** Values *)

(** a character that can start a value *)
Definition opens (c : Z) : Prop := is_ws c = false /\ c <> 93 /\ c <> 125.

Lemma dump_int_head z : exists c t, dump_int z = c :: t /\ opens c /\
  (c =? QUOTE) = false /\ (c =? 91) = false /\ (c =? 123) = false /\ (c =? 110) = false /\
  (c =? 116) = false /\ (c =? 102) = false.
Proof.
  pose proof (to_int_canonical z) as C. unfold dump_int, opens. destruct (Z.to_int z) as [u|u].
  - destruct u; cbn in C; try contradiction; eexists _, _; (split; [reflexivity|]);
      repeat split; try discriminate.
  - eexists _, _. split; [reflexivity|]. repeat split; discriminate.
Qed.

Lemma dumps_head ind v : exists c t, dumps ind v = c :: t /\ opens c.
Proof.
  unfold opens.
  destruct v as [|[]|z|s|[|]|[|]|[|]];
    try (eexists _, _; split; [reflexivity|]; repeat split; discriminate).
  destruct (dump_int_head z) as (c & t & E & O & _). exists c, t. auto.
Qed.

Lemma skip_newline ind s : skip_ws (newline ind ++ s) = skip_ws s.
Proof. unfold newline. cbn [app skip_ws is_ws]. change (is_ws 10) with true. cbv iota.
  induction (2 * ind)%nat; auto. Qed.

Lemma skip_opens c s : is_ws c = false -> skip_ws (c :: s) = c :: s.
Proof. cbn. now intros ->. Qed.

Lemma stops_newline ind s : stops (newline ind ++ s).
Proof. cbn. auto. Qed.

Lemma match_bracket {A} (c : Z) (k : str) (x y : str -> A) :
  c <> 93 -> match c :: k with 93 :: r => x r | t => y t end = y (c :: k).
Proof.
  intros H. destruct c as [|p|p]; try reflexivity.
  do 7 (destruct p as [p|p|]; try reflexivity; try (exfalso; apply H; reflexivity)).
Qed.

Definition reads (v : jval) : Prop := forall ind f rest,
  stops rest -> (2 * length (dumps ind v) + 1 <= f)%nat ->
  parse_value f (dumps ind v ++ rest) = Some (as_json v, rest).

(** the elements of a list after the bracket and white space *)
Definition elems (ind : nat) (v : jval) (l : list jval) : str :=
  dumps ind v ++ flat_map (fun y => 44 :: newline ind ++ y) (map (dumps ind) l).

Lemma reads_elems l : forall v, Forall reads (v :: l) -> forall i ind f rest,
  (2 * length (elems ind v l) + 2 <= f)%nat ->
  parse_elems f (elems ind v l ++ newline i ++ 93 :: rest) = Some (map as_json (v :: l), rest).
Proof.
  induction l as [|w l IH]; intros v F i ind f rest Hf; inversion F as [|v' l' Rv Rl]; subst.
  - unfold elems in *. cbn [map flat_map] in *. rewrite app_nil_r in *.
    destruct f as [|f]; [lia|]. cbn [parse_elems]. rewrite Rv by (auto using stops_newline; lia).
    rewrite skip_newline. reflexivity.
  - destruct f as [|f]; [lia|]. cbn [parse_elems].
    assert (elems ind v (w :: l) = dumps ind v ++ 44 :: newline ind ++ elems ind w l) as E.
    { unfold elems. cbn [map flat_map app]. now rewrite <- !app_assoc. }
    rewrite E in *. rewrite !app_length in Hf. cbn [length] in Hf. rewrite app_length in Hf.
    rewrite <- app_assoc.
    rewrite Rv; [|cbn; auto|lia]. cbn [app skip_ws]. change (is_ws 44) with false. cbv iota.
    rewrite <- app_assoc, skip_newline.
    destruct (dumps_head ind w) as (c & t & Ec & O & _).
    unfold elems at 1. rewrite Ec. cbn [app]. rewrite skip_opens by auto.
    change (c :: (t ++ ?x) ++ ?y) with (((c :: t) ++ x) ++ y). rewrite <- Ec. fold (elems ind w l).
    rewrite IH by (auto; lia). reflexivity.
Qed.

Definition member (ind : nat) (kv : str * jval) : str :=
  dump_str (fst kv) ++ [58; 32] ++ dumps ind (snd kv).
Definition members (ind : nat) (kv : str * jval) (d : list (str * jval)) : str :=
  member ind kv ++ flat_map (fun y => 44 :: newline ind ++ y) (map (member ind) d).

Lemma dict_set_new {V} (d : list (str * V)) k v :
  ~ In k (map fst d) -> dict_set d k v = d ++ [(k, v)].
Proof.
  induction d as [|[k' v'] d IH]; cbn [dict_set map fst In app]; intros H; [reflexivity|].
  destruct (eqb_spec k k') as [->|]; [exfalso; auto|]. rewrite IH by tauto. reflexivity.
Qed.

Definition seen (kv : str * jval) : str * jval := (fst kv, as_json (snd kv)).

Lemma reads_members d : forall kv, Forall (fun kv => text (fst kv) /\ reads (snd kv)) (kv :: d) ->
  forall i ind f rest acc,
  NoDup (map fst (acc ++ kv :: d)) ->
  (2 * length (members ind kv d) + 2 <= f)%nat ->
  parse_members f (members ind kv d ++ newline i ++ 125 :: rest) acc
  = Some (acc ++ map seen (kv :: d), rest).
Proof.
  induction d as [|kw d IH]; intros [k v] F i ind f rest acc ND Hf; inversion F as [|? ? [Tk Rv] Rl]; subst.
  - unfold members, member in *. cbn [map flat_map fst snd] in *. rewrite app_nil_r in *.
    cbn [fst snd] in *. unfold dump_str in *.
    rewrite ?app_length in Hf; cbn [app length] in Hf; rewrite ?app_length in Hf; cbn [length] in Hf.
    destruct f as [|f]; [lia|]. cbn [app parse_members]. unfold QUOTE at 1.
    rewrite <- !app_assoc. cbn [app]. rewrite parse_dump_str by (auto; lia). cbn [app skip_ws].
    change (is_ws 58) with false. cbv iota. cbn [skip_ws]. change (is_ws 32) with true. cbv iota.
    destruct (dumps_head ind v) as (c & t & Ec & O & _).
    assert (skip_ws (dumps ind v ++ newline i ++ 125 :: rest) = dumps ind v ++ newline i ++ 125 :: rest) as ->.
    { rewrite Ec. cbn [app]. now apply skip_opens. }
    rewrite Rv by (auto using stops_newline; lia). rewrite skip_newline. cbn [skip_ws].
    change (is_ws 125) with false. cbv iota. rewrite dict_set_new; [reflexivity|].
    rewrite map_app in ND. cbn in ND. apply NoDup_remove_2 in ND. now rewrite app_nil_r in ND.
  - assert (members ind (k, v) (kw :: d) = member ind (k, v) ++ 44 :: newline ind ++ members ind kw d) as E.
    { unfold members. cbn [map flat_map app]. now rewrite <- !app_assoc. }
    rewrite E in *. rewrite !app_length in Hf. cbn [length] in Hf. rewrite app_length in Hf.
    unfold member in *. cbn [fst snd] in *. unfold dump_str in *.
    rewrite ?app_length in Hf; cbn [app length] in Hf; rewrite ?app_length in Hf; cbn [length] in Hf.
    destruct f as [|f]; [lia|]. cbn [app parse_members]. unfold QUOTE at 1.
    rewrite <- !app_assoc. cbn [app]. rewrite <- !app_assoc.
    rewrite parse_dump_str by (auto; lia). cbn [app skip_ws].
    change (is_ws 58) with false. cbv iota. cbn [skip_ws]. change (is_ws 32) with true. cbv iota.
    destruct (dumps_head ind v) as (c & t & Ec & O & _).
    match goal with |- context [skip_ws (dumps ind v ++ ?x)] =>
      assert (skip_ws (dumps ind v ++ x) = dumps ind v ++ x) as -> end.
    { rewrite Ec. cbn [app]. now apply skip_opens. }
    rewrite Rv by (cbn; auto; lia). cbn [app skip_ws].
    change (is_ws 44) with false. cbv iota. rewrite <- ?app_assoc, skip_newline.
    assert (forall x, skip_ws (members ind kw d ++ x) = members ind kw d ++ x) as ->.
    { intros x. unfold members, member, dump_str. cbn [app]. now apply skip_opens. }
    rewrite dict_set_new.
    2:{ rewrite map_app in ND. cbn in ND. apply NoDup_remove_2 in ND. rewrite in_app_iff in ND. tauto. }
    rewrite IH; [|auto| |lia].
    + rewrite <- app_assoc. reflexivity.
    + rewrite <- app_assoc. cbn [app]. rewrite map_app in *. exact ND.
Qed.

Lemma commas_head ind x l : with_commas ind (x :: l) = newline ind ++ x ++ flat_map (fun y => 44 :: newline ind ++ y) l.
Proof. reflexivity. Qed.

Lemma reads_list l : Forall reads l -> forall ind f rest,
  (2 * length (dumps ind (JList l)) + 1 <= f)%nat ->
  parse_value f (dumps ind (JList l) ++ rest) = Some (JList (map as_json l), rest).
Proof.
  intros R ind f rest Hf. destruct f as [|f]; [lia|].
  destruct l as [|v l]; [reflexivity|].
  cbn [dumps] in *. cbn [app length] in *.
  cbn [parse_value]. change (91 =? QUOTE) with false. change (91 =? 91) with true. cbv iota.
  rewrite !app_length in Hf. cbn [length] in Hf.
  cbn [map] in *. rewrite commas_head in *. rewrite app_length in Hf.
  fold (elems (S ind) v l) in *.
  rewrite <- !app_assoc, skip_newline.
  pose proof (reads_elems l v R ind (S ind) f rest ltac:(lia)) as P. cbn [app].
  destruct (dumps_head (S ind) v) as (c & t & Ec & O & O1 & _).
  unfold elems in P |- *. rewrite Ec in *. cbn [app] in P |- *. rewrite skip_opens by auto.
  etransitivity; [apply (match_bracket c _ (fun r => Some (JList [], r))
    (fun t => match parse_elems f t with Some (l, r) => Some (JList l, r) | None => None end)); auto|].
  cbv beta.
  rewrite P. reflexivity.
Qed.

Lemma reads_all v : value v -> reads v.
Proof.
  induction v as [ |b|z|s|l IH|l IH|d IH] using jval_rec'; intros W; intros ind f rest St Hf.
  - destruct f; [lia|]. reflexivity.
  - destruct f; [lia|]. destruct b; reflexivity.
  - destruct f; [lia|]. cbn [dumps] in *.
    destruct (dump_int_head z) as (c & t & E & O & N1 & N2 & N3 & N4 & N5 & N6).
    pose proof (parse_dump_int z rest St) as P. rewrite E in *. cbn [app] in *.
    cbn [parse_value]. rewrite N1, N2, N3, N4, N5, N6. rewrite P. reflexivity.
  - destruct f; [lia|]. cbn [dumps value] in *. unfold dump_str in *. cbn [app parse_value].
    change (QUOTE =? QUOTE) with true. cbv iota. cbn [length] in Hf. rewrite app_length in Hf. cbn [length] in Hf.
    rewrite <- app_assoc. cbn [app]. rewrite parse_dump_str by (auto; lia). reflexivity.
  - apply reads_list; auto. cbn [value] in W. rewrite fold_Forall in W.
    rewrite Forall_forall in *. auto.
  - change (dumps ind (JTuple l)) with (dumps ind (JList l)) in *. cbn [as_json].
    apply reads_list; auto. cbn [value] in W. rewrite fold_Forall in W.
    rewrite Forall_forall in *. auto.
  - destruct f as [|f]; [lia|]. destruct d as [|kv d]; [reflexivity|].
    cbn [value] in W. destruct W as [ND W]. rewrite fold_Forall in W.
    cbn [dumps] in *. cbn [app length] in *.
    cbn [parse_value]. change (123 =? QUOTE) with false. change (123 =? 91) with false.
    change (123 =? 123) with true. cbv iota.
    rewrite !app_length in Hf. cbn [length] in Hf.
    cbn [map] in *. rewrite commas_head in *. rewrite app_length in Hf.
    change (map _ d) with (map (member (S ind)) d) in Hf.
    change (dump_str (fst kv) ++ _) with (member (S ind) kv) in Hf.
    change (map (fun kv => dump_str (fst kv) ++ 58 :: 32 :: dumps (S ind) (snd kv)) d)
      with (map (member (S ind)) d).
    change (dump_str (fst kv) ++ 58 :: 32 :: dumps (S ind) (snd kv)) with (member (S ind) kv).
    fold (members (S ind) kv d) in *.
    rewrite <- !app_assoc, skip_newline.
    assert (Forall (fun kv => text (fst kv) /\ reads (snd kv)) (kv :: d)) as R.
    { rewrite Forall_forall in *. intros x Hx. specialize (W x Hx). specialize (IH x Hx). tauto. }
    pose proof (reads_members d kv R ind (S ind) f rest [] ND ltac:(lia)) as P. cbn [app].
    unfold members, member, dump_str in P |- *. cbn [app] in P |- *.
    rewrite skip_opens by reflexivity. unfold QUOTE at 1. unfold QUOTE at 1 in P.
    rewrite P. reflexivity.
Qed.

Theorem loads_dumps ind v : value v -> loads (dumps ind v) = Ok (as_json v).
Proof.
  intros W. unfold loads. destruct (dumps_head ind v) as (c & t & Ec & O & _).
  assert (skip_ws (dumps ind v) = dumps ind v) as -> by (rewrite Ec; now apply skip_opens).
  pose proof (reads_all v W ind (2 * length (dumps ind v) + 2)%nat [] I ltac:(lia)) as P.
  rewrite app_nil_r in P. rewrite P. reflexivity.
Qed.

Lemma as_json_same v : no_tuple v -> as_json v = v.
Proof.
  induction v as [ |b|z|s|l IH|l IH|d IH] using jval_rec'; intros W; cbn in *; auto; try tauto.
  - f_equal. rewrite fold_Forall in W. rewrite <- (map_id l) at 2. apply map_ext_in. intros x Hx.
    rewrite Forall_forall in *. auto.
  - f_equal. rewrite (fold_Forall (fun kv => no_tuple (snd kv))) in W. rewrite <- (map_id d) at 2.
    apply map_ext_in. intros [k x] Hx. cbn. f_equal.
    rewrite Forall_forall in *. exact (IH _ Hx (W _ Hx)).
Qed.

Lemma as_json_no_tuple v : no_tuple (as_json v).
Proof.
  induction v as [ |b|z|s|l IH|l IH|d IH] using jval_rec'; cbn; auto.
  - rewrite fold_Forall. rewrite Forall_map. exact IH.
  - rewrite fold_Forall. rewrite Forall_map. exact IH.
  - rewrite (fold_Forall (fun kv => no_tuple (snd kv))). rewrite Forall_map. exact IH.
Qed.

Lemma as_json_idem v : as_json (as_json v) = as_json v.
Proof. apply as_json_same, as_json_no_tuple. Qed.

Lemma as_json_value v : value v -> value (as_json v).
Proof.
  induction v as [ |b|z|s|l IH|l IH|d IH] using jval_rec'; cbn [as_json value]; auto.
  - rewrite !fold_Forall, Forall_map. rewrite !Forall_forall in *. auto.
  - rewrite !fold_Forall, Forall_map. rewrite !Forall_forall in *. auto.
  - rewrite !fold_Forall, Forall_map. intros [ND W]. split.
    + rewrite map_map. exact ND.
    + rewrite !Forall_forall in *. intros x Hx. destruct (W x Hx). cbn [fst snd]. split; [assumption|now apply IH].
Qed.

(** Concretely. *)
Example dumps_example :
  loads (dumps 0 (JDict [([97], JList [JInt (-120); JBool true; JNone]); ([34; 10; 31], JTuple [JStr [29256]])]))
  = Ok (JDict [([97], JList [JInt (-120); JBool true; JNone]); ([34; 10; 31], JList [JStr [29256]])]).
Proof. vm_compute. reflexivity. Qed.
