(** Proofs about the text of a Datum. *)

From Coq Require Import String.
From Verif Require Import Py PyFacts Edit Ops Json JsonAscii Elements Pipe TextForms SpecText TextProofs DatumText SpecDatumText.
From Coq Require Import List Lia.
Local Open Scope Z_scope.

Lemma commas_joined l : commas l = joined (lit ", ") l.
Proof.
  unfold commas. destruct l as [|x l]; [reflexivity|]. revert x. induction l as [|y l IH]; intros x.
  - cbn. apply app_nil_r.
  - change (joined (lit ", ") (x :: y :: l)) with (x ++ lit ", " ++ joined (lit ", ") (y :: l)). rewrite <- IH. reflexivity.
Qed.

Lemma format_joined d l : l <> [] -> format_items 1 d l = d ++ joined (lit "," ++ [10; 32]) l.
Proof.
  revert d. induction l as [|x l IH]; [congruence|]. intros d _. cbn [format_items]. destruct l as [|y l].
  - cbn. now rewrite app_nil_r.
  - rewrite IH by discriminate. change (joined (lit "," ++ [10; 32]) (x :: y :: l)) with
      (x ++ (lit "," ++ [10; 32]) ++ joined (lit "," ++ [10; 32]) (y :: l)). reflexivity.
Qed.

Lemma pformat_shows l : lists_items l (pformat l).
Proof.
  unfold pformat, format_list, lists_items, safe_repr. rewrite commas_joined. fold (on_one_line l).
  change (80 - 0 - 0)%nat with 80%nat. destruct (Nat.ltb_spec 80 (length (on_one_line l))) as [H|H].
  - right. split; [exact H|]. unfold line_by_line. f_equal. f_equal. change (0 + 1)%nat with 1%nat. rewrite format_joined; [reflexivity|].
    intros ->. cbn in H. lia.
  - left. split; [lia|reflexivity].
Qed.

Theorem datum_layout d : exists ints ents,
  datum_repr d = lit "<Datum " ++ d_utterance d ++ [10] ++ lit " with intents: " ++ ints ++ [10] ++ lit " with entities:" ++ [10] ++
                 ents ++ lit ">" /\
  lists_items (map intent_repr (d_intents d)) ints /\ lists_items (map entity_repr (d_entities d)) ents.
Proof. do 2 eexists. split; [reflexivity|]. split; apply pformat_shows. Qed.

(** ** Reading the text *)

Lemma int_chars z : Forall (fun c => c = 45 \/ 48 <= c <= 57) (dump_int z).
Proof.
  unfold dump_int. destruct (Z.to_int z) as [u|u].
  - eapply Forall_impl; [|apply uint_digits]. intros c Hc; cbv beta in *; lia.
  - constructor; [auto|]. eapply Forall_impl; [|apply uint_digits]. intros c Hc; cbv beta in *; lia.
Qed.
Lemma int_absent c z : c <> 45 -> ~ 48 <= c <= 57 -> ~ In c (dump_int z).
Proof. intros A B H. pose proof (int_chars z) as F. rewrite Forall_forall in F. specialize (F _ H). lia. Qed.
Lemma int_same a b : dump_int a = dump_int b -> a = b.
Proof. intros E. apply (int_prefix a b [41] [41]); [exact I|exact I|]. now rewrite E. Qed.

(** a text that is read without knowing where it ends *)
Definition readable {A} (P : A -> Prop) (f : A -> str) : Prop :=
  forall a b x y, P a -> P b -> f a ++ x = f b ++ y -> a = b /\ x = y.

Lemma intent_readable : readable (fun _ => True) intent_repr.
Proof.
  intros a b x y _ _ E. unfold intent_repr in E. rewrite <- !app_assoc in E. apply app_inv_head in E.
  apply (split_at 62) in E; [|apply int_absent; lia|apply int_absent; lia]. destruct E as [E ->]. split; [now apply int_same|reflexivity].
Qed.

(** splitting at the last occurrence *)
Lemma split_last (c : Z) k k' r r' : ~ In c r -> ~ In c r' -> k ++ c :: r = k' ++ c :: r' -> k = k' /\ r = r'.
Proof.
  intros H H' E. apply (f_equal (@rev Z)) in E. rewrite !rev_app_distr in E. cbn [rev] in E. rewrite <- !app_assoc in E. cbn [app] in E.
  apply split_at in E; [|now rewrite <- in_rev|now rewrite <- in_rev].
  destruct E as [A B]. apply (f_equal (@rev Z)) in A, B. rewrite !rev_involutive in A, B. auto.
Qed.

(** what stands between the colon and the first comma *)
Definition core (e : entity) : str := e_value e ++ lit " at " ++ dump_int (e_start e) ++ lit " - " ++ dump_int (e_end e).

Lemma core_read a b : core a = core b -> e_value a = e_value b /\ e_start a = e_start b /\ e_end a = e_end b.
Proof.
  unfold core. intros E.
  assert (S : forall e, e_value e ++ lit " at " ++ dump_int (e_start e) ++ lit " - " ++ dump_int (e_end e) =
    (e_value e ++ lit " at " ++ dump_int (e_start e) ++ lit " -") ++ 32 :: dump_int (e_end e)).
  { intros e. now rewrite <- !app_assoc. }
  rewrite !S in E. apply split_last in E; [|apply int_absent; lia|apply int_absent; lia]. destruct E as [E En].
  assert (S2 : forall e, e_value e ++ lit " at " ++ dump_int (e_start e) ++ lit " -" =
    (e_value e ++ lit " at " ++ dump_int (e_start e)) ++ 32 :: lit "-").
  { intros e. now rewrite <- !app_assoc. }
  rewrite !S2 in E. apply split_last in E; [|cbn; lia|cbn; lia]. destruct E as [E _].
  assert (S3 : forall e, e_value e ++ lit " at " ++ dump_int (e_start e) = (e_value e ++ lit " at") ++ 32 :: dump_int (e_start e)).
  { intros e. now rewrite <- !app_assoc. }
  rewrite !S3 in E. apply split_last in E; [|apply int_absent; lia|apply int_absent; lia]. destruct E as [E St].
  apply app_inv_tail in E. split; [exact E|]. split; now apply int_same.
Qed.

Lemma core_comma e : ~ In 44 (e_value e) -> ~ In 44 (core e).
Proof.
  intros H. unfold core. rewrite !in_app_iff. intros [X|[X|[X|[X|X]]]]; [auto|cbn in X; lia| |cbn in X; lia|];
    revert X; apply int_absent; lia.
Qed.

Definition plain_text (r : str) : Prop := r <> [] /\ ~ In 44 r /\ ~ In 62 r.

Lemma commas_absent c l : c <> 44 -> c <> 32 -> Forall (fun r => ~ In c r) l -> ~ In c (commas l).
Proof.
  intros A B F H. destruct l as [|x l]; [exact H|]. inversion F as [|? ? F1 F2]; subst. cbn [commas] in H. apply in_app_iff in H.
  destruct H as [H|H]; [auto|]. apply in_flat_map in H. destruct H as (r & R & H). rewrite Forall_forall in F2.
  destruct H as [H|[H|H]]; [lia|lia|]. exact (F2 _ R H).
Qed.

Lemma commas_read l m : Forall plain_text l -> Forall plain_text m -> commas l = commas m -> l = m.
Proof.
  assert (G : forall l m x y, Forall plain_text (x :: l) -> Forall plain_text (y :: m) -> commas (x :: l) = commas (y :: m) -> x :: l = y :: m).
  { clear. induction l as [|a l IH]; intros [|b m] x y HL HM E; inversion HL as [|? ? (X1 & X2 & X3) HL']; inversion HM as [|? ? (Y1 & Y2 & Y3) HM']; subst; cbn [commas flat_map] in E.
    - rewrite !app_nil_r in E. now subst.
    - rewrite app_nil_r in E. exfalso. apply X2. rewrite E. apply in_app_iff. right. left. reflexivity.
    - rewrite app_nil_r in E. exfalso. apply Y2. rewrite <- E. apply in_app_iff. right. left. reflexivity.
    - cbn [app] in E. apply split_at in E; [|assumption|assumption]. destruct E as [-> E]. injection E as E. f_equal. apply IH; auto. }
  intros HL HM E. destruct l as [|x l], m as [|y m]; [reflexivity| | |now apply G].
  - inversion HM as [|? ? (Y1 & _) _]; subst. cbn in E. destruct y; [congruence|discriminate].
  - inversion HL as [|? ? (X1 & _) _]; subst. cbn in E. destruct x; [congruence|discriminate].
Qed.

Lemma entity_readable : readable plain_entity entity_repr.
Proof.
  intros a b x y (A1 & A2) (B1 & B2) E.
  assert (S : forall e z, entity_repr e ++ z = lit "<Entity " ++ dump_int (e_label e) ++ 58 :: 32 ::
    core e ++ 44 :: lit " with replacements: " ++ commas (e_replacements e) ++ 62 :: z).
  { intros e z. unfold entity_repr, core. rewrite <- !app_assoc. reflexivity. }
  rewrite !S in E. apply app_inv_head in E.
  apply split_at in E; [|apply int_absent; lia|apply int_absent; lia]. destruct E as [EL E]. apply int_same in EL. injection E as E.
  apply split_at in E; [|now apply core_comma|now apply core_comma]. destruct E as [EC E]. apply core_read in EC. destruct EC as (EV & ES & EE).
  change (lit " with replacements: " ++ commas (e_replacements a) ++ 62 :: x = lit " with replacements: " ++ commas (e_replacements b) ++ 62 :: y) in E.
  apply app_inv_head in E.
  apply split_at in E.
  2, 3: apply commas_absent; [lia|lia|]; eapply Forall_impl; [|eassumption]; intros r (_ & _ & R); exact R.
  destruct E as [ER EX]. apply commas_read in ER; [|exact A2|exact B2].
  split; [|exact EX]. destruct a, b; cbn in *. now subst.
Qed.

(** lists in brackets *)
Definition separator (sep : str) : Prop := sep = lit ", " \/ sep = lit "," ++ [10; 32].

Lemma list_read {A} (P : A -> Prop) (f : A -> str) : readable P f -> (forall a, exists t, f a = 60 :: t) ->
  forall l m sep sep' x y, separator sep -> separator sep' -> Forall P l -> Forall P m ->
  joined sep (map f l) ++ 93 :: x = joined sep' (map f m) ++ 93 :: y -> l = m /\ x = y.
Proof.
  intros R HF. induction l as [|a l IH]; intros m sep sep' x y HS HS' HL HM E.
  - destruct m as [|b m]; [cbn in E; injection E as ->; auto|]. exfalso. destruct (HF b) as (t & T). destruct m as [|b' m]; cbn in E; rewrite T in E; discriminate.
  - inversion HL; subst. destruct m as [|b m].
    { exfalso. destruct (HF a) as (t & T). destruct l as [|a' l]; cbn in E; rewrite T in E; discriminate. }
    inversion HM; subst.
    assert (S : forall s (c : A) k z, joined s (map f (c :: k)) ++ 93 :: z =
      f c ++ match k with [] => 93 :: z | _ => s ++ joined s (map f k) ++ 93 :: z end).
    { intros s c [|d k] z; [reflexivity|]. cbn [map]. change (joined s (f c :: f d :: map f k)) with (f c ++ s ++ joined s (f d :: map f k)).
      now rewrite <- !app_assoc. }
    rewrite !S in E. apply R in E; [|assumption|assumption]. destruct E as [-> E].
    destruct l as [|a' l], m as [|b' m].
    + injection E as ->. auto.
    + exfalso. destruct HS' as [->| ->]; discriminate.
    + exfalso. destruct HS as [->| ->]; discriminate.
    + assert (Q : sep = sep').
      { destruct HS as [->| ->], HS' as [->| ->]; try reflexivity; discriminate. }
      subst sep'. apply app_inv_head in E. apply IH in E; auto. destruct E as [-> ->]. auto.
Qed.

Lemma shows_read {A} (P : A -> Prop) (f : A -> str) : readable P f -> (forall a, exists t, f a = 60 :: t) ->
  forall l m x y, Forall P l -> Forall P m -> pformat (map f l) ++ x = pformat (map f m) ++ y -> l = m /\ x = y.
Proof.
  intros R HF l m x y HL HM E.
  assert (G : forall k z, exists sep, separator sep /\ pformat (map f k) ++ z = 91 :: joined sep (map f k) ++ 93 :: z).
  { intros k z. destruct (pformat_shows (map f k)) as [[_ ->]|[_ ->]]; [exists (lit ", ")|exists (lit "," ++ [10; 32])]; (split; [unfold separator; auto|]);
      unfold on_one_line, line_by_line; rewrite <- !app_assoc; reflexivity. }
  destruct (G l x) as (s & HS & E1), (G m y) as (s' & HS' & E2). rewrite E1, E2 in E. injection E as E.
  exact (list_read P f R HF l m s s' x y HS HS' HL HM E).
Qed.

Theorem datum_text_injective d d' : plain_datum d -> plain_datum d' -> datum_repr d = datum_repr d' -> d = d'.
Proof.
  destruct d as [u i e], d' as [u' i' e']. unfold plain_datum, datum_repr. cbn [d_utterance d_intents d_entities].
  intros (U & P) (U' & P') E. apply app_inv_head in E. apply split_at in E; [|exact U|exact U']. destruct E as [-> E].
  apply app_inv_head in E. apply (shows_read (fun _ => True)) in E;
    [|apply intent_readable|intros a; eexists; reflexivity|apply Forall_forall; auto|apply Forall_forall; auto].
  destruct E as [-> E]. do 2 apply app_inv_head in E. apply app_inv_head in E.
  apply (shows_read plain_entity) in E; [|apply entity_readable|intros a; eexists; reflexivity|exact P|exact P'].
  destruct E as [-> _]. reflexivity.
Qed.

Theorem datum_text_intents d d' : d_utterance d = d_utterance d' -> datum_repr d = datum_repr d' -> d_intents d = d_intents d'.
Proof.
  destruct d as [u i e], d' as [u' i' e']. unfold datum_repr. cbn [d_utterance d_intents d_entities]. intros <- E.
  do 4 apply app_inv_head in E. apply (shows_read (fun _ => True)) in E;
    [|apply intent_readable|intros a; eexists; reflexivity|apply Forall_forall; auto|apply Forall_forall; auto]. tauto.
Qed.

(** ** How many intents fit on a line *)

Lemma one_digit l : 0 <= l <= 9 -> length (intent_repr l) = 10%nat.
Proof. intros H. assert (l = 0 \/ l = 1 \/ l = 2 \/ l = 3 \/ l = 4 \/ l = 5 \/ l = 6 \/ l = 7 \/ l = 8 \/ l = 9) as Q by lia. repeat (destruct Q as [->|Q]; [reflexivity|]). now subst. Qed.

Lemma joined_length sep n items : Forall (fun x => length x = n) items -> items <> [] ->
  (length (joined sep items) + length sep = length items * (n + length sep))%nat.
Proof.
  induction items as [|x items IH]; [congruence|]. intros H _. inversion H; subst. destruct items as [|y items].
  - cbn [joined length]. lia.
  - change (joined sep (x :: y :: items)) with (x ++ sep ++ joined sep (y :: items)). rewrite !app_length.
    specialize (IH ltac:(assumption) ltac:(discriminate)). cbn [length] in *. lia.
Qed.

Theorem few_intents d : Forall (fun l => 0 <= l <= 9) (d_intents d) ->
  exists before after, datum_repr d = before ++
    (if (length (d_intents d) <=? 6)%nat then on_one_line (map intent_repr (d_intents d)) else line_by_line (map intent_repr (d_intents d))) ++ after /\
    before = lit "<Datum " ++ d_utterance d ++ [10] ++ lit " with intents: ".
Proof.
  intros H. destruct (datum_layout d) as (i & e & E & HI & _). eexists _, ([10] ++ lit " with entities:" ++ [10] ++ e ++ lit ">").
  split; [|reflexivity]. rewrite E. rewrite <- !app_assoc. do 4 f_equal. f_equal.
  assert (L : length (on_one_line (map intent_repr (d_intents d))) = match d_intents d with [] => 2%nat | _ => (length (d_intents d) * 12)%nat end).
  { destruct (d_intents d) as [|x l] eqn:ED; [reflexivity|]. unfold on_one_line. rewrite !app_length.
    assert (F : Forall (fun x => length x = 10%nat) (map intent_repr (x :: l))).
    { apply Forall_forall. intros y HY. apply in_map_iff in HY. destruct HY as (z & <- & HZ). rewrite Forall_forall in H. apply one_digit. now apply H. }
    pose proof (joined_length (lit ", ") 10 _ F ltac:(discriminate)) as J. rewrite map_length in J.
    change (length (lit ", ")) with 2%nat in J. change (length (lit "[")) with 1%nat. change (length (lit "]")) with 1%nat. lia. }
  destruct HI as [(B & ->)|(B & ->)]; destruct (Nat.leb_spec (length (d_intents d)) 6) as [K|K]; try reflexivity; exfalso;
    destruct (d_intents d) as [|x l]; cbn [length] in *; lia.
Qed.

(** ** Further texts *)

Theorem entity_text a b : plain_entity a -> plain_entity b -> entity_repr a = entity_repr b -> a = b.
Proof. intros A B E. apply (entity_readable a b [] [] A B). now rewrite !app_nil_r. Qed.
Theorem repl_repr_places a b c d : repl_repr a c = repl_repr b d -> r_start a = r_start b /\ r_end a = r_end b.
Proof.
  unfold repl_repr. intros E. apply app_inv_head in E. apply nat_prefix in E; [|exact I|exact I]. destruct E as [-> E]. apply app_inv_head in E.
  apply nat_prefix in E; [|exact I|exact I]. destruct E as [-> _]. auto.
Qed.
Theorem repl_repr_same c a b : repl_repr a c = repl_repr b c -> a = b.
Proof.
  intros E. pose proof (repl_repr_places _ _ _ _ E) as (ES & EE). destruct a as [s e v], b as [s' e' v']. cbn [r_start r_end] in *. subst.
  unfold repl_repr in E. cbn [r_start r_end Edit.r_new] in E. do 5 apply app_inv_head in E. rewrite !app_assoc in E. do 3 apply app_inv_tail in E. now subst.
Qed.
Theorem repl_group_text n m : repl_group_repr n = repl_group_repr m -> n = m.
Proof.
  unfold repl_group_repr. intros E. apply app_inv_head, app_inv_tail in E. assert (X : dump_nat n ++ [44] = dump_nat m ++ [44]) by now rewrite E.
  apply nat_prefix in X; [tauto|exact I|exact I].
Qed.
