(** Proofs about histories of calls on the mutable groups. *)

From Verif Require Import Py PyFacts Elements Edit GroupObj SpecEdit SpecGroup EditProofs SpanProofs EditApiProofs.
From Coq Require Import Sorted.

(** python's [l[i]] *)
Lemma get_item_python {X} (l : list X) :
  (forall k x, nth_error l k = Some x -> get_item l (Z.of_nat k) = Ok x /\
     get_item l (Z.of_nat k - Z.of_nat (length l)) = Ok x) /\
  (forall i, ~ (- Z.of_nat (length l) <= i < Z.of_nat (length l))%Z -> get_item l i = Err IndexErr).
Proof.
  unfold get_item. split.
  - intros k x H. assert (k < length l) by (apply nth_error_Some; congruence). split.
    + destruct (Z.ltb_spec (Z.of_nat k) 0); [lia|].
      destruct (Z.leb_spec 0 (Z.of_nat k)); [|lia]. destruct (Z.ltb_spec (Z.of_nat k) (Z.of_nat (length l))); [|lia].
      cbn [andb]. now rewrite Nat2Z.id, H.
    + destruct (Z.ltb_spec (Z.of_nat k - Z.of_nat (length l)) 0); [|lia].
      replace (Z.of_nat k - Z.of_nat (length l) + Z.of_nat (length l))%Z with (Z.of_nat k) by lia.
      destruct (Z.leb_spec 0 (Z.of_nat k)); [|lia]. destruct (Z.ltb_spec (Z.of_nat k) (Z.of_nat (length l))); [|lia].
      cbn [andb]. now rewrite Nat2Z.id, H.
  - intros i H. destruct (Z.ltb_spec i 0).
    + destruct (Z.leb_spec 0 (i + Z.of_nat (length l))); [lia|reflexivity].
    + destruct (Z.ltb_spec i (Z.of_nat (length l))); [lia|]. now rewrite andb_false_r.
Qed.

Section R.
Context {A : Type} {EA : Eqb A}.
Implicit Types (g : rgroup A) (h : list (rcall A)).

Lemma after_snoc h c : after_calls (h ++ [c]) = fst (rg_call (after_calls h) c).
Proof. unfold after_calls. now rewrite fold_left_app. Qed.

Lemma to_u32_cases z : ((0 <= z < 2 ^ 32)%Z /\ to_u32 z = Ok (Z.to_nat z)) \/
  (~ (0 <= z < 2 ^ 32)%Z /\ to_u32 z = Err OverflowErr).
Proof.
  destruct (Z_le_dec 0 z), (Z_lt_dec z (2 ^ 32)); try (left; split; [lia|apply to_u32_ok; lia]);
    right; (split; [lia|apply to_u32_err; lia]).
Qed.

(** what [add] does *)
Lemma rg_add_cases g s e v :
  (~ ((0 <= s < 2 ^ 32)%Z /\ (0 <= e < 2 ^ 32)%Z) /\ rg_add g s e v = (g, Some OverflowErr)) \/
  ((0 <= s < 2 ^ 32)%Z /\ (0 <= e < s)%Z /\ rg_add g s e v = (g, None)) \/
  ((0 <= s <= e)%Z /\ (e < 2 ^ 32)%Z /\
   rg_add g s e v = (mkRG (rg_items g ++ [(fst v, mkR (Z.to_nat s) (Z.to_nat e) (snd v))]) (rg_done g), None)).
Proof.
  unfold rg_add.
  destruct (to_u32_cases s) as [(Hs & ->)|(Hs & ->)].
  2:{ left. split; [tauto|reflexivity]. }
  destruct (to_u32_cases e) as [(He & ->)|(He & ->)].
  2:{ left. split; [tauto|reflexivity]. }
  right. destruct (Nat.ltb_spec (Z.to_nat e) (Z.to_nat s)); [left|right]; (split; [lia|split; [lia|reflexivity]]).
Qed.

(** what [done] does *)
Definition sorted_items (l : list (item A)) : list (item A) :=
  sort_by (fun y => Z.of_nat (i_start y)) (sort_by (fun y => Z.of_nat (i_end y)) l).

Lemma insert_by_map {X Y} (f : X -> Y) (k : Y -> Z) x l :
  map f (insert_by (fun a => k (f a)) x l) = insert_by k (f x) (map f l).
Proof.
  induction l as [|y l IH]; [reflexivity|]. cbn. destruct (_ <=? _)%Z eqn:E; cbn; congruence.
Qed.
Lemma sort_by_map {X Y} (f : X -> Y) (k : Y -> Z) l :
  map f (sort_by (fun a => k (f a)) l) = sort_by k (map f l).
Proof.
  induction l as [|y l IH]; [reflexivity|]. unfold sort_by in *. cbn [fold_right map].
  now rewrite insert_by_map, IH.
Qed.

Lemma sorted_items_snd l : map snd (sorted_items l) = sort_replacements (map snd l).
Proof.
  unfold sorted_items, sort_replacements, i_start, i_end.
  rewrite (sort_by_map (@snd bool (repl A)) (fun e => Z.of_nat (r_start e))).
  now rewrite (sort_by_map (@snd bool (repl A)) (fun e => Z.of_nat (r_end e))).
Qed.
Lemma sorted_items_perm l : Permutation (sorted_items l) l.
Proof. unfold sorted_items. now rewrite !sort_by_perm. Qed.

Lemma disjoint_from_snd cur (l : list (item A)) :
  disjoint_from i_start i_end cur l = disjoint_from r_start r_end cur (map snd l).
Proof.
  revert cur; induction l as [|x l IH]; intros cur; [reflexivity|]. cbn.
  unfold i_start at 1. destruct (_ <? _); [reflexivity|]. apply IH.
Qed.

Definition wf_items (l : list (item A)) : Prop := Forall (fun x => well_formed (snd x)) l.

(** with one type only, the second components decide *)
Lemma same_type_inj b (l : list (item A)) : Forall (fun x => fst x = b) l ->
  NoDup l -> NoDup (map snd l).
Proof.
  intros F N. induction N as [|x l Hx N IH]; cbn; constructor.
  - intros HI. apply in_map_iff in HI. destruct HI as (y & E & Hy). apply Hx.
    inversion F as [|? ? Fx Fl]; subst. rewrite Forall_forall in Fl. specialize (Fl y Hy).
    destruct x, y; cbn in *; subst; assumption.
  - apply IH. now inversion F.
Qed.

Lemma finish_cases ord skip g : (forall l, Permutation (ord l) l) -> wf_items (rg_items g) ->
  let m := rg_items g in
  (m = [] /\ rg_finish ord skip g = (mkRG [] true, None)) \/
  (exists l, (forall x, In x l <-> In x m) /\ NoDup l /\ m <> [] /\ (
    (skip = true /\ rg_finish ord skip g = (mkRG l true, None)) \/
    (skip = false /\ (exists x y, In x m /\ In y m /\ fst x <> fst y) /\
     rg_finish ord skip g = (mkRG l (rg_done g), Some TypeErr)) \/
    (skip = false /\ (exists b, forall x, In x m -> fst x = b) /\ ~ pairwise_ok (map snd m) /\
     rg_finish ord skip g = (mkRG l (rg_done g), Some ValueErr)) \/
    (skip = false /\ (exists b, forall x, In x m -> fst x = b) /\ pairwise_ok (map snd m) /\
     StronglySorted pos_le (map snd l) /\ NoDup (map snd l) /\
     (forall n, (forall x, In x m -> r_end (snd x) <= n) -> group_in 0 n (map snd l)) /\
     rg_finish ord skip g = (mkRG l true, None)))).
Proof.
  intros HO W m.
  assert (HP : Permutation (ord (dedup m)) (dedup m)) by apply HO.
  assert (HIn : forall x, In x (ord (dedup m)) <-> In x m).
  { intros x. rewrite <- (in_dedup x m). split; apply Permutation_in; [exact HP|now symmetry]. }
  assert (HN : NoDup (ord (dedup m))) by (eapply Permutation_NoDup; [symmetry; exact HP|apply NoDup_dedup]).
  unfold rg_finish. fold m. destruct (ord (dedup m)) as [|x l] eqn:E.
  { left. split; [|reflexivity]. destruct m as [|y m]; [reflexivity|]. destruct (proj2 (HIn y)). now left. }
  right.
  assert (HM : m <> []). { intros ->. destruct (proj1 (HIn x)). now left. }
  destruct skip.
  { exists (x :: l). split; [exact HIn|]. split; [exact HN|]. split; [exact HM|]. left. auto. }
  destruct (forallb _ _) eqn:FT.
  - assert (HT : Forall (fun y => fst y = fst x) (x :: l)).
    { rewrite forallb_forall in FT. rewrite Forall_forall. intros y Hy. specialize (FT y Hy).
      now apply Bool.eqb_prop in FT. }
    assert (HT' : exists b, forall y, In y m -> fst y = b).
    { exists (fst x). intros y Hy. rewrite Forall_forall in HT. apply HT. now apply HIn. }
    fold (sorted_items (x :: l)). set (l2 := sorted_items (x :: l)).
    assert (P2 : Permutation l2 (x :: l)) by apply sorted_items_perm.
    assert (I2 : forall y, In y l2 <-> In y m).
    { intros y. rewrite <- HIn. split; apply Permutation_in; [exact P2|now symmetry]. }
    assert (N2 : NoDup l2) by (eapply Permutation_NoDup; [symmetry; exact P2|exact HN]).
    exists l2. split; [exact I2|]. split; [exact N2|]. split; [exact HM|]. right; right.
    assert (W2 : Forall well_formed (map snd (x :: l))).
    { rewrite Forall_forall. intros r Hr. apply in_map_iff in Hr. destruct Hr as (y & <- & Hy).
      unfold wf_items in W. rewrite Forall_forall in W. apply W. now apply HIn. }
    assert (ND : NoDup (map snd (x :: l))) by (now apply (same_type_inj (fst x))).
    assert (V : validate_disjoint i_start i_end l2 =
                match sort_replacements (map snd (x :: l)) with
                | [] => Err IndexErr
                | r :: g => guard (disjoint_from r_start r_end (r_end r) g) ValueErr
                end).
    { rewrite <- sorted_items_snd. fold l2. destruct l2 as [|y l2]; [reflexivity|].
      cbn [map validate_disjoint]. now rewrite disjoint_from_snd. }
    assert (HO1 : ord_ok (fun l : list (repl A) => l)) by (intros ?; reflexivity).
    pose proof (rdone_eq (fun l => l) (map snd (x :: l))) as RE. cbv beta in RE.
    rewrite (dedup_id _ ND) in RE.
    assert (NE : sort_replacements (map snd (x :: l)) <> []).
    { intros E0. pose proof (sort_replacements_perm (map snd (x :: l))) as P0. rewrite E0 in P0.
      apply Permutation_nil in P0. discriminate. }
    assert (SM : forall r, In r (map snd (x :: l)) <-> In r (map snd m)).
    { intros r. rewrite !in_map_iff. split; intros (y & E1 & Hy); exists y; (split; [exact E1|now apply HIn]). }
    assert (PO : pairwise_ok (map snd (x :: l)) <-> pairwise_ok (map snd m)).
    { unfold pairwise_ok. split; intros HH a b Ha Hb; apply HH; now apply SM. }
    destruct (rdone_cases (fun l => l) (map snd (x :: l)) HO1 W2) as [(R1 & R2)|(R1 & R2)].
    + right. split; [reflexivity|]. split; [exact HT'|]. split; [now apply PO|].
      destruct (rdone_ok _ _ _ HO1 W2 R1) as (G1 & G2 & G3 & G4 & G5).
      rewrite (dedup_id _ ND) in R1, G1, G3, G5.
      rewrite <- sorted_items_snd in G1, G3, G5. fold l2 in G1, G3, G5.
      split; [exact G3|]. split; [exact G1|]. split.
      { intros n Hn. apply G5. intros r Hr. apply in_map_iff in Hr. destruct Hr as (y & <- & Hy).
        apply Hn. now apply HIn. }
      rewrite V. destruct (sort_replacements _) as [|r gg]; [contradiction|].
      destruct (disjoint_from _ _ _ _); cbn [guard]; [reflexivity|].
      rewrite R1 in RE. discriminate.
    + left. split; [reflexivity|]. split; [exact HT'|]. split; [now rewrite <- PO|].
      rewrite V. destruct (sort_replacements _) as [|r gg]; [contradiction|].
      destruct (disjoint_from _ _ _ _); cbn [guard]; [|reflexivity].
      rewrite R1 in RE. discriminate.
  - exists (x :: l). split; [exact HIn|]. split; [exact HN|]. split; [exact HM|]. right; left.
    split; [reflexivity|]. split; [|reflexivity].
    assert (exists y, In y (x :: l) /\ Bool.eqb (fst x) (fst y) = false) as (y & Hy & Ey).
    { revert FT. generalize (x :: l). intros k. induction k as [|y k IH]; [discriminate|].
      cbn [forallb]. destruct (Bool.eqb (fst x) (fst y)) eqn:Ey.
      - cbn. intros F. destruct (IH F) as (z & Hz & Ez). exists z. split; [now right|exact Ez].
      - intros _. exists y. split; [now left|exact Ey]. }
    exists x, y. split; [apply HIn; now left|]. split; [now apply HIn|].
    intros E1. rewrite E1, Bool.eqb_reflx in Ey. discriminate.
Qed.

(** ** The invariant of histories *)

Lemma added_snoc h c x : added (h ++ [c]) x <-> added h x \/ added [c] x.
Proof.
  unfold added. split.
  - intros (s & e & v & HI & R). apply in_app_iff in HI. destruct HI; [left|right]; exists s, e, v; auto.
  - intros [(s & e & v & HI & R)|(s & e & v & HI & R)]; exists s, e, v; (split; [apply in_app_iff; auto|exact R]).
Qed.
Lemma added_done ord skip (x : item A) : ~ added [CDone ord skip] x.
Proof. intros (s & e & v & [HI|[]] & R). discriminate. Qed.
Lemma added_mono h h' x : added h x -> added (h ++ h') x.
Proof. intros (s & e & v & HI & R). exists s, e, v. split; [apply in_app_iff; auto|exact R]. Qed.
Lemma added_wf h x : added h x -> well_formed (snd x).
Proof. intros (s & e & v & _ & R1 & R2 & ->). unfold well_formed. cbn. lia. Qed.

Lemma contents h : Forall rcall_ok h ->
  (forall x, In x (rg_items (after_calls h)) <-> added h x).
Proof.
  induction h as [|c h IH] using rev_ind; intros F.
  { intros x. split; [intros []|]. intros (s & e & v & [] & _). }
  rewrite Forall_app in F. destruct F as (F & Fc). inversion Fc as [|? ? Hc _]; subst.
  specialize (IH F). intros x. rewrite after_snoc, added_snoc, <- IH.
  destruct c as [s e v|ord skip]; cbn [rg_call].
  - destruct (rg_add_cases (after_calls h) s e v) as [(N & ->)|[(N1 & N2 & ->)|(N1 & N2 & ->)]]; cbn [fst rg_items].
    + split; [auto|]. intros [H|(s' & e' & v' & [E|[]] & R)]; [exact H|]. injection E as -> -> ->. lia.
    + split; [auto|]. intros [H|(s' & e' & v' & [E|[]] & R)]; [exact H|]. injection E as -> -> ->. lia.
    + rewrite in_app_iff. split.
      * intros [H|[<-|[]]]; [now left|]. right. exists s, e, v. split; [now left|]. auto.
      * intros [H|(s' & e' & v' & [E|[]] & R1 & R2 & ->)]; [now left|]. injection E as -> -> ->.
        right. now left.
  - assert (W : wf_items (rg_items (after_calls h))).
    { apply Forall_forall. intros y Hy. apply IH in Hy. now apply added_wf in Hy. }
    assert (AD : added [CDone ord skip] x <-> False) by (split; [apply added_done|tauto]).
    rewrite AD.
    destruct (finish_cases ord skip (after_calls h) Hc W) as [(E & ->)|(l & HI & _ & _ & C)].
    { cbn. rewrite E. cbn. tauto. }
    destruct C as [(_ & ->)|[(_ & _ & ->)|[(_ & _ & _ & ->)|(_ & _ & _ & _ & _ & _ & ->)]]]; cbn [fst rg_items];
      rewrite HI; tauto.
Qed.

Lemma items_wf h : Forall rcall_ok h -> wf_items (rg_items (after_calls h)).
Proof. intros F. apply Forall_forall. intros y Hy. apply contents in Hy; [|exact F]. now apply added_wf in Hy. Qed.

Lemma added_pairwise h : Forall rcall_ok h -> (exists b, forall x, added h x -> fst x = b) ->
  (pairwise_ok (map snd (rg_items (after_calls h))) <-> ~ overlapping h).
Proof.
  intros F (b & HB). split.
  - intros HP (x & y & Hx & Hy & NE & NO). apply NO. apply HP.
    + apply in_map, contents; assumption.
    + apply in_map, contents; assumption.
    + intros E. apply NE. pose proof (HB x Hx). pose proof (HB y Hy). destruct x, y; cbn in *; congruence.
  - intros HN r r' Hr Hr' NE. apply in_map_iff in Hr. apply in_map_iff in Hr'.
    destruct Hr as (x & <- & Hx), Hr' as (y & <- & Hy).
    destruct (le_lt_dec (r_end (snd x)) (r_start (snd y))); [now left|].
    destruct (le_lt_dec (r_end (snd y)) (r_start (snd x))); [now right|].
    exfalso. apply HN. exists x, y. split; [now apply contents|]. split; [now apply contents|].
    split; [congruence|]. unfold non_overlapping. lia.
Qed.

(** ** The laws *)

Theorem add_outcome h s e v :
  (outcome h (CAdd s e v) = None <-> (0 <= s < 2 ^ 32)%Z /\ (0 <= e < 2 ^ 32)%Z) /\
  (outcome h (CAdd s e v) = None \/ outcome h (CAdd s e v) = Some OverflowErr) /\
  (~ ((0 <= s <= e)%Z /\ (e < 2 ^ 32)%Z) -> after_calls (h ++ [CAdd s e v]) = after_calls h).
Proof.
  rewrite after_snoc. unfold outcome. cbn [rg_call].
  destruct (rg_add_cases (after_calls h) s e v) as [(N & ->)|[(N1 & N2 & ->)|(N1 & N2 & ->)]]; cbn [fst snd].
  - split; [split; [discriminate|tauto]|]. split; [now right|auto].
  - split; [split; [lia|reflexivity]|]. split; [now left|auto].
  - split; [split; [lia|reflexivity]|]. split; [now left|]. lia.
Qed.

Lemma finished_snoc h c : finished (h ++ [c]) <->
  finished h \/ (exists ord skip, c = CDone ord skip) /\ outcome h c = None.
Proof.
  unfold finished. split.
  - intros (h1 & ord & skip & h2 & E & O). destruct h2 as [|d h2 _] using rev_ind.
    + apply app_inj_tail in E. destruct E as (-> & ->). right. split; [now exists ord, skip|exact O].
    + rewrite app_comm_cons, app_assoc in E. apply app_inj_tail in E. destruct E as (-> & ->). left.
      exists h1, ord, skip, h2. auto.
  - intros [(h1 & ord & skip & h2 & -> & O)|((ord & skip & ->) & O)].
    + exists h1, ord, skip, (h2 ++ [c]). split; [now rewrite <- app_assoc|exact O].
    + exists h, ord, skip, []. auto.
Qed.

Lemma done_flag h : Forall rcall_ok h -> (rg_done (after_calls h) = true <-> finished h).
Proof.
  induction h as [|c h IH] using rev_ind; intros F.
  { split; [discriminate|]. intros (h1 & ? & ? & h2 & E & _). now destruct h1. }
  rewrite Forall_app in F. destruct F as (F & Fc). inversion Fc as [|? ? Hc _]; subst.
  rewrite after_snoc, finished_snoc, <- (IH F). unfold outcome.
  destruct c as [s e v|ord skip]; cbn [rg_call].
  - destruct (rg_add_cases (after_calls h) s e v) as [(N & ->)|[(N1 & N2 & ->)|(N1 & N2 & ->)]]; cbn [fst snd rg_done];
      (split; [auto|intros [H|((? & ? & ?) & ?)]; [exact H|discriminate]]).
  - destruct (finish_cases ord skip (after_calls h) Hc (items_wf h F)) as [(E & ->)|(l & HI & _ & _ & C)].
    { cbn. split; [intros _; right; split; [now exists ord, skip|reflexivity]|reflexivity]. }
    destruct C as [(_ & ->)|[(_ & _ & ->)|[(_ & _ & _ & ->)|(_ & _ & _ & _ & _ & _ & ->)]]]; cbn [fst snd rg_done].
    + split; [intros _; right; split; [now exists ord, skip|reflexivity]|reflexivity].
    + split; [auto|intros [H|(_ & ?)]; [exact H|discriminate]].
    + split; [auto|intros [H|(_ & ?)]; [exact H|discriminate]].
    + split; [intros _; right; split; [now exists ord, skip|reflexivity]|reflexivity].
Qed.

Theorem reading h : Forall rcall_ok h ->
  (~ finished h -> rg_iter (after_calls h) = Err RuntimeErr /\
     (forall i, rg_getitem (after_calls h) i = Err RuntimeErr) /\
     (forall b s, rg_apply b s (after_calls h) = Err RuntimeErr) /\
     (forall g, rg_eq g (after_calls h) = Err RuntimeErr)) /\
  (finished h -> exists l, rg_iter (after_calls h) = Ok l /\ (forall x, In x l <-> added h x) /\
     rg_len (after_calls h) = length l).
Proof.
  intros F. pose proof (done_flag h F) as D. split.
  - intros N. assert (E : rg_done (after_calls h) = false).
    { destruct (rg_done _); [|reflexivity]. destruct N. now apply D. }
    assert (EI : rg_iter (after_calls h) = Err RuntimeErr) by (unfold rg_iter; now rewrite E).
    split; [exact EI|]. split; [intros i; unfold rg_getitem; now rewrite E|].
    split; intros; [unfold rg_apply|unfold rg_eq]; now rewrite EI.
  - intros FI. apply D in FI. exists (rg_items (after_calls h)). unfold rg_iter. rewrite FI.
    split; [reflexivity|]. split; [now apply contents|reflexivity].
Qed.

(** [g[i]], and [is_empty], which does not need [done] *)
Theorem items h : Forall rcall_ok h -> finished h -> exists l, rg_iter (after_calls h) = Ok l /\
  (forall k x, nth_error l k = Some x -> rg_getitem (after_calls h) (Z.of_nat k) = Ok x /\
     rg_getitem (after_calls h) (Z.of_nat k - Z.of_nat (length l)) = Ok x) /\
  (forall i, ~ (- Z.of_nat (length l) <= i < Z.of_nat (length l))%Z -> rg_getitem (after_calls h) i = Err IndexErr).
Proof.
  intros F FI. apply (done_flag h F) in FI. exists (rg_items (after_calls h)). unfold rg_iter, rg_getitem. rewrite FI.
  split; [reflexivity|]. apply get_item_python.
Qed.

Theorem empty h : Forall rcall_ok h -> (rg_is_empty (after_calls h) = true <-> forall x, ~ added h x).
Proof.
  intros F. pose proof (contents h F) as C. unfold rg_is_empty. rewrite Nat.eqb_eq, length_zero_iff_nil. split.
  - intros E x AD. apply C in AD. now rewrite E in AD.
  - intros N. destruct (rg_items (after_calls h)) as [|x l]; [reflexivity|]. destruct (N x). apply C. now left.
Qed.

Theorem done_outcome h ord : Forall rcall_ok h -> (forall l, Permutation (ord l) l) ->
  (mixed h -> outcome h (CDone ord false) = Some TypeErr) /\
  (~ mixed h -> overlapping h -> outcome h (CDone ord false) = Some ValueErr) /\
  (~ mixed h -> ~ overlapping h -> outcome h (CDone ord false) = None /\
     exists l, rg_iter (after_calls (h ++ [CDone ord false])) = Ok l /\ NoDup l /\
       (forall x, In x l <-> added h x) /\ StronglySorted pos_le (map snd l) /\
       (forall n, (forall x, added h x -> r_end (snd x) <= n) -> group_in 0 n (map snd l)) /\
       (forall b, (forall x, added h x -> fst x = b) ->
        forall s, (forall x, added h x -> r_end (snd x) <= length s) ->
        rg_apply b s (after_calls (h ++ [CDone ord false])) = Ok (splice_all s (map snd l)))).
Proof.
  intros F HO. pose proof (contents h F) as C. set (g := after_calls h) in *.
  assert (MX : (exists x y, In x (rg_items g) /\ In y (rg_items g) /\ fst x <> fst y) <-> mixed h).
  { unfold mixed. split; intros (x & y & Hx & Hy & NE); exists x, y; (split; [now apply C|split; [now apply C|exact NE]]). }
  assert (UN : (exists b, forall x, In x (rg_items g) -> fst x = b) -> ~ mixed h).
  { intros (b & HB) (x & y & Hx & Hy & NE). apply NE. rewrite (HB x), (HB y); [reflexivity|now apply C|now apply C]. }
  assert (UB : (exists b, forall x, In x (rg_items g) -> fst x = b) -> exists b, forall x, added h x -> fst x = b).
  { intros (b & HB). exists b. intros x Hx. apply HB. now apply C. }
  rewrite after_snoc. unfold outcome. fold g. cbn [rg_call].
  destruct (finish_cases ord false g HO (items_wf h F)) as [(E & ->)|(l & HI & ND & _ & K)].
  { assert (NA : forall x, ~ added h x) by (intros x Hx; apply C in Hx; now rewrite E in Hx).
    split; [intros (x & y & Hx & _); destruct (NA x Hx)|].
    split; [intros _ (x & y & Hx & _); destruct (NA x Hx)|].
    intros _ _. split; [reflexivity|]. exists []. cbn. split; [reflexivity|]. split; [constructor|].
    split; [intros x; split; [intros []|intros Hx; destruct (NA x Hx)]|]. split; [constructor|].
    split; [intros; cbn; lia|]. intros. unfold rg_apply. cbn. now rewrite app_nil_r. }
  destruct K as [(? & _)|[(_ & H1 & ->)|[(_ & H1 & H2 & ->)|(_ & H1 & H2 & H3 & H4 & H5 & ->)]]]; [discriminate| | |]; cbn [fst snd].
  - apply MX in H1. split; [reflexivity|]. split; intros N; destruct (N H1).
  - split; [intros M; destruct (UN H1 M)|]. split; [reflexivity|]. intros _ NO.
    destruct H2. apply (added_pairwise h F (UB H1)). exact NO.
  - split; [intros M; destruct (UN H1 M)|]. split.
    { intros _ O. apply (added_pairwise h F (UB H1)) in H2. contradiction. }
    intros _ _. split; [reflexivity|]. exists l. unfold rg_iter. cbn [rg_done rg_items].
    assert (IL : forall x, In x l <-> added h x) by (intros x; rewrite HI; apply C).
    split; [reflexivity|]. split; [exact ND|]. split; [exact IL|]. split; [exact H3|].
    assert (G : forall n, (forall x, added h x -> r_end (snd x) <= n) -> group_in 0 n (map snd l)).
    { intros n Hn. apply H5. intros x Hx. apply Hn. now apply C. }
    split; [exact G|]. intros b Hb s Hs. unfold rg_apply, rg_iter. cbn [rg_done rg_items]. unfold bind at 1.
    assert (FB : forallb (fun x : item A => Bool.eqb b (fst x)) l = true).
    { apply forallb_forall. intros x Hx. rewrite (Hb x) by now apply IL. apply Bool.eqb_reflx. }
    unfold guard. replace (forallb _ l) with true by (symmetry; exact FB). cbn [bind]. f_equal. now apply apply_splice, G.
Qed.

Theorem failed_done h ord skip e : Forall rcall_ok h -> (forall l, Permutation (ord l) l) ->
  outcome h (CDone ord skip) = Some e ->
  skip = false /\ (finished (h ++ [CDone ord skip]) <-> finished h) /\
  (forall x, added (h ++ [CDone ord skip]) x <-> added h x).
Proof.
  intros F HO O. split.
  - destruct skip; [|reflexivity]. unfold outcome in O. cbn [rg_call] in O.
    destruct (finish_cases ord true (after_calls h) HO (items_wf h F)) as [(E & E2)|(l & _ & _ & _ & K)].
    { rewrite E2 in O. discriminate. }
    destruct K as [(_ & E2)|[(? & _)|[(? & _)|(? & _)]]]; try discriminate. rewrite E2 in O. discriminate.
  - split.
    + rewrite finished_snoc, O. split; [intros [H|(_ & H)]; [exact H|discriminate]|auto].
    + intros x. rewrite added_snoc. split; [intros [H|H]; [exact H|destruct (added_done _ _ _ H)]|auto].
Qed.

Theorem overlap_is_permanent h h' ord : Forall rcall_ok (h ++ h') -> (forall l, Permutation (ord l) l) ->
  overlapping h -> outcome (h ++ h') (CDone ord false) <> None.
Proof.
  intros F HO (x & y & Hx & Hy & NE & NO).
  assert (O : overlapping (h ++ h')).
  { exists x, y. split; [now apply added_mono|]. split; [now apply added_mono|]. auto. }
  destruct (done_outcome (h ++ h') ord F HO) as (D1 & D2 & D3).
  unfold outcome in *. cbn [rg_call] in *.
  destruct (finish_cases ord false (after_calls (h ++ h')) HO (items_wf _ F)) as [(E & ->)|(l & HI & ND & _ & K)].
  - apply (added_mono _ h') in Hx. apply contents in Hx; [|exact F]. rewrite E in Hx. destruct Hx.
  - destruct K as [(? & _)|[(_ & H1 & ->)|[(_ & H1 & H2 & ->)|(_ & H1 & H2 & _)]]]; try discriminate.
    exfalso. destruct H1 as (b & HB).
    apply (added_pairwise (h ++ h') F) in H2; [contradiction|].
    exists b. intros z Hz. apply HB. now apply contents.
Qed.

Lemma set_eqb_spec {X} `{Eqb X} (a b : list X) : set_eqb a b = true <-> (forall x, In x a <-> In x b).
Proof.
  unfold set_eqb. rewrite andb_true_iff, !forallb_forall.
  split.
  - intros (H1 & H2) x. split; intros Hx; apply memb_In; auto.
  - intros HH. split; intros x Hx; apply memb_In, HH, Hx.
Qed.

Theorem equality h1 h2 ord1 ord2 s1 s2 : Forall rcall_ok h1 -> Forall rcall_ok h2 ->
  (forall l, Permutation (ord1 l) l) -> (forall l, Permutation (ord2 l) l) ->
  outcome h1 (CDone ord1 s1) = None -> outcome h2 (CDone ord2 s2) = None ->
  exists b, rg_eq (after_calls (h1 ++ [CDone ord1 s1])) (after_calls (h2 ++ [CDone ord2 s2])) = Ok b /\
    (b = true <-> (forall x, added h1 x <-> added h2 x)).
Proof.
  assert (D : forall h ord s, Forall rcall_ok h -> (forall l, Permutation (ord l) l) -> outcome h (CDone ord s) = None ->
    exists l, after_calls (h ++ [CDone ord s]) = mkRG l true /\ NoDup l /\ (forall x, In x l <-> added h x)).
  { intros h ord s F HO O. rewrite after_snoc. unfold outcome in O. cbn [rg_call] in *.
    destruct (finish_cases ord s (after_calls h) HO (items_wf h F)) as [(E & E2)|(l & HI & ND & _ & K)].
    - rewrite E2. exists []. split; [reflexivity|]. split; [constructor|]. intros x. rewrite <- (contents h F x), E. tauto.
    - exists l. destruct K as [(_ & E2)|[(_ & _ & E2)|[(_ & _ & _ & E2)|(_ & _ & _ & _ & _ & _ & E2)]]];
        rewrite E2 in O |- *; try discriminate;
        (split; [reflexivity|]; split; [exact ND|]; intros x; rewrite HI; apply (contents h F)). }
  intros F1 F2 O1 O2 R1 R2.
  destruct (D _ _ _ F1 O1 R1) as (l1 & -> & N1 & I1). destruct (D _ _ _ F2 O2 R2) as (l2 & -> & N2 & I2).
  unfold rg_eq, rg_iter, rg_len. cbn [rg_done rg_items bind].
  eexists. split; [reflexivity|].
  rewrite andb_true_iff, set_eqb_spec, Nat.eqb_eq. split.
  - intros (_ & H) x. rewrite <- I1, <- I2. symmetry. apply H.
  - intros H. assert (HH : forall x, In x l2 <-> In x l1) by (intros x; rewrite I1, I2; symmetry; apply H).
    split; [|exact HH]. apply Permutation_length. now apply NoDup_Permutation.
Qed.

End R.

(** ** SpanGroup *)

Implicit Types hs : list scall.

Lemma after_ssnoc hs c : after_scalls (hs ++ [c]) = fst (sg_call (after_scalls hs) c).
Proof. unfold after_scalls. now rewrite fold_left_app. Qed.

Lemma sg_finish_cases g :
  exists l, Permutation l (sg_items g) /\
  ((sdone (sg_items g) = Ok l /\ sg_finish g = (mkSG l true, None)) \/
   (sdone (sg_items g) = Err ValueErr /\ sg_finish g = (mkSG l (sg_done g), Some ValueErr))).
Proof.
  unfold sg_finish, sdone. destruct (sg_items g) as [|x l]; [exists []; split; [constructor|left; auto]|].
  set (l2 := sort_by _ _). assert (P : Permutation l2 (x :: l)) by apply sort_by_perm.
  exists l2. split; [exact P|].
  assert (NE : l2 <> []) by (intros E; rewrite E in P; apply Permutation_nil in P; discriminate).
  destruct l2 as [|y l2]; [contradiction|]. cbn [validate_disjoint validate_contiguous].
  unfold guard. destruct (disjoint_from _ _ _ _); cbn [bind]; [|now right].
  destruct (_ =? _); cbn [bind]; [|now right].
  destruct (contiguous_from _ _); cbn [bind]; [now left|now right].
Qed.

Lemma sadded_app hs hs' : sadded (hs ++ hs') = sadded hs ++ sadded hs'.
Proof.
  induction hs as [|[s e|] hs IH]; [reflexivity| |exact IH]. cbn. destruct (_ && _); cbn; now rewrite IH.
Qed.

Lemma sg_add_items g s e : sg_items (fst (sg_add g s e)) = sg_items g ++ sadded [SAdd s e] /\
  sg_done (fst (sg_add g s e)) = sg_done g.
Proof.
  unfold sg_add. cbn [sadded]. destruct (to_u32_cases s) as [(Hs & ->)|(Hs & ->)].
  2:{ assert ((0 <=? s) && (s <=? e) && (e <? 2 ^ 32) = false)%Z as ->.
      { destruct (Z.leb_spec 0 s), (Z.leb_spec s e), (Z.ltb_spec e (2 ^ 32)); cbn [andb]; auto; lia. }
      cbn. now rewrite app_nil_r. }
  destruct (to_u32_cases e) as [(He & ->)|(He & ->)].
  2:{ assert ((0 <=? s) && (s <=? e) && (e <? 2 ^ 32) = false)%Z as ->.
      { destruct (Z.leb_spec 0 s), (Z.leb_spec s e), (Z.ltb_spec e (2 ^ 32)); cbn [andb]; auto; lia. }
      cbn. now rewrite app_nil_r. }
  destruct (Nat.ltb_spec (Z.to_nat e) (Z.to_nat s)).
  - assert ((0 <=? s) && (s <=? e) && (e <? 2 ^ 32) = false)%Z as ->.
    { destruct (Z.leb_spec 0 s), (Z.leb_spec s e), (Z.ltb_spec e (2 ^ 32)); cbn [andb]; auto; lia. }
    cbn. now rewrite app_nil_r.
  - assert ((0 <=? s) && (s <=? e) && (e <? 2 ^ 32) = true)%Z as ->.
    { destruct (Z.leb_spec 0 s), (Z.leb_spec s e), (Z.ltb_spec e (2 ^ 32)); cbn [andb]; auto; lia. }
    cbn. auto.
Qed.

Lemma scontents hs : Permutation (sg_items (after_scalls hs)) (sadded hs).
Proof.
  induction hs as [|c hs IH] using rev_ind; [constructor|].
  rewrite after_ssnoc, sadded_app. destruct c as [s e|]; cbn [sg_call].
  - destruct (sg_add_items (after_scalls hs) s e) as (-> & _). now rewrite IH.
  - cbn [sadded]. rewrite app_nil_r.
    destruct (sg_finish_cases (after_scalls hs)) as (l & P & [(_ & ->)|(_ & ->)]); cbn; now rewrite P.
Qed.

Lemma sadded_wf hs : Forall span_wf (sadded hs).
Proof.
  induction hs as [|[s e|] hs IH]; [constructor| |exact IH]. cbn.
  destruct (_ && _) eqn:E; [|exact IH]. constructor; [|exact IH]. unfold span_wf. cbn.
  rewrite !andb_true_iff, Z.leb_le, Z.leb_le in E. lia.
Qed.

Lemma sitems_wf hs : Forall span_wf (sg_items (after_scalls hs)).
Proof.
  pose proof (sadded_wf hs) as W. rewrite Forall_forall in W |- *. intros x Hx. apply W.
  eapply Permutation_in; [apply scontents|exact Hx].
Qed.

Lemma sfinished_snoc hs c : sfinished (hs ++ [c]) <-> sfinished hs \/ c = SDone /\ soutcome hs SDone = None.
Proof.
  unfold sfinished. split.
  - intros (h1 & h2 & E & O). destruct h2 as [|d h2 _] using rev_ind.
    + apply app_inj_tail in E. destruct E as (-> & ->). now right.
    + rewrite app_comm_cons, app_assoc in E. apply app_inj_tail in E. destruct E as (-> & ->). left.
      now exists h1, h2.
  - intros [(h1 & h2 & -> & O)|(-> & O)].
    + exists h1, (h2 ++ [c]). split; [now rewrite <- app_assoc|exact O].
    + now exists hs, [].
Qed.

Lemma sdone_flag hs : sg_done (after_scalls hs) = true <-> sfinished hs.
Proof.
  induction hs as [|c hs IH] using rev_ind.
  { split; [discriminate|]. intros (h1 & h2 & E & _). now destruct h1. }
  rewrite after_ssnoc, sfinished_snoc, <- IH. unfold soutcome. destruct c as [s e|]; cbn [sg_call].
  - destruct (sg_add_items (after_scalls hs) s e) as (_ & ->).
    split; [auto|]. intros [H|(? & _)]; [exact H|discriminate].
  - destruct (sg_finish_cases (after_scalls hs)) as (l & P & [(_ & ->)|(_ & ->)]); cbn [fst snd sg_done].
    + split; [intros _; right; auto|reflexivity].
    + split; [auto|intros [H|(_ & ?)]; [exact H|discriminate]].
Qed.

Theorem span_reading hs :
  (~ sfinished hs -> sg_iter (after_scalls hs) = Err RuntimeErr /\
     (forall i, sg_getitem (after_scalls hs) i = Err RuntimeErr) /\
     (forall g, sg_eq g (after_scalls hs) = Err RuntimeErr)) /\
  (sfinished hs -> exists l, sg_iter (after_scalls hs) = Ok l /\ Permutation l (sadded hs)).
Proof.
  pose proof (sdone_flag hs) as D. split.
  - intros N. assert (E : sg_done (after_scalls hs) = false).
    { destruct (sg_done _); [|reflexivity]. destruct N. now apply D. }
    assert (EI : sg_iter (after_scalls hs) = Err RuntimeErr) by (unfold sg_iter; now rewrite E).
    split; [exact EI|]. split; [intros i; unfold sg_getitem; now rewrite E|].
    intros; unfold sg_eq; now rewrite EI.
  - intros FI. apply D in FI. exists (sg_items (after_scalls hs)). unfold sg_iter. rewrite FI.
    split; [reflexivity|apply scontents].
Qed.

Theorem span_items hs : sfinished hs -> exists l, sg_iter (after_scalls hs) = Ok l /\
  (forall k x, nth_error l k = Some x -> sg_getitem (after_scalls hs) (Z.of_nat k) = Ok x /\
     sg_getitem (after_scalls hs) (Z.of_nat k - Z.of_nat (length l)) = Ok x) /\
  (forall i, ~ (- Z.of_nat (length l) <= i < Z.of_nat (length l))%Z -> sg_getitem (after_scalls hs) i = Err IndexErr).
Proof.
  intros FI. apply sdone_flag in FI. exists (sg_items (after_scalls hs)). unfold sg_iter, sg_getitem. rewrite FI.
  split; [reflexivity|]. apply get_item_python.
Qed.

Theorem span_count hs : sg_len (after_scalls hs) = length (sadded hs) /\
  (sg_is_empty (after_scalls hs) = true <-> sadded hs = []).
Proof.
  pose proof (Permutation_length (scontents hs)) as P. unfold sg_len, sg_is_empty.
  rewrite Nat.eqb_eq, P, length_zero_iff_nil. tauto.
Qed.

Theorem span_add_outcome hs s e :
  (soutcome hs (SAdd s e) = None <-> (0 <= s < 2 ^ 32)%Z /\ (0 <= e < 2 ^ 32)%Z) /\
  (soutcome hs (SAdd s e) = None \/ soutcome hs (SAdd s e) = Some OverflowErr) /\
  (~ ((0 <= s <= e)%Z /\ (e < 2 ^ 32)%Z) -> after_scalls (hs ++ [SAdd s e]) = after_scalls hs).
Proof.
  rewrite after_ssnoc. unfold soutcome. cbn [sg_call]. unfold sg_add.
  destruct (to_u32_cases s) as [(Hs & ->)|(Hs & ->)].
  2:{ cbn [fst snd]. split; [split; [discriminate|lia]|]. split; [now right|auto]. }
  destruct (to_u32_cases e) as [(He & ->)|(He & ->)].
  2:{ cbn [fst snd]. split; [split; [discriminate|lia]|]. split; [now right|auto]. }
  cbn [fst snd]. split; [split; [auto|reflexivity]|]. split; [now left|]. intros N.
  destruct (Nat.ltb_spec (Z.to_nat e) (Z.to_nat s)); [reflexivity|lia].
Qed.

Theorem span_done_outcome hs :
  (soutcome hs SDone = None \/ soutcome hs SDone = Some ValueErr) /\
  (soutcome hs SDone = None -> exists l n, sg_iter (after_scalls (hs ++ [SDone])) = Ok l /\
     Permutation l (sadded hs) /\ tiles 0 l n) /\
  (forall g n, tiles 0 g n -> Forall (fun sp => fst sp < snd sp) g -> Permutation (sadded hs) g ->
     soutcome hs SDone = None /\ sg_iter (after_scalls (hs ++ [SDone])) = Ok g) /\
  (forall g n, tiles 0 g n -> sadded hs = g -> ~ In SDone hs ->
     soutcome hs SDone = None /\ sg_iter (after_scalls (hs ++ [SDone])) = Ok g).
Proof.
  rewrite after_ssnoc. unfold soutcome. cbn [sg_call].
  pose proof (scontents hs) as C. pose proof (sitems_wf hs) as W.
  destruct (sg_finish_cases (after_scalls hs)) as (l & P & [(E & ->)|(E & ->)]); cbn [fst snd].
  - split; [now left|]. split.
    { intros _. destruct (sdone_ok _ _ W E) as (_ & n & T). exists l, n. split; [reflexivity|].
      split; [now rewrite P|exact T]. }
    split.
    + intros g n T F PG. rewrite (sdone_perm_positive _ g n T F) in E; [|now rewrite C].
      injection E as <-. auto.
    + intros g n T EG ND. split; [reflexivity|]. unfold sg_iter. cbn [sg_done sg_items]. f_equal.
      assert (EI : sg_items (after_scalls hs) = sadded hs).
      { clear - ND. induction hs as [|c hs IH] using rev_ind; [reflexivity|].
        rewrite after_ssnoc, sadded_app. rewrite in_app_iff in ND. destruct c as [s e|]; [|cbn in ND; tauto].
        cbn [sg_call]. destruct (sg_add_items (after_scalls hs) s e) as (-> & _).
        rewrite IH by tauto. reflexivity. }
      rewrite EI, EG, (sdone_tiles g n T) in E. now injection E.
  - split; [now right|]. split; [discriminate|]. split.
    + intros g n T F PG. rewrite (sdone_perm_positive _ g n T F) in E; [discriminate|now rewrite C].
    + intros g n T EG ND. exfalso.
      assert (EI : sg_items (after_scalls hs) = sadded hs).
      { clear - ND. induction hs as [|c hs IH] using rev_ind; [reflexivity|].
        rewrite after_ssnoc, sadded_app. rewrite in_app_iff in ND. destruct c as [s e|]; [|cbn in ND; tauto].
        cbn [sg_call]. destruct (sg_add_items (after_scalls hs) s e) as (-> & _).
        rewrite IH by tauto. reflexivity. }
      rewrite EI, EG, (sdone_tiles g n T) in E. discriminate.
Qed.

Theorem span_failed_done hs e : soutcome hs SDone = Some e ->
  (sfinished (hs ++ [SDone]) <-> sfinished hs) /\ sadded (hs ++ [SDone]) = sadded hs.
Proof.
  intros O. rewrite sfinished_snoc, O, sadded_app. cbn. rewrite app_nil_r.
  split; [split; [intros [H|(_ & ?)]; [exact H|discriminate]|auto]|reflexivity].
Qed.

(** in a tiling a position lies in one span only *)
Lemma tiles_once p lo g n : tiles lo g n ->
  length (filter (fun sp : span => (fst sp <=? p) && (p <? snd sp)) g) <= 1 /\
  (p < lo -> filter (fun sp : span => (fst sp <=? p) && (p <? snd sp)) g = []).
Proof.
  revert lo; induction g as [|[s e] g IH]; intros lo T; [cbn; auto|].
  cbn in T. destruct T as (-> & L & T). destruct (IH _ T) as (I1 & I2). cbn [filter fst snd].
  destruct (Nat.leb_spec lo p), (Nat.ltb_spec p e); cbn [andb].
  - rewrite I2 by lia. cbn. split; [lia|lia].
  - split; [exact I1|]. lia.
  - split; [exact I1|]. intros. apply I2. lia.
  - split; [exact I1|]. lia.
Qed.

Theorem span_overlap_is_permanent hs hs' l1 l2 l3 a b p :
  sadded hs = l1 ++ a :: l2 ++ b :: l3 -> fst a <= p < snd a -> fst b <= p < snd b ->
  soutcome (hs ++ hs') SDone <> None.
Proof.
  intros E Ha Hb O. destruct (span_done_outcome (hs ++ hs')) as (_ & D & _).
  destruct (D O) as (l & n & _ & P & T). rewrite sadded_app, E in P.
  destruct (tiles_once p 0 l n T) as (T1 & _).
  set (f := fun sp : span => (fst sp <=? p) && (p <? snd sp)) in *.
  assert (EQ : length (filter f l) = length (filter f ((l1 ++ a :: l2 ++ b :: l3) ++ sadded hs'))).
  { clear - P. induction P as [|x l l' P IH|x y l|l l' l'' P1 IH1 P2 IH2]; cbn.
    - reflexivity.
    - destruct (f x); cbn; congruence.
    - destruct (f x), (f y); reflexivity.
    - congruence. }
  rewrite EQ in T1. rewrite !filter_app in T1. cbn [filter] in T1. rewrite filter_app in T1. cbn [filter] in T1.
  assert (f a = true) as FA.
  { unfold f. destruct (Nat.leb_spec (fst a) p), (Nat.ltb_spec p (snd a)); cbn; auto; lia. }
  assert (f b = true) as FB.
  { unfold f. destruct (Nat.leb_spec (fst b) p), (Nat.ltb_spec p (snd b)); cbn; auto; lia. }
  rewrite FA, FB in T1. rewrite !app_length in T1. cbn [length] in T1. rewrite app_length in T1. cbn [length] in T1. lia.
Qed.

Lemma existsb_span (x : span) l :
  existsb (fun y : span => (fst x =? fst y) && (snd x =? snd y)) l = true <-> In x l.
Proof.
  rewrite existsb_exists. split.
  - intros (y & Hy & E). rewrite andb_true_iff, !Nat.eqb_eq in E. destruct x, y, E; cbn in *; now subst.
  - intros H. exists x. split; [exact H|]. now rewrite !Nat.eqb_refl.
Qed.

Theorem span_equality h1 h2 : soutcome h1 SDone = None -> soutcome h2 SDone = None ->
  exists b, sg_eq (after_scalls (h1 ++ [SDone])) (after_scalls (h2 ++ [SDone])) = Ok b /\
    (b = true <-> length (sadded h1) = length (sadded h2) /\ (forall x, In x (sadded h1) <-> In x (sadded h2))) /\
    (Forall (fun sp => fst sp < snd sp) (sadded h1 ++ sadded h2) ->
     (b = true <-> sg_iter (after_scalls (h1 ++ [SDone])) = sg_iter (after_scalls (h2 ++ [SDone])))).
Proof.
  intros O1 O2.
  assert (D : forall hs, soutcome hs SDone = None -> exists l n, after_scalls (hs ++ [SDone]) = mkSG l true /\
    Permutation l (sadded hs) /\ tiles 0 l n).
  { intros hs O. rewrite after_ssnoc. unfold soutcome in O. cbn [sg_call] in *.
    destruct (sg_finish_cases (after_scalls hs)) as (l & P & [(E & E2)|(E & E2)]); rewrite E2 in O |- *; [|discriminate].
    destruct (sdone_ok _ _ (sitems_wf hs) E) as (_ & n & T). exists l, n. split; [reflexivity|].
    split; [now rewrite P, scontents|exact T]. }
  destruct (D _ O1) as (l1 & n1 & -> & P1 & T1). destruct (D _ O2) as (l2 & n2 & -> & P2 & T2).
  unfold sg_eq, sg_iter. cbn [sg_done sg_items bind]. eexists. split; [reflexivity|].
  assert (EQ : (length l2 =? length l1) &&
      forallb (fun x => existsb (fun y => (fst x =? fst y) && (snd x =? snd y)) l1) l2 &&
      forallb (fun x => existsb (fun y => (fst x =? fst y) && (snd x =? snd y)) l2) l1 = true <->
      length l1 = length l2 /\ (forall x, In x l1 <-> In x l2)).
  { rewrite !andb_true_iff, Nat.eqb_eq, !forallb_forall. split.
    - intros ((L & H1) & H2). split; [lia|]. intros x. split; intros Hx; apply existsb_span; auto.
    - intros (L & H). split; [split; [lia|]|]; intros x Hx; apply existsb_span, H, Hx. }
  assert (I : forall x, (In x l1 <-> In x (sadded h1)) /\ (In x l2 <-> In x (sadded h2))).
  { intros x. split; split; apply Permutation_in; auto; now symmetry. }
  split.
  - rewrite EQ, (Permutation_length P1), (Permutation_length P2). split; intros (L & H); (split; [exact L|]); intros x;
      destruct (I x) as (I1 & I2); specialize (H x); tauto.
  - intros F. rewrite Forall_app in F. destruct F as (F1 & F2). rewrite EQ. split.
    + intros (L & H). f_equal.
      assert (ND : forall lo l n, tiles lo l n -> Forall (fun sp => fst sp < snd sp) l -> NoDup l).
      { clear. intros lo l. revert lo. induction l as [|[s e] l IH]; intros lo n T F; constructor.
        - cbn in T. destruct T as (-> & L & T). inversion F as [|? ? F1 F2]; subst. cbn in F1.
          destruct (tiles_sorted _ _ _ T) as (B & _). rewrite Forall_forall in B. intros HI.
          specialize (B _ HI). cbn in B. lia.
        - cbn in T. destruct T as (-> & L & T). inversion F; subst. eapply IH; eassumption. }
      assert (G1 : Forall (fun sp => fst sp < snd sp) l1).
      { rewrite Forall_forall in *. intros x Hx. apply F1. now apply I. }
      assert (G2 : Forall (fun sp => fst sp < snd sp) l2).
      { rewrite Forall_forall in *. intros x Hx. apply F2. now apply I. }
      assert (P : Permutation l1 l2).
      { apply NoDup_Permutation; [eapply ND; eassumption|eapply ND; eassumption|exact H]. }
      pose proof (sdone_perm_positive _ _ _ T2 G2 P) as E1. rewrite (sdone_tiles _ _ T1) in E1.
      now injection E1.
    + intros E. injection E as ->. split; [reflexivity|]. intros x; tauto.
Qed.

(** values of the wrong type *)
Lemma wrong_type {A} {EA : Eqb A} (h : list (rcall A)) : Forall rcall_ok h -> finished h ->
  forall b x, added h x -> fst x <> b -> forall s, rg_apply b s (after_calls h) = Err TypeErr.
Proof.
  intros F D b x Hx N s. destruct (reading h F) as (_ & R). destruct (R D) as (l & E & HI & _).
  unfold rg_apply. rewrite E. cbn [bind]. apply HI in Hx.
  replace (forallb _ l) with false; [reflexivity|]. symmetry. apply Bool.not_true_iff_false. intros H.
  rewrite forallb_forall in H. specialize (H x Hx). apply Bool.eqb_prop in H. congruence.
Qed.
