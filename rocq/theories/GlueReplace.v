(** Searching in the parts of a text (C97). *)

From Verif Require Import Py PyFacts Edit SpecSeg SpecScan Regex RegexProofs PyRe SpecRe ReProofs ReParse ReWritten ReTexts ReGroups ReReplace SpecWords SpecOps Ops ScanProofs SpecGlue GlueProofs.
From Coq Require Import List Lia PeanoNat Bool.
Import ListNotations.

Definition low (n : nat) (l : list nat) : list nat := filter (fun e => e <=? n) l.

Lemma low_app n a b : low n (a ++ b) = low n a ++ low n b.
Proof. apply filter_app. Qed.

Lemma low_flat n F G (l : list nat) : (forall e, In e l -> e <= n -> low n (F e) = G e) ->
  (forall e, In e l -> n < e -> low n (F e) = []) -> low n (flat_map F l) = flat_map G (low n l).
Proof.
  induction l as [|x l IH]; intros H1 H2; [reflexivity|]. cbn [flat_map]. rewrite low_app, IH by (intros; auto with datatypes).
  cbn [low filter]. destruct (Nat.leb_spec x n).
  - cbn [flat_map]. f_equal. apply H1; [now left|lia].
  - rewrite H2; [reflexivity|now left|lia].
Qed.

Lemma low_id n l : Forall (fun e => e <= n) l -> low n l = l.
Proof.
  induction 1 as [|x l HX _ IH]; [reflexivity|]. cbn [low filter]. destruct (Nat.leb_spec x n); [|lia]. f_equal. exact IH.
Qed.
Lemma low_nil n l : Forall (fun e => n < e) l -> low n l = [].
Proof.
  induction 1 as [|x l HX _ IH]; [reflexivity|]. cbn [low filter]. destruct (Nat.leb_spec x n); [lia|]. exact IH.
Qed.

(** ** The way to go never goes back *)

Definition onward (f : nat -> list nat) : Prop := forall i e, In e (f i) -> i <= e.

Lemma times_onward f n : onward f -> onward (times n f).
Proof.
  intros H. induction n as [|n IH]; intros i e; cbn [times]; [intros [<-|[]]; lia|].
  rewrite in_flat_map. intros (m & A & B). apply H in A. apply IH in B. lia.
Qed.
Lemma more_onward f g n : onward f -> onward (more n g f).
Proof.
  intros H. induction n as [|n IH]; intros i e; cbn [more]; [intros [<-|[]]; lia|].
  assert (Q : In e (flat_map (fun e => if e =? i then [e] else more n g f e) (f i)) -> i <= e).
  { rewrite in_flat_map. intros (m & A & B). apply H in A. destruct (m =? i); [destruct B as [<-|[]]; exact A|]. apply IH in B. lia. }
  destruct g; [rewrite in_app_iff|]; cbn [In]; intuition lia.
Qed.
Lemma flat_onward f g : onward f -> onward g -> onward (fun i => flat_map g (f i)).
Proof. intros HF HG i e. rewrite in_flat_map. intros (m & A & B). apply HF in A. apply HG in B. lia. Qed.

Lemma xends_onward k s r : inward r -> onward (xends k s r).
Proof.
  induction r as [|neg l| |a IHa b IHb|a IHa b IHb|lo hi g a IHa|[] [] a IHa| | | |]; cbn [inward]; intros H; try contradiction.
  - intros i e [<-|[]]. lia.
  - intros i e. cbn [xends]. destruct (nth_error s i); [|intros []]. destruct (set_has k neg l z); [intros [<-|[]]; lia|intros []].
  - intros i e. cbn [xends]. destruct (nth_error s i); [|intros []]. destruct (z =? 10)%Z; [intros []|intros [<-|[]]; lia].
  - cbn [xends]. apply flat_onward; [now apply IHa|now apply IHb].
  - intros i e. cbn [xends]. rewrite in_app_iff. intros [Q|Q]; [now apply (IHa (proj1 H)) in Q|now apply (IHb (proj2 H)) in Q].
  - cbn [xends]. apply (flat_onward (times lo (xends k s a))); [now apply times_onward, IHa|now apply more_onward, IHa].
Qed.

(** ** Enough rounds *)

Lemma more_enough f g n : onward f -> (forall i e, i <= n -> In e (f i) -> e <= n) ->
  forall m m' i, i <= n -> n - i < m -> n - i < m' -> more m g f i = more m' g f i.
Proof.
  intros HO HN. induction m as [|m IH]; intros m' i HI H1 H2; [lia|]. destruct m' as [|m']; [lia|]. cbn [more].
  assert (Q : flat_map (fun e => if e =? i then [e] else more m g f e) (f i) =
              flat_map (fun e => if e =? i then [e] else more m' g f e) (f i)).
  { rewrite !flat_map_concat_map. f_equal. apply map_ext_in. intros e HE.
    destruct (Nat.eqb_spec e i) as [->|N]; [reflexivity|]. pose proof (HO i e HE). pose proof (HN i e HI HE).
    apply IH; lia. }
  now rewrite Q.
Qed.

(** ** The first part *)

Lemma low_times n f g : onward f -> (forall i, i <= n -> low n (f i) = g i) -> forall m i, i <= n ->
  low n (times m f i) = times m g i.
Proof.
  intros HO H m. induction m as [|m IH]; intros i HI.
  - cbn. destruct (Nat.leb_spec i n); [reflexivity|lia].
  - cbn [times]. rewrite (low_flat n _ (times m g)).
    + now rewrite H.
    + intros e _ HE. now apply IH.
    + intros e _ HE. apply low_nil. apply Forall_forall. intros x HX. apply (times_onward f m HO) in HX. lia.
Qed.
Lemma low_more n f g gr : onward f -> (forall i, i <= n -> low n (f i) = g i) -> forall m i, i <= n ->
  low n (more m gr f i) = more m gr g i.
Proof.
  intros HO H m. induction m as [|m IH]; intros i HI.
  - cbn. destruct (Nat.leb_spec i n); [reflexivity|lia].
  - cbn [more].
    assert (Q : low n (flat_map (fun e => if e =? i then [e] else more m gr f e) (f i)) =
                flat_map (fun e => if e =? i then [e] else more m gr g e) (g i)).
    { rewrite (low_flat n _ (fun e => if e =? i then [e] else more m gr g e)).
      - now rewrite H.
      - intros e _ HE. destruct (Nat.eqb_spec e i); [|now apply IH]. cbn. destruct (Nat.leb_spec e n); [reflexivity|lia].
      - intros e HX HE. destruct (Nat.eqb_spec e i); [lia|]. apply low_nil. apply Forall_forall. intros x HX'.
        apply (more_onward f gr m HO) in HX'. lia. }
    assert (S : low n [i] = [i]) by (cbn; destruct (Nat.leb_spec i n); [reflexivity|lia]).
    destruct gr.
    + now rewrite low_app, Q, S.
    + change (low n ([i] ++ flat_map (fun e => if e =? i then [e] else more m false f e) (f i)) = [i] ++ flat_map (fun e => if e =? i then [e] else more m false g e) (g i)).
      now rewrite low_app, Q, S.
Qed.

Lemma in_low n l e : In e (low n l) -> e <= n.
Proof. unfold low. rewrite filter_In. intros (_ & H). now apply Nat.leb_le. Qed.

Lemma xends_low k s t r : inward r -> forall i, i <= length s ->
  low (length s) (xends k (s ++ t) r i) = xends k s r i.
Proof.
  induction r as [|neg l| |a IHa b IHb|a IHa b IHb|lo hi g a IHa|[] [] a IHa| | | |]; cbn [inward]; intros H i HI; try contradiction.
  - cbn. destruct (Nat.leb_spec i (length s)); [reflexivity|lia].
  - cbn [xends]. destruct (Nat.eq_dec i (length s)) as [->|N].
    + rewrite (proj2 (nth_error_None s (length s))) by lia. destruct (nth_error (s ++ t) (length s)); [|reflexivity].
      destruct (set_has k neg l z); [|reflexivity]. apply low_nil. constructor; [lia|constructor].
    + rewrite nth_error_app1 by lia. destruct (nth_error s i); [|reflexivity]. destruct (set_has k neg l z); [|reflexivity].
      apply low_id. constructor; [lia|constructor].
  - cbn [xends]. destruct (Nat.eq_dec i (length s)) as [->|N].
    + rewrite (proj2 (nth_error_None s (length s))) by lia. destruct (nth_error (s ++ t) (length s)); [|reflexivity].
      destruct (z =? 10)%Z; [reflexivity|]. apply low_nil. constructor; [lia|constructor].
    + rewrite nth_error_app1 by lia. destruct (nth_error s i); [|reflexivity]. destruct (z =? 10)%Z; [reflexivity|].
      apply low_id. constructor; [lia|constructor].
  - destruct H as (HA & HB). cbn [xends]. rewrite (low_flat _ _ (xends k s b)).
    + now rewrite IHa.
    + intros e _ HE. now apply IHb.
    + intros e _ HE. apply low_nil, Forall_forall. intros x HX. apply (xends_onward k _ b HB) in HX. lia.
  - destruct H as (HA & HB). cbn [xends]. now rewrite low_app, IHa, IHb.
  - cbn [xends]. pose proof (xends_onward k (s ++ t) a H) as HO. pose proof (xends_onward k s a H) as HO'.
    assert (HN : forall i e, i <= length s -> In e (xends k s a i) -> e <= length s).
    { intros j e HJ HE. rewrite <- IHa in HE by assumption. now apply in_low in HE. }
    set (m := match hi with Some h => h - lo | None => S (length (s ++ t)) end).
    rewrite (low_flat _ _ (more m g (xends k s a))).
    + rewrite (low_times _ _ (xends k s a)); [|exact HO|now apply IHa|exact HI].
      rewrite !flat_map_concat_map. f_equal. apply map_ext_in. intros e HE. unfold m. destruct hi as [h|]; [reflexivity|].
      assert (e <= length s).
      { rewrite <- (low_times (length s) (xends k (s ++ t) a)) in HE; [now apply in_low in HE|exact HO|now apply IHa|exact HI]. }
      apply (more_enough _ _ (length s)); auto; rewrite ?app_length; lia.
    + intros e _ HE. apply low_more; auto.
    + intros e _ HE. apply low_nil, Forall_forall. intros x HX. apply (more_onward _ g m HO) in HX. lia.
Qed.

(** ** The second part *)

Lemma xends_within k s r : inward r -> forall i e, i <= length s -> In e (xends k s r i) -> e <= length s.
Proof.
  intros H i e HI HE. rewrite <- (xends_low k s [] r H i HI) in HE. now apply in_low in HE.
Qed.

Lemma flat_map_shift n (F G : nat -> list nat) l : (forall e, In e l -> F (n + e) = map (fun x => n + x) (G e)) ->
  flat_map F (map (fun x => n + x) l) = map (fun x => n + x) (flat_map G l).
Proof.
  induction l as [|x l IH]; intros H; [reflexivity|]. cbn [map flat_map]. rewrite map_app, H by now left. f_equal.
  apply IH. intros e HE. apply H. now right.
Qed.

Lemma times_shift n f g m top : (forall i, i <= top -> f (n + i) = map (fun x => n + x) (g i)) ->
  (forall i e, i <= top -> In e (g i) -> e <= top) -> forall i, i <= top -> times m f (n + i) = map (fun x => n + x) (times m g i).
Proof.
  intros H HN. induction m as [|m IH]; intros i HI; [reflexivity|]. cbn [times]. rewrite H by exact HI.
  apply flat_map_shift. intros e HE. apply IH. now apply (HN i).
Qed.
Lemma more_shift n f g gr m top : (forall i, i <= top -> f (n + i) = map (fun x => n + x) (g i)) ->
  (forall i e, i <= top -> In e (g i) -> e <= top) -> forall i, i <= top ->
  more m gr f (n + i) = map (fun x => n + x) (more m gr g i).
Proof.
  intros H HN. induction m as [|m IH]; intros i HI; [reflexivity|]. cbn [more]. rewrite H by exact HI.
  rewrite (flat_map_shift n _ (fun e => if e =? i then [e] else more m gr g e)).
  2:{ intros e HE. destruct (Nat.eqb_spec e i) as [->|N]; [now rewrite Nat.eqb_refl|].
      destruct (Nat.eqb_spec (n + e) (n + i)); [lia|]. apply IH. now apply (HN i). }
  destruct gr; [now rewrite map_app|reflexivity].
Qed.

Lemma xends_right k s t r : inward r -> forall i, i <= length t ->
  xends k (s ++ t) r (length s + i) = map (fun x => length s + x) (xends k t r i).
Proof.
  induction r as [|neg l| |a IHa b IHb|a IHa b IHb|lo hi g a IHa|[] [] a IHa| | | |]; cbn [inward]; intros H i HI; try contradiction.
  - reflexivity.
  - cbn [xends]. rewrite nth_error_app2 by lia. replace (length s + i - length s) with i by lia.
    destruct (nth_error t i); [|reflexivity]. destruct (set_has k neg l z); [|reflexivity]. cbn [map]. f_equal. lia.
  - cbn [xends]. rewrite nth_error_app2 by lia. replace (length s + i - length s) with i by lia.
    destruct (nth_error t i); [|reflexivity]. destruct (z =? 10)%Z; [reflexivity|]. cbn [map]. f_equal. lia.
  - destruct H as (HA & HB). cbn [xends]. rewrite IHa by assumption. apply flat_map_shift. intros e HE. apply IHb; [exact HB|].
    now apply (xends_within k t a HA i).
  - destruct H as (HA & HB). cbn [xends]. rewrite IHa, IHb by assumption. now rewrite map_app.
  - cbn [xends]. pose proof (xends_within k t a H) as HN.
    rewrite (times_shift _ _ (xends k t a) _ (length t)) by auto. rewrite <- (flat_map_shift _ (more (match hi with Some h => h - lo | None => S (length (s ++ t)) end) g (xends k (s ++ t) a))).
    + reflexivity.
    + intros e HE.
      assert (LE : e <= length t).
      { clear - HE HN HI. revert i HI HE. induction lo as [|lo IH]; intros i HI; cbn [times]; [intros [<-|[]]; exact HI|].
        rewrite in_flat_map. intros (m & A & B). apply (IH m); [now apply (HN i)|exact B]. }
      rewrite (more_shift _ _ (xends k t a) _ _ (length t)) by auto. f_equal. destruct hi as [h|]; [reflexivity|].
      apply (more_enough _ _ (length t)); auto; [now apply xends_onward|rewrite app_length; lia|lia].
Qed.

(** ** Searching *)

Lemma search_right k s t r : inward r -> forall n i, i + n <= length t ->
  xsearch_at k r (s ++ t) n (length s + i) = right_by (length s) (xsearch_at k r t n i).
Proof.
  intros H n. induction n as [|n IH]; intros i HI; cbn [xsearch_at]; rewrite xends_right by (assumption || lia).
  - destruct (xends k t r i); reflexivity.
  - destruct (xends k t r i); [|reflexivity]. cbn [map]. rewrite <- Nat.add_succ_r. apply IH. lia.
Qed.

Lemma search_two k s t r : inward r ->
  (forall i, i < length s -> Forall (fun e => e <= length s) (xends k (s ++ t) r i)) -> xends k s r (length s) = [] ->
  forall n i, i + n = length s ->
  xsearch_at k r (s ++ t) (n + length t) i =
  match xsearch_at k r s n i with Some m => Some m | None => right_by (length s) (xsearch_at k r t (length t) 0) end.
Proof.
  intros H HA HZ n. induction n as [|n IH]; intros i HI.
  - replace i with (length s) by lia. cbn [Nat.add xsearch_at]. rewrite HZ.
    pose proof (search_right k s t r H (length t) 0 ltac:(lia)) as Q. now rewrite Nat.add_0_r in Q.
  - cbn [Nat.add xsearch_at]. pose proof (xends_low k s t r H i ltac:(lia)) as Q.
    rewrite low_id in Q by (apply HA; lia). rewrite Q. destruct (xends k s r i); [|reflexivity].
    replace (n + length t) with (n + length t) by lia. apply IH. lia.
Qed.

Theorem inward_local E w p r s t : python_re E w p -> parse p = Read r -> inward r ->
  (forall i e, i < length s -> length s < e -> ~ xmatch (classes_of E w) (s ++ t) r i e) ->
  ~ xmatch (classes_of E w) (s ++ t) r (length s) (length s) ->
  exists find, re_compile E p = Some find /\ in_bounds find /\ local_search find s t.
Proof.
  intros HP HR HI HA HE. destruct (read_compiles E w p r HP HR) as (find & HC & HB & HS). exists find.
  split; [exact HC|]. split; [exact HB|]. pose proof (parse_good p r HR) as G. set (k := classes_of E w) in *.
  assert (HA' : forall i, i < length s -> Forall (fun e => e <= length s) (xends k (s ++ t) r i)).
  { intros i Hi. apply Forall_forall. intros e He. apply xends_iff in He; [|exact G|rewrite app_length; lia].
    destruct (Nat.le_gt_cases e (length s)); [assumption|]. now apply HA in He. }
  assert (HZ : xends k s r (length s) = []).
  { rewrite <- (xends_low k s t r HI) by lia. apply low_nil. apply Forall_forall. intros e He.
    pose proof (xends_onward k (s ++ t) r HI _ _ He) as LE. destruct (Nat.eq_dec e (length s)) as [->|]; [|lia].
    apply xends_iff in He; [contradiction|exact G|rewrite app_length; lia]. }
  split; intros q Hq.
  - rewrite !HS by (rewrite ?app_length; lia). unfold xsearch.
    rewrite !(proj2 (Nat.ltb_ge _ _)) by (rewrite ?app_length; lia). rewrite !Nat.sub_0_r.
    replace (length (s ++ t) - q) with (length s - q + length t) by (rewrite app_length; lia).
    apply search_two; auto. lia.
  - rewrite !HS by (rewrite ?app_length; lia). unfold xsearch.
    rewrite !(proj2 (Nat.ltb_ge _ _)) by (rewrite ?app_length; lia).
    replace (length (s ++ t) - (length s + q)) with (length t - q) by (rewrite app_length; lia).
    apply search_right; [exact HI|lia].
Qed.

(** ReplaceAwithB on the parts: no match reaches over the cut, and none is empty there. *)
Theorem replace_parts E w p r b s t : python E -> python_re E w p -> parse p = Read r -> inward r -> b <> [] ->
  (forall i e, i < length s -> length s < e -> ~ xmatch (classes_of E w) (s ++ t) r i e) ->
  ~ xmatch (classes_of E w) (s ++ t) r (length s) (length s) ->
  seam E (ReplaceAwithB p b) (SStr s) (SStr t) /\ glued E (ReplaceAwithB p b) (SStr s) (SStr t).
Proof.
  intros PY HP HR HI NB HA HE. destruct (inward_local E w p r s t HP HR HI HA HE) as (find & HC & HB & HL).
  assert (S : seam E (ReplaceAwithB p b) (SStr s) (SStr t)) by now apply (seam_replace E p b find).
  split; [exact S|]. now apply seam_glued.
Qed.

Lemma xword_inward c : inward (xword c).
Proof.
  induction c as [|x c IH]; [exact Logic.I|]. destruct c; cbn; auto.
Qed.
Lemma xwords_inward ws : inward (xwords ws).
Proof.
  induction ws as [|x ws IH]; [exact Logic.I|]. destruct ws as [|y ws]; [apply xword_inward|].
  split; [apply xword_inward|exact IH].
Qed.

Lemma occurs_over (w s t : str) i : occurs_at w (s ++ t) i -> i < length s -> length s < i + length w ->
  exists u v s' t', s = s' ++ u /\ t = v ++ t' /\ u <> [] /\ v <> [] /\ w = u ++ v.
Proof.
  intros (a & c & Q & LA) H1 H2.
  exists (firstn (length s - i) w), (skipn (length s - i) w), (firstn i s), (skipn (i + length w - length s) t).
  assert (E1 : skipn i (s ++ t) = w ++ c) by (rewrite Q, <- LA, skipn_app, skipn_all, Nat.sub_diag; reflexivity).
  rewrite skipn_app in E1. replace (i - length s) with 0 in E1 by lia. cbn [skipn] in E1.
  assert (E2 : firstn (length s - i) (skipn i s ++ t) = firstn (length s - i) (w ++ c)) by now rewrite E1.
  rewrite !firstn_app, skipn_length, Nat.sub_diag, firstn_O, app_nil_r in E2. rewrite firstn_all2 in E2 by (rewrite skipn_length; lia).
  replace (length s - i - length w) with 0 in E2 by lia. rewrite firstn_O, app_nil_r in E2.
  assert (E3 : skipn (length s - i) (skipn i s ++ t) = skipn (length s - i) (w ++ c)) by now rewrite E1.
  rewrite !skipn_app, skipn_length, Nat.sub_diag in E3. rewrite skipn_all2 in E3 by (rewrite skipn_length; lia).
  replace (length s - i - length w) with 0 in E3 by lia. cbn [skipn app] in E3.
  split; [rewrite <- E2; symmetry; apply firstn_skipn|]. split.
  - rewrite E3 at 1 2. rewrite skipn_app. rewrite skipn_length.
    replace (i + length w - length s - (length w - (length s - i))) with 0 by lia. cbn [skipn].
    rewrite (skipn_all2 (skipn (length s - i) w)) by (rewrite skipn_length; lia). reflexivity.
  - split; [intros ZZ; apply (f_equal (@length _)) in ZZ; rewrite firstn_length in ZZ; cbn in ZZ; lia|].
    split; [intros ZZ; apply (f_equal (@length _)) in ZZ; rewrite skipn_length in ZZ; cbn in ZZ; lia|].
    symmetry. apply firstn_skipn.
Qed.

Theorem replace_words_parts E w ws p b s t : python E -> python_re E w p ->
  (words_pattern ws p /\ ws <> [] /\ Forall plain ws) \/ (exists x, ws = [x] /\ text_pattern x p) ->
  ~ In [] ws -> b <> [] -> ~ straddled ws s t ->
  seam E (ReplaceAwithB p b) (SStr s) (SStr t) /\ glued E (ReplaceAwithB p b) (SStr s) (SStr t).
Proof.
  intros PY HP HW NE NB NS.
  assert (X : ws <> [] /\ exists r, parse p = Read r /\ inward r /\ forall k, same_ends k r (rwords ws)).
  { destruct HW as [(WP & N & PL)|(x & -> & TP)].
    - split; [exact N|]. exists (xwords ws). split; [now apply words_parse|]. split; [apply xwords_inward|]. intros k. apply same_words.
    - split; [discriminate|]. exists (xword x). split; [now apply text_parses|]. split; [apply xword_inward|]. intros k. apply same_word. }
  destruct X as (N & r & HR & HI & SE).
  assert (M : forall i e, i <= length (s ++ t) -> xmatch (classes_of E w) (s ++ t) r i e ->
     exists x, In x ws /\ occurs_at x (s ++ t) i /\ e = i + length x).
  { intros i e Hi Hm. apply xends_iff in Hm; [|exact (parse_good p r HR)|exact Hi]. rewrite SE in Hm by exact Hi.
    apply ends_rmatch in Hm; [|exact Hi]. apply rwords_match in Hm; [|exact N|exact Hi]. destruct Hm as (x & HX & Hm).
    exists x. split; [exact HX|]. now apply lit_occurs. }
  apply (replace_parts E w p r); auto.
  - intros i e H1 H2 Hm. destruct (M i e) as (x & HX & OC & ->); [rewrite app_length; lia|exact Hm|].
    apply NS. destruct (occurs_over x s t i OC H1 H2) as (u & v & s' & t' & A & B & C & D & F).
    exists u, v, s', t'. rewrite <- F. auto.
  - intros Hm. destruct (M (length s) (length s) ltac:(rewrite app_length; lia) Hm) as (x & HX & OC & Q).
    destruct x; [now apply NE|]. cbn in Q. lia.
Qed.
