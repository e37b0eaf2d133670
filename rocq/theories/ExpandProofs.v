(** Proofs about get_kth_combination, partition_by_entities and expand_by_entities. *)

From Coq Require Import QArith Sorted.
From Verif Require Import Py PyFacts Json Elements SpecElements DatumProofs PackProofs.
Local Open Scope Z_scope.

(** ** Combinations *)

Lemma n_choices_cons {A} (it : list A) its :
  n_choices (it :: its) = Z.of_nat (length it) * n_choices its.
Proof. reflexivity. Qed.

Lemma flat_map_length_const {A B} (f : A -> list B) l n :
  (forall x, length (f x) = n) -> length (flat_map f l) = (length l * n)%nat.
Proof. intros H. induction l as [|x l IH]; [reflexivity|]. cbn. rewrite app_length, H, IH. lia. Qed.

Lemma choices_length {A} (its : list (list A)) : Z.of_nat (length (choices its)) = n_choices its.
Proof.
  induction its as [|it its IH]; [reflexivity|]. cbn [choices]. rewrite n_choices_cons, <- IH.
  rewrite (flat_map_length_const _ _ (length it)) by (intros t; apply map_length). lia.
Qed.

Lemma n_choices_pos {A} (its : list (list A)) : Forall (fun it => it <> []) its -> 0 < n_choices its.
Proof.
  induction 1 as [|it its HI _ IH]; [reflexivity|]. rewrite n_choices_cons.
  destruct it; [congruence|]. cbn [length]. lia.
Qed.

Lemma nth_error_blocks {A B} (f : A -> list B) n l q r x :
  (forall x, length (f x) = n) -> nth_error l q = Some x -> (r < n)%nat ->
  nth_error (flat_map f l) (q * n + r) = nth_error (f x) r.
Proof.
  intros HN. revert q; induction l as [|y l IH]; intros q HQ HR; [now destruct q|].
  cbn [flat_map]. destruct q as [|q].
  - injection HQ as ->. rewrite nth_error_app1 by (rewrite HN; lia). reflexivity.
  - rewrite nth_error_app2 by (rewrite HN; lia). rewrite HN.
    replace (S q * n + r - n)%nat with (q * n + r)%nat by lia. now apply IH.
Qed.

(** the k-th combination is entry [k mod n] of the list of all combinations *)
Lemma kth_loop_choice {A} (its : list (list A)) : Forall (fun it => it <> []) its ->
  forall k, exists c, kth_loop its k = Ok c /\
    nth_error (choices its) (Z.to_nat (k mod n_choices its)) = Some c.
Proof.
  induction 1 as [|it its HI HF IH]; intros k.
  - exists []. split; [reflexivity|]. cbn. now rewrite Z.mod_1_r.
  - pose proof (n_choices_pos its HF) as HP.
    cbn [kth_loop choices]. rewrite n_choices_cons. set (n := Z.of_nat (length it)).
    assert (HN : 0 < n) by (subst n; destruct it; [congruence|cbn [length]; lia]).
    destruct (Z.eqb_spec n 0); [lia|]. cbn [negb guard bind].
    pose proof (Z.mod_pos_bound k n HN) as HM.
    pose proof (Z.mod_pos_bound (k / n) (n_choices its) HP) as HM2.
    destruct (IH (k / n)) as (c & EC & NC).
    destruct (nth_error it (Z.to_nat (k mod n))) as [x|] eqn:EX.
    2:{ apply nth_error_None in EX. lia. }
    exists (x :: c). split.
    + rewrite (get_item_nth it (k mod n) x) by (fold n; lia). cbn [bind]. rewrite EC. cbn [bind].
      now rewrite (nth_error_nth _ _ x EX).
    + rewrite Z.rem_mul_r by lia.
      replace (Z.to_nat (k mod n + n * ((k / n) mod n_choices its))) with
        (Z.to_nat ((k / n) mod n_choices its) * length it + Z.to_nat (k mod n))%nat by (subst n; nia).
      rewrite (nth_error_blocks _ (length it) _ _ _ c); [|intros; apply map_length|exact NC|lia].
      rewrite nth_error_map, EX. reflexivity.
Qed.

Lemma kth_choice {A} (its : list (list A)) k : Forall (fun it => it <> []) its -> i32 k ->
  exists c, get_kth_combination its k = Ok c /\
    nth_error (choices its) (Z.to_nat (k mod n_choices its)) = Some c.
Proof.
  intros HF HK. unfold get_kth_combination. rewrite to_i32_ok by exact HK. now apply kth_loop_choice.
Qed.

Lemma kth_overflow {A} (its : list (list A)) k : ~ i32 k -> get_kth_combination its k = Err OverflowErr.
Proof. intros H. unfold get_kth_combination. now rewrite to_i32_err. Qed.

Lemma kth_empty {A} (its : list (list A)) k : In [] its -> i32 k ->
  get_kth_combination its k = Err ZeroDivisionErr.
Proof.
  intros HI HK. unfold get_kth_combination. rewrite to_i32_ok by exact HK. cbn [bind]. clear HK.
  revert k HI; induction its as [|it its IH]; intros k HI; [destruct HI|]. cbn [kth_loop].
  destruct it as [|x it]; [reflexivity|]. destruct HI as [HI|HI]; [discriminate|].
  set (n := Z.of_nat (length (x :: it))). assert (HN : 0 < n) by (subst n; cbn [length]; lia).
  destruct (Z.eqb_spec n 0); [lia|]. cbn [negb guard bind].
  pose proof (Z.mod_pos_bound k n HN). rewrite (get_item_nth _ _ x) by (fold n; lia). cbn [bind].
  now rewrite IH.
Qed.

Lemma mapM_nth {A B} (f : A -> res B) (l : list A) (m : list B) :
  length l = length m ->
  (forall i x, nth_error l i = Some x -> exists y, f x = Ok y /\ nth_error m i = Some y) ->
  mapM f l = Ok m.
Proof.
  revert m; induction l as [|x l IH]; intros [|y m] HL H; try discriminate; [reflexivity|].
  cbn [mapM]. destruct (H 0%nat x eq_refl) as (y' & -> & E). cbn in E. injection E as ->. cbn [bind].
  rewrite (IH m); [reflexivity|now injection HL|]. intros i z HZ. apply (H (S i) z HZ).
Qed.

Lemma nth_error_zrange a b i x : nth_error (zrange a b) i = Some x -> x = a + Z.of_nat i.
Proof.
  unfold zrange. rewrite nth_error_map. destruct (nth_error (seq 0 _) i) eqn:E; [|discriminate].
  intros [= <-]. assert (HI : (i < Z.to_nat (b - a))%nat).
  { rewrite <- (seq_length (Z.to_nat (b - a)) 0). apply nth_error_Some. congruence. }
  apply (nth_error_nth _ _ 0%nat) in E. rewrite seq_nth in E by exact HI. lia.
Qed.

(** 0 .. n-1 enumerates the combinations *)
Lemma kth_all {A} (its : list (list A)) : Forall (fun it => it <> []) its -> n_choices its <= 2 ^ 31 ->
  mapM (get_kth_combination its) (zrange 0 (n_choices its)) = Ok (choices its).
Proof.
  intros HF HN. pose proof (n_choices_pos its HF) as HP. apply mapM_nth.
  - rewrite length_zrange, Z.sub_0_r, <- choices_length. lia.
  - intros i x HX.
    assert (IN : In x (zrange 0 (n_choices its))) by now apply nth_error_In in HX.
    apply in_zrange in IN. apply nth_error_zrange in HX.
    destruct (kth_choice its x HF) as (c & E & NC); [unfold i32; lia|].
    exists c. split; [exact E|]. rewrite Z.mod_small in NC by lia. subst x. now rewrite Z.add_0_l, Nat2Z.id in NC.
Qed.

Lemma in_choices {A} (its : list (list A)) c :
  In c (choices its) <-> Forall2 (fun x it => In x it) c its.
Proof.
  revert c; induction its as [|it its IH]; intros c; cbn [choices].
  - split; [intros [<-|[]]; constructor|]. intros H. inversion H. now left.
  - rewrite in_flat_map. split.
    + intros (t & HT & HC). apply in_map_iff in HC. destruct HC as (x & <- & HX).
      constructor; [exact HX|now apply IH].
    + intros H. inversion H as [|x ? t ? HX HT]; subst. exists t. split; [now apply IH|].
      apply in_map_iff. now exists x.
Qed.

Lemma NoDup_app_intro' {A} (a b : list A) :
  NoDup a -> NoDup b -> (forall x, In x a -> ~ In x b) -> NoDup (a ++ b).
Proof.
  induction 1 as [|x a HX _ IH]; intros HB HD; [exact HB|]. cbn. constructor.
  - rewrite in_app_iff. intros [H|H]; [contradiction|]. apply (HD x); [now left|exact H].
  - apply IH; [exact HB|]. intros y HY. apply HD. now right.
Qed.

Lemma NoDup_choices {A} (its : list (list A)) : Forall (@NoDup A) its -> NoDup (choices its).
Proof.
  induction 1 as [|it its HI _ IH]; cbn [choices]; [repeat constructor; intros []|].
  induction IH as [|t l HT _ IHL]; cbn [flat_map]; [constructor|].
  apply NoDup_app_intro'.
  - apply FinFun.Injective_map_NoDup; [|exact HI]. intros x y [= ->]. reflexivity.
  - exact IHL.
  - intros z HZ HZ2. apply in_map_iff in HZ. destruct HZ as (x & <- & _).
    apply in_flat_map in HZ2. destruct HZ2 as (t' & HT' & HZ2). apply in_map_iff in HZ2.
    destruct HZ2 as (y & [= _ <-] & _). contradiction.
Qed.

(** ** Candidates *)

Lemma str_leb_spec a b : str_leb a b = true -> str_le a b.
Proof.
  revert b; induction a as [|x a IH]; intros [|y b]; cbn; try discriminate; try (intros _; apply le_nil).
  destruct (Z.ltb_spec x y); [intros _; now apply le_lt|]. destruct (Z.ltb_spec y x); [discriminate|].
  intros HE. assert (x = y) as -> by lia. apply le_cons. now apply IH.
Qed.

Lemma str_leb_total a b : str_leb a b = false -> str_le b a.
Proof.
  revert b; induction a as [|x a IH]; intros [|y b]; cbn; try discriminate; try (intros _; apply le_nil).
  destruct (Z.ltb_spec x y); [discriminate|]. destruct (Z.ltb_spec y x); [intros _; now apply le_lt|].
  intros HE. assert (x = y) as -> by lia. apply le_cons. now apply IH.
Qed.

Lemma str_le_trans a b c : str_le a b -> str_le b c -> str_le a c.
Proof.
  intros H. revert c; induction H; intros c HC; inversion HC; subst; try apply le_nil; try (apply le_lt; lia). apply le_cons. auto.
Qed.

Lemma insert_str_perm x l : Permutation (insert_str x l) (x :: l).
Proof.
  induction l as [|y l IH]; cbn; [reflexivity|]. destruct (str_leb x y); [reflexivity|].
  rewrite IH. apply perm_swap.
Qed.

Lemma sorted_strs_perm l : Permutation (sorted_strs l) l.
Proof.
  induction l as [|x l IH]; [reflexivity|]. cbn. rewrite insert_str_perm. now apply perm_skip.
Qed.

Lemma sorted_strs_sorted l : StronglySorted str_le (sorted_strs l).
Proof.
  induction l as [|x l IH]; [constructor|]. cbn. fold (sorted_strs l).
  induction IH as [|y m HS IH HF]; cbn; [repeat constructor|].
  destruct (str_leb x y) eqn:E.
  - apply str_leb_spec in E. constructor; [now constructor|]. constructor; [exact E|].
    eapply Forall_impl; [|exact HF]. intros z. now apply str_le_trans.
  - apply str_leb_total in E. constructor; [exact IH|].
    apply Forall_forall. intros z HZ. eapply Permutation_in in HZ; [|apply insert_str_perm].
    destruct HZ as [<-|HZ]; [exact E|]. rewrite Forall_forall in HF. now apply HF.
Qed.

(** the part of an entity *)
Definition cand (io : bool) (e : entity) : list str :=
  if no_replacements e then [e_value e]
  else (sorted_strs (e_replacements e) ++ (if io then [e_value e] else []))%list.

Lemma cand_spec io e : candidates io e (cand io e).
Proof.
  unfold candidates, cand, no_replacements. destruct (e_replacements e) as [|r rs]; [reflexivity|].
  cbn [length Nat.eqb]. exists (sorted_strs (r :: rs)). split; [apply sorted_strs_sorted|].
  split; [symmetry; apply sorted_strs_perm|reflexivity].
Qed.

Lemma str_le_antisym a b : str_le a b -> str_le b a -> a = b.
Proof. induction 1; intros HB; inversion HB; subst; try reflexivity; try lia. f_equal. auto. Qed.

Lemma candidates_unique io e a b : candidates io e a -> candidates io e b -> a = b.
Proof.
  unfold candidates. destruct (e_replacements e) as [|r rs]; [congruence|].
  intros (s1 & S1 & P1 & ->) (s2 & S2 & P2 & ->). f_equal.
  apply (sorted_perm_unique str_le); [|exact S1|exact S2|].
  - intros x y _ _. apply str_le_antisym.
  - now rewrite <- P1.
Qed.

Lemma cand_nonempty io e : cand io e <> [].
Proof.
  unfold cand, no_replacements. destruct (e_replacements e) as [|r rs]; [discriminate|].
  cbn [length Nat.eqb]. intros H. apply app_eq_nil in H. destruct H as (H & _).
  pose proof (sorted_strs_perm (r :: rs)) as P. rewrite H in P. apply Permutation_nil in P. discriminate.
Qed.

(** ** Partition *)

(** [inside] and in order, from [pos] on *)
Fixpoint lined (u : str) (pos : Z) (es : list entity) : Prop :=
  match es with
  | [] => pos <= Z.of_nat (length u)
  | e :: es => pos <= e_start e <= e_end e /\ lined u (e_end e) es
  end.

Lemma lined_end u pos es : lined u pos es -> pos <= Z.of_nat (length u).
Proof. revert pos; induction es as [|e es IH]; intros pos; cbn; [auto|]. intros (H & HL). apply IH in HL. lia. Qed.

Lemma datum_lined d : is_datum d -> Forall (inside (d_utterance d)) (d_entities d) ->
  lined (d_utterance d) 0 (d_entities d).
Proof.
  intros HD HI. apply is_datum_inv in HD. destruct HD as (_ & _ & _ & _ & HB & _).
  assert (G : forall es pos, StronglySorted before es -> Forall (inside (d_utterance d)) es ->
     0 <= pos <= Z.of_nat (length (d_utterance d)) -> Forall (fun e => pos <= e_start e) es ->
     lined (d_utterance d) pos es).
  { induction es as [|e es IH]; intros pos HS HF HP HL; [cbn; lia|].
    apply StronglySorted_inv in HS. destruct HS as (HS & HX).
    inversion HF as [|? ? (I1 & I2) HF']; subst. inversion HL; subst. cbn. split; [lia|].
    apply IH; [exact HS|exact HF'|lia|exact HX]. }
  apply G; [exact HB|exact HI|lia|]. eapply Forall_impl; [|exact HI]. unfold inside. cbn. lia.
Qed.

Fixpoint pieces (u : str) (pos : Z) (es : list entity) : list piece :=
  match es with
  | [] => if pos =? Z.of_nat (length u) then [] else [(None, slice_z u pos (Z.of_nat (length u)))]
  | e :: es =>
      ((if pos =? e_start e then [] else [(None, slice_z u pos (e_start e))]) ++
       (Some e, e_value e) :: pieces u (e_end e) es)%list
  end.

Definition part_of (io : bool) (p : piece) : list str :=
  match fst p with None => [snd p] | Some e => cand io e end.

Lemma partition_pieces u io es pos :
  partition_loop u io pos es =
  (map (part_of io) (pieces u pos es), map (fun p => option_map e_label (fst p)) (pieces u pos es)).
Proof.
  revert pos; induction es as [|e es IH]; intros pos; cbn [partition_loop pieces].
  - destruct (Z.eqb_spec pos (Z.of_nat (length u))); reflexivity.
  - rewrite IH. destruct (Z.eqb_spec pos (e_start e)); reflexivity.
Qed.

Lemma slice_cut {A} (u : list A) i j : 0 <= i <= j -> j <= Z.of_nat (length u) ->
  skipn (Z.to_nat i) u = (slice_z u i j ++ skipn (Z.to_nat j) u)%list.
Proof.
  intros H1 H2. destruct (slice_text_at u i j H1 H2) as (E & _).
  assert (E2 : u = (firstn (Z.to_nat i) u ++ skipn (Z.to_nat i) u)%list) by (symmetry; apply firstn_skipn).
  rewrite E2 in E at 1. now apply app_inv_head in E.
Qed.

Lemma slice_full {A} (u : list A) i : 0 <= i <= Z.of_nat (length u) ->
  slice_z u i (Z.of_nat (length u)) = skipn (Z.to_nat i) u.
Proof.
  intros H. rewrite (slice_cut u i (Z.of_nat (length u))) by lia.
  rewrite Nat2Z.id, skipn_all. now rewrite app_nil_r.
Qed.

Lemma slice_firstn {A} (u : list A) i j : 0 <= i <= j -> j <= Z.of_nat (length u) ->
  slice_z u i j = firstn (Z.to_nat j - Z.to_nat i) (skipn (Z.to_nat i) u).
Proof.
  intros H1 H2. unfold slice_z, adj.
  destruct (Z.ltb_spec i 0); [lia|]. destruct (Z.ltb_spec j 0); [lia|].
  now rewrite !Nat.min_r by lia.
Qed.

Lemma pieces_concat u pos es : 0 <= pos -> lined u pos es ->
  Forall (fun e => e_value e = slice_z u (e_start e) (e_end e)) es ->
  concat (map snd (pieces u pos es)) = skipn (Z.to_nat pos) u.
Proof.
  revert pos; induction es as [|e es IH]; intros pos HP HL HV; cbn [pieces].
  - cbn [lined] in HL. destruct (Z.eqb_spec pos (Z.of_nat (length u))) as [->|N].
    + now rewrite Nat2Z.id, skipn_all.
    + cbn. rewrite app_nil_r. apply slice_full. lia.
  - destruct HL as (H & HL). inversion HV as [|? ? HE HV']; subst.
    pose proof (lined_end _ _ _ HL) as LE.
    rewrite map_app, concat_app. cbn [map snd concat]. rewrite IH by (try assumption; lia).
    rewrite HE, <- slice_cut by lia.
    destruct (Z.eqb_spec pos (e_start e)) as [->|N]; [reflexivity|].
    cbn [map snd concat]. rewrite app_nil_r. symmetry. apply slice_cut; lia.
Qed.

Lemma pieces_entities u pos es : piece_entities (pieces u pos es) = es.
Proof.
  unfold piece_entities. revert pos; induction es as [|e es IH]; intros pos; cbn [pieces].
  - now destruct (pos =? Z.of_nat (length u)).
  - rewrite flat_map_app. cbn [flat_map fst app]. rewrite IH. now destruct (pos =? e_start e).
Qed.

Lemma slice_z_length (u : str) i j : 0 <= i <= j -> j <= Z.of_nat (length u) ->
  Z.of_nat (length (slice_z u i j)) = j - i.
Proof. intros H1 H2. now apply (slice_text_at u i j). Qed.

Lemma nonempty_length {A} (l : list A) : (0 < length l)%nat -> l <> [].
Proof. intros H ->. cbn in H. lia. Qed.

Lemma pieces_at u pos es : 0 <= pos -> lined u pos es ->
  Forall (fun e => e_value e = slice_z u (e_start e) (e_end e)) es ->
  forall a p b, pieces u pos es = (a ++ p :: b)%list ->
    match fst p with
    | Some e => snd p = e_value e /\ pos + Z.of_nat (length (piece_text a)) = e_start e
    | None => snd p <> [] /\ match b with (None, _) :: _ => False | _ => True end
    end.
Proof.
  unfold piece_text.
  revert pos; induction es as [|e es IH]; intros pos HP HL HV a p b E; cbn [pieces] in E.
  - cbn [lined] in HL. destruct (Z.eqb_spec pos (Z.of_nat (length u))) as [->|N]; [now destruct a|].
    destruct a as [|x a]; [|destruct a; discriminate]. injection E as <- <-. cbn [fst snd].
    split; [|exact I]. apply nonempty_length.
    pose proof (slice_z_length u pos (Z.of_nat (length u))). lia.
  - destruct HL as (H & HL). inversion HV as [|? ? HE HV']; subst.
    pose proof (lined_end _ _ _ HL) as LE.
    assert (G : forall a', (Some e, e_value e) :: pieces u (e_end e) es = (a' ++ p :: b)%list ->
      match fst p with
      | Some e0 => snd p = e_value e0 /\ e_start e + Z.of_nat (length (concat (map snd a'))) = e_start e0
      | None => snd p <> [] /\ match b with (None, _) :: _ => False | _ => True end
      end).
    { intros a' E'. destruct a' as [|x a'].
      - injection E' as <- <-. cbn. split; [reflexivity|lia].
      - injection E' as <- E'. specialize (IH (e_end e) ltac:(lia) HL HV' a' p b E').
        destruct (fst p) as [e0|]; [|exact IH]. destruct IH as (I1 & I2). split; [exact I1|].
        cbn [map snd concat]. rewrite app_length. rewrite HE.
        pose proof (slice_z_length u (e_start e) (e_end e)). lia. }
    destruct (Z.eqb_spec pos (e_start e)) as [->|N]; [now apply G|].
    destruct a as [|x a].
    + injection E as <- <-. cbn [fst snd]. split; [|exact I]. apply nonempty_length.
      pose proof (slice_z_length u pos (e_start e)). lia.
    + injection E as <- E. specialize (G a E). destruct (fst p) as [e0|]; [|exact G].
      destruct G as (G1 & G2). split; [exact G1|]. cbn [map snd concat]. rewrite app_length.
      pose proof (slice_z_length u pos (e_start e)). lia.
Qed.

Lemma partition_spec d io : is_datum d -> Forall (inside (d_utterance d)) (d_entities d) ->
  exists ps parts labels, partition_by_entities d io = (parts, labels) /\
    cut_into (d_utterance d) (d_entities d) ps /\
    labels = map (fun p => option_map e_label (fst p)) ps /\
    Forall2 (fun (p : piece) part => match fst p with
                                     | None => part = [snd p]
                                     | Some e => candidates io e part
                                     end) ps parts.
Proof.
  intros HD HI. pose proof (datum_lined d HD HI) as HL.
  pose proof (is_datum_inv d HD) as (_ & _ & _ & _ & _ & HV).
  set (ps := pieces (d_utterance d) 0 (d_entities d)).
  exists ps, (map (part_of io) ps), (map (fun p => option_map e_label (fst p)) ps).
  split; [apply partition_pieces|]. split; [|split; [reflexivity|]].
  - split; [|split; [apply pieces_entities|]].
    + unfold piece_text. subst ps. rewrite pieces_concat by (try assumption; lia). reflexivity.
    + intros a p b E. pose proof (pieces_at _ 0 _ (Z.le_refl 0) HL HV a p b E) as G.
      destruct (fst p); [|exact G]. destruct G as (G1 & G2). split; [exact G1|lia].
  - induction ps as [|p ps IH]; cbn; constructor; [|exact IH]. unfold part_of.
    destruct (fst p); [apply cand_spec|reflexivity].
Qed.

(** ** Expansion *)

(** the chosen parts, gaps filled in *)
Fixpoint fill (ps : list piece) (vs : list str) : list str :=
  match ps with
  | [] => []
  | (None, t) :: ps => t :: fill ps vs
  | (Some _, _) :: ps => match vs with v :: vs => v :: fill ps vs | [] => [] end
  end.

Lemma kth_fill io ps k vs : kth_loop (map (cand io) (piece_entities ps)) k = Ok vs ->
  kth_loop (map (part_of io) ps) k = Ok (fill ps vs).
Proof.
  revert k vs; induction ps as [|[[e|] t] ps IH]; intros k vs H.
  - reflexivity.
  - cbn [piece_entities flat_map fst app map kth_loop] in H. fold (piece_entities ps) in H.
    cbn [map kth_loop]. change (part_of io (Some e, t)) with (cand io e).
    destruct (guard _ _) as [[]|]; [|discriminate]. cbn [bind] in *.
    destruct (get_item _ _) as [x|]; [|discriminate]. cbn [bind] in *.
    destruct (kth_loop _ _) as [xs|] eqn:E; [|discriminate]. injection H as <-.
    rewrite (IH _ _ E). reflexivity.
  - cbn [piece_entities flat_map fst app] in H. fold (piece_entities ps) in H.
    cbn [map kth_loop]. change (part_of io (None, t)) with [t]. cbn [length].
    change (Z.of_nat 1) with 1. rewrite Z.mod_1_r, Z.div_1_r.
    change (1 =? 0) with false. cbn [negb guard bind]. change (get_item [t] 0) with (Ok t).
    cbn [bind]. now rewrite (IH _ _ H).
Qed.

Lemma n_choices_fill io ps :
  n_choices (map (part_of io) ps) = n_choices (map (cand io) (piece_entities ps)).
Proof.
  induction ps as [|[[e|] t] ps IH]; [reflexivity|..]; cbn [map].
  - change (piece_entities ((Some e, t) :: ps)) with (e :: piece_entities ps). cbn [map].
    rewrite !n_choices_cons, IH. reflexivity.
  - change (piece_entities ((None, t) :: ps)) with (piece_entities ps).
    rewrite n_choices_cons, IH. cbn [part_of fst length]. lia.
Qed.

Lemma fill_text u pos es vs : 0 <= pos -> lined u pos es -> length vs = length es ->
  concat (fill (pieces u pos es) vs) = rebuilt_text u (Z.to_nat pos) es vs.
Proof.
  revert pos vs; induction es as [|e es IH]; intros pos vs HP HL HLen.
  - destruct vs; [|discriminate]. cbn [pieces rebuilt_text]. cbn [lined] in HL.
    destruct (Z.eqb_spec pos (Z.of_nat (length u))) as [->|N].
    + now rewrite Nat2Z.id, skipn_all.
    + cbn. rewrite app_nil_r. apply slice_full. lia.
  - destruct vs as [|v vs]; [discriminate|]. destruct HL as (H & HL).
    pose proof (lined_end _ _ _ HL) as LE. cbn [pieces rebuilt_text].
    assert (IHv : concat (fill (pieces u (e_end e) es) vs) = rebuilt_text u (Z.to_nat (e_end e)) es vs).
    { apply IH; [lia|exact HL|now injection HLen]. }
    destruct (Z.eqb_spec pos (e_start e)) as [->|N]; cbn [app fill concat].
    + rewrite Nat.sub_diag. cbn. now rewrite IHv.
    + rewrite IHv. rewrite slice_firstn by lia. reflexivity.
Qed.

Lemma to_i32_small z : 0 <= z < 2 ^ 31 -> to_i32 z = Ok z.
Proof. intros H. apply to_i32_ok. unfold i32. lia. Qed.

Lemma aggregate_cons_none pt seg segs labels : 0 <= pt -> pt + Z.of_nat (length seg) < 2 ^ 31 ->
  aggregate_entities pt (seg :: segs) (None :: labels) =
  aggregate_entities (pt + Z.of_nat (length seg)) segs labels.
Proof.
  intros H1 H2. cbn [aggregate_entities bind]. rewrite to_i32_small by lia. cbn [bind].
  now destruct (aggregate_entities _ _ _).
Qed.

Lemma aggregate_cons_some pt seg segs l labels : 0 <= pt -> pt + Z.of_nat (length seg) < 2 ^ 31 ->
  i32 l ->
  aggregate_entities pt (seg :: segs) (Some l :: labels) =
  (es <- aggregate_entities (pt + Z.of_nat (length seg)) segs labels ;;
   Ok (mkEntity l seg pt (pt + Z.of_nat (length seg)) [] :: es)).
Proof.
  intros H1 H2 HL. cbn [aggregate_entities bind].
  rewrite make_entity_ok by (try assumption; unfold i32; lia). cbn [bind].
  rewrite to_i32_small by lia. reflexivity.
Qed.

Lemma fill_entities u es : forall pos vs out, 0 <= pos -> 0 <= out -> lined u pos es ->
  length vs = length es -> Forall (fun e => i32 (e_label e)) es ->
  out + Z.of_nat (length (rebuilt_text u (Z.to_nat pos) es vs)) < 2 ^ 31 ->
  aggregate_entities out (fill (pieces u pos es) vs)
    (map (fun p => option_map e_label (fst p)) (pieces u pos es)) =
  Ok (rebuilt_entities (out - pos) es vs).
Proof.
  induction es as [|e es IH]; intros pos vs out HP HO HL HLen HF HB.
  - destruct vs; [|discriminate]. cbn [pieces rebuilt_entities]. cbn [lined] in HL.
    cbn [rebuilt_text] in HB. rewrite skipn_length in HB.
    destruct (Z.eqb_spec pos (Z.of_nat (length u))) as [->|N]; [reflexivity|].
    cbn [fill map fst option_map]. rewrite slice_full by lia.
    rewrite aggregate_cons_none; [reflexivity|exact HO|]. rewrite skipn_length. lia.
  - destruct vs as [|v vs]; [discriminate|]. destruct HL as (H & HL).
    inversion HF as [|? ? HE HF']; subst.
    pose proof (lined_end _ _ _ HL) as LE. cbn [pieces rebuilt_entities].
    cbn [rebuilt_text] in HB. rewrite !app_length in HB.
    rewrite <- slice_firstn in HB by lia.
    pose proof (slice_z_length u pos (e_start e) ltac:(lia) ltac:(lia)) as LS.
    assert (IHv : forall o, 0 <= o -> o + Z.of_nat (length (rebuilt_text u (Z.to_nat (e_end e)) es vs)) < 2 ^ 31 ->
      aggregate_entities o (fill (pieces u (e_end e) es) vs)
        (map (fun p => option_map e_label (fst p)) (pieces u (e_end e) es)) =
      Ok (rebuilt_entities (o - e_end e) es vs)).
    { intros o HO' HB'. apply IH; try assumption; [lia|now injection HLen]. }
    assert (G : forall o, 0 <= o ->
      o + Z.of_nat (length v) + Z.of_nat (length (rebuilt_text u (Z.to_nat (e_end e)) es vs)) < 2 ^ 31 ->
      aggregate_entities o (fill ((Some e, e_value e) :: pieces u (e_end e) es) (v :: vs))
        (map (fun p => option_map e_label (fst p)) ((Some e, e_value e) :: pieces u (e_end e) es)) =
      Ok (mkEntity (e_label e) v o (o + Z.of_nat (length v)) [] ::
          rebuilt_entities (o + Z.of_nat (length v) - e_end e) es vs)).
    { intros o HO' HB'. cbn [fill map fst option_map].
      rewrite aggregate_cons_some by (try assumption; lia). rewrite IHv by lia. reflexivity. }
    destruct (Z.eqb_spec pos (e_start e)) as [->|N].
    + cbn [app]. rewrite G by lia. f_equal. f_equal; f_equal; lia.
    + cbn [app]. change (fill ((None, slice_z u pos (e_start e)) :: (Some e, e_value e) :: pieces u (e_end e) es) (v :: vs))
        with (slice_z u pos (e_start e) :: fill ((Some e, e_value e) :: pieces u (e_end e) es) (v :: vs)).
      cbn [map fst option_map]. rewrite aggregate_cons_none by lia.
      change (Some (e_label e) :: map (fun p => option_map e_label (fst p)) (pieces u (e_end e) es)) with
        (map (fun p => option_map e_label (fst p)) ((Some e, e_value e) :: pieces u (e_end e) es)).
      rewrite G by lia. rewrite LS. f_equal. f_equal; f_equal; lia.
Qed.

(** the rebuilt datum is valid *)
Lemma rebuilt_valid u es : forall pos vs (pre : str), 0 <= pos -> lined u pos es -> length vs = length es ->
  let out := Z.of_nat (length pre) in
  let t := (pre ++ rebuilt_text u (Z.to_nat pos) es vs)%list in
  let es' := rebuilt_entities (out - pos) es vs in
  Forall (fun e => out <= e_start e /\ e_start e <= e_end e /\ e_end e <= Z.of_nat (length t) /\
                   e_value e = slice_z t (e_start e) (e_end e)) es' /\
  StronglySorted before es'.
Proof.
  induction es as [|e es IH]; intros pos vs pre HP HL HLen out t es'.
  - subst es'. destruct vs; cbn; split; constructor.
  - destruct vs as [|v vs]; [discriminate|]. destruct HL as (H & HL).
    pose proof (lined_end _ _ _ HL) as LE.
    set (gap := firstn (Z.to_nat (e_start e) - Z.to_nat pos) (skipn (Z.to_nat pos) u)).
    assert (LG : Z.of_nat (length gap) = e_start e - pos).
    { subst gap. rewrite <- slice_firstn by lia. apply slice_z_length; lia. }
    assert (ET : t = ((pre ++ gap ++ v) ++ rebuilt_text u (Z.to_nat (e_end e)) es vs)%list).
    { subst t. cbn [rebuilt_text]. fold gap. now rewrite <- !app_assoc. }
    destruct (IH (e_end e) vs (pre ++ gap ++ v)%list ltac:(lia) HL ltac:(now injection HLen)) as (I1 & I2).
    rewrite <- ET in I1.
    assert (LO : Z.of_nat (length (pre ++ gap ++ v)) = out + (e_start e - pos) + Z.of_nat (length v)).
    { rewrite !app_length. subst out. lia. }
    rewrite LO in I1, I2.
    assert (EE : es' = mkEntity (e_label e) v (out + (e_start e - pos))
                        (out + (e_start e - pos) + Z.of_nat (length v)) [] ::
                  rebuilt_entities (out + (e_start e - pos) + Z.of_nat (length v) - e_end e) es vs).
    { subst es'. cbn [rebuilt_entities]. f_equal; f_equal; lia. }
    rewrite EE. split; constructor.
    + cbn [e_start e_end e_value]. split; [lia|]. split; [lia|].
      assert (TA : text_at t (out + (e_start e - pos)) (out + (e_start e - pos) + Z.of_nat (length v)) v).
      { exists (pre ++ gap)%list, (rebuilt_text u (Z.to_nat (e_end e)) es vs).
        split; [rewrite ET, <- !app_assoc; reflexivity|]. rewrite app_length. subst out. lia. }
      apply text_at_slice in TA; [|lia]. destruct TA as (TA1 & TA2). auto.
    + eapply Forall_impl; [|exact I1]. cbn. intros a HA. split; [lia|tauto].
    + exact I2.
    + eapply Forall_impl; [|exact I1]. intros a (HA & _). unfold before. cbn [e_end]. exact HA.
Qed.

Lemma rebuilt_make d vs : is_datum d -> Forall (inside (d_utterance d)) (d_entities d) ->
  length vs = length (d_entities d) ->
  make_datum (d_utterance (rebuilt d vs)) (Some (d_intents d)) (Some (d_entities (rebuilt d vs))) =
  Ok (rebuilt d vs).
Proof.
  intros HD HI HLen. pose proof (datum_lined d HD HI) as HL.
  pose proof (is_datum_inv d HD) as (_ & _ & HS & _).
  destruct (rebuilt_valid (d_utterance d) (d_entities d) 0 vs [] (Z.le_refl 0) HL HLen) as (V1 & V2).
  cbn [length app] in V1, V2. change (Z.of_nat 0 - 0) with 0 in *. cbn [Z.to_nat] in V1.
  unfold rebuilt. cbn [d_utterance d_entities].
  rewrite make_datum_ok.
  - do 2 f_equal; [now apply sort_by_id|]. apply sort_by_id.
    eapply StronglySorted_impl; [|exact V2]. intros a b HA _ H. rewrite Forall_forall in V1.
    specialize (V1 a HA). unfold before in H. lia.
  - eapply Forall_impl; [|exact V1]. cbn. tauto.
  - eapply StronglySorted_impl; [|exact V2]. intros a b HA _ H. rewrite Forall_forall in V1.
    specialize (V1 a HA). unfold apart. unfold before in *. destruct (Z.leb_spec (e_start a) (e_start b)); lia.
Qed.

Lemma expand_one_spec d io ps k vs : is_datum d -> Forall (inside (d_utterance d)) (d_entities d) ->
  ps = pieces (d_utterance d) 0 (d_entities d) ->
  i32 k -> kth_loop (map (cand io) (d_entities d)) k = Ok vs -> length vs = length (d_entities d) ->
  Z.of_nat (length (d_utterance (rebuilt d vs))) < 2 ^ 31 ->
  expand_one d (map (part_of io) ps) (map (fun p => option_map e_label (fst p)) ps) k = Ok (rebuilt d vs).
Proof.
  intros HD HI -> HK HV HLen HB. pose proof (datum_lined d HD HI) as HL.
  pose proof (is_datum_inv d HD) as (HInt & HEnt & _).
  unfold expand_one, get_kth_combination. rewrite to_i32_ok by exact HK. cbn [bind].
  rewrite (kth_fill io _ k vs) by (rewrite pieces_entities; exact HV). cbn [bind].
  rewrite fill_text by (try assumption; lia).
  rewrite fill_entities; try assumption; try lia.
  - cbn [bind]. unfold copy_intents. rewrite (mapM_ok make_intent (fun x => x)).
    + rewrite map_id. cbn [bind]. change (0 - 0) with 0.
      exact (rebuilt_make d vs HD HI HLen).
    + eapply Forall_impl; [|exact HInt]. intros a. apply is_intent_iff.
  - eapply Forall_impl; [|exact HEnt]. intros e HE. now apply is_entity_iff in HE.
Qed.

Lemma kth_loop_length {A} (its : list (list A)) k c : kth_loop its k = Ok c -> length c = length its.
Proof.
  revert k c; induction its as [|it its IH]; intros k c; cbn [kth_loop]; [intros [= <-]; reflexivity|].
  destruct (guard _ _); [|discriminate]. cbn [bind]. destruct (get_item _ _); [|discriminate]. cbn [bind].
  destruct (kth_loop its _) eqn:E; [|discriminate]. intros [= <-]. cbn. f_equal. now apply (IH _ _ E).
Qed.

Lemma candidates_cand io es cs : Forall2 (candidates io) es cs -> cs = map (cand io) es.
Proof.
  induction 1 as [|e c es cs HE _ IH]; [reflexivity|]. cbn. f_equal; [|exact IH].
  apply (candidates_unique io e); [exact HE|apply cand_spec].
Qed.

Lemma cand_all_nonempty io es : Forall (fun it => it <> []) (map (cand io) es).
Proof. apply Forall_map, Forall_forall. intros e _. apply cand_nonempty. Qed.

(** any sampling *)
Lemma expand_sampled d io sample cs : is_datum d -> Forall (inside (d_utterance d)) (d_entities d) ->
  d_entities d <> [] -> Forall2 (candidates io) (d_entities d) cs ->
  (forall vs, In vs (choices cs) -> Z.of_nat (length (d_utterance (rebuilt d vs))) < 2 ^ 31) ->
  Forall i32 (sample (n_choices cs)) ->
  expand_by_entities d (Some sample) io =
  Ok (map (fun k => rebuilt d (nth (Z.to_nat (k mod n_choices cs)) (choices cs) []))
          (sample (n_choices cs))).
Proof.
  intros HD HI HN HC HB HS. apply candidates_cand in HC. subst cs.
  unfold expand_by_entities, has_entities, partition_by_entities.
  destruct (Nat.ltb_spec 0 (length (d_entities d))) as [L|L].
  2:{ destruct (d_entities d); [congruence|cbn in L; lia]. }
  cbn [negb]. rewrite partition_pieces.
  set (ps := pieces (d_utterance d) 0 (d_entities d)).
  change (fold_right Z.mul 1 (map (fun p => Z.of_nat (length p)) (map (part_of io) ps))) with
    (n_choices (map (part_of io) ps)).
  rewrite n_choices_fill. subst ps. rewrite pieces_entities.
  apply mapM_ok. rewrite Forall_forall in *. intros k HK. specialize (HS k HK).
  destruct (kth_loop_choice (map (cand io) (d_entities d)) (cand_all_nonempty io _) k) as (c & EC & NC).
  rewrite (nth_error_nth _ _ [] NC).
  apply expand_one_spec; try assumption; try reflexivity.
  - now rewrite Forall_forall.
  - apply kth_loop_length in EC. now rewrite map_length in EC.
  - apply HB. eapply nth_error_In, NC.
Qed.

Lemma map_nth_zrange {A B} (f : A -> B) (l : list A) d n : Z.of_nat (length l) = n ->
  map (fun k => f (nth (Z.to_nat (k mod n)) l d)) (zrange 0 n) = map f l.
Proof.
  intros <-. rewrite <- (map_map (fun k => nth (Z.to_nat (k mod Z.of_nat (length l))) l d) f). f_equal.
  apply nth_ext with (d := d) (d' := d).
  - rewrite map_length, length_zrange. lia.
  - rewrite map_length, length_zrange. intros i HI.
    erewrite nth_error_nth; [reflexivity|]. rewrite nth_error_map. unfold zrange.
    rewrite nth_error_map. rewrite (nth_error_nth' _ 0%nat) by (rewrite seq_length; exact HI).
    rewrite seq_nth by exact HI. cbn [option_map]. f_equal.
    rewrite Z.add_0_l, Nat.add_0_l, Z.mod_small, Nat2Z.id by lia. reflexivity.
Qed.

Lemma expand_all d io cs : is_datum d -> Forall (inside (d_utterance d)) (d_entities d) ->
  d_entities d <> [] -> Forall2 (candidates io) (d_entities d) cs ->
  (forall vs, In vs (choices cs) -> Z.of_nat (length (d_utterance (rebuilt d vs))) < 2 ^ 31) ->
  n_choices cs <= 2 ^ 31 ->
  expand_by_entities d None io = Ok (map (rebuilt d) (choices cs)).
Proof.
  intros HD HI HN HC HB HS.
  assert (E : expand_by_entities d None io = expand_by_entities d (Some (zrange 0)) io) by reflexivity.
  rewrite E, (expand_sampled d io (zrange 0) cs); try assumption.
  - f_equal. apply map_nth_zrange. apply choices_length.
  - apply Forall_forall. intros k HK. apply in_zrange in HK. unfold i32. lia.
Qed.

Lemma expand_plain d s io : d_entities d = [] -> expand_by_entities d s io = Ok [d].
Proof. intros H. unfold expand_by_entities, has_entities. now rewrite H. Qed.

(** what a rebuilt datum looks like *)
Lemma rebuilt_labels shift es vs : length vs = length es ->
  map e_label (rebuilt_entities shift es vs) = map e_label es /\
  map e_value (rebuilt_entities shift es vs) = vs /\
  Forall (fun e => e_replacements e = []) (rebuilt_entities shift es vs).
Proof.
  revert shift vs; induction es as [|e es IH]; intros shift [|v vs] HL; try discriminate; cbn.
  - repeat split; constructor.
  - destruct (IH (e_start e + shift + Z.of_nat (length v) - e_end e) vs) as (I1 & I2 & I3); [now injection HL|].
    rewrite I1, I2. repeat split. now constructor.
Qed.

Lemma rebuilt_is_datum d vs : is_datum d -> Forall (inside (d_utterance d)) (d_entities d) ->
  length vs = length (d_entities d) -> Z.of_nat (length (d_utterance (rebuilt d vs))) < 2 ^ 31 ->
  is_datum (rebuilt d vs) /\ Forall (inside (d_utterance (rebuilt d vs))) (d_entities (rebuilt d vs)).
Proof.
  intros HD HI HLen HB. pose proof (datum_lined d HD HI) as HL.
  pose proof (is_datum_inv d HD) as (HInt & HEnt & _).
  destruct (rebuilt_valid (d_utterance d) (d_entities d) 0 vs [] (Z.le_refl 0) HL HLen) as (V1 & V2).
  cbn [length app] in V1, V2. change (Z.of_nat 0 - 0) with 0 in *. change (Z.of_nat 0) with 0 in V1.
  cbn [Z.to_nat] in V1.
  destruct (rebuilt_labels 0 (d_entities d) vs HLen) as (L1 & _ & L3).
  split.
  - exists (d_utterance (rebuilt d vs)), (d_intents d), (d_entities (rebuilt d vs)).
    split; [now apply rebuilt_make|]. split.
    + eapply Forall_impl; [|exact HInt]. intros a. apply is_intent_iff.
    + unfold rebuilt. cbn [d_entities]. rewrite Forall_forall in *. intros e HE. apply is_entity_iff.
      specialize (V1 e HE). specialize (L3 e HE). rewrite L3.
      assert (HLab : In (e_label e) (map e_label (d_entities d))) by (rewrite <- L1; now apply in_map).
      apply in_map_iff in HLab. destruct HLab as (e0 & EL & HE0).
      destruct (proj1 (is_entity_iff e0) (HEnt e0 HE0)) as (B1 & _). rewrite EL in B1.
      unfold rebuilt in HB. cbn [d_utterance] in HB. unfold i32 in *.
      split; [exact B1|]. split; [lia|]. split; [lia|constructor].
  - eapply Forall_impl; [|exact V1]. unfold inside, rebuilt. cbn. lia.
Qed.

(** putting the original values back *)
Lemma rebuilt_same d : is_datum d -> Forall (inside (d_utterance d)) (d_entities d) ->
  rebuilt d (map e_value (d_entities d)) =
  mkDatum (d_utterance d) (d_intents d) (map bare_entity (d_entities d)).
Proof.
  intros HD HI. pose proof (datum_lined d HD HI) as HL.
  pose proof (is_datum_inv d HD) as (_ & _ & _ & _ & _ & HV). unfold rebuilt.
  assert (G : forall es pos, 0 <= pos -> lined (d_utterance d) pos es ->
    Forall (fun e => e_value e = slice_z (d_utterance d) (e_start e) (e_end e)) es ->
    rebuilt_text (d_utterance d) (Z.to_nat pos) es (map e_value es) = skipn (Z.to_nat pos) (d_utterance d) /\
    rebuilt_entities 0 es (map e_value es) = map bare_entity es).
  { induction es as [|e es IH]; intros pos HP HLi HVa; [split; reflexivity|].
    destruct HLi as (H & HLi). inversion HVa as [|? ? HE HV']; subst.
    pose proof (lined_end _ _ _ HLi) as LE.
    destruct (IH (e_end e)) as (I1 & I2); [lia|assumption|assumption|].
    cbn [map rebuilt_text rebuilt_entities]. rewrite I1.
    pose proof (slice_z_length (d_utterance d) (e_start e) (e_end e) ltac:(lia) ltac:(lia)) as LS.
    split.
    - rewrite <- slice_firstn by lia. rewrite HE at 1. rewrite <- slice_cut by lia.
      symmetry. apply slice_cut; lia.
    - rewrite HE. rewrite LS. replace (e_start e + 0 + (e_end e - e_start e) - e_end e) with 0 by lia.
      rewrite I2. unfold bare_entity at 2. rewrite HE. f_equal. f_equal; lia. }
  destruct (G (d_entities d) 0 (Z.le_refl 0) HL HV) as (G1 & G2). cbn [Z.to_nat] in G1. rewrite G1, G2.
  reflexivity.
Qed.
