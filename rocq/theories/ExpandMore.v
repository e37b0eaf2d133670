(** Expanding expanded data, and when expansions exist (C111). *)

From Coq Require Import QArith Sorted.
From Verif Require Import Py PyFacts Json Elements SpecElements DatumProofs PackProofs ExpandProofs ElementsLaws SpecJoin.
From Coq Require Import List.
Import ListNotations.
Local Open Scope Z_scope.

Lemma aggregate_case segs : forall pt labels, length segs = length labels -> 0 <= pt < 2 ^ 31 ->
  Forall (fun l => match l with Some l => i32 l | None => True end) labels ->
  if pt + Z.of_nat (length (concat segs)) <? 2 ^ 31
  then exists es, aggregate_entities pt segs labels = Ok es
  else aggregate_entities pt segs labels = Err OverflowErr.
Proof.
  induction segs as [|seg segs IH]; intros pt [|l labels] HL HP HI; try discriminate.
  - cbn [concat length]. destruct (Z.ltb_spec (pt + Z.of_nat 0) (2 ^ 31)); [eexists; reflexivity|lia].
  - inversion HI as [|? ? HI1 HI2]; subst. injection HL as HL. cbn [concat]. rewrite app_length, Nat2Z.inj_add.
    destruct (Z.ltb_spec (pt + Z.of_nat (length seg)) (2 ^ 31)) as [S|S].
    + specialize (IH (pt + Z.of_nat (length seg)) labels HL ltac:(lia) HI2). rewrite Z.add_assoc.
      destruct l as [l|].
      * rewrite aggregate_cons_some by (try assumption; lia).
        destruct (_ <? _); [destruct IH as (es & ->)|rewrite IH]; cbn [bind]; [eexists; reflexivity|reflexivity].
      * rewrite aggregate_cons_none by lia. exact IH.
    + destruct (Z.ltb_spec (pt + (Z.of_nat (length seg) + Z.of_nat (length (concat segs)))) (2 ^ 31)) as [C|_]; [lia|].
      assert (O : to_i32 (pt + Z.of_nat (length seg)) = Err OverflowErr).
      { unfold to_i32, i32b. change (2 ^ 31) with 2147483648 in *.
        destruct (Z.ltb_spec (pt + Z.of_nat (length seg)) 2147483648); [lia|]. now rewrite andb_false_r. }
      cbn [aggregate_entities]. destruct l as [l|]; [|cbn [bind]; now rewrite O].
      unfold make_entity. rewrite (to_i32_ok l HI1), (to_i32_small pt HP), O. reflexivity.
Qed.

Lemma fill_length ps : forall vs, length vs = length (piece_entities ps) -> length (fill ps vs) = length ps.
Proof.
  induction ps as [|[[e|] t] ps IH]; intros vs H; [reflexivity|..].
  - destruct vs as [|v vs]; [discriminate|]. cbn [fill length]. f_equal. apply IH. now injection H.
  - cbn [fill length]. f_equal. now apply IH.
Qed.

(** The texts an entity can have, and the results number [k]. *)
Definition number (d : datum) (io : bool) (k : Z) : datum :=
  let cs := map (cand io) (d_entities d) in rebuilt d (nth (Z.to_nat (k mod n_choices cs)) (choices cs) []).
Definition fits (d : datum) : bool := Z.of_nat (length (d_utterance d)) <? 2 ^ 31.

Lemma number_choice d io k : exists vs, In vs (choices (map (cand io) (d_entities d))) /\ number d io k = rebuilt d vs /\
  kth_loop (map (cand io) (d_entities d)) k = Ok vs /\ length vs = length (d_entities d).
Proof.
  destruct (kth_loop_choice (map (cand io) (d_entities d)) (cand_all_nonempty io _) k) as (c & EC & NC).
  exists c. split; [eapply nth_error_In, NC|]. unfold number. rewrite (nth_error_nth _ _ [] NC).
  split; [reflexivity|]. split; [exact EC|]. apply kth_loop_length in EC. now rewrite map_length in EC.
Qed.

Lemma expand_one_case d io k : at_home d ->
  let ps := pieces (d_utterance d) 0 (d_entities d) in
  expand_one d (map (part_of io) ps) (map (fun p => option_map e_label (fst p)) ps) k =
  if i32b k && fits (number d io k) then Ok (number d io k) else Err OverflowErr.
Proof.
  intros (HD & HI) ps. destruct (number_choice d io k) as (vs & _ & EN & EC & LV). rewrite EN.
  destruct (i32b k) eqn:IK; cbn [andb].
  2:{ unfold expand_one, get_kth_combination, to_i32. rewrite IK. reflexivity. }
  assert (HK : i32 k).
  { unfold i32b in IK. unfold i32. change (2 ^ 31) with 2147483648. lia. }
  unfold fits. destruct (Z.ltb_spec (Z.of_nat (length (d_utterance (rebuilt d vs)))) (2 ^ 31)) as [S|S].
  - now apply expand_one_spec.
  - unfold expand_one, get_kth_combination. rewrite to_i32_ok by exact HK. cbn [bind].
    subst ps. rewrite (kth_fill io _ k vs) by (rewrite pieces_entities; exact EC). cbn [bind].
    pose proof (datum_lined d HD HI) as HL. pose proof (is_datum_inv d HD) as (_ & HEnt & _).
    pose proof (aggregate_case (fill (pieces (d_utterance d) 0 (d_entities d)) vs) 0
      (map (fun p => option_map e_label (fst p)) (pieces (d_utterance d) 0 (d_entities d)))) as A.
    rewrite map_length, fill_length in A by (rewrite pieces_entities; exact LV).
    specialize (A eq_refl ltac:(lia)).
    rewrite fill_text in A by (try assumption; lia).
    change (rebuilt_text (d_utterance d) (Z.to_nat 0) (d_entities d) vs) with (d_utterance (rebuilt d vs)) in A.
    destruct (Z.ltb_spec (0 + Z.of_nat (length (d_utterance (rebuilt d vs)))) (2 ^ 31)) as [C|_]; [lia|].
    rewrite A; [reflexivity|]. apply Forall_map, Forall_forall. intros [[e|] t] HP; [|exact Logic.I].
    cbn [fst option_map].
    assert (HE : In e (d_entities d)).
    { rewrite <- (pieces_entities (d_utterance d) 0 (d_entities d)). unfold piece_entities. apply in_flat_map.
      exists (Some e, t). split; [exact HP|now left]. }
    rewrite Forall_forall in HEnt. now apply HEnt, is_entity_iff in HE.
Qed.

Definition sampler (s : option (Z -> list Z)) : Z -> list Z := match s with None => zrange 0 | Some f => f end.
Definition count (d : datum) (io : bool) : Z := n_choices (map (cand io) (d_entities d)).

Lemma expand_case d s io : at_home d -> d_entities d <> [] ->
  expand_by_entities d s io =
  mapM (fun k => if i32b k && fits (number d io k) then Ok (number d io k) else Err OverflowErr) (sampler s (count d io)).
Proof.
  intros HD HN. unfold expand_by_entities, has_entities, partition_by_entities.
  destruct (Nat.ltb_spec 0 (length (d_entities d))) as [L|L].
  2:{ destruct (d_entities d); [congruence|cbn in L; lia]. }
  cbn [negb]. rewrite partition_pieces.
  set (ps := pieces (d_utterance d) 0 (d_entities d)).
  change (fold_right Z.mul 1 (map (fun p => Z.of_nat (length p)) (map (part_of io) ps))) with
    (n_choices (map (part_of io) ps)).
  rewrite n_choices_fill. subst ps. rewrite pieces_entities.
  fold (sampler s). fold (count d io). generalize (sampler s (count d io)). intros l.
  induction l as [|k l IH]; [reflexivity|]. cbn [mapM]. rewrite IH.
  pose proof (expand_one_case d io k HD) as E. cbv zeta in E. rewrite E. reflexivity.
Qed.

Lemma checked_mapM {A B} (ok : A -> bool) (f : A -> B) e l :
  mapM (fun x => if ok x then Ok (f x) else Err e) l = if forallb ok l then Ok (map f l) else Err e.
Proof.
  induction l as [|x l IH]; [reflexivity|]. cbn [mapM forallb map]. destruct (ok x); [|reflexivity]. cbn [bind andb].
  rewrite IH. destruct (forallb ok l); reflexivity.
Qed.

Lemma expand_numbers d s io : at_home d -> d_entities d <> [] ->
  expand_by_entities d s io =
  if forallb (fun k => i32b k && fits (number d io k)) (sampler s (count d io))
  then Ok (map (number d io) (sampler s (count d io))) else Err OverflowErr.
Proof. intros HD HN. rewrite expand_case by assumption. apply checked_mapM. Qed.

Lemma expand_ok d s io ds : at_home d -> d_entities d <> [] -> expand_by_entities d s io = Ok ds ->
  ds = map (number d io) (sampler s (count d io)) /\ forall r, In r ds -> fits r = true.
Proof.
  intros HD HN. rewrite expand_numbers by assumption. destruct (forallb _ _) eqn:F; [|discriminate].
  intros [= <-]. split; [reflexivity|]. intros r HR. apply in_map_iff in HR. destruct HR as (k & <- & HK).
  rewrite forallb_forall in F. specialize (F k HK). now apply andb_prop in F.
Qed.

(** ** Data without replacements *)

Lemma bare_again es : Forall (fun e => e_replacements e = []) es -> map bare_entity es = es.
Proof.
  induction 1 as [|e es H _ IH]; [reflexivity|]. cbn [map]. rewrite IH. f_equal. destruct e. cbn in H. subst. reflexivity.
Qed.
Lemma bare_cand io es : Forall (fun e => e_replacements e = []) es -> map (cand io) es = map (fun e => [e_value e]) es.
Proof.
  induction 1 as [|e es H _ IH]; [reflexivity|]. cbn [map]. rewrite IH. f_equal. unfold cand, no_replacements. now rewrite H.
Qed.
Lemma one_choice {A B} (f : A -> B) es : choices (map (fun e => [f e]) es) = [map f es] /\ n_choices (map (fun e => [f e]) es) = 1.
Proof.
  induction es as [|e es (IH1 & IH2)]; [split; reflexivity|]. cbn [map choices]. rewrite n_choices_cons, IH1, IH2. split; reflexivity.
Qed.

Lemma bare_number d io k : at_home d -> Forall (fun e => e_replacements e = []) (d_entities d) ->
  number d io k = d /\ count d io = 1.
Proof.
  intros (HD & HI) HB. unfold number, count. rewrite bare_cand by exact HB.
  destruct (one_choice e_value (d_entities d)) as (-> & ->). rewrite Z.mod_1_r. cbn [Z.to_nat nth].
  rewrite rebuilt_same by assumption. rewrite bare_again by exact HB. split; [now destruct d|reflexivity].
Qed.

(** ** Results for any datum, also with entities outside its utterance *)

Definition some_labels (ls : list (option Z)) : list Z := flat_map (fun l => match l with Some l => [l] | None => [] end) ls.

Lemma partition_labels u io es : forall pos parts labels, partition_loop u io pos es = (parts, labels) ->
  length parts = length labels /\ some_labels labels = map e_label es.
Proof.
  induction es as [|e es IH]; intros pos parts labels; cbn [partition_loop].
  - destruct (negb _); intros [= <- <-]; split; reflexivity.
  - destruct (partition_loop u io (e_end e) es) as [ps ls] eqn:E. destruct (IH _ _ _ E) as (I1 & I2).
    cbv zeta. intros H. injection H as <- <-. destruct (negb (pos =? e_start e)); cbn [app length map]; split; try congruence;
      cbn [some_labels flat_map app]; f_equal; exact I2.
Qed.

Lemma to_i32_le z y : to_i32 z = Ok y -> y = z /\ i32 z.
Proof.
  intros H. unfold to_i32 in H. destruct (i32b_spec z) as [I|I]; [|discriminate]. injection H as <-. auto.
Qed.

Lemma aggregate_home segs : forall labels pt es, length segs = length labels -> 0 <= pt < 2 ^ 31 ->
  aggregate_entities pt segs labels = Ok es ->
  pt + Z.of_nat (length (concat segs)) < 2 ^ 31 /\ map e_label es = some_labels labels /\
  Forall (fun e => is_entity e /\ e_replacements e = [] /\ pt <= e_start e <= e_end e /\
                   e_end e <= pt + Z.of_nat (length (concat segs))) es /\
  StronglySorted (fun a b => e_start a <= e_start b) es.
Proof.
  induction segs as [|seg segs IH]; intros [|l labels] pt es HL HP H; try discriminate.
  - injection H as <-. cbn [concat length]. split; [lia|]. repeat split; constructor.
  - injection HL as HL. cbn [aggregate_entities] in H. cbn [concat]. rewrite app_length, Nat2Z.inj_add.
    destruct l as [l|].
    + destruct (make_entity l seg pt (pt + Z.of_nat (length seg)) None) as [e|] eqn:EE; [|discriminate]. cbn [bind] in H.
      destruct (to_i32 (pt + Z.of_nat (length seg))) as [pt'|] eqn:EP; [|discriminate]. cbn [bind] in H.
      destruct (to_i32_le _ _ EP) as (-> & IP).
      destruct (aggregate_entities _ segs labels) as [es'|] eqn:EA; [|discriminate]. cbn [bind] in H. injection H as <-.
      destruct (IH labels (pt + Z.of_nat (length seg)) es' HL ltac:(unfold i32 in IP; lia) EA) as (I1 & I2 & I3 & I4).
      pose proof EE as EI. apply make_entity_inv in EI. destruct EI as (_ & _ & _ & Ee).
      split; [lia|]. split; [|split].
      * cbn [map some_labels flat_map app]. fold (some_labels labels). rewrite I2, Ee. reflexivity.
      * constructor.
        -- split; [now exists l, seg, pt, (pt + Z.of_nat (length seg)), None|]. rewrite Ee. cbn [e_replacements e_start e_end dedup].
           split; [reflexivity|]. lia.
        -- eapply Forall_impl; [|exact I3]. cbn. intros x (X1 & X2 & X3 & X4). repeat split; try assumption; lia.
      * constructor; [exact I4|]. eapply Forall_impl; [|exact I3]. cbn. intros x (_ & _ & X3 & _). rewrite Ee. cbn [e_start]. lia.
    + cbn [bind] in H. destruct (to_i32 (pt + Z.of_nat (length seg))) as [pt'|] eqn:EP; [|discriminate]. cbn [bind] in H.
      destruct (to_i32_le _ _ EP) as (-> & IP).
      destruct (aggregate_entities _ segs labels) as [es'|] eqn:EA; [|discriminate]. cbn [bind] in H. injection H as <-.
      destruct (IH labels (pt + Z.of_nat (length seg)) es' HL ltac:(unfold i32 in IP; lia) EA) as (I1 & I2 & I3 & I4).
      split; [lia|]. split; [exact I2|]. split; [|exact I4].
      eapply Forall_impl; [|exact I3]. cbn. intros x (X1 & X2 & X3 & X4). repeat split; try assumption; lia.
Qed.

Lemma mapM_results {A B} (f : A -> res B) l : forall r, mapM f l = Ok r -> forall y, In y r -> exists x, f x = Ok y.
Proof.
  induction l as [|a l IH]; intros r H y Hy; cbn [mapM] in H.
  - injection H as <-. destruct Hy.
  - destruct (f a) as [b|] eqn:F; [|discriminate]. cbn [bind] in H. destruct (mapM f l) as [s|]; [|discriminate].
    cbn [bind] in H. injection H as <-. destruct Hy as [<-|Hy]; [now exists a|]. exact (IH s eq_refl y Hy).
Qed.

Lemma expanded_bare d s io ds r : is_datum d -> expand_by_entities d s io = Ok ds -> In r ds ->
  at_home r /\ Forall (fun e => e_replacements e = []) (d_entities r) /\
  map e_label (d_entities r) = map e_label (d_entities d) /\ d_intents r = d_intents d /\ fits r = true \/ r = d /\ d_entities d = [].
Proof.
  intros HD HE HR. destruct (d_entities d) as [|e0 es0] eqn:N.
  { right. rewrite (expand_plain d s io N) in HE. injection HE as <-. destruct HR as [<-|[]]. auto. }
  left. rewrite <- N. unfold expand_by_entities, has_entities in HE. rewrite N in HE at 1. cbn [length Nat.ltb Nat.leb negb] in HE.
  destruct (partition_by_entities d io) as [parts labels] eqn:EP.
  destruct (mapM_results _ _ ds HE r HR) as (k & EK). clear HE HR.
  unfold partition_by_entities in EP. destruct (partition_labels _ _ _ _ _ _ EP) as (P1 & P2).
  unfold expand_one in EK. destruct (get_kth_combination parts k) as [segs|] eqn:EG; [|discriminate]. cbn [bind] in EK.
  assert (LS : length segs = length labels).
  { unfold get_kth_combination in EG. destruct (to_i32 k); [|discriminate]. cbn [bind] in EG. apply kth_loop_length in EG. congruence. }
  destruct (aggregate_entities 0 segs labels) as [es|] eqn:EA; [|discriminate]. cbn [bind] in EK.
  destruct (aggregate_home segs labels 0 es LS ltac:(lia) EA) as (A1 & A2 & A3 & A4).
  pose proof (is_datum_inv d HD) as (HInt & _ & HS & _).
  unfold copy_intents in EK. rewrite (mapM_ok make_intent (fun x => x)), map_id in EK.
  2:{ eapply Forall_impl; [|exact HInt]. intros a. apply is_intent_iff. }
  cbn [bind] in EK. pose proof EK as EI. apply make_datum_inv in EI. destruct EI as (ER & _).
  rewrite (sort_by_id e_start es A4), (sort_by_id intent_hash (d_intents d) HS) in ER.
  split; [split|].
  - exists (concat segs), (d_intents d), es. split; [exact EK|]. split.
    + eapply Forall_impl; [|exact HInt]. intros a. apply is_intent_iff.
    + eapply Forall_impl; [|exact A3]. cbn. tauto.
  - rewrite ER. cbn [d_utterance d_entities]. eapply Forall_impl; [|exact A3]. unfold inside. cbn. intros x (_ & _ & X3 & X4). lia.
  - rewrite ER. unfold fits. cbn [d_utterance d_entities d_intents]. split; [eapply Forall_impl; [|exact A3]; cbn; tauto|].
    split; [congruence|]. split; [reflexivity|]. apply Z.ltb_lt. lia.
Qed.

Theorem expanded_home d s io ds r : is_datum d -> expand_by_entities d s io = Ok ds -> In r ds ->
  at_home r /\ Forall (fun e => e_replacements e = []) (d_entities r) /\ d_intents r = d_intents d /\
  map e_label (d_entities r) = map e_label (d_entities d).
Proof.
  intros HD HE HR. destruct (expanded_bare d s io ds r HD HE HR) as [(H1 & H2 & H3 & H4 & _)|(-> & N)]; [auto|].
  rewrite N. split; [split; [exact HD|rewrite N; constructor]|]. repeat split; constructor.
Qed.

Theorem expanded_again d s io ds r io' : is_datum d -> expand_by_entities d s io = Ok ds -> In r ds ->
  expand_by_entities r None io' = Ok [r].
Proof.
  intros HD HE HR. destruct (expanded_bare d s io ds r HD HE HR) as [(H1 & H2 & _ & _ & H4)|(-> & N)].
  2:{ now apply expand_plain. }
  destruct (list_eq_dec Z.eq_dec (map e_label (d_entities r)) []) as [N|N].
  { apply expand_plain. now apply map_eq_nil in N. }
  assert (HN : d_entities r <> []) by (intros C; now rewrite C in N).
  rewrite expand_numbers by assumption. destruct (bare_number r io' 0 H1 H2) as (B1 & B2). rewrite B2.
  cbn [sampler]. change (zrange 0 1) with [0]. cbn [forallb map]. rewrite B1, H4. reflexivity.
Qed.

Theorem expanded_sampled d s io ds r s' io' : is_datum d -> d_entities d <> [] -> expand_by_entities d s io = Ok ds -> In r ds ->
  Forall i32 (s' 1) -> expand_by_entities r (Some s') io' = Ok (map (fun _ => r) (s' 1)).
Proof.
  intros HD HN HE HR HS. destruct (expanded_bare d s io ds r HD HE HR) as [(H1 & H2 & H3 & _ & H4)|(-> & C)]; [|congruence].
  assert (HN' : d_entities r <> []).
  { intros C. rewrite C in H3. symmetry in H3. now apply map_eq_nil in H3. }
  rewrite expand_numbers by assumption. destruct (bare_number r io' 0 H1 H2) as (_ & B2). rewrite B2. cbn [sampler].
  assert (F : forallb (fun k => i32b k && fits (number r io' k)) (s' 1) = true).
  { apply forallb_forall. intros k HK. rewrite (proj1 (bare_number r io' k H1 H2)), H4, andb_true_r.
    rewrite Forall_forall in HS. specialize (HS k HK). unfold i32 in HS. unfold i32b. change (2 ^ 31) with 2147483648 in HS.
    apply andb_true_intro. split; [apply Z.leb_le|apply Z.ltb_lt]; lia. }
  rewrite F. f_equal. apply map_ext. intros k. exact (proj1 (bare_number r io' k H1 H2)).
Qed.

Theorem second_round data s io dss io' : Forall is_datum data ->
  mapM (fun d => expand_by_entities d s io) data = Ok dss ->
  mapM (fun d => expand_by_entities d None io') (concat dss) = Ok (map (fun d => [d]) (concat dss)).
Proof.
  intros HD. revert dss. induction HD as [|d data HD _ IH]; intros dss H; cbn [mapM] in H.
  - injection H as <-. reflexivity.
  - destruct (expand_by_entities d s io) as [ds|] eqn:E; [|discriminate]. cbn [bind] in H.
    destruct (mapM _ data) as [rest|]; [|discriminate]. injection H as <-. cbn [concat].
    specialize (IH rest eq_refl).
    assert (G : forall l, (forall r, In r l -> In r ds) ->
       mapM (fun d => expand_by_entities d None io') (l ++ concat rest) = Ok (map (fun d => [d]) (l ++ concat rest))).
    { induction l as [|r l IHl]; intros HL; [exact IH|]. cbn [app mapM map].
      rewrite (expanded_again d s io ds r io' HD E) by (apply HL; now left). cbn [bind].
      rewrite IHl; [reflexivity|]. intros x HX. apply HL. now right. }
    apply G. auto.
Qed.

(** ** Labels *)

Lemma count_pos d io : 0 < count d io.
Proof. apply n_choices_pos, cand_all_nonempty. Qed.

Lemma kth_choices_pos d io parts labels : partition_by_entities d io = (parts, labels) ->
  0 < fold_right Z.mul 1 (map (fun p => Z.of_nat (length p)) parts).
Proof.
  unfold partition_by_entities. generalize 0 at 1 as pos. revert parts labels. generalize (d_entities d) as es.
  intros es. induction es as [|e es IH]; intros parts labels pos; cbn [partition_loop].
  - destruct (negb _); intros [= <- <-]; cbn; lia.
  - destruct (partition_loop _ io (e_end e) es) as [ps ls] eqn:E. specialize (IH _ _ _ E).
    cbv zeta. change (if no_replacements e then [e_value e] else sorted_strs (e_replacements e) ++ (if io then [e_value e] else []))
      with (cand io e). intros H. injection H as <- _.
    assert (C : 0 < Z.of_nat (length (cand io e))).
    { pose proof (cand_nonempty io e). destruct (cand io e); [congruence|cbn [length]; lia]. }
    destruct (negb _); cbn [app map fold_right length]; nia.
Qed.

Lemma mapM_length {A B} (f : A -> res B) l : forall r, mapM f l = Ok r -> length r = length l.
Proof.
  induction l as [|a l IH]; intros r H; cbn [mapM] in H; [now injection H as <-|].
  destruct (f a); [|discriminate]. cbn [bind] in H. destruct (mapM f l) as [s|]; [|discriminate].
  injection H as <-. cbn [length]. f_equal. now apply IH.
Qed.

Lemma expanded_some d io ds : expand_by_entities d None io = Ok ds -> exists r, In r ds.
Proof.
  intros HE. unfold expand_by_entities in HE. destruct (negb _).
  { injection HE as <-. exists d. now left. }
  destruct (partition_by_entities d io) as [parts labels] eqn:EP. apply kth_choices_pos in EP.
  apply mapM_length in HE. rewrite length_zrange in HE. destruct ds as [|r ds]; [cbn [length] in HE; lia|exists r; now left].
Qed.

Theorem same_labels_set ord data io dss : (forall l, Permutation (ord l) l) -> Forall is_datum data ->
  mapM (fun d => expand_by_entities d None io) data = Ok dss ->
  forall l, In l (get_unique_entities ord (concat dss)) <-> In l (get_unique_entities ord data).
Proof.
  intros P HD H l. rewrite !(proj2 (unique_entities ord _ P) l).
  revert dss H. induction HD as [|d data HD _ IH]; intros dss H; cbn [mapM] in H.
  - injection H as <-. reflexivity.
  - destruct (expand_by_entities d None io) as [ds|] eqn:E; [|discriminate]. cbn [bind] in H.
    destruct (mapM _ data) as [rest|]; [|discriminate]. injection H as <-. cbn [concat].
    specialize (IH rest eq_refl).
    assert (G : (exists x e, In x ds /\ In e (d_entities x) /\ e_label e = l) <-> exists e, In e (d_entities d) /\ e_label e = l).
    { split.
      - intros (x & e & HX & HE & <-). pose proof (proj2 (proj2 (proj2 (expanded_home d None io ds x HD E HX)))) as EL.
        assert (HI : In (e_label e) (map e_label (d_entities d))) by (rewrite <- EL; now apply in_map).
        apply in_map_iff in HI. destruct HI as (e' & H1 & H2). eauto.
      - intros (e & HE & <-). destruct (expanded_some d io ds E) as (x & HX).
        pose proof (proj2 (proj2 (proj2 (expanded_home d None io ds x HD E HX)))) as EL.
        assert (HI : In (e_label e) (map e_label (d_entities x))) by (rewrite EL; now apply in_map).
        apply in_map_iff in HI. destruct HI as (e' & H1 & H2). eauto. }
    split.
    + intros (x & e & HX & HE & HL). apply in_app_or in HX. destruct HX as [HX|HX].
      * destruct (proj1 G (ex_intro _ x (ex_intro _ e (conj HX (conj HE HL))))) as (e' & A & B).
        exists d, e'. split; [now left|auto].
      * destruct (proj1 IH (ex_intro _ x (ex_intro _ e (conj HX (conj HE HL))))) as (x' & e' & A & B).
        exists x', e'. split; [now right|exact B].
    + intros (x & e & [<-|HX] & HE & HL).
      * destruct (proj2 G (ex_intro _ e (conj HE HL))) as (x' & e' & A & B). exists x', e'. split; [apply in_or_app; now left|exact B].
      * destruct (proj2 IH (ex_intro _ x (ex_intro _ e (conj HX (conj HE HL))))) as (x' & e' & A & B).
        exists x', e'. split; [apply in_or_app; now right|exact B].
Qed.

(** ** The original among the expansions *)

Lemma in_cand io e v : In v (cand io e) <-> In v (e_replacements e) \/ v = e_value e /\ (io = true \/ e_replacements e = []).
Proof.
  unfold cand, no_replacements. destruct (e_replacements e) as [|r rs] eqn:ER.
  - cbn [length Nat.eqb]. split; [intros [<-|[]]; auto|intros [[]|(-> & _)]; now left].
  - change (length (r :: rs) =? 0)%nat with false. cbv iota. rewrite in_app_iff. split.
    + intros [H|H]; [left; eapply Permutation_in; [apply sorted_strs_perm|exact H]|].
      destruct io; [|destruct H]. destruct H as [<-|[]]. auto.
    + intros [H|(-> & [-> |C])]; [left; eapply Permutation_in; [symmetry; apply sorted_strs_perm|exact H]| |discriminate].
      right. now left.
Qed.

Lemma all_numbers d io ds : at_home d -> d_entities d <> [] -> expand_by_entities d None io = Ok ds ->
  ds = map (rebuilt d) (choices (map (cand io) (d_entities d))).
Proof.
  intros HD HN HE. destruct (expand_ok d None io ds HD HN HE) as (-> & _). cbn [sampler]. unfold number, count.
  apply map_nth_zrange. apply choices_length.
Qed.

Theorem original_among d io ds : at_home d -> d_entities d <> [] -> expand_by_entities d None io = Ok ds ->
  (In (mkDatum (d_utterance d) (d_intents d) (map bare_entity (d_entities d))) ds <->
   forall e, In e (d_entities d) -> io = true \/ e_replacements e = [] \/ In (e_value e) (e_replacements e)).
Proof.
  intros HD HN HE. rewrite (all_numbers d io ds HD HN HE). pose proof HD as (HD1 & HI).
  rewrite <- (rebuilt_same d HD1 HI), in_map_iff.
  assert (G : In (map e_value (d_entities d)) (choices (map (cand io) (d_entities d))) <->
              forall e, In e (d_entities d) -> io = true \/ e_replacements e = [] \/ In (e_value e) (e_replacements e)).
  { rewrite in_choices. generalize (d_entities d). intros es. induction es as [|e es IH]; cbn [map].
    - split; [intros _ e []|constructor].
    - split.
      + intros H. inversion H as [|? ? ? ? H1 H2]; subst. intros x [<-|HX]; [|now apply IH].
        apply in_cand in H1. tauto.
      + intros H. constructor; [|apply IH; intros x HX; apply H; now right].
        apply in_cand. specialize (H e (or_introl eq_refl)). tauto. }
  rewrite <- G. split; [|intros H; eexists; split; [reflexivity|exact H]].
  intros (vs & EV & HV). pose proof HV as HV'. apply in_choices in HV'.
  assert (LV : length vs = length (d_entities d)).
  { clear - HV'. remember (map (cand io) (d_entities d)) as m. rewrite <- (map_length (cand io)), <- Heqm. clear Heqm.
    induction HV'; cbn; congruence. }
  apply (f_equal d_entities) in EV. unfold rebuilt in EV. cbn [d_entities] in EV. apply (f_equal (map e_value)) in EV.
  destruct (rebuilt_labels 0 (d_entities d) vs LV) as (_ & L2 & _).
  destruct (rebuilt_labels 0 (d_entities d) (map e_value (d_entities d)) (map_length _ _)) as (_ & M2 & _).
  rewrite L2, M2 in EV. now rewrite <- EV.
Qed.

(** ** When there is a result *)

Theorem expand_possible d io cs : at_home d -> d_entities d <> [] -> Forall2 (candidates io) (d_entities d) cs ->
  ((exists ds, expand_by_entities d None io = Ok ds) <->
   n_choices cs <= 2 ^ 31 /\ forall vs, In vs (choices cs) -> Z.of_nat (length (d_utterance (rebuilt d vs))) < 2 ^ 31) /\
  forall s e, expand_by_entities d s io = Err e -> e = OverflowErr.
Proof.
  intros HD HN HC. pose proof HC as EC. apply candidates_cand in EC. split; [split|].
  - intros (ds & HE). rewrite expand_numbers in HE by assumption. destruct (forallb _ _) eqn:F; [|discriminate].
    rewrite forallb_forall in F. cbn [sampler] in F. rewrite EC. fold (count d io). pose proof (count_pos d io) as CP. split.
    + specialize (F (count d io - 1) ltac:(apply in_zrange; lia)). apply andb_prop in F. destruct F as (F & _).
      unfold i32b in F. apply andb_prop in F. destruct F as (_ & F). apply Z.ltb_lt in F. change (2 ^ 31) with 2147483648. lia.
    + intros vs HV. apply In_nth_error in HV. destruct HV as (i & HV).
      assert (LI : (i < length (choices (map (cand io) (d_entities d))))%nat) by (apply nth_error_Some; congruence).
      pose proof (choices_length (map (cand io) (d_entities d))) as CL. fold (count d io) in CL.
      specialize (F (Z.of_nat i) ltac:(apply in_zrange; lia)). apply andb_prop in F. destruct F as (_ & F).
      unfold fits, number in F. fold (count d io) in F. rewrite Z.mod_small, Nat2Z.id in F by lia.
      rewrite (nth_error_nth _ _ [] HV) in F. now apply Z.ltb_lt in F.
  - intros (HB & HV). eexists. destruct HD. now apply (expand_all d io cs).
  - intros s e. rewrite expand_numbers by assumption. destruct (forallb _ _); congruence.
Qed.
