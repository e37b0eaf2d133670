(** Proofs about raw data of any form (C95). *)

From Coq Require Import String Sorted.
From Verif Require Import Py PyFacts Json SpecOps Elements SpecElements SpecOrdinal SpecRaw DatumProofs PackProofs OrdinalProofs
  LearnProofs ElementsLaws.
From Coq Require Import List Lia.
Import ListNotations.
Local Open Scope Z_scope.

(** ** Reading *)

Lemma key_cases v k : (exists x, key v (txt k) = Ok x /\ field v k x) \/
  (key v (txt k) = Err KeyErr /\ lacks v k) \/ (key v (txt k) = Err TypeErr /\ no_dict v).
Proof.
  destruct v as [| | | | | |d]; try (right; right; split; [reflexivity|intros d; discriminate]).
  cbn [key]. destruct (dict_get d (txt k)) as [x|] eqn:E.
  - left. exists x. split; [reflexivity|]. now exists d.
  - right. left. split; [reflexivity|]. now exists d.
Qed.
Lemma field_key v k x : field v k x -> key v (txt k) = Ok x.
Proof. intros (d & -> & E). cbn [key]. now rewrite E. Qed.
Lemma field_fun v k x y : field v k x -> field v k y -> x = y.
Proof. intros A B. apply field_key in A. apply field_key in B. congruence. Qed.
Lemma field_lacks v k x : field v k x -> ~ lacks v k.
Proof. intros (d & -> & E) (d' & [= <-] & E'). congruence. Qed.
Lemma field_dict v k x : field v k x -> ~ no_dict v.
Proof. intros (d & -> & _) N. now apply (N d). Qed.
Lemma lacks_dict v k : lacks v k -> ~ no_dict v.
Proof. intros (d & -> & _) N. now apply (N d). Qed.

Lemma yields_fun v l m : yields v l -> yields v m -> l = m.
Proof. intros A B. destruct A; inversion B; subst; reflexivity. Qed.
Lemma as_list_cases v : (exists l, as_list v = Ok l /\ yields v l) \/ (as_list v = Err TypeErr /\ no_loop v).
Proof.
  destruct v as [| | |s|l|l|d]; try (right; split; [reflexivity|intros l H; inversion H]).
  - left. eexists. split; [reflexivity|constructor].
  - left. eexists. split; [reflexivity|constructor].
  - left. eexists. split; [reflexivity|constructor].
  - left. eexists. split; [reflexivity|]. rewrite <- (map_map fst (fun k => JStr k)). constructor.
Qed.

Lemma whole_fun v a b : whole v a -> whole v b -> a = b.
Proof. intros A B. destruct A; inversion B; subst; reflexivity. Qed.
Lemma as_int_cases v : (exists z, as_int v = Ok z /\ whole v z) \/ (as_int v = Err TypeErr /\ no_whole v).
Proof.
  destruct v as [|[]|z|s|l|l|d]; try (right; split; [reflexivity|intros z H; inversion H]);
    left; eexists; split; try reflexivity; constructor.
Qed.
Lemma c_int_cases v : (exists z, c_int v = Ok z /\ whole v z /\ i32 z) \/
  (c_int v = Err TypeErr /\ no_whole v) \/ (exists z, c_int v = Err OverflowErr /\ whole v z /\ ~ i32 z).
Proof.
  unfold c_int. destruct (as_int_cases v) as [(z & -> & W)|(-> & W)]; cbn [bind]; [|right; left; auto].
  unfold to_i32. destruct (i32b_spec z) as [I|I]; [left; eauto|right; right; eauto].
Qed.

Lemma hashable_spec v : if hashable v then ~ no_key v else no_key v.
Proof.
  revert v. fix IH 1. intros [| | |s|l|l|d]; cbn [hashable]; try (intros H; inversion H; fail); try constructor.
  assert (G : forall m, incl m l -> if forallb hashable m then forall x, In x m -> ~ no_key x else no_key (JTuple l)).
  { revert l. fix IHl 2. intros l m. destruct m as [|x m]; intros HI; [cbn; intros y []|].
    cbn [forallb]. pose proof (IH x) as HX. specialize (IHl l m (fun y HY => HI y (or_intror HY))).
    destruct (hashable x); cbn [andb]; [|apply (no_key_tuple l x); [apply HI; now left|exact HX]].
    destruct (forallb hashable m); [|exact IHl].
    intros y [<-|HY]; [exact HX|now apply IHl]. }
  specialize (G l (fun x H => H)). destruct (forallb hashable l); [|exact G].
  intros H. inversion H; subst. now apply (G x).
Qed.

Lemma classic_text v : text v \/ forall s, v <> JStr s.
Proof. destruct v; try (right; intros s; discriminate). left. now exists s. Qed.

Lemma lookup_any m v : is_dict m -> (exists i, lookup m v = Ok i /\ names m v i) \/
  (lookup m v = Err KeyErr /\ unknown m v) \/ (lookup m v = Err TypeErr /\ no_key v).
Proof.
  intros D. destruct (classic_text v) as [(s & ->)|N].
  - destruct (lookup_cases m s D) as [(i & E & H)|(E & H)].
    + left. exists i. split; [exact E|]. now exists s.
    + right. left. split; [exact E|]. split; [|intros C; inversion C].
      intros i (n & [= <-] & HI). apply H. now exists i.
  - right. pose proof (hashable_spec v) as H.
    assert (E : lookup m v = if hashable v then Err KeyErr else Err TypeErr).
    { destruct v; try reflexivity. destruct (N s eq_refl). }
    rewrite E. destruct (hashable v); [left|now right]. split; [reflexivity|]. split; [|exact H].
    intros i (n & -> & _). now apply (N n).
Qed.

(** ** Loops *)

Lemma mapM_any {A B} (f : A -> res B) (R : A -> B -> Prop) (F : exn -> A -> Prop) l :
  (forall x, In x l -> (exists y, f x = Ok y /\ R x y) \/ (exists e, f x = Err e /\ F e x)) ->
  (exists m, mapM f l = Ok m /\ Forall2 R l m) \/ (exists e x, mapM f l = Err e /\ In x l /\ F e x).
Proof.
  induction l as [|x l IH]; intros H; [left; exists []; split; [reflexivity|constructor]|].
  cbn [mapM]. destruct (H x (or_introl eq_refl)) as [(y & -> & HR)|(e & -> & HF)]; cbn [bind].
  - destruct IH as [(m & -> & HM)|(e & z & -> & HZ & HF)]; [intros z HZ; apply H; now right| |]; cbn [bind].
    + left. exists (y :: m). split; [reflexivity|now constructor].
    + right. exists e, z. split; [reflexivity|]. split; [now right|exact HF].
  - right. exists e, x. split; [reflexivity|]. split; [now left|exact HF].
Qed.

Lemma Forall2_In_l {A B} (R : A -> B -> Prop) l m x : Forall2 R l m -> In x l -> exists y, In y m /\ R x y.
Proof.
  induction 1 as [|a b l m H _ IH]; [intros []|]. intros [<-|HI]; [exists b; split; [now left|exact H]|].
  destruct (IH HI) as (y & HY & HR). exists y. split; [now right|exact HR].
Qed.
Lemma Forall2_In_r {A B} (R : A -> B -> Prop) l m y : Forall2 R l m -> In y m -> exists x, In x l /\ R x y.
Proof.
  induction 1 as [|a b l m H _ IH]; [intros []|]. intros [<-|HI]; [exists a; split; [now left|exact H]|].
  destruct (IH HI) as (x & HX & HR). exists x. split; [now right|exact HR].
Qed.

Lemma as_strs_cases x : (forall l, yields x l -> Forall text l) ->
  (exists l, as_strs x = Ok l /\ yields x (map JStr l)) \/ (as_strs x = Err TypeErr /\ no_loop x).
Proof.
  intros P. unfold as_strs. destruct (as_list_cases x) as [(l & -> & Y)|(-> & N)]; cbn [bind]; [|now right].
  left. specialize (P l Y). assert (G : exists t, l = map JStr t).
  { clear Y. induction P as [|y l (s & ->) _ (t & ->)]; [now exists []|now exists (s :: t)]. }
  destruct G as (t & ->). exists t. split; [|exact Y]. rewrite mapM_map. apply mapM_of_Forall2.
  clear. induction t; constructor; auto.
Qed.

(** ** Entities *)

(** the replacements, read by both functions *)
Lemma replacements_any {A} v (none : A) (some : list str -> A) : plain_entity v -> ~ no_dict v ->
  let r := match key v K_replacements with
           | Err _ => Ok none
           | Ok JNone => Ok none
           | Ok x => l <- as_strs x ;; Ok (some l)
           end in
  (r = Ok none /\ raw_replacements v []) \/
  (exists l, r = Ok (some l) /\ raw_replacements v (dedup l)) \/
  (exists x, r = Err TypeErr /\ field v "replacements" x /\ x <> JNone /\ no_loop x).
Proof.
  intros P D r. unfold r. change K_replacements with (txt "replacements").
  destruct (key_cases v "replacements") as [(x & -> & H)|[(-> & H)|(-> & H)]]; [| |contradiction].
  2:{ left. split; [reflexivity|]. left. auto. }
  assert (C : x = JNone \/ x <> JNone) by (destruct x; auto; right; discriminate).
  destruct C as [->|C]; [left; split; [reflexivity|]; left; auto|]. right.
  assert (E : (match x with JNone => Ok none | _ => l <- as_strs x ;; Ok (some l) end) = (l <- as_strs x ;; Ok (some l)))
    by (destruct x; congruence).
  rewrite E. destruct (as_strs_cases x) as [(l & -> & Y)|(-> & Y)].
  { intros l Y. exact (P x l H Y). }
  - left. exists l. split; [reflexivity|]. right. exists x, l. split; [exact H|]. split; [exact Y|].
    split; [apply NoDup_dedup|]. intros w. apply in_dedup.
  - right. exists x. auto.
Qed.

Lemma bound_any v d : (exists z, cut_bound v d = Ok z /\ forall x, whole v x -> z = x) \/ (cut_bound v d = Err TypeErr /\ no_whole v).
Proof.
  assert (C : v = JNone \/ cut_bound v d = as_int v) by (destruct v; auto).
  destruct C as [->| ->]; [left; exists d; split; [reflexivity|intros x H; inversion H]|].
  destruct (as_int_cases v) as [(z & -> & W)|(-> & W)]; [left|right; auto].
  exists z. split; [reflexivity|]. intros x H. now apply (whole_fun v).
Qed.
Lemma cut_any s a b : (exists t, cut_value (JStr s) a b = Ok t /\ forall x y, whole a x -> whole b y -> t = slice_z s x y) \/
  (cut_value (JStr s) a b = Err TypeErr /\ (no_whole a \/ no_whole b)).
Proof.
  unfold cut_value. cbn [as_str bind].
  destruct (bound_any a 0) as [(x & -> & HA)|(-> & HA)]; cbn [bind]; [|right; auto].
  destruct (bound_any b (Z.of_nat (length s))) as [(y & -> & HB)|(-> & HB)]; cbn [bind]; [|right; auto].
  left. eexists. split; [reflexivity|]. intros x' y' A B. now rewrite (HA x' A), (HB y' B).
Qed.
Lemma cut_wrong u a b : (forall s, u <> JStr s) -> cut_value u a b = Err TypeErr.
Proof. intros N. unfold cut_value. destruct u; try reflexivity. destruct (N s eq_refl). Qed.

(** start, end and replacements *)
Lemma position_any v a b t s label {A} (none : A) (some : list str -> A) (get : A -> option (list str)) :
  field v "start" a -> field v "end" b -> plain_entity v -> i32 label ->
  (forall x y, whole a x -> whole b y -> t = slice_z s x y) ->
  get none = None \/ get none = Some [] -> (forall l, get (some l) = Some l) ->
  let r := (start <- c_int a ;; stop <- c_int b ;;
            repl <- match key v K_replacements with
                    | Err _ => Ok none
                    | Ok JNone => Ok none
                    | Ok x => l <- as_strs x ;; Ok (some l)
                    end ;;
            make_entity label t start stop (get repl)) in
  (exists e, r = Ok e /\ e_label e = label /\ at_position s v e) \/
  (r = Err TypeErr /\ wrong_position v) \/ (r = Err OverflowErr /\ position_large v).
Proof.
  intros HA HB P IL HT GN GS r. unfold r.
  destruct (c_int_cases a) as [(x & -> & WA & IA)|[(-> & WA)|(x & -> & WA & IA)]]; cbn [bind].
  2:{ right. left. split; [reflexivity|]. now apply (wrong_start v a). }
  2:{ right. right. split; [reflexivity|]. exists "start"%string, a, x. auto. }
  destruct (c_int_cases b) as [(y & -> & WB & IB)|[(-> & WB)|(y & -> & WB & IB)]]; cbn [bind].
  2:{ right. left. split; [reflexivity|]. now apply (wrong_end v b). }
  2:{ right. right. split; [reflexivity|]. exists "end"%string, b, y. auto. }
  destruct (replacements_any v none some P (field_dict v _ _ HA)) as [(-> & HR)|[(l & -> & HR)|(z & -> & H1 & H2 & H3)]]; cbn [bind].
  3:{ right. left. split; [reflexivity|]. now apply (wrong_replacements v z). }
  - left. rewrite make_entity_ok by assumption. eexists. split; [reflexivity|]. split; [reflexivity|].
    exists a, b. cbn [e_start e_end e_value e_replacements].
    assert (E : dedup (match get none with Some r => r | None => [] end) = []) by (destruct GN as [-> | ->]; reflexivity).
    rewrite E. repeat (split; [eauto|]). exact HR.
  - left. rewrite make_entity_ok by assumption. eexists. split; [reflexivity|]. split; [reflexivity|].
    exists a, b. cbn [e_start e_end e_value e_replacements]. rewrite GS. repeat (split; [eauto|]). exact HR.
Qed.

Definition entity_fault (m : list (str * Z)) (u : jval) (e : exn) (v : jval) : Prop :=
  (e = KeyErr /\ entity_missing m v) \/ (e = TypeErr /\ (entity_wrong v \/ forall s, u <> JStr s)) \/
  (e = OverflowErr /\ position_large v).

Lemma entity_any o u v : is_dict (entity2index o) -> Forall i32 (map snd (entity2index o)) -> plain_entity v ->
  (exists e, machanize_entity o u v = Ok e /\ exists s, u = JStr s /\ raw_entity_of (entity2index o) s v e) \/
  (exists e, machanize_entity o u v = Err e /\ entity_fault (entity2index o) u e v).
Proof.
  intros D SM P. unfold machanize_entity.
  assert (K : forall e, e = KeyErr -> entity_missing (entity2index o) v -> entity_fault (entity2index o) u e v)
    by (intros e -> H; left; auto).
  assert (W : forall e, e = TypeErr -> entity_wrong v \/ (forall s, u <> JStr s) -> entity_fault (entity2index o) u e v)
    by (intros e -> H; right; left; auto).
  change K_name with (txt "name"). change K_start with (txt "start"). change K_end with (txt "end").
  destruct (key_cases v "name") as [(n & -> & HN)|[(-> & HN)|(-> & HN)]]; cbn [bind].
  2:{ right. eexists. split; [reflexivity|]. apply K; [reflexivity|]. now apply missing_name. }
  2:{ right. eexists. split; [reflexivity|]. apply W; [reflexivity|]. left. now apply wrong_entity. }
  destruct (lookup_any (entity2index o) n D) as [(i & -> & HI)|[(-> & HI)|(-> & HI)]]; cbn [bind].
  2:{ right. eexists. split; [reflexivity|]. apply K; [reflexivity|]. now apply (unknown_name _ v n). }
  2:{ right. eexists. split; [reflexivity|]. apply W; [reflexivity|]. left. now apply (wrong_name v n). }
  destruct (key_cases v "start") as [(a & -> & HA)|[(-> & HA)|(-> & HA)]]; cbn [bind].
  2:{ right. eexists. split; [reflexivity|]. apply K; [reflexivity|]. apply missing_position. now left. }
  2:{ destruct (field_dict _ _ _ HN HA). }
  destruct (key_cases v "end") as [(b & -> & HB)|[(-> & HB)|(-> & HB)]]; cbn [bind].
  2:{ right. eexists. split; [reflexivity|]. apply K; [reflexivity|]. apply missing_position. now right. }
  2:{ destruct (field_dict _ _ _ HN HB). }
  destruct (classic_text u) as [(s & ->)|N].
  2:{ rewrite (cut_wrong u a b N). right. eexists. split; [reflexivity|]. apply W; auto. }
  destruct (cut_any s a b) as [(t & -> & HT)|(-> & HT)]; cbn [bind].
  2:{ right. eexists. split; [reflexivity|]. apply W; [reflexivity|]. left. apply wrong_place.
      destruct HT as [HT|HT]; [now apply (wrong_start v a)|now apply (wrong_end v b)]. }
  assert (IL : i32 i).
  { destruct HI as (w & _ & HI). rewrite Forall_forall in SM. apply SM. apply in_map_iff. now exists (w, i). }
  rewrite to_i32_ok by exact IL. cbn [bind].
  destruct (position_any v a b t s i None (@Some (list str)) (fun x => x) HA HB P IL HT (or_introl eq_refl) (fun l => eq_refl))
    as [(e & E & EL & HP)|[(E & HP)|(E & HP)]].
  - left. exists e. split; [exact E|]. exists s. split; [reflexivity|]. split; [|exact HP]. exists n. split; [exact HN|].
    now rewrite EL.
  - right. exists TypeErr. split; [exact E|]. apply W; [reflexivity|]. left. now apply wrong_place.
  - right. exists OverflowErr. split; [exact E|]. right. right. auto.
Qed.

(** ** Entity.from_dict *)

Theorem from_dict_any u v : plain_entity v ->
  (exists e, entity_from_dict v u = Ok e /\ entity_dict_of u v e) \/
  (entity_from_dict v u = Err KeyErr /\ dict_missing v) \/
  (entity_from_dict v u = Err TypeErr /\ dict_wrong v) \/
  (entity_from_dict v u = Err OverflowErr /\ dict_large v).
Proof.
  intros P. unfold entity_from_dict.
  change K_label with (txt "label"). change K_start with (txt "start"). change K_end with (txt "end").
  destruct (key_cases v "end") as [(b & -> & HB)|[(-> & HB)|(-> & HB)]]; cbn [bind].
  2:{ right. left. split; [reflexivity|]. right. now right. }
  2:{ right. right. left. split; [reflexivity|]. now left. }
  destruct (key_cases v "start") as [(a & -> & HA)|[(-> & HA)|(-> & HA)]]; cbn [bind].
  2:{ right. left. split; [reflexivity|]. right. now left. }
  2:{ destruct (field_dict _ _ _ HB HA). }
  destruct (cut_any u a b) as [(t & -> & HT)|(-> & HT)]; cbn [bind].
  2:{ right. right. left. split; [reflexivity|]. right. right.
      destruct HT as [HT|HT]; [now apply (wrong_start v a)|now apply (wrong_end v b)]. }
  destruct (key_cases v "label") as [(n & -> & HN)|[(-> & HN)|(-> & HN)]]; cbn [bind].
  2:{ right. left. split; [reflexivity|]. now left. }
  2:{ destruct (field_dict _ _ _ HB HN). }
  destruct (c_int_cases n) as [(i & -> & WN & IN)|[(-> & WN)|(i & -> & WN & IN)]]; cbn [bind].
  2:{ right. right. left. split; [reflexivity|]. right. left. now exists n. }
  2:{ right. right. right. split; [reflexivity|]. right. exists n, i. auto. }
  assert (E : (match key v K_replacements with Err _ => Ok [] | Ok JNone => Ok [] | Ok x => as_strs x end) =
              (match key v K_replacements with Err _ => Ok [] | Ok JNone => Ok [] | Ok x => l <- as_strs x ;; Ok l end)).
  { destruct (key v K_replacements) as [x|]; [|reflexivity]. destruct x; try reflexivity; now destruct (as_strs _). }
  rewrite E.
  destruct (position_any v a b t u i [] (fun l => l) (fun l => Some l) HA HB P IN HT (or_intror eq_refl) (fun l => eq_refl))
    as [(e & ER & EL & HP)|[(ER & HP)|(ER & HP)]]; rewrite ER.
  - left. exists e. split; [reflexivity|]. split; [|exact HP]. exists n. rewrite EL. auto.
  - right. right. left. split; [reflexivity|]. right. now right.
  - right. right. right. split; [reflexivity|]. now left.
Qed.

(** ** machanize *)

Lemma entities_field v x es : raw_entities v es -> field v "entities" x -> yields x es.
Proof.
  intros [(L & _)|(y & F & Y)] H; [destruct (field_lacks _ _ _ H L)|]. now rewrite (field_fun _ _ _ _ H F).
Qed.

Theorem machanize_any o v : is_ordinal o -> small o -> plain v ->
  (exists u ints ents d, describes o v u ints ents /\ StronglySorted apart ents /\
     machanize o v = Ok d /\ d_utterance d = u /\
     stably_sorted (fun i => i) ints (d_intents d) /\ stably_sorted e_start ents (d_entities d)) \/
  (exists u ints ents, describes o v u ints ents /\ ~ StronglySorted apart ents /\
     machanize o v = Err EntityOverlapErr) \/
  (machanize o v = Err KeyErr /\ missing o v) \/
  (machanize o v = Err TypeErr /\ wrong v) \/
  (machanize o v = Err OverflowErr /\ large v).
Proof.
  intros HO SM (PU & PE). unfold machanize.
  change K_utterance with (txt "utterance"). change K_intent with (txt "intent"). change K_names with (txt "names").
  change K_entities with (txt "entities").
  destruct (key_cases v "utterance") as [(u & -> & HU)|[(-> & HU)|(-> & HU)]]; cbn [bind].
  2:{ right. right. left. split; [reflexivity|]. now apply no_utterance. }
  2:{ right. right. right. left. split; [reflexivity|]. now apply wrong_raw. }
  destruct (key_cases v "intent") as [(i & -> & HI)|[(-> & HI)|(-> & HI)]]; cbn [bind].
  2:{ right. right. left. split; [reflexivity|]. now apply no_intent. }
  2:{ destruct (field_dict _ _ _ HU HI). }
  destruct (key_cases i "names") as [(x & -> & HX)|[(-> & HX)|(-> & HX)]]; cbn [bind].
  2:{ right. right. left. split; [reflexivity|]. now apply (no_names o v i). }
  2:{ right. right. right. left. split; [reflexivity|]. now apply (wrong_intent v i). }
  destruct (as_list_cases x) as [(ns & -> & HN)|(-> & HN)]; cbn [bind].
  2:{ right. right. right. left. split; [reflexivity|]. now apply (wrong_names v i x). }
  assert (RN : raw_names v ns) by (exists i, x; auto).
  assert (OD : is_dict (intent2index o) /\ is_dict (entity2index o)).
  { destruct HO as (i2i & e2i & ne & D1 & D2 & E). unfold make_ordinal in E.
    destruct (guard _ _) as [[]|]; [|discriminate]. cbn [bind] in E. destruct (guard _ _) as [[]|]; [|discriminate].
    injection E as <-. auto. }
  destruct OD as (D1 & D2).
  destruct SM as (S1 & S2).
  assert (NI : forall n j, names (intent2index o) n j -> i32 j).
  { intros n j (w & _ & H). rewrite Forall_forall in S1. apply S1. apply in_map_iff. now exists (w, j). }
  destruct (mapM_any (fun n => j <- lookup (intent2index o) n ;; make_intent j) (names (intent2index o))
    (fun e n => (e = KeyErr /\ unknown (intent2index o) n) \/ (e = TypeErr /\ no_key n)) ns) as [(ints & -> & HF)|(e & n & -> & HIn & HF)].
  { intros n _. destruct (lookup_any (intent2index o) n D1) as [(j & -> & HJ)|[(-> & HJ)|(-> & HJ)]]; cbn [bind].
    - left. exists j. split; [|exact HJ]. apply to_i32_ok. now apply (NI n).
    - right. eexists. split; [reflexivity|]. auto.
    - right. eexists. split; [reflexivity|]. auto. }
  2:{ cbn [bind]. destruct HF as [(-> & HF)|(-> & HF)].
      - right. right. left. split; [reflexivity|]. now apply (unknown_intent o v ns n).
      - right. right. right. left. split; [reflexivity|]. now apply (wrong_intent_name v ns n). }
  cbn [bind].
  match goal with |- context [match key v (txt "entities") with Ok _ => _ | Err _ => _ end] => idtac end.
  assert (EN : (exists es ents, raw_entities v es /\
                  match key v (txt "entities") with
                  | Err _ => Ok []
                  | Ok v0 => l <- as_list v0 ;; mapM (machanize_entity o u) l
                  end = Ok ents /\
                  Forall2 (fun w e => exists s, u = JStr s /\ raw_entity_of (entity2index o) s w e) es ents) \/
               (exists e, match key v (txt "entities") with
                  | Err _ => Ok []
                  | Ok v0 => l <- as_list v0 ;; mapM (machanize_entity o u) l
                  end = Err e /\
                  ((e = KeyErr /\ missing o v) \/ (e = TypeErr /\ wrong v) \/ (e = OverflowErr /\ large v)))).
  { destruct (key_cases v "entities") as [(y & -> & HY)|[(-> & HY)|(-> & HY)]]; [| |destruct (field_dict _ _ _ HU HY)].
    2:{ left. exists [], []. split; [left; auto|]. split; [reflexivity|constructor]. }
    destruct (as_list_cases y) as [(es & -> & HE)|(-> & HE)]; cbn [bind].
    2:{ right. eexists. split; [reflexivity|]. right. left. split; [reflexivity|]. now apply (wrong_entities v y). }
    assert (RE : raw_entities v es) by (right; exists y; auto). pose proof (PE es RE) as PP. rewrite Forall_forall in PP.
    destruct (mapM_any (machanize_entity o u) (fun w e => exists s, u = JStr s /\ raw_entity_of (entity2index o) s w e)
      (entity_fault (entity2index o) u) es) as [(ents & -> & HF2)|(e & w & -> & HIn & HF2)].
    - intros w HW. apply entity_any; auto.
    - left. exists es, ents. auto.
    - right. exists e. split; [reflexivity|]. destruct HF2 as [(-> & HF2)|[(-> & HF2)|(-> & HF2)]].
      + left. split; [reflexivity|]. now apply (missing_in_entity o v es w).
      + right. left. split; [reflexivity|]. destruct HF2 as [HF2|HF2]; [now apply (wrong_in_entity v es w)|].
        now apply (wrong_utterance v u).
      + right. right. split; [reflexivity|]. now exists es, w. }
  destruct EN as [(es & ents & RE & -> & HE)|(e & -> & [(-> & HE)|[(-> & HE)|(-> & HE)]])]; cbn [bind]; [|auto 6..].
  destruct (classic_text u) as [(s & ->)|N].
  2:{ right. right. right. left. split; [|now apply (wrong_utterance v u)]. destruct u; try reflexivity. destruct (N s eq_refl). }
  cbn [as_str bind].
  assert (HE' : Forall2 (raw_entity_of (entity2index o) s) es ents).
  { clear -HE. induction HE as [|w e es ents (s' & [= <-] & H) _ IH]; constructor; auto. }
  assert (DS : describes o v s ints ents).
  { split; [exact HU|]. split; [exists ns; auto|exists es; auto]. }
  assert (PL : Forall (fun e => e_value e = slice_z s (e_start e) (e_end e)) ents).
  { clear -HE'. induction HE' as [|w e es ents H _ IH]; constructor; auto. destruct H as (_ & a & b & _ & _ & _ & _ & _ & _ & H & _). exact H. }
  destruct (make_datum_cases s (Some ints) (Some ents)) as [(EM & _ & HA)|[(EM & HP)|(EM & _ & HA)]]; rewrite EM.
  - left. eexists s, ints, ents, _. split; [exact DS|]. split; [exact HA|]. split; [reflexivity|].
    cbn [d_utterance d_intents d_entities]. split; [reflexivity|]. split; [|apply sort_by_stable].
    rewrite (sort_by_ext intent_hash (fun i => i)); [apply sort_by_stable|].
    destruct (is_ordinal_inv o HO) as (_ & _ & (_ & V1) & _). rewrite Forall_forall in V1.
    intros j HJ. apply hash_nonneg. destruct (Forall2_In_r _ _ _ _ HF HJ) as (n & _ & (w & _ & HI')).
    enough (0 <= j < Z.of_nat (length (map snd (intent2index o)))) by lia. apply V1. apply in_map_iff. now exists (w, j).
  - contradiction.
  - right. left. exists s, ints, ents. auto.
Qed.

(** Nothing is wrong with raw data that describe something. *)
Lemma position_fine u v e : at_position u v e -> ~ position_lacks v /\ ~ wrong_position v /\ ~ position_large v.
Proof.
  intros (a & b & HA & WA & HB & WB & IA & IB & _ & HR). split; [|split].
  - intros [H|H]; [now apply (field_lacks _ _ _ HA)|now apply (field_lacks _ _ _ HB)].
  - intros [x F N|x F N|x F N1 N2].
    + rewrite (field_fun _ _ _ _ F HA) in N. now apply (N (e_start e)).
    + rewrite (field_fun _ _ _ _ F HB) in N. now apply (N (e_end e)).
    + destruct HR as [([L|L] & _)|(y & l & H & Y & _)].
      * now apply (field_lacks _ _ _ F).
      * apply N1. exact (field_fun _ _ _ _ F L).
      * rewrite (field_fun _ _ _ _ F H) in N2. now apply (N2 (map JStr l)).
  - intros (k & x & z & [-> | ->] & F & W & N).
    + rewrite (field_fun _ _ _ _ F HA) in W. now rewrite (whole_fun _ _ _ W WA) in N.
    + rewrite (field_fun _ _ _ _ F HB) in W. now rewrite (whole_fun _ _ _ W WB) in N.
Qed.
Lemma names_fine m n i : names m n i -> ~ unknown m n /\ ~ no_key n.
Proof. intros (w & -> & H). split; [intros (U & _); apply (U i); now exists w|intros C; inversion C]. Qed.
Lemma entity_fine m u v e : raw_entity_of m u v e -> ~ entity_missing m v /\ ~ entity_wrong v /\ ~ position_large v.
Proof.
  intros ((n & HN & HI) & HP). destruct (position_fine _ _ _ HP) as (P1 & P2 & P3).
  destruct (names_fine _ _ _ HI) as (N1 & N2). split; [|split; [|exact P3]].
  - intros [H|H|x F U]; [now apply (field_lacks _ _ _ HN)|contradiction|]. now rewrite (field_fun _ _ _ _ F HN) in U.
  - intros [H|x F U|H]; [now apply (field_dict _ _ _ HN)| |contradiction]. now rewrite (field_fun _ _ _ _ F HN) in U.
Qed.
Lemma entities_fun v es es' : raw_entities v es -> raw_entities v es' -> es = es'.
Proof.
  intros [(L & ->)|(x & F & Y)] [(L' & ->)|(x' & F' & Y')]; auto.
  - destruct (field_lacks _ _ _ F' L).
  - destruct (field_lacks _ _ _ F L').
  - rewrite (field_fun _ _ _ _ F F') in Y. now apply (yields_fun x').
Qed.
Lemma names_fun v ns ns' : raw_names v ns -> raw_names v ns' -> ns = ns'.
Proof.
  intros (i & x & F & G & Y) (i' & x' & F' & G' & Y'). rewrite (field_fun _ _ _ _ F F') in G.
  rewrite (field_fun _ _ _ _ G G') in Y. now apply (yields_fun x').
Qed.

Theorem describes_fine o v u ints ents : describes o v u ints ents -> ~ missing o v /\ ~ wrong v /\ ~ large v.
Proof.
  intros (HU & (ns & HN & FN) & (es & HE & FE)).
  assert (FN' : forall n, In n ns -> ~ unknown (intent2index o) n /\ ~ no_key n).
  { intros n HI. destruct (Forall2_In_l _ _ _ _ FN HI) as (j & _ & H). now apply (names_fine _ n j). }
  assert (FE' : forall e, In e es -> ~ entity_missing (entity2index o) e /\ ~ entity_wrong e /\ ~ position_large e).
  { intros e HI. destruct (Forall2_In_l _ _ _ _ FE HI) as (j & _ & H). now apply (entity_fine _ u e j). }
  destruct HN as (i & x & HI & HX & HY). assert (RN : raw_names v ns) by (exists i, x; auto).
  split; [|split].
  - intros [H|H|i' F H|ns' n F H U|es' e F H M].
    + now apply (field_lacks _ _ _ HU).
    + now apply (field_lacks _ _ _ HI).
    + rewrite (field_fun _ _ _ _ F HI) in H. now apply (field_lacks _ _ _ HX).
    + rewrite (names_fun _ _ _ F RN) in H. now destruct (FN' n H).
    + rewrite (entities_fun _ _ _ F HE) in H. now destruct (FE' e H).
  - intros [H|y F H|i' F H|i' y F G H|ns' n F H U|y F H|es' e F H M].
    + now apply (field_dict _ _ _ HU).
    + apply (H u). exact (field_fun _ _ _ _ F HU).
    + rewrite (field_fun _ _ _ _ F HI) in H. now apply (field_dict _ _ _ HX).
    + rewrite (field_fun _ _ _ _ F HI) in G. rewrite (field_fun _ _ _ _ G HX) in H. now apply (H ns).
    + rewrite (names_fun _ _ _ F RN) in H. now destruct (FN' n H).
    + apply (H es). now apply (entities_field v).
    + rewrite (entities_fun _ _ _ F HE) in H. now destruct (FE' e H) as (_ & N & _).
  - intros (es' & e & F & H & L). rewrite (entities_fun _ _ _ F HE) in H. now destruct (FE' e H) as (_ & _ & N).
Qed.

Theorem from_dict_fine u v e : entity_dict_of u v e -> ~ dict_missing v /\ ~ dict_wrong v /\ ~ dict_large v.
Proof.
  intros ((n & HN & WN & IN) & HP). destruct (position_fine _ _ _ HP) as (P1 & P2 & P3).
  destruct HP as (a & _ & HA & _). split; [|split].
  - intros [H|H]; [now apply (field_lacks _ _ _ HN)|contradiction].
  - intros [H|[(x & F & N)|H]]; [now apply (field_dict _ _ _ HN)| |contradiction].
    rewrite (field_fun _ _ _ _ F HN) in N. now apply (N (e_label e)).
  - intros [H|(x & z & F & W & N)]; [contradiction|]. rewrite (field_fun _ _ _ _ F HN) in W.
    now rewrite (whole_fun _ _ _ W WN) in N.
Qed.

(** ** from_raw_dictionary *)

Theorem from_raw_any r ne : plain_corpus r ->
  (exists ints ents, raw_corpus r (map JStr ints) (map JStr ents) /\
     ((exists o, from_raw_dictionary r ne = Ok o /\ is_ordinal o /\ not_entity_index o = ne /\
         map fst (intent2index o) = first_seen [] ints /\
         map snd (intent2index o) = counting None (length (first_seen [] ints)) /\
         map fst (entity2index o) = first_seen [] ents /\
         map snd (entity2index o) = counting (Some ne) (length (first_seen [] ents)) /\
         learns ne ents) \/
      (from_raw_dictionary r ne = Err ValueErr /\ ~ learns ne ents))) \/
  (from_raw_dictionary r ne = Err KeyErr /\ corpus_missing r) \/
  (from_raw_dictionary r ne = Err TypeErr /\ corpus_wrong r).
Proof.
  intros P. unfold from_raw_dictionary. change K_data with (txt "data").
  destruct (key_cases r "data") as [(x & -> & HX)|[(-> & HX)|(-> & HX)]]; cbn [bind].
  2:{ right. left. split; [reflexivity|]. now apply no_data. }
  2:{ right. right. split; [reflexivity|]. now apply wrong_corpus. }
  destruct (as_list_cases x) as [(rows & -> & HR)|(-> & HR)]; cbn [bind].
  2:{ right. right. split; [reflexivity|]. now apply (wrong_data r x). }
  specialize (P x rows).
  destruct (mapM_any (fun d => i <- key d K_intent ;; ns <- key i K_names ;; as_strs ns)
     (fun v ns => raw_names v (map JStr ns))
     (fun e v => (e = KeyErr /\ corpus_missing r) \/ (e = TypeErr /\ corpus_wrong r)) rows) as [(ii & -> & HF)|(e & v & -> & _ & HF)].
  { intros v HV. destruct (P v HX HR HV) as (P1 & _).
    change K_intent with (txt "intent"). change K_names with (txt "names").
    destruct (key_cases v "intent") as [(i & -> & HI)|[(-> & HI)|(-> & HI)]]; cbn [bind].
    2:{ right. eexists. split; [reflexivity|]. left. split; [reflexivity|]. apply (missing_in_row r x rows v); auto. }
    2:{ right. eexists. split; [reflexivity|]. right. split; [reflexivity|]. apply (wrong_in_row r x rows v); auto. }
    destruct (key_cases i "names") as [(y & -> & HY)|[(-> & HY)|(-> & HY)]]; cbn [bind].
    2:{ right. eexists. split; [reflexivity|]. left. split; [reflexivity|]. apply (missing_in_row r x rows v); eauto. }
    2:{ right. eexists. split; [reflexivity|]. right. split; [reflexivity|]. apply (wrong_in_row r x rows v); eauto. }
    destruct (as_strs_cases y) as [(l & -> & Y)|(-> & Y)].
    { intros l Y. apply P1. exists i, y. auto. }
    - left. exists l. split; [reflexivity|]. exists i, y. auto.
    - right. eexists. split; [reflexivity|]. right. split; [reflexivity|]. apply (wrong_in_row r x rows v); auto.
      right. right. left. eauto. }
  2:{ cbn [bind]. right. destruct HF as [(-> & HF)|(-> & HF)]; auto. }
  cbn [bind].
  match goal with |- context [bind (mapM ?f rows) _] =>
  destruct (mapM_any f (fun v ns => exists es, raw_entities v es /\ Forall2 entity_name es (map JStr ns))
     (fun e v => (e = KeyErr /\ corpus_missing r) \/ (e = TypeErr /\ corpus_wrong r)) rows) as [(ee & -> & HG)|(e & v & -> & _ & HG)]
  end.
  { intros v HV. destruct (P v HX HR HV) as (_ & P2).
    destruct (Forall2_In_l _ _ _ _ HF HV) as (ns & _ & (i & y & (m & -> & _) & _)).
    change K_entities with (txt "entities"). change K_name with (txt "name").
    destruct (dict_get m (txt "entities")) as [z|] eqn:G.
    2:{ left. exists []. split; [reflexivity|]. exists []. split; [left; split; [now exists m|reflexivity]|constructor]. }
    assert (FZ : field (JDict m) "entities" z) by now exists m.
    destruct (as_list_cases z) as [(es & -> & HE)|(-> & HE)]; cbn [bind].
    2:{ right. eexists. split; [reflexivity|]. right. split; [reflexivity|]. apply (wrong_in_row r x rows (JDict m)); auto.
        right. right. right. left. eauto. }
    assert (RE : raw_entities (JDict m) es) by (right; exists z; auto).
    destruct (mapM_any (fun e => n <- key e (txt "name") ;; as_str n) (fun e n => entity_name e (JStr n))
      (fun e v => (e = KeyErr /\ corpus_missing r) \/ (e = TypeErr /\ corpus_wrong r)) es) as [(nn & E & HN)|(e & v & E & _ & HN)].
    - intros v HVe. destruct (key_cases v "name") as [(n & -> & Hn)|[(-> & Hn)|(-> & Hn)]]; cbn [bind].
      + destruct (P2 es v n RE HVe Hn) as (s & ->). left. exists s. auto.
      + right. eexists. split; [reflexivity|]. left. split; [reflexivity|]. apply (missing_in_row r x rows (JDict m)); auto.
        right. right. eauto.
      + right. eexists. split; [reflexivity|]. right. split; [reflexivity|]. apply (wrong_in_row r x rows (JDict m)); auto.
        right. right. right. right. eauto.
    - left. exists nn. rewrite E. split; [reflexivity|]. exists es. split; [exact RE|].
      clear -HN. induction HN; constructor; auto.
    - right. exists e. rewrite E. auto. }
  2:{ cbn [bind]. right. destruct HG as [(-> & HG)|(-> & HG)]; auto. }
  cbn [bind]. left. exists (concat ii), (concat ee). rewrite !number_numbered. split; [|apply learned_cases].
  exists x, rows, (map (map JStr) ii), (map (map JStr) ee). split; [exact HX|]. split; [exact HR|].
  rewrite <- !concat_map. split; [|split; [|auto]].
  - clear -HF. induction HF; constructor; auto.
  - clear -HG. induction HG; constructor; auto.
Qed.

Theorem corpus_fine r ints ents : raw_corpus r ints ents -> ~ corpus_missing r /\ ~ corpus_wrong r.
Proof.
  intros (x & rows & ii & ee & HX & HR & HI & HE & _).
  assert (RI : forall v, In v rows -> exists ns, raw_names v ns).
  { intros v HV. destruct (Forall2_In_l _ _ _ _ HI HV) as (ns & _ & H). eauto. }
  assert (RE : forall v, In v rows -> exists es ns, raw_entities v es /\ Forall2 entity_name es ns).
  { intros v HV. destruct (Forall2_In_l _ _ _ _ HE HV) as (ns & _ & es & H). eauto. }
  split.
  - intros [H|x' rows' v F Y HV C]; [now apply (field_lacks _ _ _ HX)|].
    rewrite (field_fun _ _ _ _ F HX) in Y. rewrite (yields_fun _ _ _ Y HR) in HV.
    destruct (RI v HV) as (ns & i & y & F1 & F2 & F3). destruct (RE v HV) as (es & nn & E1 & E2).
    destruct C as [C|[(i' & G & C)|(es' & e & G & HIn & C)]].
    + now apply (field_lacks _ _ _ F1).
    + rewrite (field_fun _ _ _ _ G F1) in C. now apply (field_lacks _ _ _ F2).
    + rewrite (entities_fun _ _ _ G E1) in HIn. destruct (Forall2_In_l _ _ _ _ E2 HIn) as (n & _ & Hn).
      now apply (field_lacks _ _ _ Hn).
  - intros [H|x' F N|x' rows' v F Y HV C].
    + now apply (field_dict _ _ _ HX).
    + rewrite (field_fun _ _ _ _ F HX) in N. now apply (N rows).
    + rewrite (field_fun _ _ _ _ F HX) in Y. rewrite (yields_fun _ _ _ Y HR) in HV.
      destruct (RI v HV) as (ns & i & y & F1 & F2 & F3). destruct (RE v HV) as (es & nn & E1 & E2).
      destruct C as [C|[(i' & G & C)|[(i' & y' & G & G' & C)|[(y' & G & C)|(es' & e & G & HIn & C)]]]].
      * now apply (field_dict _ _ _ F1).
      * rewrite (field_fun _ _ _ _ G F1) in C. now apply (field_dict _ _ _ F2).
      * rewrite (field_fun _ _ _ _ G F1) in G'. rewrite (field_fun _ _ _ _ G' F2) in C. now apply (C ns).
      * apply (C es). now apply (entities_field v).
      * rewrite (entities_fun _ _ _ G E1) in HIn. destruct (Forall2_In_l _ _ _ _ E2 HIn) as (n & _ & Hn).
        now apply (field_dict _ _ _ Hn).
Qed.
