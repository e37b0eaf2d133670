(** Proofs about the base classes in the factory. *)

From Coq Require Import String Ascii.
From Verif Require Import Py PyFacts Edit Labels Regex Trie Ops SpecOps SpecScan Json SpecJson JsonProofs
  Elements Pipe SpecPipe PipeProofs ObjProofs EqProofs PipeLaws AlignProofs PipeAlign SpecEdit BaseOps SpecBase.
From Coq Require Import List Lia Permutation.
Import ListNotations.
Local Open Scope nat_scope.

(** ** Names *)

Lemma base_lookup n b : dict_get base_classes n = Some b <-> n = base_name b.
Proof.
  split.
  - intros Q. apply dict_get_In in Q. cbn [base_classes map] in Q.
    repeat (destruct Q as [Q|Q]; [injection Q as <- <-; reflexivity|]). destruct Q.
  - intros ->. destruct b; reflexivity.
Qed.

Lemma base_unknown n : dict_get base_classes n = None <-> ~ In n base_names.
Proof.
  split.
  - intros Q I. destruct (dict_get base_classes n) eqn:G; [discriminate|].
    cbn in I. repeat (destruct I as [<-|I]; [vm_compute in G; discriminate|]). destruct I.
  - intros N. destruct (dict_get base_classes n) as [b|] eqn:G; [|reflexivity]. exfalso. apply N.
    apply base_lookup in G. subst. destruct b; cbn; tauto.
Qed.

Lemma base_name_in b : In (base_name b) base_names.
Proof. destruct b; cbn; tauto. Qed.

Lemma base_name_inj a b : base_name a = base_name b -> a = b.
Proof. destruct a, b; intros Q; try reflexivity; vm_compute in Q; discriminate. Qed.

(** a class of the library is not called like a base class *)
Lemma lib_name n c : dict_get classes n = Some c -> ~ In n base_names.
Proof.
  intros G I. cbn in I. repeat (destruct I as [<-|I]; [vm_compute in G; discriminate|]). destruct I.
Qed.

Lemma made_name E o : made E o -> ~ In (o_class o) base_names.
Proof.
  intros M. destruct (made_coherent E o M) as (c & b & G & _). exact (lib_name _ _ G).
Qed.

Definition asked (n : str) (kwargs : jval) : jval := JDict [(K_op_name, JStr n); (K_op_kwargs, kwargs)].

Lemma asked_name n k : key (asked n k) K_op_name = Ok (JStr n). Proof. reflexivity. Qed.
Lemma asked_kwargs n k : key (asked n k) K_op_kwargs = Ok k. Proof. reflexivity. Qed.

Lemma asked_base E reg b k : f_from_dict E reg (asked (base_name b) k) =
  match k with JDict k => b <- construct_base b k ;; Ok (FBase b) | _ => Err TypeErr end.
Proof.
  unfold f_from_dict. rewrite asked_name, asked_kwargs. cbn [bind].
  rewrite (proj2 (base_lookup _ b) eq_refl). reflexivity.
Qed.

Lemma asked_lib E reg n k : ~ In n base_names ->
  f_from_dict E reg (asked n k) = (o <- op_from_dict E reg (asked n k) ;; Ok (FLib o)).
Proof.
  intros N. unfold f_from_dict. rewrite asked_name, asked_kwargs. cbn [bind].
  rewrite (proj2 (base_unknown n) N). reflexivity.
Qed.

(** C109 *)
Theorem base_built E reg n k o : In n base_names ->
  (f_from_dict E reg (JDict [(K_op_name, JStr n); (K_op_kwargs, k)]) = Ok o <->
   n <> txt "Operator" /\ k = JDict [] /\ f_class o = n /\ f_configs o = [] /\ exists b, o = FBase b).
Proof.
  intros I. assert (exists b, n = base_name b) as (b & ->).
  { destruct (dict_get base_classes n) as [b|] eqn:G; [exists b; now apply base_lookup|].
    apply base_unknown in G. contradiction. }
  fold (asked (base_name b) k). rewrite asked_base. split.
  - destruct k as [| | | | | |[|kv d]]; try discriminate; destruct b; cbn [construct_base bind]; intros Q; try discriminate;
      injection Q as <-; (split; [intros Q; vm_compute in Q; discriminate|]); cbn; eauto.
  - intros (N & -> & C & _ & b' & ->). cbn [f_class] in C. apply base_name_inj in C. subst b'.
    destruct b; [contradiction N; reflexivity|reflexivity..].
Qed.

Theorem base_refused E reg n k : In n base_names -> n = txt "Operator" \/ k <> JDict [] ->
  f_from_dict E reg (JDict [(K_op_name, JStr n); (K_op_kwargs, k)]) = Err TypeErr.
Proof.
  intros I H. assert (exists b, n = base_name b) as (b & ->).
  { destruct (dict_get base_classes n) as [b|] eqn:G; [exists b; now apply base_lookup|].
    apply base_unknown in G. contradiction. }
  fold (asked (base_name b) k). rewrite asked_base.
  destruct k as [| | | | | |[|kv d]]; try reflexivity; destruct b; try reflexivity;
    destruct H as [H|H]; try (now contradiction H); vm_compute in H; discriminate.
Qed.

Theorem other_names E reg n k : ~ In n base_names ->
  f_from_dict E reg (JDict [(K_op_name, JStr n); (K_op_kwargs, k)]) =
  (o <- op_from_dict E reg (JDict [(K_op_name, JStr n); (K_op_kwargs, k)]) ;; Ok (FLib o)).
Proof. intros N. exact (asked_lib E reg n k N). Qed.

(** ** What they do *)

Theorem base_tokenizer E x : exists e, f_transform E (FBase BTokenizer) x = Err e /\
  (e = RuntimeErr <-> exists s, x = SStr s) /\ (e = TypeErr <-> exists l, x = SLst l).
Proof.
  destruct x as [s|l]; cbn [f_transform base_transform base_raw bind].
  - exists RuntimeErr. split; [reflexivity|]. split; (split; [try discriminate|]); eauto. intros (l & Q); discriminate.
  - exists TypeErr. split; [reflexivity|]. split; (split; [try discriminate|]); eauto. intros (s & Q); discriminate.
Qed.

Lemma rdone_nothing E : ord_ok (ord_c E) -> rdone (ord_c E) [] = Ok [].
Proof.
  intros OC. unfold rdone. pose proof (OC (dedup [])) as P. cbn [dedup] in P |- *.
  apply Permutation_sym, Permutation_nil in P. now rewrite P.
Qed.

Theorem base_recognizer E x : ord_ok (ord_c E) -> exists e, f_transform E (FBase BRecognizer) x = Err e /\
  (e = AttributeErr <-> exists s, x = SStr s /\ s <> []) /\
  (e = TypeErr <-> x = SStr [] \/ exists l, x = SLst l).
Proof.
  intros OC. destruct x as [[|c s]|l]; cbn [f_transform base_transform base_raw base_scan].
  - rewrite (rdone_nothing E OC). exists TypeErr. split; [reflexivity|]. split; (split; [try discriminate|]); auto.
    intros (s & Q & N). injection Q as <-. now contradiction N.
  - exists AttributeErr. split; [reflexivity|]. split; (split; [try discriminate|]); eauto.
    + intros _. eexists. split; [reflexivity|discriminate].
    + intros [Q|(l & Q)]; discriminate.
  - exists TypeErr. split; [reflexivity|]. split; (split; [try discriminate|]); eauto.
    intros (s & Q & _); discriminate.
Qed.

Theorem base_spacer E : ord_ok (ord_c E) ->
  (exists a, f_transform E (FBase BSpacer) (SStr []) = Ok (SStr [], a) /\
     forall l, (l = [] -> align a l = Ok [] /\ align_inverse E a l = Ok []) /\
               (l <> [] -> align a l = Err ValueErr /\ align_inverse E a l = Err ValueErr)) /\
  (forall s, s <> [] -> f_transform E (FBase BSpacer) (SStr s) = Err RuntimeErr) /\
  (forall l, f_transform E (FBase BSpacer) (SLst l) = Err TypeErr).
Proof.
  intros OC. split; [|split].
  - exists (AStr [] [] 0 around_single except_ne). split.
    + cbn [f_transform base_transform base_raw base_char_edits bind]. rewrite (rdone_nothing E OC). reflexivity.
    + intros l. split; intros Q.
      * subst. split; [reflexivity|]. unfold align_inverse, align_inverse_raw.
        assert (inverse (ord_c E) [] [] = Ok []) as ->; [|reflexivity].
        unfold inverse, gen_inverse. cbn. rewrite (rdone_nothing E OC). reflexivity.
      * destruct l; [contradiction Q; reflexivity|]. split; reflexivity.
  - intros [|c s] N; [contradiction N; reflexivity|reflexivity].
  - reflexivity.
Qed.

(** ** Running *)

Theorem lib_run E ops x : f_run E (map FLib ops) x = Pipe.run E ops x.
Proof.
  revert x. induction ops as [|o ops IH]; intros x; [reflexivity|]. cbn [map f_run Pipe.run f_transform].
  destruct (transform_op E (o_op o) x) as [[y a]|]; [|reflexivity]. cbn [bind]. now rewrite IH.
Qed.

Lemma base_ok E b x y a : ord_ok (ord_c E) -> base_transform E b x = Ok (y, a) ->
  b = BSpacer /\ x = SStr [] /\ y = SStr [] /\ a = AStr [] [] 0 around_single except_ne.
Proof.
  intros OC. destruct x as [[|c s]|l]; [| |discriminate].
  - destruct b; cbn [base_transform base_raw base_scan base_char_edits bind]; try discriminate;
      rewrite (rdone_nothing E OC); cbn; intros Q; try discriminate. injection Q as <- <-. auto.
  - destruct b; discriminate.
Qed.

Lemma base_go E : ord_ok (ord_c E) ->
  base_transform E BSpacer (SStr []) = Ok (SStr [], AStr [] [] 0 around_single except_ne).
Proof.
  intros OC. cbn [base_transform base_raw base_char_edits bind]. rewrite (rdone_nothing E OC). reflexivity.
Qed.

Lemma libs_cons o ops : libs (o :: ops) = match o with FLib o => o :: libs ops | FBase _ => libs ops end.
Proof. destruct o; reflexivity. Qed.

Lemma nothing_back E : ord_ok (ord_c E) ->
  align_inverse E (AStr [] [] 0 around_single except_ne) [] = Ok [].
Proof.
  intros OC. destruct (base_spacer E OC) as ((a & T & A) & _). cbn [f_transform] in T. rewrite (base_go E OC) in T. injection T as <-.
  exact (proj2 (proj1 (A []) eq_refl)).
Qed.

Lemma align_length a l l' : align a l = Ok l' -> length l' = output_length a.
Proof.
  unfold align. destruct (length l =? input_length a); [|discriminate]. cbn [guard bind].
  destruct (align_raw a l) as [o|]; [|discriminate]. cbn [bind].
  destruct (length o =? output_length a) eqn:Q; [|discriminate]. cbn. intros [= <-]. now apply Nat.eqb_eq.
Qed.

Lemma align_inverse_length E a l l' : align_inverse E a l = Ok l' -> length l' = input_length a.
Proof.
  unfold align_inverse. destruct (length l =? output_length a); [|discriminate]. cbn [guard bind].
  destruct (align_inverse_raw E a l) as [o|]; [|discriminate]. cbn [bind].
  destruct (length o =? input_length a) eqn:Q; [|discriminate]. cbn. intros [= <-]. now apply Nat.eqb_eq.
Qed.

(** the lengths of an aligner are those of the two sequences *)
Lemma aligner_lengths E o x y a : python E -> built E o -> transform_op E o x = Ok (y, a) ->
  input_length a = pseq_length x /\ output_length a = pseq_length y.
Proof.
  intros PY B T. destruct (all_sound E o x y a PY B T) as (F & G & H & _). split.
  - destruct (Nat.eq_dec (input_length a) (pseq_length x)) as [Q|N]; [exact Q|exfalso].
    destruct (H (repeat 0%Z (pseq_length x)) (repeat_length _ _)) as (l' & A & _).
    unfold align in A. rewrite repeat_length in A.
    destruct (pseq_length x =? input_length a) eqn:Q; [|discriminate]. apply Nat.eqb_eq in Q. congruence.
  - destruct (H (repeat 0%Z (pseq_length x)) (repeat_length _ _)) as (l' & A & L).
    rewrite <- L. symmetry. exact (align_length _ _ _ A).
Qed.

Lemma align_all_cons a als l : align_all (a :: als) l = (r <- align a l ;; align_all als r).
Proof. reflexivity. Qed.

Lemma align_inverse_all_cons E a als l :
  align_inverse_all E (a :: als) l = (r <- align_inverse_all E als l ;; align_inverse E a r).
Proof.
  unfold align_inverse_all. cbn [rev]. rewrite foldM_app. cbn [foldM].
  destruct (foldM _ (rev als) l) as [r|]; [|reflexivity]. cbn [bind]. now destruct (align_inverse E a r).
Qed.

(** C109 *)
Theorem base_steps E ops x y als coll : python E -> regexes E -> Forall (f_made E) ops ->
  f_run E ops x = Ok (y, als, coll) ->
  (forall k b, nth_error ops k = Some (FBase b) -> b = BSpacer /\ nth_error coll k = Some (SStr [])) /\
  exists als' coll', Pipe.run E (libs ops) x = Ok (y, als', coll') /\
    (forall l, length l = pseq_length x -> align_all als l = align_all als' l) /\
    (forall l, length l = pseq_length y -> align_inverse_all E als l = align_inverse_all E als' l).
Proof.
  intros PY RX. revert x als coll. pose proof (proj1 PY) as OC.
  assert (G : forall x als coll, Forall (f_made E) ops -> f_run E ops x = Ok (y, als, coll) ->
    (forall k b, nth_error ops k = Some (FBase b) -> b = BSpacer /\ nth_error coll k = Some (SStr [])) /\
    exists als' coll', Pipe.run E (libs ops) x = Ok (y, als', coll') /\
      (forall l, length l = pseq_length x -> align_all als l = align_all als' l) /\
      (forall l, length l = pseq_length y -> align_inverse_all E als l = align_inverse_all E als' l /\
         forall l', align_inverse_all E als l = Ok l' -> length l' = pseq_length x)).
  { induction ops as [|o ops IH]; intros x als coll FM R.
    - cbn [f_run] in R. injection R as <- <- <-. split; [intros [|k] b Q; discriminate|].
      exists [], [x]. split; [reflexivity|]. split; [reflexivity|]. intros l L. split; [reflexivity|].
      cbn. intros l' [= <-]. exact L.
    - inversion FM as [|? ? M FM']; subst. cbn [f_run] in R.
      destruct (f_transform E o x) as [[u a]|] eqn:T; [|discriminate]. cbn [bind] in R.
      destruct (f_run E ops u) as [[[z als1] coll1]|] eqn:R1; [|discriminate]. cbn [bind] in R.
      injection R as -> <- <-. destruct (IH u als1 coll1 FM' R1) as (HB & als' & coll' & RL & AL & AI).
      rewrite libs_cons. destruct o as [o|b]; cbn [f_transform f_made] in T, M.
      + split; [intros [|k] b Q; [discriminate|exact (HB k b Q)]|].
        destruct (aligner_lengths E _ _ _ _ PY (made_built E o RX M) T) as [LI LO].
        exists (a :: als'), (x :: coll'). split; [|split].
        * cbn [Pipe.run]. rewrite T. cbn [bind]. rewrite RL. reflexivity.
        * intros l L. rewrite !align_all_cons. destruct (align a l) as [r|] eqn:A; [|reflexivity].
          cbn [bind]. apply AL. rewrite (align_length _ _ _ A). exact LO.
        * intros l L. rewrite !align_inverse_all_cons. destruct (AI l L) as [-> _]. split; [reflexivity|].
          intros l'. destruct (align_inverse_all E als' l) as [r|]; [|discriminate]. cbn [bind].
          intros A. rewrite (align_inverse_length _ _ _ _ A). exact LI.
      + destruct (base_ok E b x u a OC T) as (-> & -> & -> & ->). split.
        * intros [|k] b Q; [injection Q as <-; auto|exact (HB k b Q)].
        * exists als', coll'. split; [exact RL|]. split.
          -- intros l L. rewrite align_all_cons. destruct l; [|discriminate L].
             change (align _ []) with (Ok ([] : list Z) : res (list Z)). cbn [bind]. now apply AL.
          -- intros l L. rewrite align_inverse_all_cons. destruct (AI l L) as [Q LL].
             destruct (align_inverse_all E als1 l) as [r|e] eqn:AA; rewrite <- Q; cbn [bind].
             ++ specialize (LL r eq_refl). destruct r; [|discriminate LL]. rewrite (nothing_back E OC).
                split; [reflexivity|]. intros l' [= <-]. reflexivity.
             ++ split; [reflexivity|discriminate]. }
  intros x als coll FM R. destruct (G x als coll FM R) as (A & als' & coll' & B & C & D).
  split; [exact A|]. exists als', coll'. split; [exact B|]. split; [exact C|]. intros l L. exact (proj1 (D l L)).
Qed.

Theorem base_steps_back E ops x y als' coll' : ord_ok (ord_c E) ->
  Pipe.run E (libs ops) x = Ok (y, als', coll') ->
  (forall k b, nth_error ops k = Some (FBase b) ->
     b = BSpacer /\ exists al co, Pipe.run E (libs (firstn k ops)) x = Ok (SStr [], al, co)) ->
  exists als coll, f_run E ops x = Ok (y, als, coll).
Proof.
  intros OC. revert x als' coll'. induction ops as [|o ops IH]; intros x als' coll' R H.
  - cbn [libs flat_map Pipe.run] in R. injection R as <- _ _. cbn. eauto.
  - rewrite libs_cons in R. cbn [f_run]. destruct o as [o|b].
    + cbn [Pipe.run f_transform] in R |- *. destruct (transform_op E (o_op o) x) as [[u a]|] eqn:T; [|discriminate].
      cbn [bind] in R |- *. destruct (Pipe.run E (libs ops) u) as [[[z al] co]|] eqn:R1; [|discriminate].
      cbn [bind] in R. injection R as -> _ _. destruct (IH u al co R1) as (als & coll & ->).
      { intros k b Q. destruct (H (S k) b Q) as (-> & al1 & co1 & R2). split; [reflexivity|].
        cbn [firstn] in R2. rewrite libs_cons in R2. cbn [Pipe.run] in R2. rewrite T in R2. cbn [bind] in R2.
        destruct (Pipe.run E (libs (firstn k ops)) u) as [[[z2 al2] co2]|]; [|discriminate]. cbn [bind] in R2.
        injection R2 as -> _ _. eauto. }
      cbn. eauto.
    + destruct (H 0 b eq_refl) as (-> & al & co & Q). cbn in Q. injection Q as -> _ _.
      cbn [f_transform]. rewrite (base_go E OC). cbn [bind].
      destruct (IH (SStr []) als' coll' R) as (als & coll & ->); [|cbn; eauto].
      intros k b Q. exact (H (S k) b Q).
Qed.

Lemma f_run_error E ops x e :
  f_run E ops x = Err e <->
  exists k o u al co, nth_error ops k = Some o /\ f_run E (firstn k ops) x = Ok (u, al, co) /\
    f_transform E o u = Err e.
Proof.
  revert x. induction ops as [|o ops IH]; intros x; cbn [f_run].
  - split; [discriminate|]. intros ([|k] & o & u & al & co & H & _); discriminate.
  - destruct (f_transform E o x) as [[y a]|e'] eqn:T; cbn [bind].
    + destruct (f_run E ops y) as [[[z al] co]|e'] eqn:R; cbn [bind].
      * split; [discriminate|]. intros ([|k] & o' & u & al' & co' & H & H2 & H3).
        -- cbn in H, H2. injection H as <-. injection H2 as <- _ _. congruence.
        -- assert (f_run E ops y = Err e) as Q; [|congruence]. apply IH. cbn [nth_error firstn f_run] in *.
           rewrite T in H2. cbn [bind] in H2. destruct (f_run E (firstn k ops) y) as [[[z2 a2] c2]|] eqn:R2; [|discriminate].
           cbn [bind] in H2. injection H2 as -> _ _. exists k, o', u, a2, c2. auto.
      * split.
        -- intros [= ->]. apply IH in R. destruct R as (k & o' & u & al & co & H & H2 & H3).
           exists (S k), o', u. cbn [nth_error firstn f_run]. rewrite T. cbn [bind]. rewrite H2. cbn [bind].
           do 2 eexists. split; [exact H|]. split; [reflexivity|exact H3].
        -- intros ([|k] & o' & u & al' & co' & H & H2 & H3).
           ++ cbn in H, H2. injection H as <-. injection H2 as <- _ _. congruence.
           ++ rewrite <- R. apply IH. cbn [nth_error firstn f_run] in *.
              rewrite T in H2. cbn [bind] in H2. destruct (f_run E (firstn k ops) y) as [[[z2 a2] c2]|] eqn:R2; [|discriminate].
              cbn [bind] in H2. injection H2 as -> _ _. exists k, o', u, a2, c2. auto.
    + split.
      * intros [= ->]. exists 0, o, x, [], [x]. auto.
      * intros ([|k] & o' & u & al' & co' & H & H2 & H3).
        -- cbn in H, H2. injection H as <-. injection H2 as <- _ _. congruence.
        -- cbn [firstn f_run] in H2. rewrite T in H2. discriminate.
Qed.

Theorem base_stops E ops x b : ord_ok (ord_c E) -> In (FBase b) ops -> b <> BSpacer ->
  exists e, f_run E ops x = Err e.
Proof.
  intros OC I N. destruct (f_run E ops x) as [[[y als] coll]|e] eqn:R; [exfalso|eauto].
  revert x als coll R. induction ops as [|o ops IH]; intros x als coll R; [destruct I|]. cbn [f_run] in R.
  destruct (f_transform E o x) as [[u a]|] eqn:T; [|discriminate]. cbn [bind] in R.
  destruct (f_run E ops u) as [[[z al] co]|] eqn:R1; [|discriminate].
  destruct I as [-> |I].
  - cbn [f_transform] in T. apply (base_ok E b _ _ _ OC) in T. tauto.
  - cbn [bind] in R. injection R as -> _ _. eapply IH; eauto.
Qed.
