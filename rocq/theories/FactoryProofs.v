(** Proofs about the operator factory. *)

From Verif Require Import Py PyFacts Factory SpecFactory.

Section proofs.
  Context {C : Type} `{Eqb C}.

  Lemma dict_get_set (d : list (str * C)) k c k' :
    dict_get (dict_set d k c) k' = if eqb k' k then Some c else dict_get d k'.
  Proof.
    induction d as [|[a b] d IH]; cbn [dict_set dict_get].
    - reflexivity.
    - destruct (eqb_spec k a) as [->|N]; cbn [dict_get].
      + destruct (eqb_spec k' a); reflexivity.
      + destruct (eqb_spec k' a) as [->|N'].
        * destruct (eqb_spec a k); [congruence|reflexivity].
        * exact IH.
  Qed.

  Lemma after_snoc (h : list (str * C)) n c :
    after_registers (h ++ [(n, c)]) = fst (fregister (after_registers h) n c).
  Proof. unfold after_registers. rewrite fold_left_app. reflexivity. Qed.

  Lemma first_snoc (h : list (str * C)) m d n c :
    first_registered (h ++ [(m, d)]) n c <->
    first_registered h n c \/ (n = m /\ c = d /\ ~ In n (map fst h)).
  Proof.
    split.
    - intros (h1 & h2 & E & N). destruct h2 as [|x h2 _] using rev_ind.
      + apply app_inj_tail in E as [-> E]. injection E as -> ->. right. auto.
      + rewrite app_comm_cons, app_assoc in E. apply app_inj_tail in E as [-> _]. left. exists h1, h2. auto.
    - intros [(h1 & h2 & -> & N)|(-> & -> & N)].
      + exists h1, (h2 ++ [(m, d)]). rewrite <- app_assoc. auto.
      + exists h, []. auto.
  Qed.

  Lemma first_exists (h : list (str * C)) n :
    In n (map fst h) <-> exists c, first_registered h n c.
  Proof.
    split.
    - induction h as [|[m d] h IH] using rev_ind; [intros []|]. intros I.
      destruct (in_dec (fun a b => match eqb_spec a b with
                                   | ReflectT _ e => left e | ReflectF _ e => right e end) n (map fst h)) as [J|J].
      + destruct (IH J) as (c & F). exists c. apply first_snoc. auto.
      + rewrite map_app, in_app_iff in I. cbn in I. destruct I as [I|[I|[]]]; [contradiction|].
        subst m. exists d. apply first_snoc. auto.
    - intros (c & h1 & h2 & -> & _). rewrite map_app, in_app_iff. cbn. auto.
  Qed.

  Lemma get_after (h : list (str * C)) : forall n c,
    dict_get (after_registers h) n = Some c <-> first_registered h n c.
  Proof.
    induction h as [|[m d] h IH] using rev_ind; intros n c.
    - cbn. split; [discriminate|]. intros (h1 & h2 & E & _). destruct h1; discriminate.
    - rewrite after_snoc, first_snoc. unfold fregister.
      destruct (dict_get (after_registers h) m) as [x|] eqn:G; cbn [fst].
      + rewrite IH. split; [auto|]. intros [F|(-> & _ & N)]; [exact F|]. exfalso. apply N.
        apply first_exists. exists x. now apply IH.
      + rewrite dict_get_set. destruct (eqb_spec n m) as [->|N].
        * split.
          -- injection 1 as <-. right. repeat split. intros I. apply first_exists in I as (y & F).
             apply IH in F. congruence.
          -- intros [F|(_ & -> & _)]; [|reflexivity]. apply IH in F. congruence.
        * rewrite IH. split; [auto|]. intros [F|(E & _)]; [exact F|contradiction].
  Qed.

  Lemma get_after_none (h : list (str * C)) n :
    dict_get (after_registers h) n = None <-> ~ In n (map fst h).
  Proof.
    rewrite first_exists. destruct (dict_get (after_registers h) n) as [c|] eqn:E.
    - split; [discriminate|]. intros N. exfalso. apply N. exists c. now apply get_after.
    - split; [|auto]. intros _ (c & F). apply get_after in F. congruence.
  Qed.

  Lemma register_spec (h : list (str * C)) n c :
    (~ In n (map fst h) -> register_outcome h n c = None) /\
    (In n (map fst h) -> register_outcome h n c = Some KeyErr /\
       after_registers (h ++ [(n, c)]) = after_registers h).
  Proof.
    rewrite after_snoc. unfold register_outcome, fregister. split; intros I.
    - apply get_after_none in I. rewrite I. reflexivity.
    - destruct (dict_get (after_registers h) n) eqn:E; [auto|]. apply get_after_none in E. contradiction.
  Qed.

  Lemma lookup_spec (h : list (str * C)) n :
    (forall c, fget (after_registers h) n = Ok c <-> first_registered h n c) /\
    (fget (after_registers h) n = Err KeyErr <-> ~ In n (map fst h)).
  Proof.
    unfold fget. split.
    - intros c. rewrite <- get_after. destruct (dict_get _ n); [|split; discriminate].
      split; injection 1 as ->; reflexivity.
    - rewrite <- get_after_none. destruct (dict_get _ n); split; (discriminate || reflexivity).
  Qed.

  (** ** Equality *)

  Lemma dict_set_fresh (d : list (str * C)) k c :
    dict_get d k = None -> dict_set d k c = d ++ [(k, c)].
  Proof.
    induction d as [|[a b] d IH]; cbn [dict_get dict_set app]; [reflexivity|].
    destruct (eqb_spec k a); [discriminate|]. intros E. now rewrite IH.
  Qed.

  Lemma get_none_keys (d : list (str * C)) k : dict_get d k = None <-> ~ In k (map fst d).
  Proof.
    induction d as [|[a b] d IH]; cbn [dict_get map fst In]; [tauto|].
    destruct (eqb_spec k a) as [->|N].
    - split; [discriminate|]. intros X. exfalso. auto.
    - rewrite IH. split; [intros X [E|E]; [congruence|auto]|auto].
  Qed.

  Lemma after_keys (h : list (str * C)) : NoDup (map fst (after_registers h)).
  Proof.
    induction h as [|[m d] h IH] using rev_ind; [constructor|].
    rewrite after_snoc. unfold fregister. destruct (dict_get _ m) eqn:E; [exact IH|]. cbn [fst].
    rewrite dict_set_fresh by exact E. rewrite map_app. cbn. apply get_none_keys in E.
    apply (Permutation_NoDup (Permutation_cons_append _ _)). now constructor.
  Qed.

  Lemma get_In (d : list (str * C)) k c : NoDup (map fst d) -> (In (k, c) d <-> dict_get d k = Some c).
  Proof.
    induction d as [|[a b] d IH]; cbn [map fst dict_get In]; intros ND; [split; [intros []|discriminate]|].
    inversion ND as [|? ? N ND']; subst. destruct (eqb_spec k a) as [->|Ne].
    - split.
      + intros [E|I]; [congruence|]. exfalso. apply N. apply (in_map fst) in I. exact I.
      + injection 1 as ->. auto.
    - rewrite <- IH by exact ND'. split; [intros [E|I]; [congruence|exact I]|auto].
  Qed.

  Lemma feq_spec (f g : list (str * C)) : NoDup (map fst f) -> NoDup (map fst g) ->
    (feq f g = true <-> forall k, dict_get f k = dict_get g k).
  Proof.
    intros Nf Ng. unfold feq. rewrite andb_true_iff, Nat.eqb_eq, forallb_forall.
    assert (Sub : (forall kv, In kv f -> match dict_get g (fst kv) with
                   Some c => eqb (snd kv) c | None => false end = true) <->
                  (forall k c, dict_get f k = Some c -> dict_get g k = Some c)).
    { split.
      - intros A k c E. apply (get_In f k c Nf) in E. specialize (A _ E). cbn [fst snd] in A.
        destruct (dict_get g k) as [x|]; [|discriminate]. destruct (eqb_spec c x); congruence.
      - intros A [k c] I. cbn [fst snd]. apply (get_In f k c Nf) in I. rewrite (A _ _ I).
        destruct (eqb_spec c c); congruence. }
    rewrite Sub. clear Sub. split.
    - intros [L A] k. destruct (dict_get f k) as [c|] eqn:E; [symmetry; auto|].
      destruct (dict_get g k) as [c|] eqn:G; [|reflexivity]. exfalso.
      assert (I : incl (map fst g) (map fst f)).
      { apply NoDup_length_incl; [exact Nf|rewrite !map_length; lia|].
        intros x Hx. destruct (dict_get f x) as [y|] eqn:Y.
        - apply A in Y. apply (get_In g x y Ng) in Y. apply (in_map fst) in Y. exact Y.
        - apply get_none_keys in Y. contradiction. }
      apply get_none_keys in E. apply E, I. apply (get_In g k c Ng) in G. apply (in_map fst) in G. exact G.
    - intros A. split; [|intros k c E; rewrite <- A; exact E].
      rewrite <- (map_length fst f), <- (map_length fst g). apply Nat.le_antisymm; apply NoDup_incl_length; auto;
        intros x Hx; destruct (in_dec (fun a b => match eqb_spec a b with
          | ReflectT _ e => left e | ReflectF _ e => right e end) x (map fst g)) as [I|I];
        destruct (in_dec (fun a b => match eqb_spec a b with
          | ReflectT _ e => left e | ReflectF _ e => right e end) x (map fst f)) as [J|J]; auto; exfalso;
        first [apply get_none_keys in I; rewrite <- A in I; apply get_none_keys in I; contradiction
              |apply get_none_keys in J; rewrite A in J; apply get_none_keys in J; contradiction].
  Qed.

  Lemma equality_spec (h1 h2 : list (str * C)) :
    feq (after_registers h1) (after_registers h2) = true <->
    (forall n c, first_registered h1 n c <-> first_registered h2 n c).
  Proof.
    rewrite feq_spec by apply after_keys. split.
    - intros A n c. rewrite <- !get_after, A. reflexivity.
    - intros A n. destruct (dict_get (after_registers h1) n) as [c|] eqn:E.
      + apply get_after, A, get_after in E. congruence.
      + destruct (dict_get (after_registers h2) n) as [c|] eqn:G; [|reflexivity].
        apply get_after, A, get_after in G. congruence.
  Qed.
End proofs.

Local Open Scope Z_scope.

(** Concretely: the second class called "A" is refused, "B" and "A" are found. *)
Definition h_ops : list (str * Z) := [([65], 1); ([66], 2); ([65], 3)].
Example h_ops_run : register_outcome [([65], 1); ([66], 2)] [65] 3 = Some KeyErr /\
  fget (after_registers h_ops) [65] = Ok 1 /\
  fget (after_registers h_ops) [66] = Ok 2 /\
  fget (after_registers h_ops) [67] = Err KeyErr /\
  feq (after_registers h_ops) (after_registers [([66], 2); ([65], 1)]) = true /\
  feq (after_registers h_ops) (after_registers [([66], 2); ([65], 3)]) = false.
Proof. vm_compute. repeat split; reflexivity. Qed.
