(** Proofs about pipes that hold instances of the base classes. *)

From Coq Require Import String Ascii.
From Verif Require Import Py PyFacts Edit Labels Regex Trie Ops SpecOps SpecScan Json SpecJson JsonProofs
  Elements Pipe SpecPipe PipeProofs ObjProofs EqProofs PipeLaws AlignProofs PipeAlign SpecEdit BaseOps SpecBase
  BaseProofs.
From Coq Require Import List Lia Permutation.
Import ListNotations.
Local Open Scope nat_scope.

(** ** Adding *)

Theorem f_add_op_effect p o ck :
  let mismatch := exists l, last_opt (f_steps p) = Some l /\ f_out l <> f_in o in
  (mismatch -> f_add_op p o ck = (p, Some TypeErr)) /\
  (~ mismatch -> ck = None -> f_add_op p o ck = (mkFP (f_steps p ++ [o]) (f_checkpoints p), None)) /\
  (~ mismatch -> forall name, ck = Some name -> ~ In name (map fst (f_checkpoints p)) ->
     f_add_op p o ck = (mkFP (f_steps p ++ [o])
                        (f_checkpoints p ++ [(name, Z.of_nat (length (f_steps p) + 1))]), None)) /\
  (~ mismatch -> forall name, ck = Some name -> In name (map fst (f_checkpoints p)) ->
     f_add_op p o ck = (mkFP (f_steps p ++ [o]) (f_checkpoints p), Some KeyErr)).
Proof.
  cbv zeta. unfold f_add_op.
  assert (SN : forall name z, ~ In name (map fst (f_checkpoints p)) ->
    dict_set (f_checkpoints p) name z = f_checkpoints p ++ [(name, z)]).
  { intros name z N. pose proof (dict_update_new (f_checkpoints p) [(name, z)]) as U. cbn in U.
    apply U; [repeat constructor; auto|]. intros k [<-|[]]. exact N. }
  assert (MF : forall name, ~ In name (map fst (f_checkpoints p)) -> dict_mem (f_checkpoints p) name = false).
  { intros name N. rewrite <- dict_mem_spec in N. now apply not_true_is_false. }
  split; [|split; [|split]].
  - intros (l & HL & HT). rewrite HL. destruct (seqtype_eqb_spec (f_in o) (f_out l)); [congruence|reflexivity].
  - intros HM ->. destruct (last_opt (f_steps p)) as [l|]; [|reflexivity].
    destruct (seqtype_eqb_spec (f_in o) (f_out l)); [reflexivity|].
    exfalso. apply HM. exists l. split; congruence.
  - intros HM name -> HN. rewrite (MF name HN), SN by auto. rewrite app_length. cbn [length].
    destruct (last_opt (f_steps p)) as [l|]; [|reflexivity].
    destruct (seqtype_eqb_spec (f_in o) (f_out l)); [reflexivity|].
    exfalso. apply HM. exists l. split; congruence.
  - intros HM name -> HN. apply dict_mem_spec in HN. rewrite HN.
    destruct (last_opt (f_steps p)) as [l|]; [|reflexivity].
    destruct (seqtype_eqb_spec (f_in o) (f_out l)); [reflexivity|].
    exfalso. apply HM. exists l. split; congruence.
Qed.

Lemma base_of_name n : In n base_names -> exists b, n = base_name b.
Proof.
  intros I. destruct (dict_get base_classes n) as [b|] eqn:G; [exists b; now apply base_lookup|].
  apply base_unknown in G. contradiction.
Qed.

Theorem add_base E reg p n kwargs ck : In n base_names ->
  (n <> txt "Operator" -> kwargs = None \/ kwargs = Some [] ->
     exists b, f_class (FBase b) = n /\ f_add E reg p n kwargs ck = f_add_op p (FBase b) ck) /\
  (n = txt "Operator" \/ (exists k d, kwargs = Some (k :: d)) -> f_add E reg p n kwargs ck = (p, Some TypeErr)).
Proof.
  intros I. destruct (base_of_name n I) as (b & ->). unfold f_add. fold (asked (base_name b)
    (JDict match kwargs with Some k => k | None => [] end)). rewrite asked_base. split.
  - intros N K. exists b. split; [reflexivity|].
    assert ((match kwargs with Some k => k | None => [] end) = []) as -> by (destruct K as [-> | ->]; reflexivity).
    destruct b; [contradiction N; reflexivity|reflexivity..].
  - intros [Q|(k & d & ->)].
    + destruct b; vm_compute in Q; try discriminate. reflexivity.
    + destruct b; reflexivity.
Qed.

(** which steps fit before and after them *)
Theorem base_fits p o b : b <> BOperator ->
  (snd (f_add_op p (FBase b) None) = None <-> forall l, last_opt (f_steps p) = Some l -> f_out l = TStr) /\
  (last_opt (f_steps p) = Some (FBase b) ->
     (snd (f_add_op p o None) = None <-> f_in o = if eqb (f_class (FBase b)) (txt "Tokenizer") then TList else TStr)).
Proof.
  intros N. split.
  - unfold f_add_op. change (f_in (FBase b)) with TStr. destruct (last_opt (f_steps p)) as [l|].
    + destruct (seqtype_eqb_spec TStr (f_out l)) as [e|e]; cbn [negb snd].
      * split; [intros _ l' [= <-]; congruence|reflexivity].
      * split; [discriminate|]. intros H. contradiction e. symmetry. now apply H.
    + cbn. split; [intros _ l; discriminate|reflexivity].
  - intros L. unfold f_add_op. rewrite L.
    assert (f_out (FBase b) = if eqb (f_class (FBase b)) (txt "Tokenizer") then TList else TStr) as <-
      by (destruct b; reflexivity).
    destruct (seqtype_eqb_spec (f_in o) (f_out (FBase b))) as [e|e]; cbn [negb snd]; split; intros Q; easy.
Qed.

Lemma last_map (l : list opobj) : last_opt (map FLib l) = option_map FLib (last_opt l).
Proof. rewrite !last_opt_nth, map_length. apply nth_error_map. Qed.

Lemma add_op_lift p o ck :
  f_add_op (lift_pipe p) (FLib o) ck = (lift_pipe (fst (add_op p o ck)), snd (add_op p o ck)).
Proof.
  unfold f_add_op, add_op, pipe_output_type, lift_pipe. cbn [f_steps f_checkpoints].
  rewrite last_map. destruct (last_opt (steps p)) as [l|]; cbn [option_map f_in f_out];
    [destruct (negb (seqtype_eqb (in_type o) (out_type l))); [reflexivity|]|];
    (destruct ck as [name|]; [destruct (dict_mem (checkpoints p) name)|]; cbn [fst snd steps checkpoints];
      rewrite ?app_length, ?map_length, ?map_app; reflexivity).
Qed.

Theorem add_lib E reg p n kwargs ck : ~ In n base_names ->
  f_add E reg (lift_pipe p) n kwargs ck = (lift_pipe (fst (add E reg p n kwargs ck)), snd (add E reg p n kwargs ck)).
Proof.
  intros N. unfold f_add, add. rewrite (other_names E reg n _ N).
  destruct (op_from_dict E reg _) as [o|e]; cbn [bind fst snd]; [|reflexivity]. apply add_op_lift.
Qed.

(** ** Reachable pipes *)

Lemma f_asked_made E reg n kwargs o : value (JDict kwargs) ->
  f_from_dict E reg (asked n (JDict kwargs)) = Ok o -> f_made E o.
Proof.
  intros V Q. destruct (in_dec (list_eq_dec Z.eq_dec) n base_names) as [I|N].
  - apply (proj1 (base_built E reg n (JDict kwargs) o I)) in Q. destruct Q as (NO & _ & C & _ & b & ->).
    cbn [f_made f_class] in *. intros ->. apply NO. rewrite <- C. reflexivity.
  - rewrite (asked_lib E reg n _ N) in Q. unfold op_from_dict in Q. rewrite asked_name, asked_kwargs in Q.
    cbn [bind] in Q. unfold make_registered in Q. destruct (memb n reg); [|discriminate].
    destruct (construct E n [] kwargs) as [o'|] eqn:C; [|discriminate]. cbn [bind] in Q. injection Q as <-.
    exists n, [], kwargs. auto.
Qed.

Lemma f_chained_snoc ops o : f_chained ops -> (forall l, last_opt ops = Some l -> f_out l = f_in o) ->
  f_chained (ops ++ [o]).
Proof.
  intros H J k a b A B. destruct (Nat.lt_ge_cases (S k) (length ops)) as [L|L].
  - rewrite nth_error_app1 in A, B by lia. exact (H k a b A B).
  - rewrite nth_error_app2 in B by lia. destruct (S k - length ops) eqn:Q; [|destruct n; discriminate].
    injection B as <-. rewrite nth_error_app1 in A by lia. apply J. rewrite last_opt_nth.
    now replace (length ops - 1) with k by lia.
Qed.

Definition f_ok (E : env) (p : fpipe) : Prop :=
  Forall (f_made E) (f_steps p) /\ f_chained (f_steps p) /\ NoDup (map fst (f_checkpoints p)).

Lemma f_add_op_ok E p o ck : f_ok E p -> f_made E o -> f_ok E (fst (f_add_op p o ck)).
Proof.
  intros (FM & CH & ND) M. destruct (f_add_op_effect p o ck) as (H1 & H2 & H3 & H4).
  assert (D : (exists l, last_opt (f_steps p) = Some l /\ f_out l <> f_in o) \/
              (forall l, last_opt (f_steps p) = Some l -> f_out l = f_in o)).
  { destruct (last_opt (f_steps p)) as [l|]; [|right; discriminate].
    destruct (seqtype_eqb_spec (f_out l) (f_in o)) as [e|e]; [right; now intros l' [= <-]|left; eauto]. }
  destruct D as [D|D]; [rewrite (H1 D); cbn [fst]; now repeat split|].
  assert (DN : ~ exists l, last_opt (f_steps p) = Some l /\ f_out l <> f_in o).
  { intros (l & L & N). exact (N (D l L)). }
  assert (FM' : Forall (f_made E) (f_steps p ++ [o])) by (apply Forall_app; auto).
  assert (CH' := f_chained_snoc _ _ CH D).
  destruct ck as [name|]; [|rewrite (H2 DN eq_refl); cbn; now repeat split].
  destruct (in_dec (list_eq_dec Z.eq_dec) name (map fst (f_checkpoints p))) as [I|N].
  - rewrite (H4 DN name eq_refl I). cbn; now repeat split.
  - rewrite (H3 DN name eq_refl N). unfold f_ok. cbn [fst f_steps f_checkpoints]. split; [exact FM'|]. split; [exact CH'|].
    rewrite map_app. cbn [map fst]. apply Permutation_NoDup with (name :: map fst (f_checkpoints p)).
    + apply Permutation_cons_append.
    + now constructor.
Qed.

Lemma f_reachable_ok E p : f_reachable E p -> f_ok E p.
Proof.
  induction 1 as [|p o ck _ IH M|p reg n kwargs ck _ IH V].
  - repeat split; [constructor|intros [|k] a b A; discriminate|constructor].
  - now apply f_add_op_ok.
  - unfold f_add. fold (asked n (JDict match kwargs with Some k => k | None => [] end)).
    destruct (f_from_dict E reg _) as [o|e] eqn:Q; [|exact IH]. apply f_add_op_ok; [exact IH|].
    exact (f_asked_made E reg n _ o V Q).
Qed.

(** ** Saving *)

Lemma f_json_value E o : f_made E o ->
  value (JDict [(K_op_name, JStr (f_class o)); (K_op_kwargs, JDict (f_configs o))]).
Proof.
  intros M. apply value_dict. split; [apply nodupb_ok; reflexivity|].
  destruct o as [o|b]; cbn [f_class f_configs f_made] in *.
  - destruct (made_coherent E o M) as (c & bound & (_ & _ & _ & _ & _ & HV & HT)).
    constructor; [|constructor; [|constructor]]; (split; [apply textb_ok; reflexivity|]); [exact HT|exact HV].
  - constructor; [|constructor; [|constructor]]; (split; [apply textb_ok; reflexivity|]); cbn [snd].
    + cbn [value]. apply textb_ok. destruct b; reflexivity.
    + apply value_dict. split; constructor.
Qed.

Lemma f_loads E o : f_made E o ->
  loads (f_serialize o) = Ok (asked (f_class o) (JDict (json_dict (f_configs o)))).
Proof. intros M. unfold f_serialize. rewrite (loads_dumps _ _ (f_json_value E o M)). reflexivity. Qed.

Lemma f_serialize_lib o : f_serialize (FLib o) = op_serialize o.
Proof. reflexivity. Qed.

Lemma f_deserialize_at E reg s v : loads s = Ok v -> f_deserialize E reg s = f_from_dict E reg v.
Proof. intros Q. unfold f_deserialize. now rewrite Q. Qed.
Lemma op_deserialize_at E reg s v : loads s = Ok v -> op_deserialize E reg s = op_from_dict E reg v.
Proof. intros Q. unfold op_deserialize. now rewrite Q. Qed.

Lemma lib_round_trip E reg o : made E o -> In (o_class o) reg ->
  f_deserialize E reg (f_serialize (FLib o)) = Ok (FLib (as_json_obj o)).
Proof.
  intros M R. pose proof (f_loads E (FLib o) M) as L. rewrite (f_deserialize_at E reg _ _ L).
  rewrite f_serialize_lib in L. pose proof (op_deserialize_at E reg _ _ L) as D.
  rewrite (op_round_trip E reg o M R) in D. cbn [f_class f_configs] in D |- *.
  etransitivity; [apply (asked_lib E reg (o_class o) _ (made_name E o M))|]. rewrite <- D. cbn [bind]. reflexivity.
Qed.

Lemma base_round_trip E reg b : b <> BOperator ->
  f_deserialize E reg (f_serialize (FBase b)) = Ok (FBase b).
Proof.
  intros N. rewrite (f_deserialize_at E reg _ _ (f_loads E (FBase b) N)).
  etransitivity; [apply asked_base|]. destruct b; [contradiction N; reflexivity|reflexivity..].
Qed.

Theorem f_round_trip E reg o : f_made E o -> (forall l, o = FLib l -> In (o_class l) reg) ->
  f_deserialize E reg (f_serialize o) = Ok (f_as_json o).
Proof.
  intros M R. destruct o as [o|b].
  - exact (lib_round_trip E reg o M (R o eq_refl)).
  - exact (base_round_trip E reg b M).
Qed.

Lemma f_restore E reg ops : forall p,
  Forall (f_made E) ops -> (forall l, In (FLib l) ops -> In (o_class l) reg) -> f_chained ops ->
  (forall a b, last_opt (f_steps p) = Some a -> nth_error ops 0 = Some b -> f_out a = f_in b) ->
  foldM (f_restore_step E reg) (map as_json (map (fun o => JStr (f_serialize o)) ops)) p =
  Ok (mkFP (f_steps p ++ map f_as_json ops) (f_checkpoints p)).
Proof.
  induction ops as [|o ops IH]; intros p FM HR HC HJ.
  - cbn. rewrite app_nil_r. destruct p; reflexivity.
  - inversion FM as [|? ? M FM']; subst. cbn [map as_json foldM]. unfold f_restore_step at 1.
    rewrite (f_round_trip E reg o M) by (intros l ->; apply HR; now left). cbn [bind].
    assert (TI : f_in (f_as_json o) = f_in o) by (destruct o; reflexivity).
    assert (TO : f_out (f_as_json o) = f_out o) by (destruct o; reflexivity).
    destruct (f_add_op_effect p (f_as_json o) None) as (_ & H2 & _ & _). rewrite H2; auto.
    2:{ intros (l & HL & HT). apply HT. rewrite TI. now apply HJ. }
    cbn [bind]. rewrite IH; auto.
    + cbn [f_steps f_checkpoints map]. now rewrite <- app_assoc.
    + intros l I. apply HR. now right.
    + intros k a b A B. exact (HC (S k) a b A B).
    + cbn [f_steps]. intros a b Ha Hb. rewrite last_opt_nth, app_length in Ha. cbn [length] in Ha.
      replace (length (f_steps p) + 1 - 1) with (length (f_steps p)) in Ha by lia.
      rewrite nth_error_app2, Nat.sub_diag in Ha by lia. injection Ha as <-. rewrite TO.
      exact (HC 0 o b eq_refl Hb).
Qed.

Theorem fpipe_round_trip E reg p : f_reachable E p -> Forall text (map fst (f_checkpoints p)) ->
  (forall l, In (FLib l) (f_steps p) -> In (o_class l) reg) ->
  fpipe_deserialize E reg (fpipe_serialize p) = Ok (mkFP (map f_as_json (f_steps p)) (f_checkpoints p)).
Proof.
  intros R HT HR. destruct (f_reachable_ok E p R) as (FM & CH & ND).
  unfold fpipe_deserialize, fpipe_serialize. rewrite loads_dumps.
  - cbn [bind]. remember (JDict (map (fun kv : str * Z => (fst kv, JInt (snd kv))) (f_checkpoints p))) as ck eqn:Hck.
    remember (map (fun o => JStr (f_serialize o)) (f_steps p)) as ss eqn:Hss.
    change (as_json (JDict [(K_steps, JList ss); (K_checkpoints, ck)]))
      with (JDict [(K_steps, JList (map as_json ss)); (K_checkpoints, as_json ck)]).
    change (key (JDict [(K_steps, JList (map as_json ss)); (K_checkpoints, as_json ck)]) K_steps)
      with (Ok (JList (map as_json ss)) : res jval).
    change (key (JDict [(K_steps, JList (map as_json ss)); (K_checkpoints, as_json ck)]) K_checkpoints)
      with (Ok (as_json ck) : res jval).
    cbn [bind as_list]. rewrite Hss, f_restore; auto; [|discriminate].
    cbn [bind f_steps fpipe_new app f_checkpoints]. rewrite Hck, as_index_ck. reflexivity.
  - apply value_dict. split.
    + apply nodupb_ok. reflexivity.
    + constructor; [|constructor; [|constructor]]; (split; [apply textb_ok; reflexivity|]); cbn [snd].
      * cbn [value]. rewrite fold_Forall, Forall_map. eapply Forall_impl; [|exact FM]. intros o Ho.
        cbn [value]. unfold f_serialize. apply text_dumps. now apply (f_json_value E).
      * apply checkpoints_value. auto.
Qed.

(** ** Equality *)

Theorem f_eqb_base E a o : (forall b, f_eqb (FBase a) (FBase b) = true <-> a = b) /\
  (made E o -> f_eqb (FBase a) (FLib o) = false /\ f_eqb (FLib o) (FBase a) = false).
Proof.
  split.
  - intros b. unfold f_eqb. cbn [f_class f_configs]. split.
    + intros Q. apply andb_true_iff in Q. destruct Q as [Q _]. destruct (eqb_spec (base_name a) (base_name b)) as [e|];
        [now apply base_name_inj|discriminate].
    + intros ->. now rewrite eqb_refl_true.
  - intros M. assert (base_name a <> o_class o) as N.
    { intros Q. apply (made_name E o M). rewrite <- Q. apply base_name_in. }
    unfold f_eqb. cbn [f_class f_configs]. split.
    + destruct (eqb_spec (base_name a) (o_class o)); [contradiction|reflexivity].
    + destruct (eqb_spec (o_class o) (base_name a)); [congruence|reflexivity].
Qed.

Theorem f_eqb_lib a b : f_eqb (FLib a) (FLib b) = op_eqb a b.
Proof. reflexivity. Qed.

Theorem fpipe_eqb_spec p q : NoDup (map fst (f_checkpoints p)) -> NoDup (map fst (f_checkpoints q)) ->
  fpipe_eqb p q = true <->
  Forall2 (fun x y => f_eqb x y = true) (f_steps p) (f_steps q) /\ Permutation (f_checkpoints p) (f_checkpoints q).
Proof.
  intros NP NQ. unfold fpipe_eqb. rewrite andb_true_iff, (ckpts_eqb_spec _ _ NP NQ).
  assert (G : forall a b, f_ops_eqb a b = true <-> Forall2 (fun x y => f_eqb x y = true) a b).
  { induction a as [|x a IH]; intros [|y b]; cbn [f_ops_eqb].
    - split; auto.
    - split; [discriminate|intros Q; inversion Q].
    - split; [discriminate|intros Q; inversion Q].
    - rewrite andb_true_iff, IH. split; [intros []; now constructor|intros Q; inversion Q; auto]. }
  now rewrite G.
Qed.
