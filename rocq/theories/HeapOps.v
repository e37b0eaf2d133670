(** Proofs for C80: operators and the lists and dicts they were given. *)

From Coq Require Import String.
From Verif Require Import Py PyFacts Json Elements Ops Pipe SpecPipe PipeProofs EqProofs ObjProofs Heap SpecHeap HeapProofs.
From Coq Require Import List.
Local Open Scope Z_scope.

Definition now_kw (m : memory) (kwargs : list (str * arg)) : list (str * jval) := map (fun kv => (fst kv, now m (snd kv))) kwargs.

Lemma dict_get_now m kwargs name : dict_get (now_kw m kwargs) name = option_map (now m) (dict_get kwargs name).
Proof. induction kwargs as [|[k v] d IH]; [reflexivity|]. cbn [now_kw map dict_get fst snd]. destruct (eqb name k); auto. Qed.
Lemma dict_mem_now m kwargs name : dict_mem (now_kw m kwargs) name = dict_mem kwargs name.
Proof. unfold dict_mem. rewrite dict_get_now. destruct (dict_get kwargs name); reflexivity. Qed.

Definition map_res {A B} (f : A -> B) (r : res A) : res B := match r with Ok x => Ok (f x) | Err e => Err e end.

Lemma bind_params_now m ps : forall args kwargs,
  bind_params ps (map (now m) args) (now_kw m kwargs) = map_res (map (now m)) (hbind_params ps args kwargs).
Proof.
  induction ps as [|[name default] ps IH]; intros args kwargs; cbn [bind_params hbind_params].
  - destruct args; reflexivity.
  - destruct args as [|a args]; cbn [map].
    + rewrite dict_get_now. pose proof (IH [] kwargs) as IH0. cbn [map] in IH0.
      destruct (dict_get kwargs name) as [v|]; cbn [option_map].
      * cbn [bind]. rewrite IH0. destruct (hbind_params ps [] kwargs); reflexivity.
      * destruct default as [v|]; [|reflexivity]. cbn [bind]. rewrite IH0. destruct (hbind_params ps [] kwargs); reflexivity.
    + rewrite dict_mem_now, IH. destruct (guard _ _); [|reflexivity]. cbn [bind].
      destruct (hbind_params ps args kwargs); reflexivity.
Qed.
Lemma bind_args_now m ps args kwargs :
  bind_args ps (map (now m) args) (now_kw m kwargs) = map_res (map (now m)) (hbind_args ps args kwargs).
Proof.
  unfold bind_args, hbind_args. rewrite bind_params_now.
  assert (F : forallb (fun kv : str * jval => memb (fst kv) (map fst ps)) (now_kw m kwargs) =
              forallb (fun kv : str * arg => memb (fst kv) (map fst ps)) kwargs).
  { unfold now_kw. induction kwargs as [|[k v] d IH]; [reflexivity|]. cbn [map forallb fst]. now rewrite IH. }
  rewrite F. destruct (guard _ _); reflexivity.
Qed.

Lemma dict_set_now m (d : list (str * arg)) k v : now_kw m (dict_set d k v) = dict_set (now_kw m d) k (now m v).
Proof.
  unfold now_kw. induction d as [|[a b] d IH]; [reflexivity|]. cbn [dict_set map fst snd].
  destruct (eqb k a); cbn [map fst snd]; [reflexivity|]. now rewrite IH.
Qed.
Lemma dict_update_now m (e : list (str * arg)) : forall d, now_kw m (dict_update d e) = dict_update (now_kw m d) (now_kw m e).
Proof.
  induction e as [|[k v] e IH]; intros d; [reflexivity|].
  change (dict_update d ((k, v) :: e)) with (dict_update (dict_set d k v) e). rewrite IH, dict_set_now. reflexivity.
Qed.

Lemma record_now m ps args kwargs :
  now_kw m (hrecord ps args kwargs) = record_configs ps (map (now m) args) (now_kw m kwargs).
Proof.
  unfold hrecord, record_configs.
  assert (C : now_kw m (combine (map fst ps) args) = combine (map fst ps) (map (now m) args)).
  { generalize (map fst ps) as names. intros names. revert args. unfold now_kw.
    induction names as [|n names IH]; intros [|a args]; cbn; [reflexivity..|]. now rewrite IH. }
  rewrite <- C, <- dict_update_now. generalize (dict_update (combine (map fst ps) args) kwargs) as cfg. intros cfg.
  rewrite dict_update_now. f_equal.
  generalize (defaults_of ps) as e. intros e. induction e as [|[k v] e IH]; [reflexivity|].
  cbn [map filter fst snd]. rewrite dict_mem_now.
  destruct (negb _); [|exact IH]. unfold now_kw at 1. cbn [map fst snd now]. f_equal. exact IH.
Qed.

(** an operator that was just made acts as its constructor said *)
Lemma acts_when_made E m name c cfg bound o : dict_get classes name = Some c -> c_init c E (map (now m) bound) = Ok o ->
  acts_as m (mkHop name cfg bound o) = o.
Proof.
  intros H I. apply dict_get_In in H. unfold classes in H. cbn [In] in H.
  unfold acts_as. cbn [h_made h_bound].
  repeat (destruct H as [H|H]; [injection H as _ <-; cbn [c_init plain] in I|]); [..|destruct H].
  all: try (injection I as <-; reflexivity).
  all: unfold one, two, three in I; destruct bound as [|a [|b [|d [|e bound]]]]; cbn [map] in I; try discriminate.
  all: unfold init_end, init_soseos, init_wordn, init_custom, init_pad, init_purenum, init_subwords, init_index, init_hash, init_replace,
    make_wordn, make_custom, make_token2index, make_hash, make_replace, make_end in I.
  all: repeat match type of I with
    | bind ?x _ = Ok _ => let X := fresh "X" in destruct x eqn:X; cbn [bind] in I; [|discriminate]
    | match ?x with _ => _ end = Ok _ => let X := fresh "X" in destruct x eqn:X; try discriminate
    end.
  all: try (injection I as <-); try reflexivity.
  all: try (rewrite X; reflexivity).
Qed.

(** ** Operators later *)

Lemma made_inv E m name args kwargs i : snd (exec E m (NewOp name args kwargs)) = Ok (New i) ->
  exists c bound o, dict_get classes name = Some c /\ hbind_args (c_params c) args kwargs = Ok bound /\
    c_init c E (map (now m) bound) = Ok o /\ i = length (h_ops m) /\
    fst (exec E m (NewOp name args kwargs)) = set_ops m (h_ops m ++ [mkHop name (hrecord (c_params c) args kwargs) bound o]).
Proof.
  intros H. cbn [exec] in *. destruct (dict_get classes name) as [c|] eqn:D; [|discriminate].
  destruct (guard _ _); [|discriminate]. cbn [bind] in *.
  destruct (hbind_args (c_params c) args kwargs) as [bound|] eqn:B; [|discriminate]. cbn [bind] in *.
  destruct (c_init c E (map (now m) bound)) as [o|] eqn:I; [|discriminate]. cbn [bind fst snd] in *. injection H as <-.
  exists c, bound, o. repeat split; auto.
Qed.

Lemma ops_later E h2 : forall m i o, wf m -> nth_error (h_ops m) i = Some o -> nth_error (h_ops (after_commands E m h2)) i = Some o.
Proof.
  induction h2 as [|c h2 IH]; intros m i o W H; [exact H|]. rewrite after_cons.
  pose proof (exec_moves E m c W) as M. apply IH; [exact (moves_wf _ _ _ W M)|]. now apply (op_moves m c _ i o W M).
Qed.

(** the operator [i] made by [NewOp] after [h1], whatever is done afterwards *)
Lemma hop_later E h1 name args kwargs i : gives E h1 (NewOp name args kwargs) = Ok (New i) ->
  exists c bound o, dict_get classes name = Some c /\ hbind_args (c_params c) args kwargs = Ok bound /\
    c_init c E (map (now (after_commands E empty_memory h1)) bound) = Ok o /\
    forall h2, nth_error (h_ops (after_commands E empty_memory (h1 ++ NewOp name args kwargs :: h2))) i =
      Some (mkHop name (hrecord (c_params c) args kwargs) bound o).
Proof.
  intros H. destruct (made_inv E _ name args kwargs i H) as (c & bound & o & H1 & H2 & H3 & -> & H4).
  exists c, bound, o. repeat split; auto. intros h2. rewrite after_app2, after_cons, H4.
  apply ops_later; [|cbn [set_ops h_ops]; apply snoc_new].
  rewrite <- H4. eapply moves_wf; [apply after_wf|apply exec_moves, after_wf].
Qed.

Lemma has_op_later E h1 name args kwargs i h2 x : gives E h1 (NewOp name args kwargs) = Ok (New i) ->
  has_op E (h1 ++ NewOp name args kwargs :: h2) i x ->
  exists c bound o, dict_get classes name = Some c /\ hbind_args (c_params c) args kwargs = Ok bound /\
    c_init c E (map (now (after_commands E empty_memory h1)) bound) = Ok o /\
    x = read_op (after_commands E empty_memory (h1 ++ NewOp name args kwargs :: h2)) (mkHop name (hrecord (c_params c) args kwargs) bound o).
Proof.
  intros H X. destruct (hop_later E h1 name args kwargs i H) as (c & bound & o & H1 & H2 & H3 & H4).
  exists c, bound, o. repeat split; auto. unfold has_op, op_at in X. rewrite (H4 h2) in X. cbn in X. congruence.
Qed.

Lemma arg_is_now E h a v : arg_is E h a v -> now (after_commands E empty_memory h) a = v /\ exists_in (after_commands E empty_memory h) a = true.
Proof.
  intros [v'|i c H]; [split; reflexivity|]. unfold has_cell in H. cbn [now exists_in]. rewrite H. split; [reflexivity|].
  apply Nat.ltb_lt. apply nth_error_Some. congruence.
Qed.

Theorem op_made E h name args kwargs vargs vkwargs :
  Forall2 (arg_is E h) args vargs ->
  Forall2 (fun a v => fst a = fst v /\ arg_is E h (snd a) (snd v)) kwargs vkwargs ->
  match construct E name vargs vkwargs with
  | Ok o => exists i, gives E h (NewOp name args kwargs) = Ok (New i) /\ (forall o', ~ has_op E h i o') /\
      has_op E (h ++ [NewOp name args kwargs]) i o
  | Err e => gives E h (NewOp name args kwargs) = Err e
  end.
Proof.
  intros HA HK. set (m := after_commands E empty_memory h).
  assert (A : vargs = map (now m) args /\ forallb (exists_in m) args = true).
  { clear HK. induction HA as [|a v args vargs H HA [IH1 IH2]]; [now split|]. destruct (arg_is_now E h a v H) as [H1 H2].
    cbn [map forallb]. fold m in H1, H2. rewrite H1, H2, <- IH1. now split. }
  assert (K : vkwargs = now_kw m kwargs /\ forallb (exists_in m) (map snd kwargs) = true).
  { clear HA A. induction HK as [|[n a] [n' v] kwargs vkwargs [H0 H] HK [IH1 IH2]]; [now split|]. cbn [fst snd] in *. subst n'.
    destruct (arg_is_now E h a v H) as [H1 H2]. unfold now_kw in *.
    cbn [map forallb fst snd]. fold m in H1, H2. rewrite H1, H2, <- IH1. now split. }
  destruct A as [-> A], K as [-> K]. unfold construct, gives, has_op. rewrite after_app. fold m. cbn [exec].
  destruct (dict_get classes name) as [c|] eqn:D; [|reflexivity].
  rewrite forallb_app, A, K. cbn [andb guard bind]. rewrite bind_args_now.
  destruct (hbind_args (c_params c) args kwargs) as [bound|e]; [|reflexivity]. cbn [map_res bind].
  destruct (c_init c E (map (now m) bound)) as [o|e] eqn:I; [|reflexivity]. cbn [bind fst snd].
  exists (length (h_ops m)). split; [reflexivity|]. split.
  - intros o' H. unfold op_at in H. assert (nth_error (h_ops m) (length (h_ops m)) = None) as X by (now apply nth_error_None).
    now rewrite X in H.
  - unfold op_at. cbn [set_ops h_ops]. rewrite snoc_new. cbn [option_map]. f_equal.
    rewrite <- record_now. unfold read_op. cbn [h_class h_configs]. f_equal.
    now apply (acts_when_made E m name c).
Qed.

Theorem op_not_given E h1 name args kwargs i h2 x j y : gives E h1 (NewOp name args kwargs) = Ok (New i) ->
  has_op E (h1 ++ NewOp name args kwargs :: h2) i x -> not_given j args kwargs ->
  has_op E ((h1 ++ NewOp name args kwargs :: h2) ++ [SetCell j y]) i x.
Proof.
  intros H X [N1 N2]. destruct (hop_later E h1 name args kwargs i H) as (c & bound & o & H1 & H2 & H3 & H4).
  unfold has_op, op_at in *. rewrite (H4 h2) in X. cbn [option_map] in X.
  rewrite after_app. set (m := after_commands E empty_memory (h1 ++ NewOp name args kwargs :: h2)) in *.
  assert (W : wf m) by apply after_wf. pose proof (exec_moves E m (SetCell j y) W) as M.
  destruct (op_moves _ _ _ i _ W M (H4 h2)) as [O R]. rewrite O. cbn [option_map]. rewrite R; [exact X|].
  intros j' y' Q Z. injection Q as <- <-. unfold refs_of in Z. cbn [h_bound h_configs] in Z.
  apply in_app_or in Z as [Z|Z].
  - unfold hbind_args in H2. destruct (guard _ _); [|discriminate]. cbn [bind] in H2.
    destruct (hbind_params_In _ _ _ _ H2 _ Z); auto.
  - destruct (hrecord_In _ _ _ _ Z); auto.
Qed.

(** ** The recorded configuration *)

Lemma get_update_None {V} (e : list (str * V)) x : dict_get e x = None -> forall d, dict_get (dict_update d e) x = dict_get d x.
Proof.
  induction e as [|[k v] e IH]; intros N d; [reflexivity|].
  change (dict_update d ((k, v) :: e)) with (dict_update (dict_set d k v) e). cbn [dict_get] in N.
  destruct (eqb x k) eqn:X; [discriminate|]. rewrite IH, dict_get_set, X by assumption. reflexivity.
Qed.

Lemma classes_distinct name c : dict_get classes name = Some c -> NoDup (map fst (c_params c)).
Proof.
  intros H. apply dict_get_In in H. unfold classes in H. cbn [In] in H.
  repeat (destruct H as [H|H]; [injection H as _ <-; cbn [c_params plain map fst]; apply nodupb_ok; reflexivity|]). destruct H.
Qed.

Lemma positional_apart ps : forall args kwargs bound n par a, hbind_params ps args kwargs = Ok bound ->
  nth_error (map fst ps) n = Some par -> nth_error args n = Some a -> dict_get kwargs par = None.
Proof.
  induction ps as [|[name default] ps IH]; intros args kwargs bound n par a H P A; cbn [hbind_params] in H.
  - destruct n; discriminate.
  - destruct args as [|a0 args]; [destruct n; discriminate|].
    destruct (dict_mem kwargs name) eqn:M; [discriminate|]. cbn [negb guard bind] in H.
    destruct (hbind_params ps args kwargs) as [rest|] eqn:R; [|discriminate].
    destruct n as [|n]; cbn [nth_error map fst] in P, A.
    + injection P as <-. unfold dict_mem in M. now destruct (dict_get kwargs name).
    + eapply IH; eauto.
Qed.

Lemma hrecord_get ps args kwargs bound n par a : NoDup (map fst ps) -> NoDup (map fst kwargs) ->
  hbind_args ps args kwargs = Ok bound -> nth_error (map fst ps) n = Some par -> given n par args kwargs a ->
  dict_get (hrecord ps args kwargs) par = Some a.
Proof.
  intros N K H P G. unfold hbind_args in H. destruct (guard _ _); [|discriminate]. cbn [bind] in H.
  unfold hrecord. set (cfg := dict_update (combine (map fst ps) args) kwargs).
  assert (C : dict_get cfg par = Some a).
  { unfold cfg. rewrite dict_get_update by assumption. destruct G as [G|[L G]].
    - rewrite (positional_apart ps args kwargs bound n par a H P G). clear -N P G. revert args n N P G.
      generalize (map fst ps) as names. induction names as [|m names IH]; intros args n N P G; [destruct n; discriminate|].
      destruct args as [|a0 args]; [destruct n; discriminate|]. inversion N as [|? ? N1 N2]; subst. cbn [combine dict_get].
      destruct n as [|n]; cbn [nth_error] in P, G.
      + injection P as <-. injection G as <-. now destruct (eqb_spec m m).
      + destruct (eqb_spec par m) as [->|]; [exfalso; apply N1; eapply nth_error_In; eauto|]. eapply IH; eauto.
    - now rewrite (dict_get_In_NoDup kwargs par a K G). }
  rewrite get_update_None; [exact C|].
  apply dict_get_None. intros X. apply in_map_iff in X as ([k v] & <- & X). apply filter_In in X as [_ X]. cbn [fst] in *.
  unfold dict_mem in X. now rewrite C in X.
Qed.

Lemma now_get m (d : list (str * arg)) x a : dict_get d x = Some a -> dict_get (now_kw m d) x = Some (now m a).
Proof. intros H. now rewrite dict_get_now, H. Qed.

Theorem configs_follow E h1 name args kwargs i h2 x c n par a v : gives E h1 (NewOp name args kwargs) = Ok (New i) ->
  has_op E (h1 ++ NewOp name args kwargs :: h2) i x ->
  dict_get classes name = Some c -> nth_error (map fst (c_params c)) n = Some par ->
  NoDup (map fst kwargs) -> given n par args kwargs a -> arg_is E (h1 ++ NewOp name args kwargs :: h2) a v ->
  dict_get (o_configs x) par = Some v.
Proof.
  intros H X D P K G A. destruct (has_op_later _ _ _ _ _ _ _ _ H X) as (c' & bound & o & H1 & H2 & H3 & ->).
  assert (c' = c) as -> by congruence. apply arg_is_now in A as [<- _].
  unfold read_op. cbn [o_configs h_configs]. apply (now_get _ (hrecord (c_params c) args kwargs)).
  eapply hrecord_get; eauto. now apply (classes_distinct name).
Qed.

(** ** What the operator does *)

Lemma first_bound ps par d args kwargs bound a : hbind_args ((par, d) :: ps) args kwargs = Ok bound ->
  NoDup (map fst kwargs) -> given 0 par args kwargs a -> exists rest, bound = a :: rest.
Proof.
  intros H N G. unfold hbind_args in H. destruct (guard _ _); [|discriminate]. cbn [bind hbind_params] in H.
  destruct args as [|b0 args].
  - destruct G as [G|[_ G]]; [discriminate|]. rewrite (dict_get_In_NoDup kwargs par a N G) in H. cbn [bind] in H.
    destruct (hbind_params ps [] kwargs) as [rest|]; [|discriminate]. injection H as <-. now exists rest.
  - destruct G as [G|[L G]]; [|cbn in L; lia]. injection G as ->.
    destruct (guard _ _); [|discriminate]. cbn [bind] in H.
    destruct (hbind_params ps args kwargs) as [rest|]; [|discriminate]. injection H as <-. now exists rest.
Qed.

Lemma words_read m j l : nth_error (h_cells m) j = Some (Words l) -> as_vocab (now m (Ref j)) = Ok l.
Proof.
  intros H. cbn [now]. rewrite H. cbn [contents as_vocab].
  clear H. induction l as [|w l IH]; [reflexivity|]. cbn [map mapM as_str bind]. rewrite IH. reflexivity.
Qed.
Lemma numbers_read m j d : nth_error (h_cells m) j = Some (Numbers d) -> as_index_dict (now m (Ref j)) = Ok d /\
  as_vocab (now m (Ref j)) = Ok (map fst d).
Proof.
  intros H. cbn [now]. rewrite H. cbn [contents as_vocab as_index_dict]. split.
  - clear H. induction d as [|[w z] d IH]; [reflexivity|]. cbn [map mapM snd fst as_int bind]. rewrite IH. reflexivity.
  - now rewrite map_map.
Qed.

Section Later.
Context (E : env) (h1 : list command) (name : str) (args : list arg) (kwargs : list (str * arg)) (i : nat) (h2 : list command).
Context (o o2 : opobj).
Context (H : gives E h1 (NewOp name args kwargs) = Ok (New i)).
Context (H1 : has_op E (h1 ++ [NewOp name args kwargs]) i o).
Context (H2 : has_op E (h1 ++ NewOp name args kwargs :: h2) i o2).
Context (N : NoDup (map fst kwargs)).

Lemma later_cases : exists c bound made, dict_get classes name = Some c /\ hbind_args (c_params c) args kwargs = Ok bound /\
  c_init c E (map (now (after_commands E empty_memory h1)) bound) = Ok made /\ o_op o = made /\
  o_op o2 = acts_as (after_commands E empty_memory (h1 ++ NewOp name args kwargs :: h2)) (mkHop name (hrecord (c_params c) args kwargs) bound made).
Proof.
  destruct (has_op_later _ _ _ _ _ _ _ _ H H2) as (c & bound & made & D & B & I & X).
  exists c, bound, made. split; [exact D|]. split; [exact B|]. split; [exact I|]. split; [|now rewrite X].
  destruct (has_op_later _ _ _ _ _ _ _ _ H H1) as (c' & bound' & made' & D' & B' & I' & X').
  assert (c' = c) as -> by congruence. assert (bound' = bound) as -> by congruence. assert (made' = made) as -> by congruence.
  rewrite X'. cbn [read_op o_op].
  assert (Q : acts_as (after_commands E empty_memory h1) (mkHop name (hrecord (c_params c) args kwargs) bound made) = made)
    by (now apply (acts_when_made E _ name c)).
  rewrite after_app. destruct (made_inv E _ name args kwargs i H) as (c2 & b2 & m2 & _ & _ & _ & _ & ->). exact Q.
Qed.

End Later.

Theorem index_follows E h1 args kwargs i h2 o o2 j d : gives E h1 (NewOp (lit "Token2Index") args kwargs) = Ok (New i) ->
  has_op E (h1 ++ [NewOp (lit "Token2Index") args kwargs]) i o ->
  has_op E (h1 ++ NewOp (lit "Token2Index") args kwargs :: h2) i o2 -> NoDup (map fst kwargs) ->
  given 0 (lit "token2index") args kwargs (Ref j) ->
  has_cell E (h1 ++ NewOp (lit "Token2Index") args kwargs :: h2) j (Numbers d) ->
  exists d0 u, o_op o = Token2Index d0 u /\ o_op o2 = Token2Index d u.
Proof.
  intros H H1 H2 N G C. destruct (later_cases _ _ _ _ _ _ _ _ _ H H1 H2) as (c & bound & made & D & B & I & -> & ->).
  cbn in D. injection D as <-. cbn [c_params c_init] in *.
  destruct (first_bound _ _ _ _ _ _ _ B N G) as [rest ->]. unfold two in I. destruct rest as [|u [|? ?]]; try discriminate.
  cbn [map] in I. unfold init_index, make_token2index in I.
  repeat match type of I with bind ?x _ = Ok _ => destruct x; cbn [bind] in I; [|discriminate] end. injection I as <-.
  unfold acts_as. cbn [h_made h_bound]. destruct (numbers_read _ j d C) as [-> _]. eauto.
Qed.

Theorem hash_follows E h1 args kwargs i h2 o o2 j d : gives E h1 (NewOp (lit "Token2IndexwithHash") args kwargs) = Ok (New i) ->
  has_op E (h1 ++ [NewOp (lit "Token2IndexwithHash") args kwargs]) i o ->
  has_op E (h1 ++ NewOp (lit "Token2IndexwithHash") args kwargs :: h2) i o2 -> NoDup (map fst kwargs) ->
  given 0 (lit "token2index") args kwargs (Ref j) ->
  has_cell E (h1 ++ NewOp (lit "Token2IndexwithHash") args kwargs :: h2) j (Numbers d) ->
  exists d0, o_op o = Token2IndexwithHash d0 /\ o_op o2 = Token2IndexwithHash d.
Proof.
  intros H H1 H2 N G C. destruct (later_cases _ _ _ _ _ _ _ _ _ H H1 H2) as (c & bound & made & D & B & I & -> & ->).
  cbn in D. injection D as <-. cbn [c_params c_init] in *.
  destruct (first_bound _ _ _ _ _ _ _ B N G) as [rest ->]. unfold one in I. destruct rest as [|u ?]; try discriminate.
  cbn [map] in I. unfold init_hash, make_hash in I.
  repeat match type of I with bind ?x _ = Ok _ => destruct x; cbn [bind] in I; [|discriminate] end. injection I as <-.
  unfold acts_as. cbn [h_made h_bound]. destruct (numbers_read _ j d C) as [-> _]. eauto.
Qed.

Theorem subwords_follow E h1 args kwargs i h2 o o2 j x : gives E h1 (NewOp (lit "SpanSubwords") args kwargs) = Ok (New i) ->
  has_op E (h1 ++ [NewOp (lit "SpanSubwords") args kwargs]) i o ->
  has_op E (h1 ++ NewOp (lit "SpanSubwords") args kwargs :: h2) i o2 -> NoDup (map fst kwargs) ->
  given 0 (lit "vocab") args kwargs (Ref j) ->
  has_cell E (h1 ++ NewOp (lit "SpanSubwords") args kwargs :: h2) j x ->
  exists v0 u n, o_op o = SpanSubwords v0 u n /\
    o_op o2 = SpanSubwords (match x with Words l => l | Numbers d => map fst d end) u n.
Proof.
  intros H H1 H2 N G C. destruct (later_cases _ _ _ _ _ _ _ _ _ H H1 H2) as (c & bound & made & D & B & I & -> & ->).
  cbn in D. injection D as <-. cbn [c_params c_init] in *.
  destruct (first_bound _ _ _ _ _ _ _ B N G) as [rest ->]. unfold three in I. destruct rest as [|u [|v [|? ?]]]; try discriminate.
  cbn [map] in I. unfold init_subwords in I.
  repeat match type of I with bind ?x _ = Ok _ => destruct x; cbn [bind] in I; [|discriminate] end. injection I as <-.
  unfold acts_as. cbn [h_made h_bound]. destruct x as [l|d].
  - rewrite (words_read _ j l C). eauto.
  - destruct (numbers_read _ j d C) as [_ ->]. eauto 6.
Qed.

Lemma second_bound ps p1 p2 d1 d2 args kwargs bound : hbind_args ((p1, d1) :: (p2, d2) :: ps) args kwargs = Ok bound ->
  NoDup (map fst kwargs) -> (forall j, ~ given 1 p2 args kwargs (Ref j)) -> exists a v rest, bound = a :: Own v :: rest.
Proof.
  intros H N G. unfold hbind_args in H. destruct (guard _ _) as [[]|]; [|discriminate]. cbn [bind hbind_params] in H.
  assert (S : forall a args', args = [] \/ (exists a0, args = a0 :: args') -> (args = [] -> args' = []) ->
    (rest <- hbind_params ((p2, d2) :: ps) args' kwargs ;; Ok (a :: rest)) = Ok bound -> exists a v rest, bound = a :: Own v :: rest).
  { intros a args' C0 C1 R. cbn [hbind_params] in R. destruct args' as [|b args'].
    - assert (Z : (length args <= 1)%nat) by (destruct C0 as [->|[a0 ->]]; cbn; lia).
      destruct (dict_get kwargs p2) as [w|] eqn:W.
      + cbn [bind] in R. destruct (hbind_params ps [] kwargs) as [rest|]; [|discriminate]. cbn [bind] in R. injection R as <-.
        destruct w as [v|j]; [eauto|]. exfalso. apply (G j). right. split; [exact Z|]. now apply dict_get_In.
      + destruct d2 as [v|]; [|discriminate]. cbn [bind] in R.
        destruct (hbind_params ps [] kwargs) as [rest|]; [|discriminate]. cbn [bind] in R. injection R as <-. eauto.
    - destruct (guard (negb (dict_mem kwargs p2)) TypeErr) as [[]|]; [|discriminate R]. cbn [bind] in R.
      destruct (hbind_params ps args' kwargs) as [rest|]; [|discriminate]. cbn [bind] in R. injection R as <-.
      destruct b as [v|j]; [eauto|]. exfalso. apply (G j). left.
      destruct C0 as [->|[a0 ->]]; [specialize (C1 eq_refl); discriminate|reflexivity]. }
  destruct args as [|a0 args].
  - match type of H with bind ?x _ = _ => destruct x as [a|]; [|discriminate] end. cbn [bind] in H.
    apply (S a []); auto.
  - destruct (guard _ _) as [[]|]; [|discriminate]. cbn [bind] in H. apply (S a0 args); [right; eauto|discriminate|exact H].
Qed.

Theorem others_keep E h1 name args kwargs i h2 o o2 : gives E h1 (NewOp name args kwargs) = Ok (New i) ->
  has_op E (h1 ++ [NewOp name args kwargs]) i o ->
  has_op E (h1 ++ NewOp name args kwargs :: h2) i o2 -> NoDup (map fst kwargs) ->
  ~ In name [lit "Token2Index"; lit "Token2IndexwithHash"; lit "SpanSubwords"] ->
  (forall j, ~ given 1 (lit "shortest") args kwargs (Ref j)) ->
  o_op o2 = o_op o.
Proof.
  intros H H1 H2 N A G. destruct (later_cases _ _ _ _ _ _ _ _ _ H H1 H2) as (c & bound & made & D & B & I & -> & ->).
  unfold acts_as. cbn [h_made h_bound].
  pose proof D as D'. apply dict_get_In in D. unfold classes in D. cbn [In] in D.
  repeat (destruct D as [D|D]; [injection D as <- <-; cbn [c_init c_params plain] in I, B|]); [..|destruct D].
  all: try (injection I as <-; reflexivity).
  all: try (exfalso; apply A; cbn [In]; tauto).
  1,3: destruct (second_bound _ _ _ _ _ _ _ _ B N G) as (a & v & rest & ->); unfold two in I; destruct rest; [|discriminate];
    cbn [map now] in I; unfold init_wordn, init_custom, make_wordn, make_custom in I;
    repeat match type of I with bind ?x _ = Ok _ => destruct x; cbn [bind] in I; [|discriminate] end; injection I as <-; reflexivity.
  all: unfold one, two in I; destruct bound as [|a [|b [|? ?]]]; cbn [map] in I; try discriminate.
  all: unfold init_end, init_soseos, init_pad, init_purenum, init_replace, make_replace, make_end in I.
  all: repeat match type of I with
    | bind ?x _ = Ok _ => destruct x; cbn [bind] in I; [|discriminate]
    | match ?x with _ => _ end = Ok _ => destruct x; try discriminate
    end.
  all: injection I as <-; reflexivity.
Qed.

(** ** In pipes *)

Lemma list_prefix m c m' k rl rd : wf m -> moves m c m' -> (forall l, c <> SetSteps k l) -> nth_error (h_pipes m) k = Some (rl, rd) ->
  exists extra, list_at m' rl = list_at m rl ++ extra.
Proof.
  intros W M ND K. pose proof (wf_apart m W) as [A1 A2]. destruct (A1 k rl rd K) as [B1 B2].
  assert (S : forall m', list_at m' rl = list_at m rl -> exists extra, list_at m' rl = list_at m rl ++ extra).
  { intros m2 ->. exists []. now rewrite app_nil_r. }
  destruct M as [c|x|i x y C X|name args kwargs o R1 R2|c l d GL GN GP NC
     |c k' rl' rd' extra d C K' GL GN GK G|c k' rl' rd' l d C D K' GL GN E1 E2|k' x rl' rd' coll K' L]; try (now apply S).
  - apply S; unfold list_at; cbn [new_pipe fst h_lists]; now rewrite app_nth1.
  - destruct (Nat.eq_dec k k') as [<-|NE].
    + rewrite K in K'. injection K' as <- <-. exists extra.
      unfold list_at at 1, change. cbn [h_lists]. now rewrite !nth_nth, !put_same by assumption.
    + apply S; unfold list_at, change; cbn [h_lists]; rewrite !nth_nth, put_other; auto;
        intros ->; apply NE; symmetry; eapply A2; eauto.
  - apply S. destruct (Nat.eq_dec k k') as [<-|NE].
    + rewrite K in K'. injection K' as <- <-. rewrite (E1 ND). unfold list_at at 1, change. cbn [h_lists].
      now rewrite !nth_nth, !put_same by assumption.
    + unfold list_at, change; cbn [h_lists]; rewrite !nth_nth, put_other; auto;
        intros ->; apply NE; symmetry; eapply A2; eauto.
Qed.

Lemma list_later E h2 : forall m k rl rd, wf m -> (forall l, ~ In (SetSteps k l) h2) -> nth_error (h_pipes m) k = Some (rl, rd) ->
  nth_error (h_pipes (after_commands E m h2)) k = Some (rl, rd) /\
  exists extra, list_at (after_commands E m h2) rl = list_at m rl ++ extra.
Proof.
  induction h2 as [|c h2 IH]; intros m k rl rd W ND K.
  - split; [exact K|]. exists []. now rewrite app_nil_r.
  - rewrite after_cons. pose proof (exec_moves E m c W) as M. 
    destruct (list_prefix m c _ k rl rd W M) as [e1 L1]; [intros l ->; apply (ND l); now left|exact K|].
    assert (ND2 : forall l, ~ In (SetSteps k l) h2) by (intros l Hl; apply (ND l); now right).
    destruct (IH (fst (exec E m c)) k rl rd (moves_wf _ _ _ W M) ND2 (pipe_refs_moves _ _ _ _ _ M K)) as [I1 [e2 L2]].
    split; [exact I1|]. exists (e1 ++ e2). rewrite L2, L1. now rewrite app_assoc.
Qed.

Theorem in_pipes E h k o ck p h2 p2 x2 : has_pipe E h k p -> gives E h (AddOp k o ck) = Ok Nothing ->
  (forall l, ~ In (SetSteps k l) h2) -> has_pipe E (h ++ AddOp k o ck :: h2) k p2 -> has_op E (h ++ AddOp k o ck :: h2) o x2 ->
  nth_error (steps p2) (length (steps p)) = Some x2.
Proof.
  unfold has_pipe, gives, has_op. intros HP G ND H2 X2. rewrite after_app2, after_cons in *.
  pose proof (after_wf E h) as W. set (m := after_commands E empty_memory h) in *.
  apply pipe_at_inv in HP as (rl & rd & K & ->). pose proof (wf_apart m W) as [A1 _]. destruct (A1 k rl rd K) as [B1 B2].
  pose proof (exec_moves E m (AddOp k o ck) W) as M. pose proof (moves_wf _ _ _ W M) as W1.
  assert (K1 := pipe_refs_moves _ _ _ _ _ M K).
  assert (L : list_at (fst (exec E m (AddOp k o ck))) rl = list_at m rl ++ [o]).
  { cbn [exec] in G |- *. rewrite K in G |- *. destruct (nth_error (h_ops m) o); [|discriminate]. unfold do_add_op in *.
    destruct (match last_opt _ with Some _ => _ | None => _ end); [discriminate|].
    assert (P : list_at (set_lists m (put (h_lists m) rl (list_at m rl ++ [o]))) rl = list_at m rl ++ [o]).
    { unfold list_at at 1. cbn [set_lists h_lists]. now rewrite nth_nth, put_same. }
    destruct ck as [name|]; [|exact P]. destruct (dict_mem _ name); [discriminate|]. exact P. }
  destruct (list_later E h2 _ k rl rd W1 ND K1) as [K2 [extra L2]].
  assert (W2 : wf (after_commands E (fst (exec E m (AddOp k o ck))) h2)).
  { destruct (after_grown E h2 _ k rl rd W1 K1) as [W2 _]. exact W2. }
  set (m2 := after_commands E (fst (exec E m (AddOp k o ck))) h2) in *.
  unfold pipe_at in H2. rewrite K2 in H2. cbn [option_map fst snd] in H2. injection H2 as <-. cbn [steps].
  pose proof (list_at_good m2 rl W2) as G2. rewrite (read_list_length m) by (now apply list_at_good).
  rewrite (read_list_map m2 _ G2), L2, L, <- app_assoc, map_app, nth_error_app2, map_length, Nat.sub_diag by (rewrite map_length; lia).
  cbn. unfold the_op. now rewrite X2.
Qed.

(** ** Several calls *)

Theorem others_unchanged_all E h h2 k p : has_pipe E h k p -> Forall (fun c => ~ changes_pipe k c /\ ~ changes_cell c) h2 ->
  has_pipe E (h ++ h2) k p.
Proof.
  intros H F. induction h2 as [|c h2 IH] using rev_ind; [now rewrite app_nil_r|].
  apply Forall_app in F as [F1 F2]. inversion F2 as [|? ? [N1 N2] _]; subst. rewrite app_assoc. apply others_unchanged; auto.
Qed.

Theorem op_unchanged_all E h1 name args kwargs i o h2 : gives E h1 (NewOp name args kwargs) = Ok (New i) ->
  has_op E (h1 ++ [NewOp name args kwargs]) i o ->
  (forall j y, In (SetCell j y) h2 -> not_given j args kwargs) ->
  has_op E (h1 ++ NewOp name args kwargs :: h2) i o.
Proof.
  intros H O. induction h2 as [|c h2 IH] using rev_ind; intros F; [exact O|].
  assert (O2 : has_op E (h1 ++ NewOp name args kwargs :: h2) i o).
  { apply IH. intros j y X. apply (F j y). apply in_or_app. now left. }
  rewrite app_comm_cons, app_assoc.
  assert (N : forall j y, c = SetCell j y -> not_given j args kwargs).
  { intros j y ->. apply (F j y). apply in_or_app. right. now left. }
  destruct c as [| j y| | | | | | | | | | | ]; try (apply ops_unchanged; [exact O2|intros (? & ? & ?); discriminate]).
  eapply op_not_given; eauto.
Qed.

(** ** Direct changes of a list of steps or a dict of checkpoints *)

Lemma has_ops_read E h l xs : Forall2 (has_op E h) l xs ->
  read_list (after_commands E empty_memory h) l = xs /\
  forallb (fun i => (i <? length (h_ops (after_commands E empty_memory h)))%nat) l = true.
Proof.
  unfold has_op. set (m := after_commands E empty_memory h). induction 1 as [|i x l xs H _ [IH1 IH2]]; [split; reflexivity|].
  cbn [read_list flat_map forallb]. unfold read_list in IH1. rewrite H, IH1, IH2. split; [reflexivity|].
  rewrite andb_true_r. apply Nat.ltb_lt. unfold op_at in H. apply nth_error_Some. intros N. rewrite N in H. discriminate.
Qed.

Theorem set_steps_does E h k p l xs : has_pipe E h k p -> Forall2 (has_op E h) l xs ->
  gives E h (SetSteps k l) = Ok Nothing /\ has_pipe E (h ++ [SetSteps k l]) k (mkPipe xs (checkpoints p)).
Proof.
  unfold has_pipe, gives. intros HP HL. apply has_ops_read in HL as [R F]. rewrite after_app.
  pose proof (after_wf E h) as W. set (m := after_commands E empty_memory h) in *.
  apply pipe_at_inv in HP as (rl & rd & K & ->). cbn [exec]. rewrite K, F. split; [reflexivity|]. cbn [fst].
  rewrite (set_lists_dicts m rl rd), (change_at m k rl rd) by assumption. now rewrite R.
Qed.

Theorem set_checks_does E h k p d : has_pipe E h k p -> NoDup (map fst d) ->
  gives E h (SetChecks k d) = Ok Nothing /\ has_pipe E (h ++ [SetChecks k d]) k (mkPipe (steps p) d).
Proof.
  unfold has_pipe, gives. intros HP N. rewrite after_app.
  pose proof (after_wf E h) as W. set (m := after_commands E empty_memory h) in *.
  apply pipe_at_inv in HP as (rl & rd & K & ->). cbn [exec]. rewrite K, dedup_id, map_length, Nat.eqb_refl by exact N.
  split; [reflexivity|]. cbn [fst].
  assert (S : set_dicts m (put (h_dicts m) rd d) = change m rl rd (list_at m rl) d).
  { unfold set_dicts, change, list_at. now rewrite put_self. }
  rewrite S, (change_at m k rl rd) by assumption. reflexivity.
Qed.

(** ** Types along a pipe *)

Definition all_chained (m : memory) : Prop := forall k p, pipe_at m k = Some p -> chained (steps p).

Lemma chained_types l l' : map (fun o => (in_type o, out_type o)) l = map (fun o => (in_type o, out_type o)) l' ->
  chained l -> chained l'.
Proof.
  intros E C k a b Ha Hb.
  assert (T : forall n x, nth_error l' n = Some x -> exists y, nth_error l n = Some y /\ in_type y = in_type x /\ out_type y = out_type x).
  { intros n x H. pose proof (map_nth_error (fun o => (in_type o, out_type o)) n l' H) as M. rewrite <- E, nth_error_map in M.
    destruct (nth_error l n) as [y|]; [|discriminate]. cbn in M. injection M as M1 M2. eauto. }
  destruct (T _ _ Ha) as (a' & A1 & A2 & A3). destruct (T _ _ Hb) as (b' & B1 & B2 & B3).
  rewrite <- A3, <- B2. exact (C k a' b' A1 B1).
Qed.

Lemma read_types m cells l : map (fun o => (in_type o, out_type o)) (read_list m l) =
  map (fun o => (in_type o, out_type o)) (read_list (set_cells m cells) l).
Proof.
  induction l as [|i l IH]; [reflexivity|]. cbn [read_list flat_map]. rewrite !map_app. unfold read_list in IH. rewrite IH. f_equal.
  unfold op_at. cbn [set_cells h_ops]. destruct (nth_error (h_ops m) i) as [o|]; [|reflexivity]. cbn.
  unfold in_type, out_type, read_op. cbn [o_op].
  destruct (acts_types m o) as [-> ->]. destruct (acts_types (set_cells m cells) o) as [-> ->]. reflexivity.
Qed.

Lemma pipe_count m c m' k p : moves m c m' -> pipe_at m' k = Some p -> (exists q, pipe_at m k = Some q) \/ k = length (h_pipes m).
Proof.
  intros M H. unfold pipe_at in *. destruct (nth_error (h_pipes m) k) as [r|] eqn:N; [left; cbn; eauto|right].
  destruct (nth_error (h_pipes m') k) as [r|] eqn:N'; [|discriminate]. clear H.
  destruct M; try (cbn in N'; congruence). cbn [new_pipe fst h_pipes] in N'.
  apply snoc_inv in N' as [N'|[-> _]]; [congruence|reflexivity].
Qed.

Lemma iadd_chained p q : chained (steps p) -> chained (steps q) -> chained (steps (fst (iadd p q))).
Proof.
  intros HP HQ. destruct (iadd_cases p q) as (C1 & C2 & C3 & C4).
  assert (D : joinable p q \/ ~ joinable p q).
  { unfold joinable. destruct (last_opt (steps p)) as [a|]; [|right; intros (a & b & H & _); discriminate].
    destruct (nth_error (steps q) 0) as [b|]; [|right; intros (a' & b & _ & H & _); discriminate].
    destruct (seqtype_eqb_spec (out_type a) (in_type b)); [left; eauto|].
    right. intros (a' & b' & [= <-] & [= <-] & H). contradiction. }
  destruct (steps p) eqn:EP; [rewrite C1 by auto; cbn; now rewrite EP|].
  destruct (steps q) eqn:EQ; [rewrite C1 by auto; cbn; now rewrite EP|].
  rewrite <- EP, <- EQ in *.
  destruct D as [HJ|HJ]; [|rewrite C2; auto; congruence].
  destruct (existsb (fun kv => dict_mem (checkpoints q) (fst kv)) (checkpoints p)) eqn:ED.
  - rewrite C3; auto. rewrite <- shared_names. congruence.
  - apply shared_names in ED. destruct (C4 HJ ED) as [_ ->].
    destruct HJ as (a & b & HA & HB & HT). apply chained_app; auto. intros x y Hx Hy. congruence.
Qed.

Lemma exec_chained E m c : wf m -> all_chained m -> ~ direct c -> plain_slice c -> all_chained (fst (exec E m c)).
Proof.
  intros W A ND PS k p H. pose proof (exec_moves E m c W) as M.
  assert (CC : changes_cell c \/ ~ changes_cell c).
  { destruct c; try (right; intros (? & ? & ?); discriminate). left. now exists i, c. }
  destruct CC as [(i & x & ->)|NC].
  { cbn [exec] in H. destruct (nth_error (h_cells m) i) as [y|]; [|exact (A k p H)].
    destruct (same_kind y x); [|exact (A k p H)]. cbn [fst] in H.
    destruct (pipe_at m k) as [q|] eqn:Q.
    2:{ exfalso. unfold pipe_at in *. cbn [set_cells h_pipes] in H. destruct (nth_error (h_pipes m) k); discriminate. }
    specialize (A k q Q). apply pipe_at_inv in Q as (rl & rd & K & ->).
    unfold pipe_at in H. cbn [set_cells h_pipes] in H. rewrite K in H. cbn [option_map fst snd] in H. injection H as <-.
    cbn [steps] in *. eapply chained_types; [|exact A]. apply read_types. }
  assert (OLD : forall q, pipe_at m k = Some q -> ~ changes_pipe k c -> chained (steps p)).
  { intros q Q N. rewrite (pipe_at_moves m c _ k q W M N NC Q) in H. injection H as <-. exact (A k q Q). }
  assert (NEWN : pipe_at m (length (h_pipes m)) = None).
  { unfold pipe_at. assert (N : nth_error (h_pipes m) (length (h_pipes m)) = None) by (apply nth_error_None; lia). now rewrite N. }
  assert (SAME : fst (exec E m c) = m -> chained (steps p)) by (intros S; rewrite S in H; exact (A k p H)).
  pose proof (pipe_count m c _ k p M H) as CT.
  assert (NEW : forall n q, snd (exec E m c) = Ok (New n) -> pipe_at m n = None -> pipe_at (fst (exec E m c)) n = Some q ->
    ~ changes_pipe k c -> chained (steps q) -> chained (steps p)).
  { intros n q _ X Y N Z. destruct CT as [[q0 Q]|CT]; [exact (OLD q0 Q N)|].
    destruct (pipe_count m c _ n q M Y) as [[q1 Q1]|C1]; [congruence|]. subst. assert (p = q) as -> by congruence. exact Z. }
  destruct c as [x|i x|name args kwargs| |k' o ck|k' q|k' q|k'|k' sl|k' l|k' d|k' x|i name].
  - cbn [exec fst] in H. destruct CT as [[q Q]|CT]; [apply (OLD q Q); intros X; inversion X|].
    subst k. unfold pipe_at in *. cbn [set_cells h_pipes] in H. destruct (nth_error (h_pipes m) (length (h_pipes m))); discriminate.
  - exfalso. apply NC. now exists i, x.
  - destruct CT as [[q Q]|CT]; [apply (OLD q Q); intros X; inversion X|].
    exfalso. subst k. unfold pipe_at in *. assert (HP : h_pipes (fst (exec E m (NewOp name args kwargs))) = h_pipes m).
    { clear. cbn [exec]. destruct (dict_get classes name); [|reflexivity].
      match goal with |- context[bind ?a ?b] => destruct (bind a b) end; reflexivity. }
    rewrite HP in H. destruct (nth_error (h_pipes m) (length (h_pipes m))); discriminate.
  - destruct (new_pipe_does m E) as (n & N1 & N2 & N3). apply (NEW n pipe_new N1 N2 N3); [intros X; inversion X|].
    intros [|j] a b; discriminate.
  - destruct (pipe_at m k') as [q|] eqn:Q.
    2:{ apply SAME. cbn [exec]. unfold pipe_at in Q. destruct (nth_error (h_pipes m) k') as [[? ?]|]; [discriminate|reflexivity]. }
    destruct (op_at m o) as [x|] eqn:O.
    2:{ apply SAME. cbn [exec]. unfold op_at in O. destruct (nth_error (h_pipes m) k') as [[? ?]|]; [|reflexivity].
        destruct (nth_error (h_ops m) o); [discriminate|reflexivity]. }
    destruct (add_op_does m k' o q x ck W Q O E) as [D _].
    destruct (Nat.eq_dec k k') as [->|NE].
    + rewrite D in H. injection H as <-. apply add_op_chained. exact (A k' q Q).
    + destruct CT as [[q0 Q0]|CT]; [apply (OLD q0 Q0); intros X; inversion X; congruence|].
      exfalso. subst k. unfold pipe_at in H, NEWN. assert (HP : h_pipes (fst (exec E m (AddOp k' o ck))) = h_pipes m).
      { clear. cbn [exec]. destruct (nth_error (h_pipes m) k') as [[? ?]|]; [|reflexivity].
        destruct (nth_error (h_ops m) o); [|reflexivity]. unfold do_add_op.
        destruct (match last_opt _ with Some _ => _ | None => _ end); [reflexivity|].
        destruct ck; [|reflexivity]. destruct (dict_mem _ _); reflexivity. }
      rewrite HP in H. destruct (nth_error (h_pipes m) (length (h_pipes m))); discriminate.
  - destruct (pipe_at m k') as [r|] eqn:Q.
    2:{ apply SAME. cbn [exec]. unfold pipe_at in Q. destruct (nth_error (h_pipes m) k') as [[? ?]|]; [discriminate|reflexivity]. }
    destruct (pipe_at m q) as [s|] eqn:Q2.
    2:{ apply SAME. cbn [exec]. unfold pipe_at in Q2. destruct (nth_error (h_pipes m) k') as [[? ?]|]; [|reflexivity].
        destruct (nth_error (h_pipes m) q) as [[? ?]|]; [discriminate|reflexivity]. }
    destruct (iadd_does m k' q r s W Q Q2 E) as [D _].
    destruct (Nat.eq_dec k k') as [->|NE].
    + rewrite D in H. injection H as <-. apply iadd_chained; [exact (A k' r Q)|exact (A q s Q2)].
    + destruct CT as [[q0 Q0]|CT]; [apply (OLD q0 Q0); intros X; inversion X; congruence|].
      exfalso. subst k. unfold pipe_at in H, NEWN. assert (HP : h_pipes (fst (exec E m (IAdd k' q))) = h_pipes m).
      { clear. cbn [exec]. destruct (nth_error (h_pipes m) k') as [[? ?]|]; [|reflexivity].
        destruct (nth_error (h_pipes m) q) as [[? ?]|]; [|reflexivity]. unfold do_iadd.
        destruct (last_opt _); [|reflexivity]. destruct (list_at m n1); [reflexivity|].
        destruct (differ _ _); [reflexivity|]. destruct (existsb _ _); reflexivity. }
      rewrite HP in H. destruct (nth_error (h_pipes m) (length (h_pipes m))); discriminate.
  - destruct (pipe_at m k') as [r|] eqn:Q.
    2:{ apply SAME. cbn [exec]. unfold pipe_at in Q. destruct (nth_error (h_pipes m) k') as [[? ?]|]; [discriminate|reflexivity]. }
    destruct (pipe_at m q) as [s|] eqn:Q2.
    2:{ apply SAME. cbn [exec]. unfold pipe_at in Q2. destruct (nth_error (h_pipes m) k') as [[? ?]|]; [|reflexivity].
        destruct (nth_error (h_pipes m) q) as [[? ?]|]; [discriminate|reflexivity]. }
    pose proof (plus_does m k' q r s W Q Q2 E) as D. destruct (concat_pipes r s) as [t|e] eqn:CP; [|apply SAME, D].
    destruct D as (n & N1 & N2 & N3). apply (NEW n t N1 N2 N3); [intros X; inversion X|].
    apply concat_inv in CP as (_ & _ & -> & _). apply iadd_chained; [exact (A k' r Q)|exact (A q s Q2)].
  - destruct (pipe_at m k') as [r|] eqn:Q.
    2:{ apply SAME. cbn [exec]. unfold pipe_at in Q. destruct (nth_error (h_pipes m) k') as [[? ?]|]; [discriminate|reflexivity]. }
    destruct (copy_does m k' r W Q E) as (n & N1 & N2 & N3). apply (NEW n r N1 N2 N3); [intros X; inversion X|exact (A k' r Q)].
  - destruct (pipe_at m k') as [r|] eqn:Q.
    2:{ apply SAME. cbn [exec]. unfold pipe_at in Q. destruct (nth_error (h_pipes m) k') as [[? ?]|]; [discriminate|reflexivity]. }
    pose proof (slice_does m k' r sl W Q E) as D. destruct (getitem_slice r sl) as [t|e] eqn:GS; [|apply SAME, D].
    destruct D as (n & N1 & N2 & N3). apply (NEW n t N1 N2 N3); [intros X; inversion X|].
    destruct sl as [[start stop] step]. assert (ST := PS k' start stop step eq_refl).
    apply slice_steps in GS. destruct (get_slice_1 (steps r) start stop step ST) as (a & b & _ & HG & _).
    rewrite HG in GS. injection GS as <-. apply chained_sub. exact (A k' r Q).
  - exfalso. apply ND. left. eauto.
  - exfalso. apply ND. right. eauto.
  - destruct CT as [[q Q]|CT]; [apply (OLD q Q); intros X; inversion X|].
    exfalso. subst k. unfold pipe_at in *. assert (HP : h_pipes (fst (exec E m (Run k' x))) = h_pipes m).
    { clear. cbn [exec]. destruct (nth_error (h_pipes m) k') as [[? ?]|]; [|reflexivity].
      destruct (run E _ x) as [[[? ?] ?]|]; reflexivity. }
    rewrite HP in H. destruct (nth_error (h_pipes m) (length (h_pipes m))); discriminate.
  - apply SAME. cbn [exec]. destruct (nth_error (h_ims m) i) as [[? ?]|]; reflexivity.
Qed.

Theorem history_chained E h k p : (forall c, In c h -> ~ direct c /\ plain_slice c) -> has_pipe E h k p -> chained (steps p).
Proof.
  intros H. revert k p. unfold has_pipe. change (all_chained (after_commands E empty_memory h)).
  induction h as [|c h IH] using rev_ind; [intros [|k] p; discriminate|]. rewrite after_app.
  destruct (H c) as [N P]; [apply in_or_app; right; now left|].
  apply exec_chained; auto; [apply after_wf|]. apply IH. intros c' Hc. apply H, in_or_app. now left.
Qed.
