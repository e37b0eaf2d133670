(** Concrete texts, meeting the hypotheses of C72 and C73, and refuted claims. *)

From Coq Require Import String.
From Verif Require Import Py Edit Ops Json SpecJson Elements Pipe SpecPipe TextForms SpecText TextProofs Concrete.
From Coq Require Import List Permutation Lia.
Local Open Scope Z_scope.

(** ASCII only *)
Definition ascii (c : Z) : bool := c <? 127.
Definition op_of (name : string) (args : list jval) (kwargs : list (str * jval)) : opobj :=
  match construct env0 (lit name) args kwargs with Ok o => o | Err _ => mkObj [] [] Lowercase end.

Definition lower_ : opobj := op_of "Lowercase" [] [].
Definition chars_ : opobj := op_of "CharTokenizer" [] [].
Definition pad_ : opobj := op_of "Pad" [JInt 3] [(lit "pad_token", JStr (lit "it's"))].

Example ex_op_str : map (op_str ascii) [lower_; chars_; pad_] =
  [lit "Lowercase()"; lit "CharTokenizer()"; lit "Pad(maxlen=3, pad_token=""it's"")"].
Proof. reflexivity. Qed.
Example ex_whole : Forall (fun kv => shown_whole ascii (snd kv)) (o_configs pad_).
Proof. repeat constructor; vm_compute; congruence. Qed.
Example ex_made : made env0 pad_.
Proof.
  exists (lit "Pad"), [JInt 3], [(lit "pad_token", JStr (lit "it's"))].
  split; [repeat constructor|]. split; [|reflexivity]. split; [repeat constructor; intros []|].
  cbn [fold_right value fst snd]. split; [|exact I]. split; unfold text; apply Forall_forall; intros c HI;
    repeat (destruct HI as [<-|HI]; [vm_compute; discriminate|]); destruct HI.
Qed.

Definition history : list call := [(lower_, None); (chars_, Some (lit "chars")); (pad_, Some (lit "end"))].
Example ex_summary : summary ascii (after pipe_new history) =
  [repeat 95 80; lit "Type  Operator"; repeat 61 80;
   lit "str"; lit " v";
   lit " |    Lowercase()";
   lit " |    CharTokenizer()"; lit " v"; lit "list"; lit " v"; lit " |"; lit " @--> checkpoint: 'chars'"; lit " |";
   lit " |    Pad(maxlen=3, pad_token=""it's"")"; lit " |"; lit " @--> checkpoint: 'end'"; lit " |";
   lit " v"; repeat 61 80; lit "str -> list";
   lit "Total operators: 3"; lit "Total checkpoints: 2"; repeat 95 80].
Proof. reflexivity. Qed.

Lemma made_plain name o : construct env0 name [] [] = Ok o -> made env0 o.
Proof. intros H. exists name, [], []. split; [constructor|]. split; [|exact H]. split; [constructor|exact I]. Qed.

(** [+=] moves the checkpoints of the second pipe too far: the summary does not show them. *)
Theorem summary_shows_checkpoints_refuted : exists E P p name i, reachable E p /\ In (name, i) (checkpoints p) /\
  checkpoints_shown (summary P p) = [(1, repr_str P (lit "first"))] /\ name <> lit "first" /\ length (checkpoints p) = 2%nat.
Proof.
  pose (p := fst (add_op pipe_new lower_ (Some (lit "first")))). pose (q := fst (add_op pipe_new chars_ (Some (lit "second")))).
  exists env0, ascii, (fst (iadd p q)), (lit "second"), 3. split; [|split; [|split; [|split]]].
  - apply r_iadd; apply r_add_op; try apply r_new; eapply made_plain; [instantiate (1 := lit "Lowercase")|instantiate (1 := lit "CharTokenizer")]; reflexivity.
  - right. left. reflexivity.
  - reflexivity.
  - discriminate.
  - reflexivity.
Qed.

(** Different operators with the same text: only two items of a dict are shown. *)
Definition table_ (z : Z) : jval :=
  JDict [(lit "<unk>", JInt 0); (lit "a", JInt 1); (lit "b", JInt z); (lit "c", JInt (5 - z))].
Lemma table_value z : value (table_ z).
Proof.
  cbn. split; [|repeat split; unfold text; apply Forall_forall; intros c HI;
    repeat (destruct HI as [<-|HI]; [vm_compute; discriminate|]); destruct HI].
  repeat constructor; cbn; intros HI; repeat (destruct HI as [HI|HI]; [discriminate|]); destruct HI.
Qed.
Theorem op_str_distinguishes_refuted : exists E P a b, made E a /\ made E b /\ op_str P a = op_str P b /\ op_eqb a b = false.
Proof.
  exists env0, ascii, (op_of "Token2Index" [table_ 2] []), (op_of "Token2Index" [table_ 3] []).
  split; [|split; [|split; reflexivity]].
  - exists (lit "Token2Index"), [table_ 2], []. split; [constructor; [apply table_value|constructor]|].
    split; [split; [constructor|exact I]|reflexivity].
  - exists (lit "Token2Index"), [table_ 3], []. split; [constructor; [apply table_value|constructor]|].
    split; [split; [constructor|exact I]|reflexivity].
Qed.
(** Equal operators with different texts: the arguments are shown in the order of the call. *)
Theorem equal_texts_refuted : exists E P a b, made E a /\ made E b /\ op_eqb a b = true /\ op_str P a <> op_str P b.
Proof.
  pose (s := (lit "start_token", JStr (lit "a"))). pose (e := (lit "end_token", JStr (lit "b"))).
  exists env0, ascii, (op_of "AddSosEos" [] [s; e]), (op_of "AddSosEos" [] [e; s]).
  assert (V : forall k, Permutation k [s; e] -> value (JDict k)).
  { intros k HP. assert (ND : NoDup (map fst k)).
    { apply (Permutation_NoDup (l := [lit "start_token"; lit "end_token"])).
      - symmetry. apply (Permutation_map fst) in HP. exact HP.
      - repeat constructor; cbn; intros HI; repeat (destruct HI as [HI|HI]; [discriminate|]); destruct HI. }
    split; [exact ND|].
    apply Permutation_sym, Permutation_length_2_inv in HP. destruct HP as [-> | ->];
      cbn; repeat split; unfold text; apply Forall_forall; intros c HI;
      repeat (destruct HI as [<-|HI]; [vm_compute; discriminate|]); destruct HI. }
  split; [|split; [|split; [reflexivity|discriminate]]].
  - exists (lit "AddSosEos"), [], [s; e]. split; [constructor|]. split; [apply V, Permutation_refl|reflexivity].
  - exists (lit "AddSosEos"), [], [e; s]. split; [constructor|]. split; [apply V, perm_swap|reflexivity].
Qed.
(** Different entities with the same text. *)
Theorem entity_text_refuted : exists a b, entity_repr a = entity_repr b /\ a <> b.
Proof.
  exists (mkEntity 1 (lit "x") 0 1 [lit "y"; lit "z"]), (mkEntity 1 (lit "x") 0 1 [lit "y, z"]). split; [reflexivity|discriminate].
Qed.
Example ex_texts : span_str (2, 5)%nat = lit "(2, 5)" /\ repl_str (mkR 1 2 (lit "ab")) = lit "(1, 2) => 'ab'" /\
  intent_repr (-3) = lit "<Intent -3>" /\ custom_repr ascii (JDict [(lit "a", JInt 1)]) = lit "{'a': 1, ...}" /\
  custom_repr ascii (JStr (lit "a text that is longer than thirty characters")) = lit "'a text that ...ty characters'".
Proof. repeat split. Qed.
