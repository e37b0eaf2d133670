(** Concrete texts of datums and messages, meeting the hypotheses of C86 and C87, and refuted claims. *)

From Coq Require Import String QArith.
From Verif Require Import Py Edit Ops Json Elements Pipe GroupObj Factory TextForms SpecText SpecElements ElementsWitness SpecPipe
  SpecOps SpecOrdinal DatumText SpecDatumText DatumTextProofs Messages SpecMessages MessageProofs Concrete TextWitness.
From Coq Require Import List Lia Permutation.
Local Open Scope Z_scope.

Definition nl : str := [10].

(** ** Texts of datums *)

Example ex_datum_text : datum_repr d0 =
  lit "<Datum fly to LA now" ++ nl ++ lit " with intents: [<Intent 1>, <Intent 3>]" ++ nl ++ lit " with entities:" ++ nl ++
  lit "[<Entity 1: LA at 7 - 9, with replacements: NY, SFO>," ++ nl ++
  lit " <Entity 2: now at 10 - 13, with replacements: >]>".
Proof. vm_compute. reflexivity. Qed.
Example ex_plain : plain_datum d0.
Proof.
  assert (A : forall (c : Z) s, existsb (Z.eqb c) s = false -> ~ In c s).
  { intros c s H HI. assert (existsb (Z.eqb c) s = true); [|congruence]. apply existsb_exists. exists c. split; [exact HI|apply Z.eqb_refl]. }
  split; [apply A; vm_compute; reflexivity|]. repeat constructor; try (apply A; vm_compute; reflexivity); discriminate.
Qed.
Example ex_seven : datum_repr (mkDatum (lit "x") [0; 1; 2; 3; 4; 5; 9] []) =
  lit "<Datum x" ++ nl ++ lit " with intents: [<Intent 0>," ++ nl ++ lit " <Intent 1>," ++ nl ++ lit " <Intent 2>," ++ nl ++
  lit " <Intent 3>," ++ nl ++ lit " <Intent 4>," ++ nl ++ lit " <Intent 5>," ++ nl ++ lit " <Intent 9>]" ++ nl ++
  lit " with entities:" ++ nl ++ lit "[]>".
Proof. vm_compute. reflexivity. Qed.
Example ex_six : exists before after, datum_repr (mkDatum (lit "x") [0; 1; 2; 3; 4; 5] []) =
  before ++ lit "[<Intent 0>, <Intent 1>, <Intent 2>, <Intent 3>, <Intent 4>, <Intent 5>]" ++ after.
Proof. exists (lit "<Datum x" ++ nl ++ lit " with intents: "), (nl ++ lit " with entities:" ++ nl ++ lit "[]>"). vm_compute. reflexivity. Qed.

(** the same text for different replacements *)
Theorem replacements_not_shown : exists d d', is_datum d /\ is_datum d' /\ d_utterance d = d_utterance d' /\ datum_repr d = datum_repr d' /\
  datum_eqb d d' = false.
Proof.
  exists (mkDatum (txt "x") [] [ent 1 "x" 0 1 ["y, z"]%string]), (mkDatum (txt "x") [] [ent 1 "x" 0 1 ["y"; "z"]%string]).
  split; [apply (datum_by (txt "x") [] [ent 1 "x" 0 1 ["y, z"]%string]); vm_compute; reflexivity|].
  split; [apply (datum_by (txt "x") [] [ent 1 "x" 0 1 ["y"; "z"]%string]); vm_compute; reflexivity|].
  repeat split; vm_compute; reflexivity.
Qed.

(** and for different utterances *)
Definition behind : str := nl ++ lit " with intents: []" ++ nl ++ lit " with entities:" ++ nl ++ lit "[<Entity 1: v at 0 - 1, with replacements: ".
Definition short_one : datum := mkDatum (lit "v") [] [mkEntity 1 (lit "v") 0 1 [behind]].
Definition long_one : datum := mkDatum (lit "v" ++ behind) [] [mkEntity 1 (lit "v") 0 1 []].
Theorem utterance_not_shown : exists d d', is_datum d /\ is_datum d' /\ datum_repr d = datum_repr d' /\ d_utterance d <> d_utterance d'.
Proof.
  exists short_one, long_one.
  split; [apply (datum_by (lit "v") [] [mkEntity 1 (lit "v") 0 1 [behind]]); vm_compute; reflexivity|].
  split; [apply (datum_by (lit "v" ++ behind) [] [mkEntity 1 (lit "v") 0 1 []]); vm_compute; reflexivity|].
  split; [vm_compute; reflexivity|]. intros H. apply (f_equal (@length Z)) in H. vm_compute in H. discriminate.
Qed.

(** equal datums may show different texts *)
Theorem equal_shown_apart : exists d d', is_datum d /\ is_datum d' /\ datum_eqb d d' = true /\ datum_repr d <> datum_repr d'.
Proof.
  exists (mkDatum (txt "x") [1] []), (mkDatum (txt "x") [1; 1] []).
  split; [apply (datum_by (txt "x") [1] []); vm_compute; reflexivity|].
  split; [apply (datum_by (txt "x") [1; 1] []); vm_compute; reflexivity|].
  split; [vm_compute; reflexivity|]. intros H. apply (f_equal (@length Z)) in H. vm_compute in H. discriminate.
Qed.

(** ** Messages *)

(** the second entity of the caller is the first by place; its value is not the text there *)
Definition bad : entity := ent 2 "NY" 0 3 []%string.
Example ex_misplaced : first_at (fun e => e_value e <> text_at u0 (e_start e) (e_end e)) [bad; la] 0 bad /\
  datum_message u0 (Some [la; bad]) = Some (Says EntityPositionErr (nl ++
    lit "        Utterance position 0 - 3 expected to be NY," ++ nl ++ lit "        but got fly." ++ nl ++ lit "    ")).
Proof. split; [|vm_compute; reflexivity]. split; [reflexivity|]. split; [vm_compute; discriminate|]. intros; lia. Qed.
Definition wide : entity := ent 3 "to LA now" 4 13 []%string.
Example ex_overlap : first_two (fun a b => e_start b < e_end a) [wide; la; now_] 0 wide la /\
  datum_message u0 (Some [now_; wide; la]) = Some (Says EntityOverlapErr (nl ++
    lit "        For utterance fly to LA now, entity to LA now ends at 13, and entity LA starts at 7," ++ nl ++
    lit "        which are overlapping. Currently, uttut doesn't support overlapping or hierachy entities." ++ nl ++ lit "    ")).
Proof. split; [|vm_compute; reflexivity]. split; [reflexivity|]. split; [reflexivity|]. split; [reflexivity|]. intros; lia. Qed.

(** new values of different types: the number is the place in the order of the set *)
Definition mixed_group : rgroup Z := mkRG [(true, mkR 0 1 [97]); (true, mkR 1 2 [98]); (false, mkR 4 5 [])] false.
Example ex_values : rg_message (fun l => l) false mixed_group =
    Some (Says TypeErr (lit "the new_value of 2-th element is not a(an) str")) /\
  rg_message (@rev _) false mixed_group = Some (Says TypeErr (lit "the new_value of 1-th element is not a(an) list")).
Proof. split; vm_compute; reflexivity. Qed.
Theorem place_added_refuted : exists ord g, (forall l, Permutation (ord l) l) /\ nth_error (rg_items g) 1 = Some (true, mkR 1 2 [98]) /\
  (exists y, first_at (fun y : item Z => fst y <> true) (rg_items g) 2 y) /\
  rg_message ord false g = Some (Says TypeErr (lit "the new_value of 1-th element is not a(an) list")).
Proof.
  exists (@rev _), mixed_group. split; [intros l; apply Permutation_sym, Permutation_rev|]. split; [reflexivity|]. split; [|vm_compute; reflexivity].
  eexists. split; [reflexivity|]. split; [discriminate|]. intros [|[|j]] y HJ HY; [| |lia]; cbn in HY; injection HY as <-; intros N; now apply N.
Qed.
Example ex_overlapped : snd (rg_finish (fun l => l) false (mkRG [(true, mkR 0 2 [97]); (true, mkR 1 3 [98])] false)) = Some ValueErr.
Proof. vm_compute. reflexivity. Qed.

Example ex_spans : map sg_message [mkSG [(0, 2); (1, 3)]%nat false; mkSG [(2, 3); (1, 2)]%nat false; mkSG [(0, 1); (2, 3)]%nat false; mkSG [(1, 2); (0, 1)]%nat false] =
  [Some (Says ValueErr (lit "overlapped")); Some (Says ValueErr (lit "Spans should start from 0"));
   Some (Says ValueErr (lit "Spans should be contiguous.")); None].
Proof. vm_compute. reflexivity. Qed.

Example ex_tokens : lst2str_message [lit "ab"; lit "c"; lit "def"] [(0, 2); (2, 4); (4, 5)]%nat =
  Some (Says ValueErr (lit "1-th element is not compatible.")).
Proof. vm_compute. reflexivity. Qed.
Example ex_tokens_first : first_at (fun x : str * span => length (fst x) <> (snd (snd x) - fst (snd x))%nat)
  (combine [lit "ab"; lit "c"; lit "def"] [(0, 2); (2, 4); (4, 5)]%nat) 1 (lit "c", (2, 4)%nat).
Proof. split; [reflexivity|]. split; [vm_compute; discriminate|]. intros [|j] y HJ HY; [|lia]. cbn in HY. injection HY as <-. intros N. now apply N. Qed.

Definition pipe3 : pipe := after pipe_new history.
Example ex_add : add_op_message pipe3 lower_ None =
    Some (Says TypeErr (lit "InputType of the step op is not valid.Got <class 'str'>, but requires <class 'list'>")) /\
  add_op_message pipe3 pad_ (Some (lit "chars")) = Some (Says KeyErr (lit "duplicated checkpoints: chars")) /\
  add_op_message pipe3 pad_ (Some (lit "new")) = None.
Proof. repeat split; vm_compute; reflexivity. Qed.
Example ex_iadd : iadd_message ascii pipe3 pipe3 =
    Some (Says TypeErr (lit "input/output type of two pipes are not valid. <class 'list'> != <class 'str'>")) /\
  iadd_message ascii (after pipe_new [(lower_, Some (lit "chars"))]) pipe3 =
    Some (Says KeyErr (lit "duplicated checkpoints between: {'chars': 1}, {'chars': 2, 'end': 3}")) /\
  iadd_message ascii pipe_new pipe3 = Some (Says IndexErr (lit "Pipe is empty!")).
Proof. repeat split; vm_compute; reflexivity. Qed.
Example ex_lookup : checkpoint_message (checkpoints pipe3) [] (lit "start") = Some (Says KeyErr (lit "start is not found.")) /\
  index_message (lit "Entity") [(lit "CITY", 1)] 3 = Some (Says KeyErr (lit "Entity index 3 not found")).
Proof. repeat split; vm_compute; reflexivity. Qed.
Example ex_vocabulary : map (fun d => token2index_message d (lit "<unk>"))
  [[(lit "a", 0); (lit "b", 0)]; [(lit "a", 0); (lit "b", 2)]; [(lit "a", 1); (lit "b", 0)]; []; [(lit "<unk>", 1); (lit "b", 0)]] =
  [Some (Says ValueErr (lit "duplicated index")); Some (Says ValueErr (lit "indices are not continuous."));
   Some (Says KeyErr (lit "token2index should have token <unk>")); Some (Python ValueErr); None].
Proof. vm_compute. reflexivity. Qed.
Example ex_ordinal : ordinal_message [(lit "GREET", 0)] [(lit "CITY", 0)] 0 = Some (Says ValueErr (lit "Entity mapping is not valid.")) /\
  ordinal_message [(lit "GREET", 1)] [] 0 = Some (Says ValueErr (lit "Intent mapping is not valid.")) /\
  ordinal_message [(lit "GREET", 0)] [(lit "CITY", 1)] 0 = None.
Proof. repeat split; vm_compute; reflexivity. Qed.

(** ** Replacements *)

Theorem repl_repr_refuted : exists a b c d, repl_repr a c = repl_repr b d /\ a <> b.
Proof.
  exists (mkR 0 1 (lit "x")), (mkR 0 1 (lit "x, annotation=y")), (Some (lit "y, annotation=None")), None.
  split; [vm_compute; reflexivity|]. intros E. injection E as E. discriminate.
Qed.
Example ex_plain_entity : plain_entity la /\ plain_entity now_.
Proof. pose proof ex_plain as (_ & F). split; [inversion F; assumption|inversion F as [|? ? _ F']; inversion F'; assumption]. Qed.
