(** Concrete cases for the theorems on pipes: hypotheses that hold, and refutations. *)

From Coq Require Import String Ascii.
From Verif Require Import Py Edit Labels SpecEdit SpecLabels SpecSeg SpecRuns SpecScan Regex Ops SpecOps
  Concrete OpsWitness Json SpecJson JsonProofs Elements Pipe SpecPipe PipeProofs ObjProofs EqProofs TokProofs
  PipeAlign BertProofs PipeLaws.
From Coq Require Import List.
Local Open Scope Z_scope.

Definition get {A} (x : res A) (d : A) : A := match x with Ok y => y | Err _ => d end.
Definition nothing : opobj := mkObj [] [] Lowercase.
Definition obj (n : string) (args : list jval) : opobj := get (construct env0 (lit n) args []) nothing.

Lemma obj_made n args : forallb valueb args = true ->
  (exists o, construct env0 (lit n) args [] = Ok o) -> made env0 (obj n args).
Proof.
  intros HV [o HO]. exists (lit n), args, []. split; [|split].
  - apply Forall_forall. intros v Hv. apply valueb_ok. rewrite forallb_forall in HV. auto.
  - split; [constructor|exact I].
  - unfold obj, get. now rewrite HO.
Qed.

Lemma after_reachable E h : Forall (fun c => made E (fst c)) h -> forall p, reachable E p -> reachable E (after p h).
Proof.
  induction 1 as [|[o ck] h HM HF IH]; intros p HP; [exact HP|]. cbn [after fold_left fst snd].
  apply IH. now apply r_add_op.
Qed.

(** lower, merge ("m"), tokenize ("t") *)
Definition h1 : list call :=
  [(obj "Lowercase" [], None); (obj "MergeWhiteSpaceCharacters" [], Some (lit "m"));
   (obj "CharTokenizer" [], Some (lit "t"))].
(** pad to 5 ("p") *)
Definition h2 : list call := [(obj "Pad" [JInt 5], Some (lit "p"))].
(** sos, eos *)
Definition h3 : list call := [(obj "AddSosEos" [], None)].
Definition p1 := after pipe_new h1.
Definition p2 := after pipe_new h2.
Definition p3 := after pipe_new h3.

Lemma h1_made : Forall (fun c => made env0 (fst c)) h1.
Proof. repeat constructor; cbn [fst]; apply obj_made; try reflexivity; eexists; reflexivity. Qed.
Lemma h2_made : Forall (fun c => made env0 (fst c)) h2.
Proof. repeat constructor; cbn [fst]; apply obj_made; try reflexivity; eexists; reflexivity. Qed.
Lemma h3_made : Forall (fun c => made env0 (fst c)) h3.
Proof. repeat constructor; cbn [fst]; apply obj_made; try reflexivity; eexists; reflexivity. Qed.
Lemma p1_reachable : reachable env0 p1. Proof. apply after_reachable; [exact h1_made|apply r_new]. Qed.
Lemma p2_reachable : reachable env0 p2. Proof. apply after_reachable; [exact h2_made|apply r_new]. Qed.
Lemma p3_reachable : reachable env0 p3. Proof. apply after_reachable; [exact h3_made|apply r_new]. Qed.

Definition toks_ (l : list string) : pseq := SLst (map (fun s => ETok (txt s)) l).

(** ** C37, C38, C39 *)

Example ex_run : exists als coll,
  transform_sequence env0 p1 (SStr (txt "A  b")) = Ok (toks_ ["a"; " "; "b"]%string, als, coll) /\
  coll = [SStr (txt "A  b"); SStr (txt "a  b"); SStr (txt "a b"); toks_ ["a"; " "; "b"]%string] /\
  align_all als [1; 2; 2; 3] = Ok [1; 2; 3] /\
  align_inverse_all env0 als [1; 2; 3] = Ok [1; 2; 2; 3] /\
  align_all als [1] = Err ValueErr.
Proof. eexists. eexists. split; [reflexivity|]. repeat split; reflexivity. Qed.

Example ex_checkpoint : all_succeed pipe_new h1 /\ exists y als coll,
  transform_sequence env0 p1 (SStr (txt "A  b")) = Ok (y, als, coll) /\
  get_from_checkpoint (checkpoints p1) coll (lit "m") = Ok (SStr (txt "a b")) /\
  get_from_checkpoint (checkpoints p1) coll (lit "t") = Ok y /\
  get_from_checkpoint (checkpoints p1) coll (lit "x") = Err KeyErr.
Proof.
  split; [repeat split|]. do 3 eexists. split; [reflexivity|]. repeat split; reflexivity.
Qed.

(** a checkpoint added after the run is visible through the earlier result *)
Lemma alias_refuted : exists E p o name x y als coll,
  reachable E p /\ transform_sequence E p x = Ok (y, als, coll) /\
  get_from_checkpoint (checkpoints p) coll name = Err KeyErr /\
  get_from_checkpoint (checkpoints (fst (add_op p o (Some name)))) coll name <> Err KeyErr.
Proof.
  exists env0, p1, (obj "Pad" [JInt 5]), (lit "late"), (SStr (txt "A")). do 3 eexists.
  split; [exact p1_reachable|]. split; [reflexivity|]. split; [reflexivity|discriminate].
Qed.

(** a failed call leaves the operator in the pipe *)
Lemma failed_call_refuted : exists E p o name,
  reachable E p /\ made E o /\ snd (add_op p o (Some name)) = Some KeyErr /\
  fst (add_op p o (Some name)) <> p.
Proof.
  exists env0, p1, (obj "AddSosEos" []), (lit "m"). split; [exact p1_reachable|].
  split; [apply obj_made; [reflexivity|eexists; reflexivity]|]. split; [reflexivity|].
  intros H. apply (f_equal (fun p => length (steps p))) in H. discriminate.
Qed.

Definition vocab1 : jval := JDict [(lit "a", JInt 0); (lit "<unk>", JInt 1)].
Definition h4 : list call :=
  [(obj "CharTokenizer" [], None); (obj "Token2Index" [vocab1], None);
   (obj "SpanSubwords" [vocab1], None)].
(** the elements of a list are not checked: a TypeError inside a pipe whose types match *)
Lemma element_types_refuted : exists E p s,
  reachable E p /\ chained (steps p) /\ transform_sequence E p (SStr s) = Err TypeErr.
Proof.
  exists env0, (after pipe_new h4), (txt "a").
  assert (R : reachable env0 (after pipe_new h4)).
  { apply after_reachable; [|apply r_new].
    repeat constructor; cbn [fst]; apply obj_made; try reflexivity; eexists; reflexivity. }
  split; [exact R|]. split; [now apply (reachable_chained env0)|reflexivity].
Qed.

Example ex_mismatch : add_op p1 (obj "Lowercase" []) None = (p1, Some TypeErr).
Proof. reflexivity. Qed.

(** slices with a step are pipes whose types do not match *)
Lemma step_slice_refuted : exists E p q x,
  reachable E p /\ getitem_slice p (Some (-1), None, Some (-1)) = Ok q /\ ~ chained (steps q) /\
  transform_sequence E q x = Err TypeErr.
Proof.
  exists env0, (after pipe_new [(obj "Lowercase" [], None); (obj "CharTokenizer" [], None)]).
  eexists. exists (SStr (txt "a")).
  split; [apply after_reachable; [|apply r_new];
    repeat constructor; cbn [fst]; apply obj_made; try reflexivity; eexists; reflexivity|].
  split; [reflexivity|]. split; [|reflexivity].
  intros H. specialize (H 0%nat _ _ eq_refl eq_refl). discriminate.
Qed.

(** ** C40 *)

Example ex_concat : exists r, concat_pipes p1 p2 = Ok r /\
  steps r = (steps p1 ++ steps p2)%list /\ exists y als coll,
  transform_sequence env0 r (SStr (txt "A b")) = Ok (y, als, coll) /\
  y = toks_ ["a"; " "; "b"; "<pad>"; "<pad>"]%string /\
  get_from_checkpoint (checkpoints r) coll (lit "m") = Ok (SStr (txt "a b")) /\
  get_from_checkpoint (checkpoints r) coll (lit "p") = Err IndexErr.
Proof.
  eexists. split; [reflexivity|]. split; [reflexivity|]. do 3 eexists. split; [reflexivity|].
  repeat split; reflexivity.
Qed.

Lemma right_checkpoints_refuted : exists E p q r x y als coll m als1 coll1 y2 als2 coll2 name,
  reachable E p /\ reachable E q /\ concat_pipes p q = Ok r /\
  transform_sequence E r x = Ok (y, als, coll) /\
  transform_sequence E p x = Ok (m, als1, coll1) /\
  transform_sequence E q m = Ok (y2, als2, coll2) /\
  get_from_checkpoint (checkpoints q) coll2 name = Ok y2 /\
  get_from_checkpoint (checkpoints r) coll name = Err IndexErr.
Proof.
  exists env0, p1, p2. eexists. exists (SStr (txt "A b")). do 9 eexists. exists (lit "p").
  split; [exact p1_reachable|]. split; [exact p2_reachable|]. split; [reflexivity|].
  split; [reflexivity|]. split; [reflexivity|]. split; [reflexivity|]. split; reflexivity.
Qed.

Lemma not_associative_refuted : exists E p q r pq qr a b,
  reachable E p /\ reachable E q /\ reachable E r /\
  concat_pipes p q = Ok pq /\ concat_pipes pq r = Ok a /\
  concat_pipes q r = Ok qr /\ concat_pipes p qr = Ok b /\ pipe_eqb a b = false.
Proof.
  exists env0, p1, p2, p3. do 4 eexists. split; [exact p1_reachable|]. split; [exact p2_reachable|].
  split; [exact p3_reachable|]. repeat split; reflexivity.
Qed.

Lemma neutral_refuted : exists E p, reachable E p /\
  concat_pipes pipe_new p = Err IndexErr /\ concat_pipes p pipe_new = Err IndexErr.
Proof. exists env0, p1. split; [exact p1_reachable|]. split; reflexivity. Qed.

(** ** C41 *)

Example ex_item : exists a b c, steps p1 = [a; b; c] /\ getitem p1 1 = Ok b /\
  getitem p1 (-1) = Ok c /\ getitem p1 3 = Err IndexErr /\ getitem p1 (-4) = Err IndexErr.
Proof. do 3 eexists. repeat split; reflexivity. Qed.
Example ex_slice : exists q, getitem_slice p1 (Some 1, Some 3, None) = Ok q /\
  length (steps q) = 2%nat /\ checkpoints q = [(lit "m", 1); (lit "t", 2)] /\ in_range p1.
Proof.
  eexists. split; [reflexivity|]. split; [reflexivity|]. split; [reflexivity|]. apply after_in_range.
Qed.

(** a checkpoint behind the slice is kept, and cannot be looked up *)
Lemma slice_checkpoint_refuted : exists E p q x y als coll name,
  reachable E p /\ getitem_slice p (Some 0, Some 2, None) = Ok q /\
  In name (map fst (checkpoints q)) /\
  transform_sequence E q x = Ok (y, als, coll) /\
  get_from_checkpoint (checkpoints q) coll name = Err IndexErr.
Proof.
  exists env0, p1. eexists. exists (SStr (txt "A b")). do 3 eexists. exists (lit "t").
  split; [exact p1_reachable|]. split; [reflexivity|]. split; [right; now left|]. split; reflexivity.
Qed.

(** a negative start gives wrong checkpoints *)
Lemma negative_start_refuted : exists E p q x y als coll name v y2 als2 coll2 w,
  reachable E p /\ getitem_slice p (Some (-3), None, None) = Ok q /\ steps q = steps p /\
  transform_sequence E p x = Ok (y, als, coll) /\
  get_from_checkpoint (checkpoints p) coll name = Ok v /\
  transform_sequence E q x = Ok (y2, als2, coll2) /\
  get_from_checkpoint (checkpoints q) coll2 name = w /\ w <> Ok v.
Proof.
  exists env0, p1. eexists. exists (SStr (txt "A b")). do 3 eexists. exists (lit "m"). do 5 eexists.
  split; [exact p1_reachable|]. split; [reflexivity|]. split; [reflexivity|].
  split; [reflexivity|]. split; [reflexivity|]. split; [reflexivity|]. split; [reflexivity|].
  discriminate.
Qed.

Lemma no_start_refuted : exists E p, reachable E p /\ getitem_slice p (None, None, None) = Err TypeErr.
Proof. exists env0, p1. split; [exact p1_reachable|reflexivity]. Qed.

(** ** C42, C43 *)

Example ex_serial : Forall text (map fst (checkpoints p1)) /\
  (forall o, In o (steps p1) -> In (o_class o) imported) /\
  pipe_deserialize env0 imported (pipe_serialize p1) = Ok p1.
Proof.
  split; [repeat constructor; cbn; lia|].
  split; [|reflexivity]. intros o HO. cbn in HO.
  repeat (destruct HO as [<-|HO]; [cbn; tauto|]). destruct HO.
Qed.

Definition words_tuple : jval := JTuple [JStr (lit "ab"); JStr (lit "c")].
(** a tuple comes back as a list, and the operators are not equal any more *)
Lemma tuple_refuted : exists E o,
  made E o /\ In (o_class o) imported /\ exists o',
  op_deserialize E imported (op_serialize o) = Ok o' /\ op_eqb o o' = false.
Proof.
  exists env0, (obj "CustomWordTokenizer" [words_tuple]).
  split; [apply obj_made; [reflexivity|eexists; reflexivity]|]. split; [cbn; tauto|].
  eexists. split; reflexivity.
Qed.

(** a pipe with an AddEndToken cannot be read by a process that imported uttut.pipeline.ops *)
Lemma end_token_refuted : exists E p, reachable E p /\
  pipe_deserialize E imported (pipe_serialize p) = Err KeyErr.
Proof.
  exists env0, (after pipe_new [(obj "AddEndToken" [], None)]).
  split; [apply after_reachable; [|apply r_new];
    repeat constructor; cbn [fst]; apply obj_made; try reflexivity; eexists; reflexivity|reflexivity].
Qed.

Example ex_configs : exists o,
  construct env0 (lit "Pad") [JInt 5] [] = Ok o /\
  o_configs o = [(lit "maxlen", JInt 5); (lit "pad_token", JStr (lit "<pad>"))].
Proof. eexists. split; reflexivity. Qed.

Example ex_configs_kw : exists o,
  construct env0 (lit "Pad") [] [(lit "pad_token", JStr (lit "x")); (lit "maxlen", JInt 5)] = Ok o /\
  op_eqb o (obj "Pad" [JInt 5; JStr (lit "x")]) = true /\ op_eqb o (obj "Pad" [JInt 5]) = false.
Proof. eexists. repeat split; reflexivity. Qed.

(** the same behaviour, but different operators *)
Lemma default_refuted : exists E a b,
  made E a /\ made E b /\ equivalent (o_op a) (o_op b) /\ op_eqb a b = false.
Proof.
  exists env0, (obj "PureNum2Token" []), (obj "PureNum2Token" [JStr NUM_TOKEN]).
  split; [apply obj_made; [reflexivity|eexists; reflexivity]|].
  split; [apply obj_made; [reflexivity|eexists; reflexivity]|].
  split; [apply equivalent_refl|reflexivity].
Qed.

(** ** C44 *)

Lemma env0_regexes : regexes env0.
Proof.
  intros a find. unfold env0. cbn [re_compile]. unfold re_compile0.
  destruct (dict_get re_table a) as [r|]; [|discriminate]. intros [= <-]. apply ScanProofs.search_in_bounds.
Qed.

Definition h5 : list call :=
  [(obj "ReplaceAwithB" [JStr (txt "x"); JStr []], None); (obj "CharTokenizer" [], None)].
Lemma whole_pipe_refuted : exists E p x y als coll l,
  python E /\ regexes E /\ reachable E p /\ transform_sequence E p x = Ok (y, als, coll) /\
  length l = pseq_length y /\ u32_labels l /\ align_inverse_all E als l = Err AssertionErr.
Proof.
  exists env0, (after pipe_new h5), (SStr (txt "xx")). do 3 eexists. exists [].
  split; [exact env0_python|]. split; [exact env0_regexes|].
  split; [apply after_reachable; [|apply r_new];
    repeat constructor; cbn [fst]; apply obj_made; try reflexivity; eexists; reflexivity|].
  split; [reflexivity|]. split; [reflexivity|]. split; [constructor|reflexivity].
Qed.

Example ex_whole : python env0 /\ regexes env0 /\ reachable env0 p1 /\ u32_labels [1; 2; 3].
Proof.
  split; [exact env0_python|]. split; [exact env0_regexes|]. split; [exact p1_reachable|].
  repeat constructor; lia.
Qed.

(** ** C53 *)

Definition labelled (E : env) (p : res pipe) (x : pseq) (l l' : list Z) : option (pseq * res (list Z) * res (list Z)) :=
  match p with
  | Ok p => match transform_sequence E p x with
            | Ok (y, als, _) => Some (y, align_all als l, align_inverse_all E als l')
            | Err _ => None
            end
  | Err _ => None
  end.

Example ex_basic :
  labelled env0 (basic_pipe env0) (SStr (txt " Ab,c  D.")) [1; 2; 2; 3; 4; 5; 5; 6; 7] [2; 3; 4; 6; 7] =
  Some (toks_ ["ab"; ","; "c"; "d"; "."]%string, Ok [2; 3; 4; 6; 7], Ok [0; 2; 2; 3; 4; 0; 0; 6; 7]).
Proof. vm_compute. reflexivity. Qed.

Example ex_full :
  labelled env0 (full_pipe env0) (SStr (txt "UNwanted, X")) [1; 1; 2; 2; 2; 2; 2; 2; 3; 0; 4] [1; 2; 3; 4; 5] =
  Some (toks_ ["un"; "##want"; "##ed"; ","; "[UNK]"]%string, Ok [2; 2; 2; 3; 4],
        Ok [1; 1; 1; 1; 1; 1; 1; 1; 4; 0; 5]).
Proof. vm_compute. reflexivity. Qed.

Definition E_acute : Z := 201.       (* U+00C9 *)
Definition NE : Z := 8800.           (* U+2260 *)

Lemma capital_refuted : exists E p s t als coll, python E /\ basic_pipe E = Ok p /\
  transform_sequence E p (SStr s) = Ok (SLst [ETok t], als, coll) /\
  exists c, In c t /\ ascii_capital c = true.
Proof.
  exists env0. eexists. exists [E_acute]. do 3 eexists. split; [exact env0_python|].
  split; [reflexivity|]. split; [reflexivity|]. eexists. split; [now left|reflexivity].
Qed.

Lemma glued_refuted : exists E p s t als coll, python E /\ basic_pipe E = Ok p /\
  transform_sequence E p (SStr s) = Ok (SLst [ETok t], als, coll) /\
  exists c, In c t /\ punctuation E c = true /\ t <> [c].
Proof.
  exists env0. eexists. exists (txt "a" ++ [NE] ++ txt "b")%list. do 3 eexists. split; [exact env0_python|].
  split; [reflexivity|]. split; [reflexivity|]. exists 61. split; [right; now left|].
  split; [reflexivity|discriminate].
Qed.

Example ex_plain : exists ps, cut (by_punct_cjk env0) (map lower (txt " Ab,c")) ps /\
  let u := joined blank (tokens_of (kept ps)) in stripped env0 u = u.
Proof.
  exists (cut_by (by_punct_cjk env0) (map lower (txt " Ab,c"))). split; [apply cut_by_cut|reflexivity].
Qed.

(** a precomposed letter whose decomposition has two base characters: an AssertionError *)
Example ex_hangul : exists p, basic_pipe env0 = Ok p /\
  transform_sequence env0 p (SStr [44032]) = Err AssertionErr.
Proof. eexists. split; reflexivity. Qed.
