(** Subclasses that are not in the library, meeting the hypotheses of C70 and C71. *)

From Coq Require Import String.
From Verif Require Import Py Edit Labels SpecEdit SpecSeg SpecWords SpecScan SpecOps SegProofs ScanProofs Regex Ops
  Elements Pipe UserPipe SpecUserPipe UserPipeProofs UserOps SpecUserOps UserOpsProofs Concrete.
From Coq Require Import List Lia.

(** the aligner of a successful call *)
Definition aligner_of (o : uop pseq seqtype) (s : str) : ualigner :=
  match utransform has_type o (SStr s) with Ok (_, a) => a | Err _ => unull 0 0 end.
Lemma gives_by o s y : match utransform has_type o (SStr s) with Ok (z, _) => z = y | Err _ => False end ->
  gives o s y (aligner_of o s).
Proof. unfold gives, aligner_of. destruct (utransform has_type o (SStr s)) as [[z a]|]; [now intros ->|contradiction]. Qed.

(** A recogniser for "www" or "lol", replaced by "_fun_"; the labels forward are those of a user
    function: the last label, repeated. *)
Definition fun_find : finder := search (RAlt (RLit (lit "www")) (RLit (lit "lol"))).
Definition last_rule : rule := fun ls n => repeat (last ls 0%Z) n.
Definition last_label : transducer := fun ls n => Ok (last_rule ls n).
Definition fun_token : uop pseq seqtype :=
  recognizer env0 fun_find (lit "_fun_") last_label get_most_common_except_not_entity.
Definition fun_pieces : list (seg Z) :=
  [(lit "a ", None); (lit "lol", Some (lit "_fun_")); (lit "! ", None); (lit "www", Some (lit "_fun_")); ([], None)].

Example ex_fun_found : replaced fun_find (fun _ => lit "_fun_") (lit "a lol! www") 0 fun_pieces.
Proof.
  set (s := lit "a lol! www"). set (f := fun _ : str => lit "_fun_").
  exact (rep_match fun_find f s 0 2 5 _ ltac:(vm_compute; lia) eq_refl
    (rep_match fun_find f s 5 7 10 _ ltac:(vm_compute; lia) eq_refl (rep_end fun_find f s 10 (or_introl eq_refl)))).
Qed.
Example ex_fun_rules : in_bounds fun_find /\ follows last_label last_rule fun_pieces /\
  follows get_most_common_except_not_entity by_entity_mode (SpecSeg.swap fun_pieces).
Proof.
  split; [apply search_in_bounds|]. split; [|exact (rule_except _)].
  intros o v ls _ _. split; [reflexivity|]. apply repeat_length.
Qed.
Example ex_fun : exists a, gives fun_token (lit "a lol! www") (SStr (lit "a _fun_! _fun_")) a /\
  ualign a [1; 1; 2; 3; 4; 5; 6; 7; 8; 9]%Z = Ok [1; 1; 4; 4; 4; 4; 4; 5; 6; 9; 9; 9; 9; 9]%Z /\
  ualign_inverse a [1; 1; 0; 4; 4; 0; 0; 5; 6; 9; 9; 0; 7; 0]%Z = Ok [1; 1; 4; 4; 4; 5; 6; 9; 9; 9]%Z.
Proof. eexists. split; [apply gives_by; vm_compute; reflexivity|]. split; vm_compute; reflexivity. Qed.

(** A pattern that may match the empty text. *)
Definition loose : finder := search (RStar (fun c => (c =? 97)%Z)).
Example ex_stuck : stuck loose (lit "aab") 0.
Proof. apply (stuck_later _ _ 0 0 2); [vm_compute; lia|reflexivity|]. apply stuck_here; [vm_compute; lia|reflexivity]. Qed.

(** Deleting touching matches: the labels cannot be taken back. *)
Definition pairs : uop pseq seqtype := recognizer env0 (search (RLit (lit "aa"))) [] get_not_entity get_not_entity.
Theorem labels_back_refuted : exists E find token s sg a, ord_ok (ord_c E) /\ in_bounds find /\
  replaced find (fun _ => token) s 0 sg /\
  gives (recognizer E find token get_not_entity get_not_entity) s (SStr (news sg)) a /\
  (forall l, length l = length s -> exists l', ualign a l = Ok l') /\
  (forall l, length l = length (news sg) -> ualign_inverse a l = Err AssertionErr).
Proof.
  exists env0, (search (RLit (lit "aa"))), [], (lit "aaaa"),
    [([], None); (lit "aa", Some []); ([], None); (lit "aa", Some []); ([], None)].
  eexists. split; [exact (fun l => Permutation.Permutation_refl l)|]. split; [apply search_in_bounds|]. split; [|split; [|split]].
  - set (s := lit "aaaa"). set (f := fun _ : str => @nil Z). set (find := search _).
    exact (rep_match find f s 0 0 2 _ ltac:(vm_compute; lia) eq_refl
      (rep_match find f s 2 2 4 _ ltac:(vm_compute; lia) eq_refl (rep_end find f s 4 (or_introl eq_refl)))).
  - apply gives_by. vm_compute. reflexivity.
  - intros [|a [|b [|c [|d [|e l]]]]] HL; try discriminate. eexists. cbv. reflexivity.
  - intros [|a l] HL; [|discriminate]. vm_compute. reflexivity.
Qed.

(** Spaces around digits. *)
Definition digits : uop pseq seqtype := spacer env0 (fun c => ((48 <=? c) && (c <=? 57))%Z).
Example ex_digits : exists a, gives digits (lit "a1b") (SStr (lit "a 1 b")) a /\
  ualign a [5; 6; 7]%Z = Ok [5; 0; 6; 0; 7]%Z /\ ualign_inverse a [5; 6; 6; 0; 7]%Z = Ok [5; 6; 7]%Z /\
  ualign a [5; 6]%Z = Err ValueErr.
Proof. eexists. split; [apply gives_by; vm_compute; reflexivity|]. repeat split; vm_compute; reflexivity. Qed.

(** A tokenizer that splits at commas and keeps empty fields. *)
Fixpoint fields (acc : str) (s : str) : list str :=
  match s with
  | [] => [acc]
  | c :: s => if (c =? 44)%Z then acc :: fields [] s else fields (acc ++ [c]) s
  end.
Definition csv : uop pseq seqtype := tokenizer env0 (fun s => Ok (fields [] s)) get_not_entity get_not_entity.
Definition csv_pieces : list (str * bool) :=
  [(lit "ab", true); ([], true); (lit ",,", false); (lit "c", true)].
Lemma least_start (t rest : str) gap' rest' : [] ++ t ++ rest = gap' ++ t ++ rest' -> length (@nil Z) <= length gap'.
Proof. cbn. lia. Qed.
Example ex_csv_found : fields [] (lit "ab,,c") = [lit "ab"; []; lit "c"] /\
  found [lit "ab"; []; lit "c"] (lit "ab,,c") csv_pieces.
Proof.
  split; [reflexivity|].
  apply (found_next (lit "ab") _ [] (lit ",,c") [([], true); (lit ",,", false); (lit "c", true)]); [apply least_start|].
  apply (found_next [] _ [] (lit ",,c") [(lit ",,", false); (lit "c", true)]); [apply least_start|].
  apply (found_next (lit "c") [] (lit ",,") [] []); [|apply (found_end [])].
  intros [|x [|y g]] r E; cbn; try lia; vm_compute in E; discriminate.
Qed.
Example ex_csv_drops : drops get_not_entity get_not_entity by_zero csv_pieces.
Proof.
  intros gap HI. split; [|split]; [intros ls _; reflexivity|reflexivity|apply repeat_length].
Qed.
Example ex_csv : exists a, gives csv (lit "ab,,c") (SLst (map ETok [lit "ab"; []; lit "c"])) a /\
  ualign a [2; 2; 9; 9; 3]%Z = Ok [2; 0; 3]%Z /\ ualign_inverse a [2; 7; 3]%Z = Ok [2; 2; 0; 0; 3]%Z.
Proof. eexists. split; [apply gives_by; vm_compute; reflexivity|]. split; vm_compute; reflexivity. Qed.

(** Tokens taken at their first place need not be the ones the author meant: "b" is found inside
    "ab". *)
Example ex_first_place : exists a,
  gives (tokenizer env0 (fun _ => Ok [lit "b"]) get_not_entity get_not_entity) (lit "ab b") (SLst [ETok (lit "b")]) a /\
  ualign a [1; 2; 3; 4]%Z = Ok [2]%Z.
Proof. eexists. split; [apply gives_by|]; vm_compute; reflexivity. Qed.
(** Tokens that are not in the text, or in another order. *)
Example ex_refused : ~ occurs_in_order [lit "b"; lit "a"] (lit "ab").
Proof.
  intros H. inversion H as [|gap t ts rest HR [E1 E2] E3]; subst.
  inversion HR as [|gap' t' ts' rest' HR' [E4 E5] E6]; subst.
  destruct gap as [|x [|y [|z gap]]]; vm_compute in E3; try discriminate; injection E3 as; subst;
    destruct gap'; discriminate.
Qed.
Example ex_raises : utransform has_type
  (tokenizer env0 (fun _ => Err KeyErr) get_not_entity get_not_entity) (SStr (lit "a")) = Err KeyErr.
Proof. reflexivity. Qed.
