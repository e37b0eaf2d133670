(** Concrete renamings, and what fails for other functions (C75). *)

From Coq Require Import QArith String.
From Verif Require Import Py Edit Labels Ops Json Elements SpecElements Pipe SpecRelabel RelabelProofs RelabelElements Concrete.
From Coq Require Import List Lia.
Local Open Scope Z_scope.

Definition al_of (o : op) (s : str) : aligner :=
  match transform_op env0 o (SStr s) with Ok (_, a) => a | Err _ => ANull 0 0 end.
Lemma al_by o s y : match transform_op env0 o (SStr s) with Ok (z, _) => z = y | Err _ => False end ->
  transform_op env0 o (SStr s) = Ok (y, al_of o s).
Proof. unfold al_of. destruct (transform_op env0 o (SStr s)) as [[z a]|]; [now intros ->|contradiction]. Qed.

(** 1 becomes 7, 2 becomes 1 *)
Definition swap12 (x : Z) : Z := if x =? 1 then 7 else if x =? 2 then 1 else x.
Example ex_renaming : renaming swap12 [1; 2; 2; 0; 1].
Proof.
  split; [reflexivity|]. split.
  - intros x y Hx Hy. cbn in Hx, Hy.
    repeat (destruct Hx as [<-|Hx]; [|]); try destruct Hx;
      repeat (destruct Hy as [<-|Hy]; [|]); try destruct Hy; cbn; intros; try reflexivity; discriminate.
  - intros x Hx. cbn in Hx. repeat (destruct Hx as [<-|Hx]; [|]); try destruct Hx; cbn; lia.
Qed.
Example ex_tokens : exists a,
  transform_op env0 WhiteSpaceTokenizer (SStr (lit "ab cd")) = Ok (SLst [ETok (lit "ab"); ETok (lit "cd")], a) /\
  align a [2; 1; 0; 1; 1] = Ok [2; 1] /\ align a (map swap12 [2; 1; 0; 1; 1]) = Ok [1; 7].
Proof.
  eexists. split; [apply al_by; vm_compute; reflexivity|]. split; vm_compute; reflexivity.
Qed.

Definition ent (l : Z) (v : string) (s e : Z) : entity := mkEntity l (lit v) s e [].
Definition flat (l1 l2 : Z) : datum := mkDatum (lit "a b") [] [ent l1 "a" 0 1; ent l2 "b" 2 3].
Example ex_int_renaming : int_renaming swap12 (entity_labels (flat 1 2)).
Proof.
  split; [reflexivity|]. split.
  - intros x y Hx Hy. cbn in Hx, Hy.
    repeat (destruct Hx as [<-|Hx]; [|]); try destruct Hx;
      repeat (destruct Hy as [<-|Hy]; [|]); try destruct Hy; cbn; intros; try reflexivity; discriminate.
  - intros x Hx. cbn in Hx. repeat (destruct Hx as [<-|Hx]; [|]); try destruct Hx; cbn; lia.
Qed.
Example ex_renamed_datum : pack_to_datum (lit "a b") [] [1; 0; 2] = Ok (flat 1 2) /\
  pack_to_datum (lit "a b") [] (map swap12 [1; 0; 2]) = Ok (flat 7 1).
Proof. split; reflexivity. Qed.

(** Confusing two labels changes which one is the most common. *)
Definition merge13 (x : Z) : Z := if x =? 3 then 1 else x.
Theorem confused_refuted : exists E o x y a f l, transform_op E o x = Ok (y, a) /\ f 0 = 0 /\
  align a (map f l) <> renamed f (align a l).
Proof.
  exists env0, WhiteSpaceTokenizer, (SStr (lit "abcde")), (SLst [ETok (lit "abcde")]). eexists.
  exists merge13, [1; 2; 2; 3; 3]. split; [apply al_by; vm_compute; reflexivity|]. split; [reflexivity|].
  vm_compute. discriminate.
Qed.

(** NOT_ENTITY has a meaning of its own. *)
Definition swap01 (x : Z) : Z := if x =? 0 then 1 else if x =? 1 then 0 else x.
Theorem zero_refuted : exists E o x y a f l, transform_op E o x = Ok (y, a) /\ (forall u v, f u = f v -> u = v) /\
  align a (map f l) <> renamed f (align a l).
Proof.
  exists env0, AddWhitespaceAroundPunctuation, (SStr (lit ",")), (SStr (lit " , ")). eexists.
  exists swap01, [1]. split; [apply al_by; vm_compute; reflexivity|]. split.
  - intros u v. unfold swap01. destruct (Z.eqb_spec u 0), (Z.eqb_spec v 0), (Z.eqb_spec u 1), (Z.eqb_spec v 1); lia.
  - vm_compute. discriminate.
Qed.

(** Labels that are no C unsigned ints through an operator that is not a tokenizer, and through a tokenizer (C13). *)
Definition odd (x : Z) : Z := if x =? 1 then -5 else if x =? 2 then 4294967296 else x.
Example ex_free_renaming : free_renaming odd [1; 1; 2; 0; 2].
Proof.
  split; [reflexivity|]. intros x y Hx Hy. cbn in Hx, Hy.
  repeat (destruct Hx as [<-|Hx]; [|]); try destruct Hx;
    repeat (destruct Hy as [<-|Hy]; [|]); try destruct Hy; cbn; intros; try reflexivity; discriminate.
Qed.
Example ex_others : exists a,
  transform_op env0 MergeWhiteSpaceCharacters (SStr (lit "a  bc")) = Ok (SStr (lit "a bc"), a) /\
  align a [1; 1; 2; 0; 2] = Ok [1; 1; 0; 2] /\ align a [-5; -5; 4294967296; 0; 4294967296] = Ok [-5; -5; 0; 4294967296] /\
  align_inverse env0 a [-5; -5; 0; 4294967296] = Ok [-5; -5; -5; 0; 4294967296].
Proof. eexists. split; [apply al_by; vm_compute; reflexivity|]. repeat split; vm_compute; reflexivity. Qed.
Example ex_tokenizer32 : exists a,
  transform_op env0 WhiteSpaceTokenizer (SStr (lit "ab cd")) = Ok (SLst [ETok (lit "ab"); ETok (lit "cd")], a) /\
  align a [-5; 1; 0; 2; 2] = Ok [0; 2] /\ align_inverse env0 a [-5; 2] = Err OverflowErr.
Proof. eexists. split; [apply al_by; vm_compute; reflexivity|]. repeat split; vm_compute; reflexivity. Qed.
