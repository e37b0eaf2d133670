(** Operators that are not in the library, meeting the hypotheses of C68. *)

From Coq Require Import String.
From Verif Require Import Py Ops SpecOps Elements Pipe UserPipe SpecUserPipe UserPipeProofs.
From Coq Require Import List.

(** Values are numbers or lists of numbers. *)
Inductive val := Num (z : Z) | Seq (l : list Z).
Inductive ty := TNum | TSeq.
#[export] Instance Eqb_ty : Eqb ty.
Proof.
  exists (fun a b => match a, b with TNum, TNum | TSeq, TSeq => true | _, _ => false end).
  intros [|] [|]; constructor; congruence.
Defined.
Definition is (v : val) (t : ty) : bool := match v, t with Num _, TNum | Seq _, TSeq => true | _, _ => false end.
Definition vlen (v : val) : nat := match v with Num _ => 1 | Seq l => length l end.
Definition on_seq (f : list Z -> res (val * ualigner)) (v : val) : res (val * ualigner) :=
  match v with Seq l => f l | Num _ => Err AttributeErr end.

(** reverse the list, and the labels *)
Definition reverse : uop val ty :=
  mkUO TSeq TSeq (on_seq (fun l => Ok (Seq (rev l), mkUA (length l) (length l) (fun m => Ok (rev m)) (fun m => Ok (rev m))))).
(** every element twice; back: every second label *)
Definition twice (l : list Z) : list Z := flat_map (fun x => [x; x]) l.
Fixpoint every_second (l : list Z) : list Z := match l with a :: _ :: l => a :: every_second l | _ => [] end.
Definition double : uop val ty :=
  mkUO TSeq TSeq (on_seq (fun l => Ok (Seq (twice l), mkUA (length l) (length (twice l)) (fun m => Ok (twice m)) (fun m => Ok (every_second m))))).
(** the sum, which must not be negative *)
Definition total : uop val ty :=
  mkUO TSeq TNum (on_seq (fun l => let z := fold_right Z.add 0%Z l in
    if (z <? 0)%Z then Err ValueErr
    else Ok (Num z, mkUA (length l) 1 (fun m => Ok [fold_right Z.max 0%Z m]) (fun m => Ok (repeat (hd 0%Z m) (length l)))))).
(** declares a list and returns a number *)
Definition liar : uop val ty := mkUO TSeq TSeq (on_seq (fun l => Ok (Num 0, unull (length l) 1))).
(** tells its aligner a wrong length *)
Definition careless : uop val ty := mkUO TSeq TSeq (on_seq (fun l => Ok (Seq (twice l), unull (length l) (length l)))).

Lemma twice_length l : length (twice l) = 2 * length l.
Proof. unfold twice. induction l as [|a l IH]; [reflexivity|]. cbn in *. rewrite IH. rewrite Nat.add_succ_r. reflexivity. Qed.
Lemma every_second_twice l : every_second (twice l) = l.
Proof. induction l as [|a l IH]; [reflexivity|]. cbn. f_equal. exact IH. Qed.

Definition steps_ex : list (uop val ty * option str) :=
  [(reverse, None); (double, Some (lit "doubled")); (reverse, None); (total, Some (lit "sum"))].
Definition ops_ex : list (uop val ty) := [reverse; double; reverse].

Example ex_added : adds_succeed upipe_new steps_ex.
Proof. vm_compute. repeat split. Qed.
(** the third call raises TypeError, the fourth KeyError *)
Example ex_history : let h := [(reverse, Some (lit "a")); (total, None); (double, None); (reverse, None)] in
  snd (uadd_op (after_adds upipe_new [(reverse, Some (lit "a")); (total, None)]) double None) = Some TypeErr /\
  snd (uadd_op (after_adds upipe_new [(reverse, Some (lit "a"))]) double (Some (lit "a"))) = Some KeyErr /\
  length (u_steps (after_adds upipe_new h)) = 2.
Proof. vm_compute. repeat split. Qed.
Example ex_chained : user_chained (map fst steps_ex).
Proof. pose proof (adds_chained steps_ex) as Q. rewrite (adds_steps _ _ ex_added) in Q. exact Q. Qed.
Example ex_run : exists als coll, urun is (map fst steps_ex) (Seq [1; 2; 3]%Z) = Ok (Num 12, als, coll) /\
  uget (u_checkpoints (after_adds upipe_new steps_ex)) coll (lit "doubled") = Ok (Seq [3; 3; 2; 2; 1; 1]%Z) /\
  ualign_all als [7; 8; 9]%Z = Ok [9%Z] /\ ualign_inverse_all als [5%Z] = Ok [5; 5; 5]%Z.
Proof. eexists _, _. split; [vm_compute; reflexivity|]. repeat split; vm_compute; reflexivity. Qed.
(** the three ways to fail *)
Example ex_first_input : urun is ops_ex (Num 3) = Err TypeErr.
Proof. vm_compute. reflexivity. Qed.
Example ex_own_error : urun is (map fst steps_ex) (Seq [1; -2]%Z) = Err ValueErr.
Proof. vm_compute. reflexivity. Qed.
Example ex_liar : urun is [reverse; liar; double] (Seq [1]%Z) = Err TypeErr /\ user_chained [reverse; liar; double].
Proof.
  split; [vm_compute; reflexivity|].
  intros [|[|[|k]]] a b; cbn; try discriminate; try (now intros [= <-] [= <-]); destruct k; discriminate.
Qed.

Example ex_honest : Forall (honest vlen) ops_ex.
Proof.
  assert (R : honest vlen reverse).
  { intros [z|l] y a; cbn; [discriminate|]. intros [= <- <-]. cbn. now rewrite rev_length. }
  assert (D : honest vlen double).
  { intros [z|l] y a; cbn; [discriminate|]. intros [= <- <-]. split; reflexivity. }
  exact (Forall_cons _ R (Forall_cons _ D (Forall_cons _ R (Forall_nil _)))).
Qed.
Example ex_labels : exists als coll, urun is ops_ex (Seq [1; 2]%Z) = Ok (Seq [1; 1; 2; 2]%Z, als, coll) /\
  Forall undoes als /\ Forall total_forward als /\ ualign_all als [8; 9]%Z = Ok [8; 8; 9; 9]%Z.
Proof.
  exists [mkUA 2 2 (fun m => Ok (rev m)) (fun m => Ok (rev m));
          mkUA 2 4 (fun m => Ok (twice m)) (fun m => Ok (every_second m));
          mkUA 4 4 (fun m => Ok (rev m)) (fun m => Ok (rev m))].
  exists [Seq [1; 2]%Z; Seq [2; 1]%Z; Seq [2; 2; 1; 1]%Z; Seq [1; 1; 2; 2]%Z].
  split; [reflexivity|]. split; [|split].
  - repeat apply Forall_cons; try apply Forall_nil; intros l l' E; cbn [ua_fwd ua_bwd] in *; injection E as <-.
    + now rewrite rev_involutive.
    + now rewrite every_second_twice.
    + now rewrite rev_involutive.
  - repeat apply Forall_cons; try apply Forall_nil; intros l L; eexists; (split; [reflexivity|]); cbn [ua_in ua_out] in *.
    + now rewrite rev_length.
    + now rewrite twice_length, L.
    + now rewrite rev_length.
  - vm_compute. reflexivity.
Qed.
Example ex_concat : let p := after_adds upipe_new [(reverse, None); (double, Some (lit "d"))] in
  let q := after_adds upipe_new [(reverse, None); (total, Some (lit "s"))] in
  snd (uiadd p q) = None /\ snd (uiadd q p) = Some TypeErr /\ snd (uiadd p p) = Some KeyErr /\ snd (uiadd p upipe_new) = Some IndexErr.
Proof. vm_compute. repeat split. Qed.

(** A pipe may transform a sequence and give aligners that take no labels at all. *)
Theorem labels_refuted : exists (ops : list (uop val ty)) x y als coll,
  user_chained ops /\ urun is ops x = Ok (y, als, coll) /\
  forall l, ualign_all als l = Err ValueErr /\ ualign_inverse_all als l = Err ValueErr.
Proof.
  exists [careless; reverse], (Seq [1]%Z), (Seq [1; 1]%Z), [unull 1 1; mkUA 2 2 (fun m => Ok (rev m)) (fun m => Ok (rev m))],
    [Seq [1]%Z; Seq [1; 1]%Z; Seq [1; 1]%Z].
  split; [|split; [reflexivity|]].
  - intros [|[|k]] a b; cbn; try discriminate; try (now intros [= <-] [= <-]); destruct k; discriminate.
  - intros l. unfold ualign_all, ualign_inverse_all. cbn [foldM rev app]. unfold ualign, ualign_inverse.
    cbn [unull ua_in ua_out ua_fwd ua_bwd bind]. split.
    + destruct (Nat.eqb_spec (length l) 1) as [E|N]; cbn [guard bind]; [|reflexivity]. now rewrite E.
    + destruct (Nat.eqb_spec (length l) 2) as [E|N]; cbn [guard bind]; [|reflexivity].
      rewrite rev_length, E. change (2 =? 2) with true. cbn [guard bind]. rewrite rev_length, E. reflexivity.
Qed.
