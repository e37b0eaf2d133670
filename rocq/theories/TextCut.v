(** How long numbers and texts are shown in the text of an operator. *)

From Coq Require Import String.
From Verif Require Import Py PyFacts Edit Ops Json JsonAscii Pipe TextForms SpecText.
From Coq Require Import List Lia.
Local Open Scope Z_scope.

Lemma from_end_app j (s t : str) : length t = j -> from_end j (s ++ t) = t.
Proof.
  intros <-. unfold from_end, adj. rewrite app_length. rewrite Nat2Z.inj_add.
  replace (Z.of_nat (length s) + Z.of_nat (length t) - Z.of_nat (length t)) with (Z.of_nat (length s)) by lia.
  destruct (Z.ltb_spec (Z.of_nat (length s)) 0); [lia|].
  replace (Nat.min (length s + length t) (Z.to_nat (Z.of_nat (length s)))) with (length s) by lia.
  rewrite skipn_app, skipn_all, Nat.sub_diag. reflexivity.
Qed.

Lemma three_parts (i j : nat) (s : str) : (i + j <= length s)%nat ->
  exists a m b, s = a ++ m ++ b /\ length a = i /\ length b = j.
Proof.
  intros H. exists (firstn i s), (firstn (length s - i - j) (skipn i s)), (skipn (length s - i - j) (skipn i s)).
  split; [now rewrite firstn_skipn, firstn_skipn|]. rewrite firstn_length, !skipn_length. lia.
Qed.

Theorem long_number P z : (40 < length (dump_int z))%nat ->
  exists a m b, dump_int z = a ++ m ++ b /\ length a = 18%nat /\ length b = 19%nat /\
    custom_repr P (JInt z) = a ++ lit "..." ++ b.
Proof.
  intros H. destruct (three_parts 18 19 (dump_int z)) as (a & m & b & E & HA & HB); [lia|].
  exists a, m, b. split; [exact E|]. split; [exact HA|]. split; [exact HB|].
  change (custom_repr P (JInt z)) with (short_int z). unfold short_int. cbv zeta.
  destruct (Nat.leb_spec (length (dump_int z)) 40) as [Q|_]; [lia|]. unfold cut_middle. rewrite E. f_equal; [|f_equal].
  - rewrite <- HA, firstn_app, Nat.sub_diag, firstn_all, firstn_O, app_nil_r. reflexivity.
  - rewrite app_assoc. now apply from_end_app.
Qed.

Lemma clear_repr P s : Forall clear_char s -> repr_str P s = 39 :: s ++ [39].
Proof.
  intros H. unfold repr_str, quote_of.
  assert (N : memb APOSTROPHE s = false).
  { destruct (memb APOSTROPHE s) eqn:Q; [|reflexivity]. apply memb_In in Q. rewrite Forall_forall in H.
    destruct (H _ Q) as (_ & N & _). now contradiction N. }
  rewrite N. cbn [andb]. cbv zeta. change APOSTROPHE with 39. f_equal. f_equal.
  clear N. induction H as [|c s (H1 & H2 & H3) _ IH]; [reflexivity|]. cbn [flat_map]. rewrite IH.
  unfold repr_char. change BACKSLASH with 92.
  repeat match goal with |- context [?a =? ?b] => destruct (Z.eqb_spec a b); [lia|] end.
  destruct (Z.ltb_spec c 32); [lia|]. cbn [orb]. destruct (Z.ltb_spec c 127); [reflexivity|lia].
Qed.

Lemma Forall_part {A} (P : A -> Prop) (a b : list A) : Forall P (a ++ b) -> Forall P a /\ Forall P b.
Proof. apply Forall_app. Qed.

Theorem long_text P s : Forall clear_char s -> (28 < length s)%nat ->
  exists a m b, s = a ++ m ++ b /\ length a = 12%nat /\ length b = 13%nat /\
    custom_repr P (JStr s) = lit "'" ++ a ++ lit "..." ++ b ++ lit "'".
Proof.
  intros HC HL. destruct (three_parts 12 13 s) as (a & m & b & E & HA & HB); [lia|].
  exists a, m, b. split; [exact E|]. split; [exact HA|]. split; [exact HB|].
  change (custom_repr P (JStr s)) with (short_str P s). unfold short_str. cbv zeta.
  assert (C1 : Forall clear_char (firstn 30 s)).
  { rewrite <- (firstn_skipn 30 s) in HC. now apply Forall_part in HC. }
  rewrite (clear_repr P _ C1). cbn [length]. rewrite app_length, firstn_length. cbn [length].
  destruct (Nat.leb_spec (S (Nat.min 30 (length s) + 1)) 30) as [Q|_]; [lia|].
  destruct (three_parts 13 14 s) as (a' & m' & b' & E' & HA' & HB'); [lia|].
  assert (F1 : firstn 13 s = a').
  { rewrite E', <- HA', firstn_app, Nat.sub_diag, firstn_all, firstn_O, app_nil_r. reflexivity. }
  assert (F2 : from_end 14 s = b') by (rewrite E', app_assoc; now apply from_end_app).
  assert (G1 : firstn 12 a' = a).
  { rewrite <- F1, firstn_firstn. change (Nat.min 12 13) with 12%nat.
    rewrite E, <- HA, firstn_app, Nat.sub_diag, firstn_all, firstn_O, app_nil_r. reflexivity. }
  assert (G2 : exists c, b' = c :: b).
  { destruct b' as [|c b'']; [discriminate HB'|]. exists c. f_equal. cbn [length] in HB'.
    assert (X : from_end 13 s = b'').
    { rewrite E'. replace (a' ++ m' ++ c :: b'') with ((a' ++ m' ++ [c]) ++ b'') by (rewrite <- !app_assoc; reflexivity).
      apply from_end_app. lia. }
    rewrite <- X, E, app_assoc. now apply from_end_app. }
  destruct G2 as (c & G2).
  assert (C2 : Forall clear_char (a' ++ b')).
  { rewrite E' in HC. apply Forall_part in HC. destruct HC as (X & Y). apply Forall_part in Y. apply Forall_app. tauto. }
  rewrite F1, F2, (clear_repr P _ C2). unfold cut_middle. change (lit "'") with [39].
  change (firstn 13 (39 :: (a' ++ b') ++ [39])) with (39 :: firstn 12 ((a' ++ b') ++ [39])).
  rewrite <- app_assoc, firstn_app. rewrite HA'. change (12 - 13)%nat with 0%nat. rewrite firstn_O, app_nil_r, G1.
  cbn [app]. f_equal. f_equal. f_equal.
  rewrite G2. replace (39 :: a' ++ (c :: b) ++ [39]) with ((39 :: a' ++ [c]) ++ (b ++ [39])) by (cbn [app]; rewrite <- !app_assoc; reflexivity).
  apply from_end_app. rewrite app_length, HB. reflexivity.
Qed.

Example ex_long_number : (40 < length (dump_int (- 10 ^ 45)))%nat /\
  custom_repr (fun _ => true) (JInt (- 10 ^ 45)) = lit "-10000000000000000...0000000000000000000".
Proof. split; vm_compute; [lia|reflexivity]. Qed.
Example ex_long_text : Forall clear_char (lit "a text that is longer than thirty characters") /\
  custom_repr (fun _ => true) (JStr (lit "a text that is longer than thirty characters")) = lit "'a text that ...ty characters'".
Proof. split; [|vm_compute; reflexivity]. vm_compute. repeat (constructor; [split; [split; [discriminate|reflexivity]|split; discriminate]|]). constructor. Qed.
