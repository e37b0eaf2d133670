(** Concrete slices with steps, and calls of [add]. *)

From Coq Require Import String.
From Verif Require Import Py Ops Json Elements Pipe SpecPipe SpecSlice SliceProofs Concrete.
From Coq Require Import List Lia.
Local Open Scope Z_scope.

Definition six : pipe := fold_left (fun p n => fst (add env0 imported p (lit n) None None))
  ["Lowercase"; "IntToken"; "FloatToken"; "MergeWhiteSpaceCharacters"; "StripWhiteSpaceCharacters"; "CharTokenizer"]%string pipe_new.
Definition names (r : res pipe) : list str := match r with Ok q => map o_class (steps q) | Err _ => [] end.

Example ex_forward : names (getitem_slice six (Some (-5), Some 100, Some 2)) =
  map lit ["IntToken"; "MergeWhiteSpaceCharacters"; "CharTokenizer"]%string.
Proof. reflexivity. Qed.
Example ex_backward : names (getitem_slice six (Some 100, Some 0, Some (-2))) =
  map lit ["CharTokenizer"; "MergeWhiteSpaceCharacters"; "IntToken"]%string.
Proof. reflexivity. Qed.
Example ex_zero : getitem_slice six (Some 1, None, Some 0) = Err ValueErr.
Proof. reflexivity. Qed.
Example ex_sliced : sliced 6 (Some 100) (Some 0) (-2) 3 /\ ~ sliced 6 (Some 100) (Some 0) (-2) 2 /\ ~ sliced 6 (Some 100) (Some 0) (-2) 0.
Proof.
  split; [split; [lia|]; exists 1; cbn; lia|]. split; intros [_ (k & HK & E & _)];
    [change (2 = 5 + k * -2) in E|change (0 = 5 + k * -2) in E]; lia.
Qed.
Example ex_add : snd (add env0 imported six (lit "AddEndToken") None None) = Some KeyErr /\
  snd (add env0 imported six (lit "Pad") None None) = Some TypeErr /\
  checkpoints (fst (add env0 imported six (lit "Pad") (Some [(lit "maxlen", JInt 3)]) (Some (lit "end")))) = [(lit "end", 7)].
Proof. repeat split. Qed.
