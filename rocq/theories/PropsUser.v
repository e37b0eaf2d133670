(** Property theorems C68 to C71 (operators written by users and pipes of them).  The concrete
    cases that meet the hypotheses are in [UserPipeWitness.v] and [UserOpsWitness.v]. *)

From Verif Require Import Py Edit Labels SpecEdit SpecLabels SpecSeg SpecWords SpecScan SpecOps Ops Elements Pipe
  UserPipe SpecUserPipe UserPipeProofs UserPipeWitness UserOps SpecUserOps UserOpsProofs UserOpsWitness.

(** C68 *)
Theorem C68_stepwise : forall (V T : Type) (isinst : V -> T -> bool) (ops : list (uop V T)) x y als coll,
  urun isinst ops x = Ok (y, als, coll) <-> user_stepwise isinst ops x y als coll.
Proof. exact @user_runs. Qed.
Print Assumptions C68_stepwise.

Theorem C68_chained : forall (V T : Type) (ET : Eqb T) (h : list (uop V T * option str)),
  user_chained (u_steps (after_adds upipe_new h)).
Proof. exact @adds_chained. Qed.
Print Assumptions C68_chained.

Theorem C68_failure : forall (V T : Type) (isinst : V -> T -> bool) (ops : list (uop V T)) x e, user_chained ops -> urun isinst ops x = Err e ->
  exists k o u, nth_error ops k = Some o /\
    (exists al co, urun isinst (firstn k ops) x = Ok (u, al, co)) /\
    ((k = 0 /\ isinst x (u_in o) = false /\ e = TypeErr) \/
     (isinst u (u_in o) = true /\ u_run o u = Err e) \/
     (isinst u (u_in o) = true /\
      exists y a, u_run o u = Ok (y, a) /\ isinst y (u_out o) = false /\ e = TypeErr)).
Proof. exact @user_first_failure. Qed.
Print Assumptions C68_failure.

Theorem C68_no_type_error : forall (V T : Type) (isinst : V -> T -> bool) (ops : list (uop V T)) x, user_chained ops ->
  (forall o, nth_error ops 0 = Some o -> isinst x (u_in o) = true) ->
  (forall o u y a, In o ops -> isinst u (u_in o) = true -> u_run o u = Ok (y, a) -> isinst y (u_out o) = true) ->
  (forall o u e, In o ops -> u_run o u = Err e -> e <> TypeErr) ->
  urun isinst ops x <> Err TypeErr.
Proof. exact @user_no_type_error. Qed.
Print Assumptions C68_no_type_error.

Theorem C68_checkpoint : forall (V T : Type) (ET : Eqb T) (isinst : V -> T -> bool) h k o name x y als coll,
  adds_succeed (upipe_new (V:=V) (T:=T)) h -> nth_error h k = Some (o, Some name) ->
  urun isinst (u_steps (after_adds upipe_new h)) x = Ok (y, als, coll) ->
  exists v, urun isinst (map fst (firstn (S k) h)) x = Ok (v, firstn (S k) als, firstn (S (S k)) coll) /\
    uget (u_checkpoints (after_adds upipe_new h)) coll name = Ok v.
Proof. exact @user_checkpoint. Qed.
Print Assumptions C68_checkpoint.

Theorem C68_unknown_checkpoint : forall (V T : Type) (ET : Eqb T) (h : list (uop V T * option str)) (coll : list V) name,
  (forall o, ~ In (o, Some name) h) ->
  uget (u_checkpoints (after_adds upipe_new h)) coll name = Err KeyErr.
Proof. exact @user_unknown_checkpoint. Qed.
Print Assumptions C68_unknown_checkpoint.

Theorem C68_concatenation : forall (V T : Type) (ET : Eqb T) (isinst : V -> T -> bool) (p q : upipe V T),
  snd (uiadd p q) = None ->
  u_steps p <> [] /\ u_steps q <> [] /\
  u_steps (fst (uiadd p q)) = u_steps p ++ u_steps q /\
  (user_chained (u_steps p) -> user_chained (u_steps q) -> user_chained (u_steps p ++ u_steps q)) /\
  forall x, urun isinst (u_steps (fst (uiadd p q))) x =
    ('(y, al, co) <- urun isinst (u_steps p) x ;; '(z, al', co') <- urun isinst (u_steps q) y ;;
     Ok (z, al ++ al', co ++ tl co')).
Proof. exact @user_concat. Qed.
Print Assumptions C68_concatenation.

Theorem C68_concatenation_refused : forall (V T : Type) (ET : Eqb T) (p q : upipe V T) e, snd (uiadd p q) = Some e ->
  fst (uiadd p q) = p /\
  ((e = IndexErr /\ (u_steps p = [] \/ u_steps q = [])) \/
   (e = TypeErr /\ exists a b, last_opt (u_steps p) = Some a /\ nth_error (u_steps q) 0 = Some b /\ u_out a <> u_in b) \/
   (e = KeyErr /\ exists n, In n (map fst (u_checkpoints p)) /\ In n (map fst (u_checkpoints q)))).
Proof. exact @user_concat_error. Qed.
Print Assumptions C68_concatenation_refused.

(** C69 *)
Theorem C69_lengths : forall (V T : Type) (isinst : V -> T -> bool) (len : V -> nat) (ops : list (uop V T)) x y als coll l l',
  Forall (honest len) ops -> ops <> [] -> urun isinst ops x = Ok (y, als, coll) ->
  (ualign_all als l = Ok l' -> length l = len x /\ length l' = len y) /\
  (ualign_inverse_all als l = Ok l' -> length l = len y /\ length l' = len x).
Proof. exact @user_labels_lengths. Qed.
Print Assumptions C69_lengths.

Theorem C69_total : forall (V T : Type) (isinst : V -> T -> bool) (len : V -> nat) (ops : list (uop V T)) x y als coll,
  Forall (honest len) ops -> ops <> [] -> urun isinst ops x = Ok (y, als, coll) ->
  (Forall total_forward als -> forall l, length l = len x -> exists l', ualign_all als l = Ok l') /\
  (Forall total_backward als -> forall l, length l = len y -> exists l', ualign_inverse_all als l = Ok l').
Proof. exact @user_labels_total. Qed.
Print Assumptions C69_total.

Theorem C69_wrong_length : forall (V T : Type) (isinst : V -> T -> bool) (len : V -> nat) (ops : list (uop V T)) x y als coll l,
  Forall (honest len) ops -> ops <> [] -> urun isinst ops x = Ok (y, als, coll) ->
  (length l <> len x -> ualign_all als l = Err ValueErr) /\
  (length l <> len y -> ualign_inverse_all als l = Err ValueErr).
Proof. exact @user_labels_refused. Qed.
Print Assumptions C69_wrong_length.

Theorem C69_round_trip : forall als, Forall undoes als -> forall l l',
  ualign_all als l = Ok l' -> ualign_inverse_all als l' = Ok l.
Proof. exact undone_all. Qed.
Print Assumptions C69_round_trip.

Theorem C69_null_aligner : forall n m l l',
  (ualign (unull n m) l = Ok l' <-> l' = l /\ length l = n /\ length l = m) /\
  (ualign_inverse (unull n m) l = Ok l' <-> l' = l /\ length l = n /\ length l = m).
Proof. exact null_aligner. Qed.
Print Assumptions C69_null_aligner.

Theorem C69_errors : forall a l e, ualign a l = Err e ->
  (length l <> ua_in a /\ e = ValueErr) \/ (length l = ua_in a /\ ua_fwd a l = Err e) \/
  (length l = ua_in a /\ exists l', ua_fwd a l = Ok l' /\ length l' <> ua_out a /\ e = ValueErr).
Proof. exact ualign_error. Qed.
Print Assumptions C69_errors.

Theorem C69_inverse_errors : forall a l e, ualign_inverse a l = Err e ->
  (length l <> ua_out a /\ e = ValueErr) \/ (length l = ua_out a /\ ua_bwd a l = Err e) \/
  (length l = ua_out a /\ exists l', ua_bwd a l = Ok l' /\ length l' <> ua_in a /\ e = ValueErr).
Proof. exact inverse_error. Qed.
Print Assumptions C69_inverse_errors.

Theorem C69_every_result_takes_labels_refuted : exists (ops : list (uop val ty)) x y als coll,
  user_chained ops /\ urun is ops x = Ok (y, als, coll) /\
  forall l, ualign_all als l = Err ValueErr /\ ualign_inverse_all als l = Err ValueErr.
Proof. exact labels_refuted. Qed.
Print Assumptions C69_every_result_takes_labels_refuted.

(** The library's own operators are an instance of the general operators of C68 and C69 *)
Theorem C68_library_runs : forall E ops x,
  urun has_type (map (view_op E) ops) x =
  match run E ops x with Ok (y, als, coll) => Ok (y, map (view_aligner E) als, coll) | Err e => Err e end.
Proof. exact library_run. Qed.
Print Assumptions C68_library_runs.

Theorem C69_library_labels : forall E als l,
  ualign_all (map (view_aligner E) als) l = align_all als l /\
  ualign_inverse_all (map (view_aligner E) als) l = align_inverse_all E als l.
Proof. exact library_labels. Qed.
Print Assumptions C69_library_labels.

Theorem C68_library_add_op : forall E p o ck,
  uadd_op (view_pipe E p) (view_op E o) ck = (view_pipe E (fst (add_op p o ck)), snd (add_op p o ck)).
Proof. exact library_add. Qed.
Print Assumptions C68_library_add_op.

Theorem C68_library_concatenation : forall E p q,
  uiadd (view_pipe E p) (view_pipe E q) = (view_pipe E (fst (iadd p q)), snd (iadd p q)).
Proof. exact library_iadd. Qed.
Print Assumptions C68_library_concatenation.

(** C70 *)
Theorem C70_recognizer : forall E find token fwd bwd h k s sg,
  ord_ok (ord_c E) -> in_bounds find -> follows fwd h sg -> follows bwd k (SpecSeg.swap sg) ->
  replaced find (fun _ => token) s 0 sg -> 
  token <> [] \/ ~ touching sg \/ (~ deleted_twice sg /\ forall n, bwd [] n = Ok (repeat 0%Z n)) ->
  olds sg = s /\
  exists a, gives (recognizer E find token fwd bwd) s (SStr (news sg)) a /\
    ualigns a any_labels (length s) (length (news sg)) (relabel h sg) (relabel k (SpecSeg.swap sg)).
Proof. exact recognizer_gives. Qed.
Print Assumptions C70_recognizer.

Theorem C70_recognizer_labels_lost : forall E find token fwd bwd s sg,
  ord_ok (ord_c E) -> in_bounds find -> replaced find (fun _ => token) s 0 sg -> deleted_twice sg ->
  exists a, gives (recognizer E find token fwd bwd) s (SStr (news sg)) a /\
    forall l, length l = length (news sg) -> ualign_inverse a l = Err AssertionErr.
Proof. exact recognizer_lost. Qed.
Print Assumptions C70_recognizer_labels_lost.

Theorem C70_recognizer_output : forall E find token fwd bwd s,
  ord_ok (ord_c E) -> in_bounds find ->
  (exists sg, replaced find (fun _ => token) s 0 sg /\ olds sg = s /\
     exists a, gives (recognizer E find token fwd bwd) s (SStr (news sg)) a) \/
  (stuck find s 0 /\ forall fuel, scan fuel find (fun _ => token) s 0 [] = Err OutOfFuel).
Proof. exact recognizer_output. Qed.
Print Assumptions C70_recognizer_output.

Theorem C70_labels_back_refuted : exists E find token s sg a, ord_ok (ord_c E) /\ in_bounds find /\
  replaced find (fun _ => token) s 0 sg /\
  gives (recognizer E find token get_not_entity get_not_entity) s (SStr (news sg)) a /\
  (forall l, length l = length s -> exists l', ualign a l = Ok l') /\
  (forall l, length l = length (news sg) -> ualign_inverse a l = Err AssertionErr).
Proof. exact labels_back_refuted. Qed.
Print Assumptions C70_labels_back_refuted.

Theorem C70_spacer : forall E test s, ord_ok (ord_c E) ->
  exists a, gives (spacer E test) s (SStr (news (spaced test s))) a /\
    ualigns a any_labels (length s) (length (news (spaced test s)))
      (relabel (around SpecSeg.same) (spaced test s)) (relabel by_entity_mode (SpecSeg.swap (spaced test s))) /\
    forall l, length l = length s -> exists l', ualign a l = Ok l' /\ ualign_inverse a l' = Ok l.
Proof. exact spacer_gives. Qed.
Print Assumptions C70_spacer.

(** C71 *)
Theorem C71_tokenizer : forall E tokenize fwd bwd k s ts ps,
  ord_ok (ord_c E) -> tokenize s = Ok ts -> found ts s ps -> drops fwd bwd k ps ->
  exists a, gives (tokenizer E tokenize fwd bwd) s (SLst (map ETok ts)) a /\
    ualigns a u32_labels (length s) (length ts) (token_labels ps) (char_labels_by k ps) /\
    (forall l, length l = length s -> ualign a l = Ok (token_labels32 ps l)) /\
    (forall l, length l = length ts -> ~ u32_labels l -> ualign_inverse a l = Err OverflowErr).
Proof. exact tokenizer_gives. Qed.
Print Assumptions C71_tokenizer.

Theorem C71_accepted_tokens : forall E tokenize fwd bwd s,
  ord_ok (ord_c E) ->
  (forall e, tokenize s = Err e -> utransform has_type (tokenizer E tokenize fwd bwd) (SStr s) = Err e) /\
  (forall ts, tokenize s = Ok ts ->
     (occurs_in_order ts s -> exists ps, found ts s ps /\ text_of ps = s /\ tokens_of ps = ts /\
        exists a, gives (tokenizer E tokenize fwd bwd) s (SLst (map ETok ts)) a) /\
     (~ occurs_in_order ts s -> utransform has_type (tokenizer E tokenize fwd bwd) (SStr s) = Err ValueErr)).
Proof. exact tokenizer_refuses. Qed.
Print Assumptions C71_accepted_tokens.

Theorem C71_places_unique : forall ts s ps, found ts s ps -> forall ps', found ts s ps' -> ps' = ps.
Proof. exact found_unique. Qed.
Print Assumptions C71_places_unique.

(** Both: the lengths given to the aligners, as C69 asks for, and the library's own subclasses *)
Theorem C70_honest : forall E,
  (forall find token fwd bwd, honest pseq_length (recognizer E find token fwd bwd)) /\
  (forall test, honest pseq_length (spacer E test)) /\
  (forall tokenize fwd bwd, honest pseq_length (tokenizer E tokenize fwd bwd)).
Proof. exact subclasses_honest. Qed.
Print Assumptions C70_honest.

Theorem C70_library : forall E ob u, derived E (o_op ob) u -> forall x,
  utransform has_type u x = utransform has_type (view_op E ob) x.
Proof. exact library_derived. Qed.
Print Assumptions C70_library.
