(** * C85: removing frames with the standard algorithms. *)
From Verif Require Import Base M_Charset M_Payload M_Frame M_TextId M_Lookup M_Move S_Lookup S_Move L_Move L_Move2.
#[local] Open Scope N_scope.

Definition ex_ic : iconv_t := fun _ _ _ b => Some b.
Definition ex_comm (s : bytes) : frame := mkFrame (B "COMM") no_flags (BComm (mkComm 1 (Some 0) (Some [101; 110; 103]) [] s)).
Definition ex_text (id s : bytes) : frame := mkFrame id no_flags (BText (mkText 0 s)).
Definition ex_fs : list frame :=
  [ex_comm (B "first"); ex_text (B "TIT2") (B "a"); ex_text (B "TENC") (B "b"); ex_comm (B "second"); ex_text (B "TPE1") (B "c")].
Definition named_as (id : bytes) (f : frame) : bool := bytes_eqb (f_id f) id.
Definition first_comm (f : frame) : bool :=
  match f_body f with BComm c => bytes_eqb (co_text c) (B "first") | _ => false end.

(** [tag.erase(remove_if(tag.begin(), tag.end(), p), tag.end())] leaves the frames
    for which [p] is false, in their order, for any tag and any predicate under
    which no frame goes that is named like a text frame without being one. *)
Theorem C85_removed_partial : forall v ic st p, typed_history v ic st ->
  (forall f, In f (frames_of st) -> p f = true -> ~ odd_text f) ->
  exists st', erase_remove v p st = Ok st' /\ frames_of st' = kept p (frames_of st).
Proof. exact removed_l. Qed.
Print Assumptions C85_removed_partial.
Example C85_removed_nontrivial : typed_history V23 ex_ic (of_frames ex_fs) /\
  (forall f, In f ex_fs -> named_as (B "TENC") f = true -> ~ odd_text f) /\
  kept (named_as (B "TENC")) ex_fs = [ex_comm (B "first"); ex_text (B "TIT2") (B "a"); ex_comm (B "second"); ex_text (B "TPE1") (B "c")].
Proof.
  split; [apply T_parsed; repeat constructor|]. split; [|vm_compute; reflexivity].
  intros f I P (_ & O). unfold ex_fs in I. cbn [In] in I.
  destruct I as [<-|[<-|[<-|[<-|[<-|[]]]]]]; try (vm_compute in P; discriminate P). exact (O _ eq_refl).
Qed.

(** Whenever it ends normally, the frames left are those; the number of frames
    with each name is right; text lookups find the texts of frames that are left,
    and every text frame left is found. *)
Theorem C85_answers_partial : forall v ic st p st', typed_history v ic st -> erase_remove v p st = Ok st' ->
  frames_of st' = kept p (frames_of st) /\
  (forall id, has_frame st' id = N.of_nat (length (with_id id (kept p (frames_of st))))) /\
  texts_sound st' /\ texts_complete st'.
Proof. exact queries_l. Qed.
Print Assumptions C85_answers_partial.
Example C85_answers_nontrivial : exists st', erase_remove V23 (named_as (B "TENC")) (of_frames ex_fs) = Ok st' /\
  has_frame st' (B "TENC") = 0 /\ has_frame st' (B "COMM") = 2 /\ find_text 0 st' (B "TPE1") = Ok (mkText 0 (B "c")).
Proof. eexists. split; [vm_compute; reflexivity|]. vm_compute. auto. Qed.

(** When nothing that stays stands after anything that goes, the tag left is as
    good as any: all of C21 holds of it. *)
Theorem C85_tail : forall v ic st p fs1 fs2 st', typed_history v ic st -> frames_of st = fs1 ++ fs2 ->
  (forall f, In f fs1 -> p f = false) -> (forall f, In f fs2 -> p f = true) ->
  erase_remove v p st = Ok st' -> typed_history v ic st'.
Proof. exact tail_l. Qed.
Print Assumptions C85_tail.
Example C85_tail_nontrivial : exists st', erase_remove V23 (named_as (B "TPE1")) (of_frames ex_fs) = Ok st' /\
  length (frames_of st') = 4%nat /\ get_frame 0 st' (B "TENC") = Ok (ex_text (B "TENC") (B "b")) /\
  get_comments st' = Ok [f_body (ex_comm (B "first")); f_body (ex_comm (B "second"))].
Proof. eexists. split; [vm_compute; reflexivity|]. vm_compute. auto. Qed.

(** Otherwise lookup by name goes wrong: each frame that stays is still registered
    under the place [i] it had, so that asking for it by name can give whatever
    frame is at that place now, or fail when there is none. *)
Theorem C85_places_refuted : forall v ic st p st' i f, typed_history v ic st -> erase_remove v p st = Ok st' ->
  nthN (frames_of st) i = Some f -> p f = false ->
  exists c, get_frame c st' (f_id f) =
    match nthN (kept p (frames_of st)) i with Some g => Ok g | None => Throw OutOfRange end.
Proof. exact stale_l. Qed.
Print Assumptions C85_places_refuted.
Example C85_places_nontrivial : exists st', erase_remove V23 (named_as (B "COMM")) (of_frames ex_fs) = Ok st' /\
  frames_of st' = [ex_text (B "TIT2") (B "a"); ex_text (B "TENC") (B "b"); ex_text (B "TPE1") (B "c")] /\
  get_frame 0 st' (B "TIT2") = Ok (ex_text (B "TENC") (B "b")) /\
  get_frame 0 st' (B "TENC") = Ok (ex_text (B "TPE1") (B "c")) /\
  get_frame 0 st' (B "TPE1") = Throw OutOfRange.
Proof. eexists. split; [vm_compute; reflexivity|]. vm_compute. auto. Qed.

(** A comment removed from before another that stays leaves its address behind:
    asking the tag for its comments goes through a pointer to a destroyed frame. *)
Theorem C85_comments_refuted : forall v ic st p st' fs1 x fs2, typed_history v ic st -> frames_of st = fs1 ++ x :: fs2 ->
  f_id x = comm_id v -> p x = true -> (forall f, In f (fs1 ++ fs2) -> p f = false) ->
  (exists k, In k fs2 /\ f_id k = comm_id v) ->
  erase_remove v p st = Ok st' -> get_comments st' = UB Dangling.
Proof. exact comments_l. Qed.
Print Assumptions C85_comments_refuted.
Example C85_comments_nontrivial : exists st', erase_remove V23 first_comm (of_frames ex_fs) = Ok st' /\
  frames_of st' = tl ex_fs /\ get_comments st' = UB Dangling.
Proof. eexists. split; [vm_compute; reflexivity|]. vm_compute. auto. Qed.

(** A user-defined text, or a frame whose name starts with T and is not known,
    cannot be removed: an exception in ID3v2.2, undefined in the others. *)
Theorem C85_odd_refuted : forall v ic st p f, typed_history v ic st -> In f (frames_of st) -> p f = true -> odd_text f ->
  erase_remove v p st = match v with V22 => Throw LogicError | _ => UB BadIterator end.
Proof. exact odd_l. Qed.
Print Assumptions C85_odd_refuted.
Example C85_odd_nontrivial :
  let x := mkFrame (B "TXXX") no_flags (BTxxx (mkTxxx 1 0 [97] [98])) in
  typed_history V23 ex_ic (of_frames (x :: ex_fs)) /\ odd_text x /\
  erase_remove V23 (named_as (B "TXXX")) (of_frames (x :: ex_fs)) = UB BadIterator.
Proof.
  split; [apply T_parsed; repeat constructor|]. split; [|vm_compute; reflexivity].
  split; [reflexivity|]. intros t H. discriminate H.
Qed.

(** Moving one frame of a tag to the place of another makes the two change places. *)
Theorem C85_move_partial : forall v ic st i j f, typed_history v ic st -> nthN (frames_of st) i = Some f -> j < size_l st ->
  ~ odd_text f -> exists st', move_assign v i j st = Ok st' /\ swapped i j (frames_of st) (frames_of st').
Proof. exact move_l. Qed.
Print Assumptions C85_move_partial.
Example C85_move_nontrivial : exists st', move_assign V23 1 4 (of_frames ex_fs) = Ok st' /\
  frames_of st' = [ex_comm (B "first"); ex_text (B "TPE1") (B "c"); ex_text (B "TENC") (B "b"); ex_comm (B "second"); ex_text (B "TIT2") (B "a")].
Proof. eexists. split; vm_compute; reflexivity. Qed.
