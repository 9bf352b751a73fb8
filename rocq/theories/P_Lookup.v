(** * C21, C22, C23, C45: lookups, copies, edits, setting texts. *)
From Coq Require Import Sorting.Permutation.
From Verif Require Import Base M_Charset M_Payload M_Frame M_TextId M_Tag23 M_Tag22 M_Tag24 M_Lookup M_Copy
  S_Charset S_Tag S_Tag23 S_Lookup L_Lookup L_Lookup2 L_Lookup3.

(** C21.  Full statement: after any history of edits the lookups agree with the
    frames.  Proved for edits that leave the frames that stay where they are
    (appending, replacing, setting texts, taking frames off the end); false for
    the others, below. *)
Theorem C21_identifiers_partial : forall v ic st, history v ic st -> ids_agree st.
Proof. intros v ic st H. exact (ids_agree_l v st (history_reg v ic st H)). Qed.
Print Assumptions C21_identifiers_partial.

Theorem C21_no_dead_pointer_partial : forall v ic st, history v ic st -> texts_sound st /\ lists_sound v st.
Proof.
  intros v ic st H. pose proof (history_reg v ic st H) as R.
  split; [exact (texts_sound_l v st R)|exact (lists_sound_l v st R)].
Qed.
Print Assumptions C21_no_dead_pointer_partial.

(** Frames handed over as what they are can moreover all be found. *)
Theorem C21_all_found_partial : forall v ic st, typed_history v ic st -> texts_complete st /\ lists_complete v st.
Proof.
  intros v ic st H. destruct (typed_history_reg v ic st H) as (R & F).
  split; [exact (texts_complete_l v st R F)|exact (lists_complete_l v st R F)].
Qed.
Print Assumptions C21_all_found_partial.

(** A tag of three frames, one of which is replaced and another taken off. *)
Definition ex_text (id s : string) : frame := mkFrame (B id) no_flags (BText (mkText 0 (B s))).
Definition ex_st : ltag :=
  of_frames [ex_text "TIT2" "a"; ex_text "TPE1" "b"; mkFrame (B "PCNT") no_flags (BCount [0; 0; 0; 7])].
Definition ex_ic : iconv_t := fun _ _ _ b => Some b.
Example C21_nontrivial : exists st1 st2,
  apply_edit V23 ex_ic (EAssign 1 (AText (B "TALB") no_flags (mkText 0 (B "c")))) ex_st = Ok st1 /\
  apply_edit V23 ex_ic (EErase 2) st1 = Ok st2 /\
  typed_history V23 ex_ic st2 /\ history V23 ex_ic st2 /\
  map f_id (frames_of st2) = [B "TIT2"; B "TALB"] /\ find_text 0 st2 (B "TALB") = Ok (mkText 0 (B "c")).
Proof.
  destruct (apply_edit V23 ex_ic (EAssign 1 (AText (B "TALB") no_flags (mkText 0 (B "c")))) ex_st) as [st1| | |] eqn:E1;
    [|discriminate E1|discriminate E1|discriminate E1].
  destruct (apply_edit V23 ex_ic (EErase 2) st1) as [st2| | |] eqn:E2.
  2-4: exfalso; revert E2; apply Ok_inj in E1; subst st1; vm_compute; discriminate.
  exists st1, st2. split; [reflexivity|]. split; [exact E2|].
  assert (K1 : keeps_places ex_st st1).
  { apply places_ok_l. vm_compute in E1. apply Ok_inj in E1. subst st1. vm_compute. reflexivity. }
  assert (Q : places_ok st1 st2 = true /\ map f_id (frames_of st2) = [B "TIT2"; B "TALB"] /\
              find_text 0 st2 (B "TALB") = Ok (mkText 0 (B "c"))).
  { vm_compute in E1. apply Ok_inj in E1. subst st1. vm_compute in E2. apply Ok_inj in E2. subst st2. vm_compute. auto. }
  destruct Q as (K2 & Q). apply places_ok_l in K2.
  assert (P : Forall (parsed_frame V23) [ex_text "TIT2" "a"; ex_text "TPE1" "b"; mkFrame (B "PCNT") no_flags (BCount [0; 0; 0; 7])])
    by (repeat constructor).
  split; [|split; [|exact Q]].
  - eapply T_edit with (e := EErase 2); [|exact I|exact I|exact E2|exact K2].
    eapply T_edit with (e := EAssign 1 (AText (B "TALB") no_flags (mkText 0 (B "c")))) (st := ex_st); [apply T_parsed; exact P|reflexivity|exact I|exact E1|exact K1].
  - eapply H_edit with (e := EErase 2); [|exact I|exact E2|exact K2].
    eapply H_edit with (e := EAssign 1 (AText (B "TALB") no_flags (mkText 0 (B "c")))) (st := ex_st); [apply H_parsed; exact P|reflexivity|exact E1|exact K1].
Qed.

(** Inserting a frame before another: whenever the place of the last frame is
    then taken by a frame with another name, lookup of the last frame's name can
    return that other frame. *)
Theorem C21_insert_refuted : forall v ic st i a st' last_id f,
  history v ic st -> wf_arg a -> insert v i a st = Ok st' ->
  nthN (map f_id (frames_of st)) (size_l st - 1) = Some last_id ->
  nthN (frames_of st') (size_l st - 1) = Some f -> f_id f <> last_id ->
  exists c, get_frame c st' last_id = Ok f.
Proof. exact insert_refuted_l. Qed.
Print Assumptions C21_insert_refuted.
Example C21_insert_nontrivial : exists st' f,
  insert V23 0 (AText (B "TALB") no_flags (mkText 0 (B "c"))) ex_st = Ok st' /\
  nthN (frames_of st') (size_l ex_st - 1) = Some f /\ f_id f = B "TPE1" /\
  get_frame 0 st' (B "PCNT") = Ok f.
Proof. eexists _, _. vm_compute. repeat split; reflexivity. Qed.

(** Erasing a frame that is not the last: lookup of the last frame's name can
    fail although that frame is there. *)
Theorem C21_erase_refuted : forall v ic st i st' last_id,
  history v ic st -> i + 1 < size_l st -> erase v i st = Ok st' ->
  nthN (map f_id (frames_of st)) (size_l st - 1) = Some last_id ->
  exists c, get_frame c st' last_id = Throw OutOfRange.
Proof. exact erase_refuted_l. Qed.
Print Assumptions C21_erase_refuted.
Example C21_erase_nontrivial : exists st', erase V23 0 ex_st = Ok st' /\ frames_of st' <> [] /\
  has_frame st' (B "PCNT") = 1 /\ get_frame 0 st' (B "PCNT") = Throw OutOfRange.
Proof. eexists. split; [vm_compute; reflexivity|]. split; [discriminate|]. vm_compute. auto. Qed.

(** A frame whose name starts with T and which is not a text frame (a
    user-defined text, a name that is not known) cannot be erased. *)
Theorem C21_erase_text_refuted : forall v ic st i f,
  history v ic st -> nthN (frames_of st) i = Some f ->
  text_id (f_id f) = true -> (forall t, f_body f <> BText t) ->
  erase v i st = match v with V22 => Throw LogicError | _ => UB BadIterator end.
Proof. exact erase_text_refuted_l. Qed.
Print Assumptions C21_erase_text_refuted.
Example C21_erase_text_nontrivial :
  let st := of_frames [mkFrame (B "TXXX") no_flags (BTxxx (mkTxxx 1 0 [97] [98]))] in
  history V23 ex_ic st /\ erase V23 0 st = UB BadIterator.
Proof. split; [apply H_parsed; repeat constructor|vm_compute; reflexivity]. Qed.

(** A comment added to an ID3v2.3 tag is not among its comments, and erasing it
    is undefined; adding one to an ID3v2.2 or 2.4 tag is undefined already. *)
Theorem C21_add_comment_refuted : forall ic st fl c st', history V23 ic st -> add_comment V23 fl c st = Ok st' ->
  get_comments st' = get_comments st /\
  length (with_id (B "COMM") (frames_of st')) = S (length (with_id (B "COMM") (frames_of st))) /\
  erase V23 (size_l st) st' = UB BadIterator.
Proof. exact add_comment_refuted_l. Qed.
Print Assumptions C21_add_comment_refuted.
Theorem C21_add_refuted : forall v fl c t st, v <> V23 ->
  add_comment v fl c st = UB NullDeref /\ add_txxx v fl t st = UB NullDeref.
Proof. intros v fl c t st H. destruct v; [split; reflexivity|congruence|split; reflexivity]. Qed.
Print Assumptions C21_add_refuted.
Example C21_add_comment_nontrivial : exists st',
  add_comment V23 no_flags (mkComm 1 (Some 0) (Some [101; 110; 103]) [] [120]) ex_st = Ok st'.
Proof. eexists. vm_compute. reflexivity. Qed.

(** Three edits after which asking for the comments goes through a pointer to a
    frame that is gone. *)
Theorem C21_dangling_refuted : exists f g h st1 st2 st3,
  let ic := fun _ _ _ b => Some b in
  history V23 ic (of_frames [f; g]) /\
  apply_edit V23 ic (EErase 0) (of_frames [f; g]) = Ok st1 /\
  apply_edit V23 ic (EPush h) st1 = Ok st2 /\
  apply_edit V23 ic (EErase 1) st2 = Ok st3 /\
  length (frames_of st3) = 1%nat /\ get_comments st3 = UB Dangling.
Proof.
  exists (mkFrame (B "COMM") no_flags (BComm (mkComm 1 (Some 0) (Some [101; 110; 103]) [] [120]))),
    (mkFrame (B "COMM") no_flags (BComm (mkComm 1 (Some 0) (Some [101; 110; 103]) [] [121]))),
    (AComm no_flags (mkComm 1 (Some 0) (Some [101; 110; 103]) [] [122])).
  eexists _, _, _. split; [apply H_parsed; repeat constructor|].
  do 3 (split; [vm_compute; reflexivity|]). vm_compute. auto.
Qed.
Print Assumptions C21_dangling_refuted.

(** An ID3v2.4 tag never admits to having a play count. *)
Theorem C21_play_count_refuted : forall ic st, history V24 ic st -> with_id (B "CNT") (frames_of st) = [] ->
  has_play_count V24 st = 0 /\ play_count V24 st = Throw LogicError.
Proof. exact play_count_refuted_l. Qed.
Print Assumptions C21_play_count_refuted.
Example C21_play_count_nontrivial : history V24 ex_ic ex_st /\ get_counts ex_st = Ok [BCount [0; 0; 0; 7]] /\
  has_play_count V23 ex_st = 1 /\ has_play_count V24 ex_st = 0.
Proof. split; [apply H_parsed; repeat constructor|]. vm_compute. auto. Qed.

(** C22.  Full statement: a copy answers every query as the original does and is
    written as the same bytes.  Proved: it has the same frames in the same order,
    and is written as the same bytes when nothing has been changed since the
    frames were last serialized, the flag that is left uninitialised happens to
    be that of the original, and no unsynchronisation is asked for. *)
Theorem C22_frames : forall v st, frames_of (copy_lookups v st) = frames_of st.
Proof. exact copy_frames_l. Qed.
Print Assumptions C22_frames.
Example C22_frames_nontrivial : length (frames_of (copy_lookups V24 ex_st)) = 3%nat.
Proof. reflexivity. Qed.

Theorem C22_written_v22 : forall t u, write22 (copy22 t) u = write22 t u.
Proof.
  intros t u. replace (copy22 t) with t; [reflexivity|]. unfold copy22, with_frames22.
  replace (map (clone V22) (t2_frames t)) with (t2_frames t) by (symmetry; apply map_id). destruct t; reflexivity.
Qed.
Print Assumptions C22_written_v22.
Theorem C22_written_v23_partial : forall z t b t',
  Forall (coherent (wire23 z)) (t3_frames t) -> write23 z t false = Ok (b, t') ->
  exists t'', write23 z (copy23 (t3_unsync t) t) false = Ok (b, t'').
Proof. exact copy23_written_l. Qed.
Print Assumptions C22_written_v23_partial.
Theorem C22_written_v24_partial : forall z t b t' c,
  Forall (coherent (wire24 z)) (t4_frames t) -> write24 z t false = Ok (b, t') ->
  copy24 (t4_unsync t) t = Ok c -> exists t'', write24 z c false = Ok (b, t'').
Proof. exact copy24_written_l. Qed.
Print Assumptions C22_written_v24_partial.
Example C22_written_nontrivial : exists b t',
  Forall (coherent (wire23 no_zlib)) (t3_frames (mkTag23 None false None 3 (map new_frame ex_frames))) /\
  write23 no_zlib (mkTag23 None false None 3 (map new_frame ex_frames)) false = Ok (b, t') /\
  Forall (coherent (wire24 no_zlib)) (t4_frames (mkTag24 None false false (Some (mkExt24 6 false None None)) 3 (map new_frame ex_frames))) /\
  exists b4 t4, write24 no_zlib (mkTag24 None false false (Some (mkExt24 6 false None None)) 3 (map new_frame ex_frames)) false = Ok (b4, t4).
Proof.
  eexists _, _. split; [repeat constructor; discriminate|]. split; [vm_compute; reflexivity|].
  split; [repeat constructor; discriminate|]. eexists _, _. vm_compute. reflexivity.
Qed.

(** Copies do not answer as their originals do: whatever the tag, the name of its
    last frame is not found, no text is, and there are no comments, counters or
    popularimeters. *)
Theorem C22_queries_refuted : forall v st f, nthN (frames_of st) (size_l st - 1) = Some f ->
  (exists c, get_frame c (copy_lookups v st) (f_id f) = Throw OutOfRange) /\
  (forall c id, find_text c (copy_lookups v st) id = Throw UnknownFrame) /\
  get_comments (copy_lookups v st) = Ok [] /\ get_counts (copy_lookups v st) = Ok [] /\
  get_popms (copy_lookups v st) = Ok [].
Proof. exact copy_refuted_l. Qed.
Print Assumptions C22_queries_refuted.
Example C22_queries_nontrivial : exists f, nthN (frames_of ex_st) (size_l ex_st - 1) = Some f /\
  find_text 0 ex_st (B "TIT2") = Ok (mkText 0 (B "a")).
Proof. eexists. vm_compute. split; reflexivity. Qed.

(** An ID3v2.4 tag without extended header cannot be copied at all. *)
Theorem C22_copy_v24_refuted : forall u t, t4_ext t = None -> copy24 u t = UB NullDeref.
Proof. intros u t H. unfold copy24. rewrite H. reflexivity. Qed.
Print Assumptions C22_copy_v24_refuted.

(** The copy's unsynchronisation flag is left uninitialised, and it is written:
    for some value of it the bytes differ. *)
Theorem C22_flag_v23_refuted : forall z t b t', write23 z t false = Ok (b, t') ->
  exists u, forall b' t'', write23 z (copy23 u t) false = Ok (b', t'') -> b' <> b.
Proof. exact flag23_l. Qed.
Print Assumptions C22_flag_v23_refuted.
Theorem C22_flag_v24_refuted : forall z t b t', write24 z t false = Ok (b, t') ->
  exists u, forall c b' t'', copy24 u t = Ok c -> write24 z c false = Ok (b', t'') -> b' <> b.
Proof. exact flag24_l. Qed.
Print Assumptions C22_flag_v24_refuted.

(** C23.  Full statement: what is written after an edit is the new contents,
    whatever was asked for before.  Proved when the frames have not been
    serialized before (no size, no write): the bytes are those of a tag newly
    made of the frames as edited. *)
Theorem C23_v22_partial : forall t es u, Forall (fun c => c_dirty c = true) (t2_frames t) ->
  write22 (with_frames22 (edits es (t2_frames t)) t) u =
  write22 (with_frames22 (map (fun c => new_frame (c_frame c)) (edits es (t2_frames t))) t) u.
Proof. intros t es u D. symmetry. exact (new22_l (with_frames22 (edits es (t2_frames t)) t) u (edits_dirty es _ D)). Qed.
Print Assumptions C23_v22_partial.
Theorem C23_v23_partial : forall z t es u, Forall (fun c => c_dirty c = true) (t3_frames t) ->
  write23 z (with_frames23 (edits es (t3_frames t)) t) u =
  write23 z (with_frames23 (map (fun c => new_frame (c_frame c)) (edits es (t3_frames t))) t) u.
Proof. intros z t es u D. symmetry. exact (new23_l z (with_frames23 (edits es (t3_frames t)) t) u (edits_dirty es _ D)). Qed.
Print Assumptions C23_v23_partial.
Theorem C23_v24_partial : forall z t es u, Forall (fun c => c_dirty c = true) (t4_frames t) ->
  write24 z (with_frames24 (edits es (t4_frames t)) t) u =
  write24 z (with_frames24 (map (fun c => new_frame (c_frame c)) (edits es (t4_frames t))) t) u.
Proof. intros z t es u D. symmetry. exact (new24_l z (with_frames24 (edits es (t4_frames t)) t) u (edits_dirty es _ D)). Qed.
Print Assumptions C23_v24_partial.
Example C23_nontrivial :
  let t := mkTag23 None false None 0 (map new_frame ex_frames) in
  Forall (fun c => c_dirty c = true) (t3_frames t) /\
  edits [(0%nat, BText (mkText 0 (B "other")))] (t3_frames t) <> t3_frames t.
Proof. split; [repeat constructor|]. intros E. vm_compute in E. discriminate E. Qed.

(** Once the size has been asked for, every edit is lost: whatever is changed,
    the bytes written are those of the tag before. *)
Theorem C23_v22_refuted : forall t u n t1 es u', size22 t u = Ok (n, t1) ->
  outB (write22 (with_frames22 (edits es (t2_frames t1)) t1) u') = outB (write22 t1 u').
Proof. exact lost22_l. Qed.
Print Assumptions C23_v22_refuted.
Theorem C23_v23_refuted : forall z t u n t1 es u', size23 z t u = Ok (n, t1) ->
  outB (write23 z (with_frames23 (edits es (t3_frames t1)) t1) u') = outB (write23 z t1 u').
Proof. exact lost23_l. Qed.
Print Assumptions C23_v23_refuted.
Theorem C23_v24_refuted : forall z t u n t1 es u', size24 z t u = Ok (n, t1) ->
  outB (write24 z (with_frames24 (edits es (t4_frames t1)) t1) u') = outB (write24 z t1 u').
Proof. exact lost24_l. Qed.
Print Assumptions C23_v24_refuted.
Example C23_lost_nontrivial : exists n t1 b,
  size23 no_zlib (mkTag23 None false None 0 (map new_frame ex_frames)) false = Ok (n, t1) /\
  edits [(0%nat, BText (mkText 0 (B "other")))] (t3_frames t1) <> t3_frames t1 /\
  outB (write23 no_zlib t1 false) = Ok b.
Proof.
  eexists _, _, _. split; [vm_compute; reflexivity|]. split; [intros E; vm_compute in E; discriminate E|].
  vm_compute. reflexivity.
Qed.

(** C45.  Full statement: after setting a text it reads back, other frames are
    unchanged and at most one is added.  Proved for texts that the tag can store
    in its usual encoding (ISO 8859-1; UTF-8 in ID3v2.4), that the conversion
    library takes there and back, that are not empty, do not start with a byte
    order mark and do not end with a space.  [c] is which of several frames with
    the name the implementation's [find] picks. *)
Theorem C45_readable_partial : forall v ic st c id s src rsp rsp' out,
  history v ic st -> text_id id = true ->
  s <> [] -> no_nul s -> no_bom s -> no_trailing s -> char_unit src = true ->
  ic src (stored v) rsp s = Some out -> out <> [] -> len out <= 4 * len s -> ic (stored v) src rsp' out = Some s ->
  exists st', set_text_frame v ic c id s src false rsp st = Ok st' /\
    history v ic st' /\ one_frame_changed id st st' /\ get_text v ic c st' id src rsp' = Ok s.
Proof. exact set_readable_l. Qed.
Print Assumptions C45_readable_partial.
Example C45_nontrivial : exists st' st'',
  history V23 ex_ic ex_st /\
  set_text_frame V23 ex_ic 0 (B "TIT2") (B "new") E_UTF_8 false NoFail ex_st = Ok st' /\
  set_text_frame V23 ex_ic 0 (B "TCOM") (B "new") E_UTF_8 false NoFail ex_st = Ok st'' /\
  length (frames_of st') = 3%nat /\ length (frames_of st'') = 4%nat.
Proof. eexists _, _. split; [apply H_parsed; repeat constructor|]. vm_compute. auto. Qed.

(** Other frames are unchanged, and at most one is added, for every text that can
    be set at all. *)
Theorem C45_others_unchanged : forall v ic st c id s src bom rsp st',
  history v ic st -> text_id id = true -> set_text_frame v ic c id s src bom rsp st = Ok st' ->
  one_frame_changed id st st'.
Proof. intros v ic st c id s src bom rsp st' H T E. apply (set_text_l v ic st c id s src bom rsp st' H T E). Qed.
Print Assumptions C45_others_unchanged.
Example C45_others_nontrivial : exists st',
  set_text_frame V22 ex_ic 0 (B "TT2") (B "x") E_UTF_8 true NoFail (of_frames []) = Ok st' /\ length (frames_of st') = 1%nat.
Proof. eexists. vm_compute. split; reflexivity. Qed.

(** A text outside ISO 8859-1 cannot be given to a frame that is not there yet. *)
Theorem C45_new_frame_refuted : forall v ic st c id s src rsp, v <> V24 -> no_nul s -> s <> [] -> char_unit src = true ->
  ic src E_ISO_8859_1 rsp s = None -> find_text c st id = Throw UnknownFrame ->
  set_text_frame v ic c id s src false rsp st = Throw IconvError.
Proof. exact set_new_refuted_l. Qed.
Print Assumptions C45_new_frame_refuted.
Example C45_new_frame_nontrivial : find_text 0 ex_st (B "TCOM") = Throw UnknownFrame.
Proof. reflexivity. Qed.

(** A trailing space never reads back. *)
Theorem C45_trailing_refuted : forall v ic st c id s' src rsp rsp' st' out, let s := s' ++ [32] in
  history v ic st -> text_id id = true -> no_nul s -> char_unit src = true ->
  ic src (stored v) rsp s = Some out -> out <> [] -> len out <= 4 * len s -> ic (stored v) src rsp' out = Some s ->
  set_text_frame v ic c id s src false rsp st = Ok st' -> get_text v ic c st' id src rsp' <> Ok s.
Proof. intros v ic st c id s' src rsp rsp' st' out s H T. apply set_trailing_refuted_l; auto. Qed.
Print Assumptions C45_trailing_refuted.
Example C45_trailing_nontrivial : exists st',
  set_text_frame V24 ex_ic 0 (B "TIT2") (B "new ") E_UTF_8 false NoFail ex_st = Ok st' /\
  get_text V24 ex_ic 0 st' (B "TIT2") E_UTF_8 NoFail = Ok (B "new").
Proof. eexists. split; vm_compute; reflexivity. Qed.

(** An ID3v2.4 text frame asked to store ISO 8859-1 stores ISO 8859-8 instead, under
    the byte that says ISO 8859-1. *)
Theorem C45_latin1_v24_refuted : forall ic s src rsp out,
  no_nul s -> s <> [] -> char_unit src = true -> ic src E_ISO_8859_8 rsp s = Some out -> len out <= 4 * len s ->
  text_set24 ic s src FE_Latin1 false rsp = Ok (mkText 0 out) /\ text_source V24 (mkText 0 out) = Ok E_ISO_8859_1.
Proof.
  intros ic s src rsp out NN NE CU IC LO. split; [|reflexivity]. unfold text_set24. cbn [encshim encshim2].
  rewrite (L_Charset.to_bytes_short ic s src E_ISO_8859_8 false rsp out NN NE CU IC LO). reflexivity.
Qed.
Print Assumptions C45_latin1_v24_refuted.
Example C45_latin1_v24_nontrivial :
  let ic : iconv_t := fun _ d _ b => match d with E_ISO_8859_8 => Some [200] | _ => Some b end in
  text_set24 ic (B "x") E_UTF_8 FE_Latin1 false NoFail = Ok (mkText 0 [200]).
Proof. vm_compute. reflexivity. Qed.
