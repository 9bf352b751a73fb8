(** * C45: texts outside ISO 8859-1; C22: whether tags can be copied. *)
From Verif Require Import Base M_Charset M_Payload M_Frame M_TextId M_Tag23 M_Tag22 M_Tag24 M_Lookup M_Copy
  S_Charset S_Tag S_Tag23 S_Lookup S_Wide L_Charset L_Lookup L_Lookup2 L_Lookup3 P_Lookup.

Lemma to_bytes_none ic s src dst rsp : no_nul s -> s <> [] -> char_unit src = true -> ic src dst rsp s = None ->
  to_bytes ic s src dst false rsp = Throw IconvError.
Proof.
  intros NN NE CU IC. unfold to_bytes. rewrite CU. cbn [negb].
  assert (CS : c_str s = s).
  { clear - NN. induction s as [|x r IH]; [reflexivity|]. cbn [c_str]. destruct (N.eqb_spec x 0) as [->|_].
    - destruct NN. left. reflexivity.
    - rewrite IH; [reflexivity|]. intros I. apply NN. right. exact I. }
  rewrite CS. destruct s as [|x r]; [congruence|]. rewrite IC. reflexivity.
Qed.

(** A text that ISO 8859-1 cannot hold, given to a frame that is there: it is
    stored in UCS-2 and read back.  (ID3v2.2 and 2.3; a new frame refuses it,
    C45_new_frame_refuted.) *)
Theorem C45_wide_partial : forall v ic st c id s src rsp rsp' out, v <> V24 ->
  history v ic st -> text_id id = true -> find_text c st id <> Throw UnknownFrame ->
  s <> [] -> no_nul s -> no_bom s -> no_trailing s -> char_unit src = true ->
  ic src E_ISO_8859_1 rsp s = None -> ic src E_UCS_2 rsp s = Some out -> out <> [] -> len out <= 4 * len s ->
  ic (ucs2_of out) src rsp' out = Some s ->
  exists st', set_text_frame v ic c id s src false rsp st = Ok st' /\
    history v ic st' /\ one_frame_changed id st st' /\ get_text v ic c st' id src rsp' = Ok s.
Proof.
  intros v ic st c id s src rsp rsp' out NV H T FF NE NN NB NT CU I1 I2 NO LO IC'.
  pose proof (to_bytes_none ic s src E_ISO_8859_1 rsp NN NE CU I1) as T1.
  pose proof (to_bytes_short ic s src E_UCS_2 false rsp out NN NE CU I2 LO) as T2. cbn [List.app] in T2.
  assert (TS : text_set v ic s src false rsp = Ok (mkText 1 out)).
  { unfold text_set. destruct v; try congruence; rewrite T1, T2; reflexivity. }
  assert (G : exists st', set_text_frame v ic c id s src false rsp st = Ok st').
  { unfold set_text_frame. destruct (pick c (values (l_texts st) id)) as [a|] eqn:P.
    - pose proof (history_reg v ic st H) as R. apply pick_In, values_In in P.
      destruct (r_texts v none st R id a P) as (_ & i & d & u & X & _).
      rewrite (at_addr_spec st i a d (r_nodup v none st R) X), TS. cbn [bind]. eauto.
    - elim FF. unfold find_text. rewrite P. reflexivity. }
  destruct G as (st' & E). exists st'. split; [exact E|].
  destruct (set_text_l v ic st c id s src false rsp st' H T E) as (H' & OC & t' & FT & K).
  split; [exact H'|]. split; [exact OC|]. unfold get_text. rewrite FT. cbn [bind].
  assert (t' = mkText 1 out) as -> by (destruct K as [(K & _)|(_ & K)]; [elim FF; exact K|congruence]).
  unfold text_as_str. cbn [tx_text]. destruct out as [|o out]; [congruence|].
  assert (SRC : text_source v (mkText 1 (o :: out)) = Ok (ucs2_of (o :: out))).
  { destruct v; try congruence; unfold text_source, ucs2_of; cbn [tx_unicode tx_text N.eqb Pos.eqb]; reflexivity. }
  rewrite SRC. cbn [bind]. apply to_string_l; assumption.
Qed.
Print Assumptions C45_wide_partial.
(** A converter of one letter, ж, which ISO 8859-1 refuses. *)
Definition zhe_ic : iconv_t := fun s d _ b =>
  match d with
  | E_ISO_8859_1 => None
  | E_UCS_2 => Some [254; 255; 4; 54]
  | E_UTF_8 => match s with E_UCS_2BE => Some [208; 182] | _ => None end
  | _ => None
  end.
Example C45_wide_nontrivial : exists st',
  history V23 zhe_ic ex_st /\ find_text 0 ex_st (B "TIT2") <> Throw UnknownFrame /\
  set_text_frame V23 zhe_ic 0 (B "TIT2") [208; 182] E_UTF_8 false NoFail ex_st = Ok st' /\
  get_text V23 zhe_ic 0 st' (B "TIT2") E_UTF_8 NoFail = Ok [208; 182].
Proof.
  eexists. split; [apply H_parsed; repeat constructor|]. split; [discriminate|].
  split; vm_compute; reflexivity.
Qed.

(** Constructing a copy, and assigning one: where there is a copy it has the
    frames; there is none of an ID3v2.4 tag without extended header, nor by
    assignment of such an ID3v2.3 tag. *)
Theorem C22_copied_partial : forall v has_ext u st,
  (v = V24 -> has_ext = true) ->
  exists fl st', copy v has_ext u st = Ok (fl, st') /\ frames_of st' = frames_of st.
Proof.
  intros v has_ext u st H. destruct v; unfold copy; try rewrite (H eq_refl);
  eexists _, _; (split; [reflexivity|apply C22_frames]).
Qed.
Print Assumptions C22_copied_partial.
Theorem C22_assigned_partial : forall v has_ext u st,
  (v <> V22 -> has_ext = true) ->
  exists st', copy_assign v has_ext u st = Ok (Some u, st') /\ frames_of st' = frames_of st.
Proof.
  intros v has_ext u st H. destruct v; unfold copy_assign; try rewrite (H ltac:(discriminate));
  eexists; (split; [reflexivity|apply C22_frames]).
Qed.
Print Assumptions C22_assigned_partial.
Theorem C22_copied_refuted : forall v u st,
  ((exists r, copy v false u st = Ok r) -> v <> V24) /\ ((exists r, copy_assign v false u st = Ok r) -> v = V22).
Proof.
  intros v u st. split; intros (r & E); destruct v; try reflexivity; try discriminate; discriminate E.
Qed.
Print Assumptions C22_copied_refuted.
Example C22_copied_nontrivial : exists fl st', copy V24 true false ex_st = Ok (fl, st') /\ length (frames_of st') = 3%nat.
Proof. eexists _, _. split; reflexivity. Qed.
