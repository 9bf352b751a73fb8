(** * C15, C16, C17, C20 and C50: ID3v2.3 tags. *)
From Verif Require Import Base M_Ints M_Unsync M_Stream M_Payload M_Cloud M_Frame M_Tag23
  S_Ints S_Stream S_Unsync S_Payload S_Cloud S_Tag S_Tag23
  L_Stream L_Tag23 L_Tag23b L_Tag23c L_Tag23d L_Tag23e.

(** C17: writing a tag [t] and reading the bytes back, wherever they stand in a
    file: the header is found, the frames are the same in the same order, the
    padding is the same (one byte less is possible with unsynchronisation) and
    the stream is left at the byte after the tag.  [pre] and [post] are what
    precedes and follows; [e] the caller's exception mask.

    Missing: tags marked as unsynchronised but written without (refuted below),
    encryption-method frames (C13), frames with flags (below), extended headers
    that unsynchronisation would change (C16). *)
Theorem C17_v23_partial : forall z passes t u b t' pre post e,
  crc_range z -> (0 < passes)%nat -> wf_tag23 z t ->
  Forall plain_flags (map c_frame (t3_frames t)) ->
  (t3_unsync t = Some true -> u = true) ->
  write23 z t u = Ok (b, t') -> ext_unaffected (t3_ext t') ->
  exists info t'',
    looking_at_id3v2 false (mkIs (pre ++ b ++ post) (len pre) e 0) =
      (Ok (Some info), mkIs (pre ++ b ++ post) (len pre + 10) e 0) /\ i_version info = 3 /\
    read23 z passes info (mkIs (pre ++ b ++ post) (len pre + 10) e 0) =
      (Ok t'', mkIs (pre ++ b ++ post) (len pre + len b) e 0) /\
    map c_frame (t3_frames t'') = map c_frame (t3_frames t) /\
    t3_unsync t'' = Some u /\ t3_exp t'' = t3_exp t /\ same_ext (t3_ext t'') (t3_ext t') /\
    (t3_pad t'' = t3_pad t \/ u = true /\ t3_pad t'' + 1 = t3_pad t).
Proof. exact roundtrip23_plain. Qed.
Print Assumptions C17_v23_partial.
Example C17_v23_nontrivial :
  crc_range no_zlib /\ wf_tag23 no_zlib ex_tag23 /\ Forall plain_flags (map c_frame (t3_frames ex_tag23)) /\
  exists b t', write23 no_zlib ex_tag23 true = Ok (b, t') /\ ext_unaffected (t3_ext t') /\ len b = 72.
Proof.
  split; [intros ? ?; reflexivity|]. split; [|split; [repeat constructor|]].
  - split; [|split; [reflexivity|discriminate]].
    repeat constructor; cbn; try discriminate; try (exists false, false, false; reflexivity); auto.
  - eexists _, _. split; [vm_compute; reflexivity|]. split; [|reflexivity]. intros i. cbn.
    do 14 (destruct i as [|i]; [reflexivity|]). now destruct i.
Qed.

(** The same for a tag marked as unsynchronised that is written without
    unsynchronisation: its header says it is unsynchronised all the same, so a
    reader takes bytes away that belong to it. *)
Theorem C17_v23_unsync_flag_refuted : exists z t b t',
  crc_range z /\ wf_tag23 z t /\ Forall plain_flags (map c_frame (t3_frames t)) /\ t3_ext t = None /\
  write23 z t false = Ok (b, t') /\
  forall passes, (0 < passes)%nat -> exists t'',
    parse_body23 z passes (nth 5 b 0) (dropN 10 b) = Ok t'' /\
    map c_frame (t3_frames t'') <> map c_frame (t3_frames t).
Proof. exact unsync_flag_refuted. Qed.
Print Assumptions C17_v23_unsync_flag_refuted.

(** Every tag whose reported size fits the header can be written, and no other. *)
Theorem C17_v23_writable : forall z t u n t', size23 z t u = Ok (n, t') ->
  (n < 2 ^ 28 -> exists b, write23 z t u = Ok (b, t')) /\
  (2 ^ 28 <= n -> exists e, write23 z t u = Throw e).
Proof. exact writable23_iff. Qed.
Print Assumptions C17_v23_writable.
Example C17_v23_writable_nontrivial : exists t', size23 no_zlib ex_tag23 false = Ok (60, t').
Proof. eexists. vm_compute. reflexivity. Qed.

(** C15: with status flags, the frames read back are the frames written, except
    that every status flag has moved one place. *)
Theorem C15_v23_partial : forall z passes t u b t' pre post e,
  crc_range z -> (0 < passes)%nat -> wf_tag23 z t ->
  (t3_unsync t = Some true -> u = true) ->
  write23 z t u = Ok (b, t') -> ext_unaffected (t3_ext t') ->
  exists info t'',
    looking_at_id3v2 false (mkIs (pre ++ b ++ post) (len pre) e 0) =
      (Ok (Some info), mkIs (pre ++ b ++ post) (len pre + 10) e 0) /\ i_version info = 3 /\
    read23 z passes info (mkIs (pre ++ b ++ post) (len pre + 10) e 0) =
      (Ok t'', mkIs (pre ++ b ++ post) (len pre + len b) e 0) /\
    map c_frame (t3_frames t'') = map shift_flags (map c_frame (t3_frames t)) /\
    t3_unsync t'' = Some u /\ t3_exp t'' = t3_exp t /\ same_ext (t3_ext t'') (t3_ext t') /\
    (t3_pad t'' = t3_pad t \/ u = true /\ t3_pad t'' + 1 = t3_pad t).
Proof. exact roundtrip23_stream. Qed.
Print Assumptions C15_v23_partial.
Example C15_v23_nontrivial :
  let t := mkTag23 None false None 0
             [new_frame (mkFrame (B "TIT2") (mkFl true false true false None None false false)
                                 (BText (mkText 0 [65])))] in
  wf_tag23 no_zlib t /\ exists b t', write23 no_zlib t false = Ok (b, t') /\ ext_unaffected (t3_ext t').
Proof.
  split.
  - split; [|exact I]. repeat constructor; cbn; try discriminate. exists true, false, true. reflexivity.
  - eexists _, _. split; [vm_compute; reflexivity|]. exact I.
Qed.

(** So status flags do not survive. *)
Theorem C15_v23_status_refuted : exists z t b t',
  crc_range z /\ wf_tag23 z t /\ t3_ext t = None /\ write23 z t false = Ok (b, t') /\
  forall passes, (0 < passes)%nat -> exists t'',
    parse_body23 z passes (nth 5 b 0) (dropN 10 b) = Ok t'' /\
    map c_frame (t3_frames t'') <> map c_frame (t3_frames t).
Proof. exact status_refuted. Qed.
Print Assumptions C15_v23_status_refuted.

(** A tag with a compressed frame is written, and then cannot be read: the flag
    is taken for "encrypted". *)
Theorem C15_v23_compressed_refuted : exists z t b t',
  crc_range z /\ (forall p, z_compress z p = Some p) /\ (forall p, z_uncompress z p (len p) = Some p) /\
  Forall (fun c => wf_frame V23 (c_frame c)) (t3_frames t) /\ t3_ext t = None /\
  write23 z t false = Ok (b, t') /\
  forall passes, (0 < passes)%nat -> parse_body23 z passes (nth 5 b 0) (dropN 10 b) = Throw LogicError.
Proof. exact compressed_refuted. Qed.
Print Assumptions C15_v23_compressed_refuted.

(** A frame in a group is read back without its group, and its contents begin
    with the group's byte. *)
Theorem C15_v23_group_refuted : exists z t b t' t'',
  Forall (fun c => wf_frame V23 (c_frame c)) (t3_frames t) /\ t3_ext t = None /\
  write23 z t false = Ok (b, t') /\
  parse_body23 z 1 (nth 5 b 0) (dropN 10 b) = Ok t'' /\
  map (fun c => fl_gid (f_flags (c_frame c))) (t3_frames t) = [Some 9] /\
  map (fun c => fl_gid (f_flags (c_frame c))) (t3_frames t'') = [None] /\
  map (fun c => f_body (c_frame c)) (t3_frames t) = [BUnknown [65]] /\
  map (fun c => f_body (c_frame c)) (t3_frames t'') = [BUnknown [9; 65]].
Proof. exact group_refuted. Qed.
Print Assumptions C15_v23_group_refuted.

(** C16: the size reported before a write is the number of bytes written beyond
    the ten of the header, and is what the header says -- whatever the caches
    hold.  Missing: tags whose extended header unsynchronisation would change. *)
Theorem C16_v23_partial : forall z t (u : bool) b t',
  (t3_ext t = None \/
   match t3_ext t with
   | None => True
   | Some x => x_dirty x = false ->
               x_plain x = ext_wire23 x /\ x_unsync x = unsynchronise (ext_wire23 x) false
   end /\ ext_unaffected (t3_ext t')) ->
  write23 z t u = Ok (b, t') ->
  exists n, size23 z t u = Ok (n, t') /\ len b = 10 + n /\
  exists z0 z1 z2 z3 rest, b = B "ID3" ++ [3; 0; N.lor (flags23 t) (bit_if u 128); z0; z1; z2; z3] ++ rest /\
    Forall (fun z => z < 128) [z0; z1; z2; z3] /\ n = positional 128 [z0; z1; z2; z3].
Proof. exact size_is_written23. Qed.
Print Assumptions C16_v23_partial.
Example C16_v23_nontrivial : exists b t',
  write23 no_zlib (mkTag23 None false None 3 (map new_frame ex_frames)) true = Ok (b, t') /\ len b = 56.
Proof. eexists _, _. split; [vm_compute; reflexivity|reflexivity]. Qed.

(** An extended header that says 65504 bytes of padding (0x0000ffe0): the tag
    written is a byte shorter than it says. *)
Theorem C16_v23_ext_refuted : exists z t b t' n,
  wf_tag23 z t /\ size23 z t true = Ok (n, t') /\ write23 z t true = Ok (b, t') /\ len b <> 10 + n.
Proof. exact ext_size_refuted. Qed.
Print Assumptions C16_v23_ext_refuted.

(** C50: a tag laid out as the standard says -- uncompressed, unencrypted,
    ungrouped frames, then padding; no extended header -- is read as those
    frames with those flags and that padding, and the stream is left after it. *)
Theorem C50_v23_conforming : forall z passes r f fs pad l buf pre post e, (0 < passes)%nat ->
  laid_out23 fs pad l -> N.testbit f 6 = false ->
  (if N.testbit f 7 then resynchronise buf else buf) = l ->
  exists t, read23 z passes (mkInfo 3 r f (len buf)) (mkIs (pre ++ buf ++ post) (len pre) e 0) =
    (Ok t, mkIs (pre ++ buf ++ post) (len pre + len buf) e 0) /\
  map c_frame (t3_frames t) = map (fun x => match x with (id, f0, b) => mkFrame id (status23 f0) b end) fs /\
  t3_pad t = pad /\ t3_unsync t = Some (N.testbit f 7) /\ t3_exp t = N.testbit f 5.
Proof. exact read_conforming_stream. Qed.
Print Assumptions C50_v23_conforming.
Example C50_v23_nontrivial : exists fs, laid_out23 fs 3
  (B "TIT2" ++ [0; 0; 0; 4] ++ [64; 0] ++ [0; 65; 66; 67] ++
   B "TALB" ++ [0; 0; 0; 2] ++ [0; 0] ++ [0; 65] ++ [0; 0; 0]).
Proof.
  exists [(B "TIT2", 64, BText (mkText 0 [65; 66; 67])); (B "TALB", 0, BText (mkText 0 [65]))].
  repeat first [apply laid_pad | apply (laid_frame _ _ _ [0; 65; 66; 67] _ 3) | apply (laid_frame _ _ _ [0; 65] _ 3)];
    cbn; try discriminate; try reflexivity; auto; repeat constructor.
Qed.

(** C20: reading a tag that holds no encryption-method registration ends. *)
Theorem C20_v23_terminates_partial : forall z passes f buf, (0 < passes)%nat ->
  ~ contains (B "ENCR") (if N.testbit f 7 then resynchronise buf else buf) ->
  parse_body23 z passes f buf <> NonTerm.
Proof. exact parse_body23_nt. Qed.
Print Assumptions C20_v23_terminates_partial.
Example C20_v23_terminates_nontrivial : ~ contains (B "ENCR") [69; 78; 67; 69; 78; 67; 83].
Proof.
  intros (a & b & H). do 4 (destruct a as [|? a]; [discriminate H|]; injection H as _ H).
  apply (f_equal (@length N)) in H. rewrite !app_length in H. cbn in H. lia.
Qed.

(** With an encrypted one it does not, however many passes are made. *)
Theorem C20_v23_loops_refuted : exists buf, forall z passes, parse_body23 z passes 0 buf = NonTerm.
Proof. exact (ex_intro _ looping23 looping23_nt). Qed.
Print Assumptions C20_v23_loops_refuted.

(** A frame that is longer than what is left, but shorter than the tag, is read
    past the tag's end. *)
Theorem C20_v23_overread_refuted : exists buf, forall z passes, (0 < passes)%nat ->
  parse_body23 z passes 0 buf = UB OutOfBounds.
Proof. exact overread_refuted. Qed.
Print Assumptions C20_v23_overread_refuted.

(** If parsing fails the stream is where it was, in the state it was in. *)
Theorem C20_v23_error_restores : forall z passes r f buf pre post e x,
  parse_body23 z passes f buf = Throw x ->
  read23 z passes (mkInfo 3 r f (len buf)) (mkIs (pre ++ buf ++ post) (len pre) e 0) =
  (Throw x, mkIs (pre ++ buf ++ post) (len pre) e 0).
Proof. exact read23_error. Qed.
Print Assumptions C20_v23_error_restores.
Example C20_v23_error_nontrivial : forall z, parse_body23 z 1 0 [84; 73; 84; 50; 9] = Throw InvalidTag.
Proof. reflexivity. Qed.

(** Unless the file ends before the tag does: then the exception mask stays
    changed and the stream stays failed. *)
Theorem C20_v23_truncated : forall z passes r f n data pos e, len data < pos + n -> 0 < n ->
  exists p, read23 z passes (mkInfo 3 r f n) (mkIs data pos e 0) = (Throw IosFailure, mkIs data p all_bits failbit).
Proof. exact read23_truncated. Qed.
Print Assumptions C20_v23_truncated.
Example C20_v23_truncated_nontrivial : len [0; 0; 0] < 1 + 5.
Proof. reflexivity. Qed.
