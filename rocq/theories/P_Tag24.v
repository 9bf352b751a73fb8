(** * C15, C16, C19, C20 and C50: ID3v2.4 tags. *)
From Verif Require Import Base M_Ints M_Unsync M_Stream M_Payload M_Cloud M_Frame M_Tag23 M_Tag24
  S_Ints S_Stream S_Unsync S_Payload S_Cloud S_Tag S_Tag23 S_Tag24 L_Stream L_Tag23e L_Tag24 L_Tag24b.

(** C19: writing a tag [t] and reading the bytes back, wherever they stand in a
    file: the header is found and the frames are the same in the same order.
    Without padding the stream is left at the byte after the tag.  With
    padding, as many bytes as there are of it are taken from what follows, and
    the padding read is twice what it was.

    Missing: footers, one to three bytes of padding, padding with too little
    after it, contents that unsynchronisation changes, extended headers with a
    checksum or restrictions, encryption-method frames (C13), flags (C15). *)
Theorem C19_v24_partial : forall z passes t u b t' pre post e, (0 < passes)%nat -> wf_tag24 z t ->
  Forall plain_flags (map c_frame (t4_frames t)) -> write24 z t u = Ok (b, t') ->
  (u = false \/ Forall (unaffected24 z) (map c_frame (t4_frames t))) -> ext_simple (t4_ext t) ->
  t4_foot t = false -> (t4_pad t = 0 \/ 4 <= t4_pad t /\ t4_pad t <= len post) ->
  exists info t'',
    looking_at_id3v2 false (mkIs (pre ++ b ++ post) (len pre) e 0) =
      (Ok (Some info), mkIs (pre ++ b ++ post) (len pre + 10) e 0) /\ i_version info = 4 /\
    read24 z passes info (mkIs (pre ++ b ++ post) (len pre + 10) e 0) =
      (Ok t'', mkIs (pre ++ b ++ post) (len pre + len b + t4_pad t) e 0) /\
    map c_frame (t4_frames t'') = map c_frame (t4_frames t) /\
    t4_unsync t'' = Some (match t4_unsync t with Some true => true | _ => false end) /\
    t4_exp t'' = t4_exp t /\ t4_foot t'' = false /\ t4_ext t'' = t4_ext t /\ t4_pad t'' = 2 * t4_pad t.
Proof. exact roundtrip24_plain. Qed.
Print Assumptions C19_v24_partial.
Example C19_v24_nontrivial :
  let t := mkTag24 (Some true) false false (Some (mkExt24 7 true None None)) 5
             (map new_frame [title24 [255; 224; 255; 0; 65]; mkFrame (B "PCNT") no_flags (BCount [1; 0; 0; 255])]) in
  wf_tag24 no_zlib t /\ Forall plain_flags (map c_frame (t4_frames t)) /\ ext_simple (t4_ext t) /\
  exists b t', write24 no_zlib t false = Ok (b, t') /\ len b = 52.
Proof.
  split; [wf4|]. split; [wf4|]. split; [repeat split|].
  eexists _, _. split; [vm_compute; reflexivity|reflexivity].
Qed.
Example C19_v24_unaffected_nontrivial : unaffected24 no_zlib (title24 [65; 66; 255; 1]).
Proof.
  intros w H. apply Ok_inj in H. subst w. split; [repeat constructor|].
  intros i. do 16 (destruct i as [|i]; [reflexivity|]). now destruct i.
Qed.

(** Every tag with more padding than there are bytes after it cannot be read
    back at all -- a tag with padding at the end of a file, for one. *)
Theorem C19_v24_padding_refuted : forall z passes t u b t' pre post e,
  write24 z t u = Ok (b, t') -> ext_simple (t4_ext t) -> len post < t4_pad t ->
  exists info p,
    looking_at_id3v2 false (mkIs (pre ++ b ++ post) (len pre) e 0) =
      (Ok (Some info), mkIs (pre ++ b ++ post) (len pre + 10) e 0) /\ i_version info = 4 /\
    read24 z passes info (mkIs (pre ++ b ++ post) (len pre + 10) e 0) =
      (Throw IosFailure, mkIs (pre ++ b ++ post) p all_bits failbit).
Proof. exact padding_short24. Qed.
Print Assumptions C19_v24_padding_refuted.
Example C19_v24_padding_nontrivial : exists b t',
  write24 no_zlib (mkTag24 None false false None 5 [new_frame (title24 [65])]) false = Ok (b, t') /\ len b = 27.
Proof. eexists _, _. split; [vm_compute; reflexivity|reflexivity]. Qed.

(** No tag with a footer (and no padding) can be read back: the footer is taken
    for a frame. *)
Theorem C19_v24_footer_refuted : forall z passes t u b t' pre post e, (0 < passes)%nat -> wf_tag24 z t ->
  write24 z t u = Ok (b, t') ->
  (u = false \/ Forall (unaffected24 z) (map c_frame (t4_frames t))) -> ext_simple (t4_ext t) ->
  t4_foot t = true -> t4_pad t = 0 ->
  exists info,
    looking_at_id3v2 false (mkIs (pre ++ b ++ post) (len pre) e 0) =
      (Ok (Some info), mkIs (pre ++ b ++ post) (len pre + 10) e 0) /\ i_version info = 4 /\
    read24 z passes info (mkIs (pre ++ b ++ post) (len pre + 10) e 0) =
      (Throw InvalidTag, mkIs (pre ++ b ++ post) (len pre + 10) e 0).
Proof. exact footer24. Qed.
Print Assumptions C19_v24_footer_refuted.
Example C19_v24_footer_nontrivial :
  let t := mkTag24 None true true None 0 (map new_frame ex_frames24) in
  wf_tag24 no_zlib t /\ exists b t', write24 no_zlib t false = Ok (b, t') /\ len b = 61.
Proof. split; [wf4|]. eexists _, _. split; [vm_compute; reflexivity|reflexivity]. Qed.

(** Nor a tag written with unsynchronisation, in general: frames say how long
    they are without it, and reading does not undo it. *)
Theorem C19_v24_unsync_refuted : exists z t b t',
  wf_tag24 z t /\ Forall plain_flags (map c_frame (t4_frames t)) /\ t4_ext t = None /\ t4_pad t = 0 /\
  t4_foot t = false /\ write24 z t true = Ok (b, t') /\
  forall passes, (0 < passes)%nat ->
    parse_body24 z passes (nth 5 b 0) (dropN 10 b) = UB OutOfBounds.
Proof. exact unsync24_refuted. Qed.
Print Assumptions C19_v24_unsync_refuted.

(** Every tag whose reported size fits the header can be written, and no other. *)
Theorem C19_v24_writable : forall z t u n t', size24 z t u = Ok (n, t') -> ext_simple (t4_ext t) ->
  (n < 2 ^ 28 -> exists b, write24 z t u = Ok (b, t')) /\
  (2 ^ 28 <= n -> exists e, write24 z t u = Throw e).
Proof. exact writable24. Qed.
Print Assumptions C19_v24_writable.
Example C19_v24_writable_nontrivial : exists t', size24 no_zlib ex_tag24 true = Ok (51, t').
Proof. eexists. vm_compute. reflexivity. Qed.

(** C15: with status flags, the frames read back are the frames written, except
    that every status flag has moved one place. *)
Theorem C15_v24_partial : forall z passes t u b t' pre post e, (0 < passes)%nat -> wf_tag24 z t ->
  write24 z t u = Ok (b, t') ->
  (u = false \/ Forall (unaffected24 z) (map c_frame (t4_frames t))) -> ext_simple (t4_ext t) ->
  t4_foot t = false -> (t4_pad t = 0 \/ 4 <= t4_pad t /\ t4_pad t <= len post) ->
  exists info t'',
    looking_at_id3v2 false (mkIs (pre ++ b ++ post) (len pre) e 0) =
      (Ok (Some info), mkIs (pre ++ b ++ post) (len pre + 10) e 0) /\ i_version info = 4 /\
    read24 z passes info (mkIs (pre ++ b ++ post) (len pre + 10) e 0) =
      (Ok t'', mkIs (pre ++ b ++ post) (len pre + len b + t4_pad t) e 0) /\
    map c_frame (t4_frames t'') = map shift_flags24 (map c_frame (t4_frames t)) /\
    t4_unsync t'' = Some (match t4_unsync t with Some true => true | _ => false end) /\
    t4_exp t'' = t4_exp t /\ t4_foot t'' = false /\ t4_ext t'' = t4_ext t /\ t4_pad t'' = 2 * t4_pad t.
Proof. exact roundtrip24. Qed.
Print Assumptions C15_v24_partial.
Example C15_v24_nontrivial : wf_tag24 no_zlib ex_tag24 /\ ext_simple (t4_ext ex_tag24) /\
  exists b t', write24 no_zlib ex_tag24 false = Ok (b, t') /\ len b = 58.
Proof. split; [wf4|]. split; [repeat split|]. eexists _, _. split; [vm_compute; reflexivity|reflexivity]. Qed.

(** So status flags do not survive. *)
Theorem C15_v24_status_refuted : exists z t b t' t'',
  wf_tag24 z t /\ t4_ext t = None /\ t4_foot t = false /\ t4_pad t = 0 /\ write24 z t false = Ok (b, t') /\
  parse_body24 z 1 (nth 5 b 0) (dropN 10 b) = Ok t'' /\
  map c_frame (t4_frames t'') <> map c_frame (t4_frames t).
Proof. exact status24_refuted. Qed.
Print Assumptions C15_v24_status_refuted.

(** A compressed frame is read back with its compressed bytes as contents. *)
Theorem C15_v24_compressed_refuted : exists z t b t' t'',
  (forall p c, z_compress z p = Some c -> z_uncompress z c (len p) = Some p) /\
  Forall (fun c => wf_frame V24 (c_frame c)) (t4_frames t) /\ t4_ext t = None /\ t4_foot t = false /\ t4_pad t = 0 /\
  write24 z t false = Ok (b, t') /\
  parse_body24 z 1 (nth 5 b 0) (dropN 10 b) = Ok t'' /\
  map (fun c => fl_cmp (f_flags (c_frame c))) (t4_frames t) = [true] /\
  map (fun c => fl_cmp (f_flags (c_frame c))) (t4_frames t'') = [false] /\
  map (fun c => f_body (c_frame c)) (t4_frames t) = [BUnknown [65; 66]] /\
  map (fun c => f_body (c_frame c)) (t4_frames t'') = [BUnknown [66; 65]].
Proof. exact compressed24_refuted. Qed.
Print Assumptions C15_v24_compressed_refuted.

(** A tag with a frame in a group is written, and reading it goes past its end. *)
Theorem C15_v24_group_refuted : exists z t b t',
  Forall (fun c => wf_frame V24 (c_frame c)) (t4_frames t) /\ t4_ext t = None /\ t4_foot t = false /\ t4_pad t = 0 /\
  map (fun c => fl_gid (f_flags (c_frame c))) (t4_frames t) = [Some 9] /\
  write24 z t false = Ok (b, t') /\
  forall passes, (0 < passes)%nat -> parse_body24 z passes (nth 5 b 0) (dropN 10 b) = UB OutOfBounds.
Proof. exact group24_refuted. Qed.
Print Assumptions C15_v24_group_refuted.

(** C16: the size reported before a write is the number of bytes written beyond
    the ten of the header, and is what the header says -- whatever the caches
    hold, with a footer or without.  Missing: padding, and extended headers with
    a checksum or restrictions (both below). *)
Theorem C16_v24_partial : forall z t u b t', write24 z t u = Ok (b, t') -> ext_simple (t4_ext t) -> t4_pad t = 0 ->
  exists n, size24 z t u = Ok (n, t') /\ len b = 10 + n /\
  exists z0 z1 z2 z3 rest, b = B "ID3" ++ [4; 0; flags24 t; z0; z1; z2; z3] ++ rest /\
    Forall (fun z => z < 128) [z0; z1; z2; z3] /\ n = positional 128 [z0; z1; z2; z3].
Proof. exact size_exact24. Qed.
Print Assumptions C16_v24_partial.
Example C16_v24_nontrivial : exists b t',
  write24 no_zlib (mkTag24 None false true (Some (mkExt24 7 true None None)) 0 (map new_frame ex_frames24)) true = Ok (b, t')
  /\ len b = 71.
Proof. eexists _, _. split; [vm_compute; reflexivity|reflexivity]. Qed.

(** The padding is counted twice, always. *)
Theorem C16_v24_padding_refuted : forall z t u b t', write24 z t u = Ok (b, t') -> ext_simple (t4_ext t) ->
  exists n, size24 z t u = Ok (n, t') /\ len b + t4_pad t = 10 + n /\
  exists z0 z1 z2 z3 rest, b = B "ID3" ++ [4; 0; flags24 t; z0; z1; z2; z3] ++ rest /\
    Forall (fun z => z < 128) [z0; z1; z2; z3] /\ n = positional 128 [z0; z1; z2; z3].
Proof. exact size_written24. Qed.
Print Assumptions C16_v24_padding_refuted.
Example C16_v24_padding_nontrivial : exists b t',
  write24 no_zlib (mkTag24 None false false None 100 (map new_frame ex_frames24)) true = Ok (b, t') /\ len b = 153.
Proof. eexists _, _. split; [vm_compute; reflexivity|reflexivity]. Qed.

(** A checksum in the extended header: what is written is a byte shorter than
    the header says. *)
Theorem C16_v24_ext_refuted : exists z t b t' n, wf_tag24 z t /\ t4_pad t = 0 /\
  size24 z t false = Ok (n, t') /\ write24 z t false = Ok (b, t') /\ len b <> 10 + n.
Proof. exact ext_size_refuted24. Qed.
Print Assumptions C16_v24_ext_refuted.

(** C50: a tag laid out as the standard says -- plain, grouped or compressed
    frames, then padding; no extended header -- is read as those frames and that
    padding, and the stream is left after the last byte its header counts. *)
Theorem C50_v24_conforming : forall z passes r f fs pad l pre post e, (0 < passes)%nat ->
  laid_out24 z fs pad l -> N.testbit f 6 = false ->
  exists t, read24 z passes (mkInfo 4 r f (len l)) (mkIs (pre ++ l ++ post) (len pre) e 0) =
    (Ok t, mkIs (pre ++ l ++ post) (len pre + len l) e 0) /\
  map c_frame (t4_frames t) = map as_read24 fs /\
  t4_pad t = pad /\ t4_unsync t = Some (N.testbit f 7) /\ t4_exp t = N.testbit f 5 /\ t4_foot t = N.testbit f 4.
Proof. exact read_conforming24_stream. Qed.
Print Assumptions C50_v24_conforming.
Example C50_v24_nontrivial : exists fs, laid_out24 rev_zlib fs 3
  (B "TIT2" ++ [0; 0; 0; 5] ++ [64; 64] ++ [7; 0; 65; 66; 67] ++
   B "TALB" ++ [0; 0; 0; 6] ++ [0; 9] ++ [0; 0; 0; 2; 65; 0] ++ [0; 0; 0]).
Proof.
  exists [(B "TIT2", 64, Some 7, false, BText (mkText 0 [65; 66; 67])); (B "TALB", 0, None, true, BText (mkText 0 [65]))].
  apply (laid_frame24 _ _ _ _ _ _ _ [0; 65; 66; 67] [7; 0; 65; 66; 67] _ 3); try reflexivity; try discriminate;
    try exact I; try (repeat constructor); try apply (data_plain24 _ (Some 7)).
  apply (laid_frame24 _ _ _ _ _ _ _ [0; 65] [0; 0; 0; 2; 65; 0] _ 3); try reflexivity; try discriminate;
    try exact I; try (repeat constructor); try apply (laid_pad24 _ 3).
  apply (data_compressed24 _ None _ [65; 0]); try reflexivity; repeat constructor.
Qed.

(** A frame that is unsynchronised, in a tag that says so, is read with the
    bytes that unsynchronisation has inserted. *)
Theorem C50_v24_unsync_refuted : exists z buf t,
  parse_body24 z 1 128 buf = Ok t /\
  laid_out24 z [(B "TIT2", 0, None, false, BText (mkText 3 [255; 224]))] 0
     (B "TIT2" ++ [0; 0; 0; 3; 0; 0; 3; 255; 224]) /\
  buf = B "TIT2" ++ [0; 0; 0; 4; 0; 2] ++ unsynchronise [3; 255; 224] true /\
  map (fun c => f_body (c_frame c)) (t4_frames t) = [BText (mkText 3 [255; 0; 224])].
Proof. exact unsync_frame24_refuted. Qed.
Print Assumptions C50_v24_unsync_refuted.

(** A frame that is not compressed but tells its length is taken for compressed. *)
Theorem C50_v24_dli_refuted : exists buf, parse_body24 no_zlib 1 0 buf = Throw ZlibError /\
  buf = B "TIT2" ++ [0; 0; 0; 6; 0; 1] ++ [0; 0; 0; 2] ++ [3; 65].
Proof. exact dli24_refuted. Qed.
Print Assumptions C50_v24_dli_refuted.

(** C20: reading a tag that holds no encryption-method registration ends. *)
Theorem C20_v24_terminates_partial : forall z passes f buf, (0 < passes)%nat -> ~ contains (B "ENCR") buf ->
  parse_body24 z passes f buf <> NonTerm.
Proof. exact parse_body24_nt. Qed.
Print Assumptions C20_v24_terminates_partial.
Example C20_v24_terminates_nontrivial : ~ contains (B "ENCR") [69; 78; 67; 69; 78; 67; 83].
Proof.
  intros (a & b & H). do 4 (destruct a as [|? a]; [discriminate H|]; injection H as _ H).
  apply (f_equal (@length N)) in H. rewrite !app_length in H. cbn in H. lia.
Qed.

(** With an encrypted one it does not, however many passes are made. *)
Theorem C20_v24_loops_refuted : exists buf, forall z passes, parse_body24 z passes 0 buf = NonTerm.
Proof. exact (ex_intro _ looping24 looping24_nt). Qed.
Print Assumptions C20_v24_loops_refuted.

(** Five bytes that are not padding are read as a frame header, past the end. *)
Theorem C20_v24_overread_refuted : exists buf, forall z passes, (0 < passes)%nat ->
  parse_body24 z passes 0 buf = UB OutOfBounds.
Proof. exact overread24. Qed.
Print Assumptions C20_v24_overread_refuted.

(** If parsing fails the stream is where it was, in the state it was in. *)
Theorem C20_v24_error_restores : forall z passes r f buf pre post e x,
  parse_body24 z passes f buf = Throw x ->
  read24 z passes (mkInfo 4 r f (len buf)) (mkIs (pre ++ buf ++ post) (len pre) e 0) =
  (Throw x, mkIs (pre ++ buf ++ post) (len pre) e 0).
Proof. exact read24_error. Qed.
Print Assumptions C20_v24_error_restores.
Example C20_v24_error_nontrivial : forall z, parse_body24 z 1 0 [84; 73; 84; 50; 0; 0; 0; 0; 0; 0] = Throw InvalidTag.
Proof. reflexivity. Qed.
