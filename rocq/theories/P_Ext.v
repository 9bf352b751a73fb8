(** * C16, C19 and C50: extended headers, groups and compression. *)
From Verif Require Import Base M_Ints M_Unsync M_Stream M_Payload M_Cloud M_Frame M_Tag23 M_Tag24
  S_Ints S_Stream S_Unsync S_Payload S_Cloud S_Tag S_Tag23 S_Tag24 S_Ext L_Tag24b L_Ext.

(** C50: an ID3v2.3 tag laid out as the standard says -- an extended header or
    none; plain, grouped and compressed frames; padding; all of it
    unsynchronised or not, as its header tells -- is read as what is laid out,
    and the stream is left after the last byte its header counts. *)
Theorem C50_v23_whole : forall z passes r f x xb fs pad l buf pre post e, (0 < passes)%nat ->
  ext_laid23 x xb -> frames_laid23 z fs pad l -> N.testbit f 6 = is_some x ->
  (if N.testbit f 7 then resynchronise buf else buf) = xb ++ l ->
  exists t, read23 z passes (mkInfo 3 r f (len buf)) (mkIs (pre ++ buf ++ post) (len pre) e 0) =
    (Ok t, mkIs (pre ++ buf ++ post) (len pre + len buf) e 0) /\
  map c_frame (t3_frames t) = map as_read23 fs /\
  option_map (fun y => (x_pad y, x_crc y)) (t3_ext t) = x /\
  t3_pad t = pad /\ t3_unsync t = Some (N.testbit f 7) /\ t3_exp t = N.testbit f 5.
Proof. exact read_whole23_stream. Qed.
Print Assumptions C50_v23_whole.
Example C50_v23_whole_nontrivial : exists x xb fs l,
  ext_laid23 x xb /\ frames_laid23 rev_zlib fs 3 l /\ x = Some (3, Some 65537) /\
  resynchronise (unsynchronise (xb ++ l) true) = xb ++ l /\ unsynchronise (xb ++ l) true <> xb ++ l /\
  map as_read23 fs =
    [mkFrame (B "TIT2") (mkFl false true false false None (Some 7) false false) (BText (mkText 0 [65; 255; 251]));
     mkFrame (B "TALB") (mkFl false false false true None None false false) (BText (mkText 0 [65]))].
Proof.
  exists (Some (3, Some 65537)), ([0; 0; 0; 10] ++ [128; 0] ++ [0; 0; 0; 3] ++ [0; 1; 0; 1]),
    [(B "TIT2", 64, Some 7, false, BText (mkText 0 [65; 255; 251])); (B "TALB", 0, None, true, BText (mkText 0 [65]))],
    (B "TIT2" ++ [0; 0; 0; 5] ++ [64; 32] ++ [7; 0; 65; 255; 251] ++
     B "TALB" ++ [0; 0; 0; 6] ++ [0; 128] ++ [0; 0; 0; 2; 65; 0] ++ [0; 0; 0]).
  split; [exact (ext_crc23 0 0 0 3 0 1 0 1 ltac:(repeat constructor) ltac:(repeat constructor))|].
  split; [|repeat split; try reflexivity; discriminate].
  apply (frames_next23 _ _ _ _ _ _ _ [0; 65; 255; 251] [7; 0; 65; 255; 251] _ 3); try reflexivity; try discriminate;
    try exact I; try (repeat constructor); try apply (data_plain23 _ (Some 7)).
  apply (frames_next23 _ _ _ _ _ _ _ [0; 65] [0; 0; 0; 2; 65; 0] _ 3); try reflexivity; try discriminate;
    try exact I; try (repeat constructor); try apply (frames_pad23 _ 3).
  apply (data_compressed23 _ None _ [65; 0]); try reflexivity; repeat constructor.
Qed.

(** The same for ID3v2.4, whose frames are not unsynchronised here (C50_v24_unsync_refuted). *)
Theorem C50_v24_whole : forall z passes r f x xb fs pad l pre post e, (0 < passes)%nat ->
  ext_laid24 x xb -> laid_out24 z fs pad l -> N.testbit f 6 = is_some x ->
  let buf := xb ++ l in
  exists t, read24 z passes (mkInfo 4 r f (len buf)) (mkIs (pre ++ buf ++ post) (len pre) e 0) =
    (Ok t, mkIs (pre ++ buf ++ post) (len pre + len buf) e 0) /\
  map c_frame (t4_frames t) = map as_read24 fs /\
  option_map (fun y => (y_size y, y_update y, y_crc y, y_restr y)) (t4_ext t) = x /\
  t4_pad t = pad /\ t4_unsync t = Some (N.testbit f 7) /\ t4_exp t = N.testbit f 5 /\ t4_foot t = N.testbit f 4.
Proof. exact read_whole24_stream. Qed.
Print Assumptions C50_v24_whole.
Example C50_v24_whole_nontrivial : exists xb, ext_laid24 (Some (15, true, Some 4294967295, Some 80)) xb /\
  exists fs, laid_out24 no_zlib fs 2 (B "TIT2" ++ [0; 0; 0; 2] ++ [64; 0] ++ [3; 65] ++ [0; 0]).
Proof.
  exists [0; 0; 0; 15; 1; 112; 0; 5; 15; 127; 127; 127; 127; 1; 80]. split.
  - change (Some (15, true, Some 4294967295, Some 80)) with
      (Some (len [0; 0; 0; 15; 1; 112; 0; 5; 15; 127; 127; 127; 127; 1; 80], true,
             Some (positional 128 [15; 127; 127; 127; 127]), Some 80)).
    apply (ext_some24 0 0 0 15 true (Some (15, 127, 127, 127, 127)) (Some 80)); try reflexivity.
    + repeat constructor.
    + split; [discriminate|repeat constructor].
  - exists [(B "TIT2", 64, None, false, BText (mkText 3 [65]))].
    apply (laid_frame24 _ _ _ _ _ _ _ [3; 65] [3; 65] _ 2); try reflexivity; try discriminate;
      try exact I; try (repeat constructor); try apply (data_plain24 _ None); apply (laid_pad24 _ 2).
Qed.

(** C16: for every tag with an extended header that has the size the standard
    says, as every conforming one that is read has, what is written lacks the
    length bytes of checksum and restrictions, while the size counts them. *)
Theorem C16_v24_lengths_refuted : forall z t u b t' x, write24 z t u = Ok (b, t') -> t4_ext t = Some x ->
  y_size x = standard_size24 x ->
  exists n, size24 z t u = Ok (n, t') /\ len b + t4_pad t + unannounced x = 10 + n.
Proof. exact size_standard24. Qed.
Print Assumptions C16_v24_lengths_refuted.
Definition ex_restricted : tag24 :=
  mkTag24 None false false (Some (mkExt24 15 true (Some 65537) (Some 80))) 0 [new_frame (title24 [65])].
Example C16_v24_lengths_nontrivial : exists b t', write24 no_zlib ex_restricted false = Ok (b, t') /\ len b = 35 /\
  y_size (mkExt24 15 true (Some 65537) (Some 80)) = standard_size24 (mkExt24 15 true (Some 65537) (Some 80)) /\
  unannounced (mkExt24 15 true (Some 65537) (Some 80)) = 2.
Proof. eexists _, _. split; [vm_compute; reflexivity|]. repeat split. Qed.

(** C19: nor can such a tag be read back: where the length of the checksum, or
    of the restrictions, is to be found, there stands the checksum's first byte
    or the restrictions themselves.  (Where these happen to be the right length,
    a checksum from 5 * 2^21 to 6 * 2^21 - 1 or restrictions of 1, what follows
    is taken for them.) *)
Theorem C19_v24_lengths_refuted : forall z passes t u b t' pre post e x,
  write24 z t u = Ok (b, t') -> t4_ext t = Some x ->
  match y_crc x, y_restr x with
  | Some c, _ => c / 2 ^ 21 <> 5
  | None, Some r => r <> 1
  | None, None => False
  end ->
  exists info ex s,
    looking_at_id3v2 false (mkIs (pre ++ b ++ post) (len pre) e 0) =
      (Ok (Some info), mkIs (pre ++ b ++ post) (len pre + 10) e 0) /\ i_version info = 4 /\
    read24 z passes info (mkIs (pre ++ b ++ post) (len pre + 10) e 0) = (Throw ex, s).
Proof. exact ext_never_back24. Qed.
Print Assumptions C19_v24_lengths_refuted.
Example C19_v24_lengths_nontrivial : 65537 / 2 ^ 21 <> 5.
Proof. discriminate. Qed.
