(** * C27, C28: the tags at the front of a file, and the audio between the tags. *)
From Verif Require Import Base M_Stream S_Stream M_Payload M_Frame M_Tag22 M_Tag23 M_Tag24 M_Mp3 M_Read M_Track S_Read L_Read L_Track.

(** Reading all tags succeeds exactly if every tag in the maximal chain of tags
    from the read position on lies within the file and can be parsed; the result
    is the list of what each tag's own content parses to, in order, and the
    stream is then at the first byte after the last tag. *)
Theorem C28_read_all : forall z passes e data pos ts s', pos <= len data ->
  (read_all_id3v2 z passes (mkIs data pos e 0) = (Ok ts, s') <->
   exists l, tags_from data pos l /\ tags_end pos l <= len data /\
             Forall2 (fun h t => parse_any z passes (hd_version h) (hd_flags h) (tag_body data h) = Ok t) l ts /\
             s' = mkIs data (tags_end pos l) e 0).
Proof. exact read_all_iff. Qed.
Print Assumptions C28_read_all.
Definition ex_two_tags : bytes :=
  B "ID3" ++ [2; 0; 0; 0; 0; 0; 10] ++ B "TT2" ++ [0; 0; 4; 0] ++ B "abc" ++
  B "ID3" ++ [3; 0; 0; 0; 0; 0; 14] ++ B "TIT2" ++ [0; 0; 0; 4; 0; 0; 0] ++ B "xyz" ++ [255; 251].
Definition ex_two_heads : list head := [mkHead 0 2 0 0 10; mkHead 20 3 0 0 14].
Example C28_read_all_nontrivial :
  tags_from ex_two_tags 0 ex_two_heads /\ tags_end 0 ex_two_heads = 44 /\
  forall z, exists t1 t2, read_all_id3v2 z 1 (mkIs ex_two_tags 0 0 0) = (Ok [A22 t1; A23 t2], mkIs ex_two_tags 44 0 0).
Proof.
  split; [|split; [reflexivity|]].
  - split; [reflexivity|]. split.
    { exists 0, 0, 0, 10. eexists. split; [reflexivity|]. repeat split; try discriminate; repeat constructor. }
    split; [reflexivity|]. split.
    { exists 0, 0, 0, 14. eexists. split; [reflexivity|]. repeat split; try discriminate; repeat constructor. }
    intros v r f sz (z0 & z1 & z2 & z3 & rest & E & _). discriminate E.
  - intros z. eexists _, _. vm_compute. reflexivity.
Qed.

(** Reading by index fails with the documented complaint exactly when there are not
    that many tags (if there are, see below). *)
Theorem C28_absent_partial : forall z passes data e idx l pos, tags_from data pos l -> (length l <= idx)%nat ->
  exists s', read_id3v2 z passes idx (mkIs data pos e 0) = (Throw InvalidArgument, s').
Proof. exact read_idx_absent. Qed.
Print Assumptions C28_absent_partial.
Example C28_absent_nontrivial : exists s', forall z,
  read_id3v2 z 1 2 (mkIs ex_two_tags 0 0 0) = (Throw InvalidArgument, s').
Proof. eexists. intros z. vm_compute. reflexivity. Qed.

(** The tag read by index is the right one, but its content is taken from ten
    bytes too early: from the header on. *)
Theorem C28_offset_refuted : forall z passes data e idx l pos h, tags_from data pos l -> nth_error l idx = Some h ->
  read_id3v2 z passes idx (mkIs data pos e 0) =
  read_version z passes (mkInfo (hd_version h) (hd_rev h) (hd_flags h) (hd_size h)) (mkIs data (hd_at h) e 0).
Proof. exact read_idx_offset. Qed.
Print Assumptions C28_offset_refuted.
Example C28_offset_nontrivial : nth_error ex_two_heads 1 = Some (mkHead 20 3 0 0 14).
Proof. reflexivity. Qed.

(** So every ID3v2.2 tag of ordinary size without unsynchronisation is rejected... *)
Theorem C28_v22_refuted : forall z passes data e idx l pos h, is_bytes data ->
  tags_from data pos l -> nth_error l idx = Some h ->
  hd_version h = 2 -> N.land (hd_flags h) 128 = 0 ->
  7 <= hd_size h -> hd_size h <= 131072 -> hd_at h + hd_size h <= len data ->
  fst (read_id3v2 z passes idx (mkIs data pos e 0)) = Throw InvalidTag.
Proof. exact read_idx_v22. Qed.
Print Assumptions C28_v22_refuted.
Example C28_v22_nontrivial : is_bytes ex_two_tags /\ forall z,
  (exists ts, fst (read_all_id3v2 z 1 (mkIs ex_two_tags 0 0 0)) = Ok ts) /\
  fst (read_id3v2 z 1 0 (mkIs ex_two_tags 0 0 0)) = Throw InvalidTag.
Proof.
  split; [repeat constructor|]. intros z. split; [eexists|]; vm_compute; reflexivity.
Qed.

(** ...and every ID3v2.3 or 2.4 tag without extended header (2.3: and without
    unsynchronisation) is rejected or comes with a first frame made of the tag's
    own header, called "ID3" and the version. *)
Theorem C28_v234_refuted : forall z passes data e idx l pos h t,
  tags_from data pos l -> nth_error l idx = Some h ->
  (hd_version h = 3 \/ hd_version h = 4) -> N.land (hd_flags h) 64 = 0 ->
  (hd_version h = 3 -> N.land (hd_flags h) 128 = 0) ->
  4 <= hd_size h -> hd_at h + hd_size h <= len data ->
  fst (read_id3v2 z passes idx (mkIs data pos e 0)) = Ok t ->
  first_frame_id t = Some [73; 68; 51; hd_version h].
Proof. exact read_idx_own. Qed.
Print Assumptions C28_v234_refuted.
Definition ex_padded_tag : bytes :=
  B "ID3" ++ [3; 0; 0; 0; 0; 0; 24] ++ B "TIT2" ++ [0; 0; 0; 4; 0; 0; 0] ++ B "xyz" ++ repeat 0 10.
Example C28_v234_nontrivial : forall z,
  (exists t, fst (read_all_id3v2 z 1 (mkIs ex_padded_tag 0 0 0)) = Ok [t] /\ first_frame_id t = Some (B "TIT2")) /\
  (exists t, fst (read_id3v2 z 1 0 (mkIs ex_padded_tag 0 0 0)) = Ok t /\ first_frame_id t = Some [73; 68; 51; 3]).
Proof. intros z. split; eexists; split; vm_compute; reflexivity. Qed.

(** The search for the trailing tag: it brackets the audio, provided the stream
    reports failures as exceptions or the file has 128 bytes. *)
Theorem C27_find_partial : forall data pos e, 128 <= len data \/ N.land e 4 <> 0 ->
  exists p', find_id3v1_tag (mkIs data pos e 0) = (Ok (pos, v1_start data), mkIs data p' e 0).
Proof. exact find_ok. Qed.
Print Assumptions C27_find_partial.
Definition ex_audio_v1 : bytes := B "ID3" ++ [2; 0; 0; 0; 0; 0; 0] ++ B "music" ++ B "TAG" ++ repeat 0 125.
Example C27_find_nontrivial : 128 <= len ex_audio_v1 /\ v1_start ex_audio_v1 = 15 /\
  v1_start (B "TAG+" ++ repeat 0 223 ++ B "TAG" ++ repeat 0 125) = 0 /\ v1_start (B "TAG") = 3.
Proof. split; [vm_compute; discriminate|]. repeat split. Qed.

(** Otherwise it looks at bytes that were never set. *)
Theorem C27_short_refuted : forall data pos e, len data < 128 -> N.land e 4 = 0 ->
  exists s', find_id3v1_tag (mkIs data pos e 0) = (UB Uninitialised, s').
Proof. exact find_short. Qed.
Print Assumptions C27_short_refuted.
Example C27_short_nontrivial : len (B "hello") < 128 /\ N.land badbit 4 = 0.
Proof. split; reflexivity. Qed.

(** Whenever track data is produced for a stream positioned no later than the
    trailing tag, its size and checksum are those of the bytes in between.  (The
    digest is any function.) *)
Theorem C27_between : forall (md5 : bytes -> bytes) data pos e t s', pos <= v1_start data -> len data < 2 ^ 63 ->
  track_data md5 (mkIs data pos e 0) = (Ok t, s') ->
  tr_size t = v1_start data - pos /\ tr_md5 t = md5 (slice pos (v1_start data - pos) data).
Proof. exact track_between. Qed.
Print Assumptions C27_between.
Example C27_between_nontrivial : 10 <= v1_start ex_audio_v1 /\
  slice 10 (v1_start ex_audio_v1 - 10) ex_audio_v1 = B "music".
Proof. split; [vm_compute; discriminate|reflexivity]. Qed.

(** It is produced whenever the duration can be computed, and the stream is then
    where the audio ends. *)
Theorem C27_total_partial : forall (md5 : bytes -> bytes) data pos e d p' e', pos <= v1_start data -> len data < 2 ^ 63 ->
  get_mp3_duration (mkIs data pos all_bits 0) = (Ok d, mkIs data p' e' 0) ->
  track_data md5 (mkIs data pos e 0) =
  (Ok (mkTrack (md5 (slice pos (v1_start data - pos) data)) (v1_start data - pos) (Some d)),
   mkIs data (v1_start data) e 0).
Proof. exact track_total_size. Qed.
Print Assumptions C27_total_partial.
Example C27_total_nontrivial : exists p' e',
  get_mp3_duration (mkIs ex_audio_v1 10 all_bits 0) = (Ok (0, 1), mkIs ex_audio_v1 p' e' 0).
Proof. eexists _, _. vm_compute. reflexivity. Qed.

(** If the leading tags reach into what looks like a trailing one, the size wraps
    around and the checksum is that of nothing. *)
Theorem C27_overlap_refuted : forall (md5 : bytes -> bytes) data pos e t s', v1_start data < pos -> pos <= 2 ^ 63 ->
  track_data md5 (mkIs data pos e 0) = (Ok t, s') ->
  tr_size t = 2 ^ 64 - (pos - v1_start data) /\ tr_md5 t = md5 [].
Proof. exact track_overlap. Qed.
Print Assumptions C27_overlap_refuted.
(** A file that is one tag whose comment is a picture of an ID3v1 tag. *)
Definition ex_overlap : bytes :=
  B "ID3" ++ [2; 0; 0; 0; 0; 1; 12] ++ B "XXX" ++ [0; 0; 134] ++ B "ab" ++ repeat 0 4 ++ B "TAG" ++ repeat 0 125.
Example C27_overlap_nontrivial :
  tags_from ex_overlap 0 [mkHead 0 2 0 0 140] /\ v1_start ex_overlap = 22 /\
  forall md5, exists s', track_data md5 (mkIs ex_overlap 150 0 0) =
    (Ok (mkTrack (md5 []) (2 ^ 64 - 128) (Some (0, 1))), s').
Proof.
  split; [|split; [vm_compute; reflexivity|]].
  - split; [reflexivity|]. split.
    { exists 0, 0, 1, 12. eexists. split; [reflexivity|]. repeat split; try discriminate; repeat constructor. }
    intros v r f sz (z0 & z1 & z2 & z3 & rest & E & _). vm_compute in E. discriminate E.
  - intros md5. eexists. vm_compute. reflexivity.
Qed.

(** A file cut off inside an Xing table of contents: an exception instead of the
    promised "no duration". *)
Definition ex_cut : bytes :=
  [255; 251; 144; 68] ++ repeat 0 32 ++ B "Xing" ++ [0; 0; 0; 7; 0; 0; 3; 232; 0; 1; 0; 0] ++ repeat 0 50.
Theorem C27_cut_refuted : forall md5, fst (track_data md5 (mkIs ex_cut 0 0 0)) = Throw IosFailure.
Proof. intros md5. vm_compute. reflexivity. Qed.
Print Assumptions C27_cut_refuted.
