(** * C35, C36: MPEG audio frames, sync search, durations. *)
From Verif Require Import Base M_Stream S_Ints M_Mp3 S_Mp3 L_Mp3 L_Mp3b L_Mp3c L_Mp3d.

(** Every proper layer III header is accepted, and all that is reported about it
    are the values of the tables; the read position is then after the checksum
    and the side information. *)
Theorem C35_accept : forall (h : layout) data pos e, proper h -> pos + checksum h <= len data ->
  exists m,
    parse_header 255 (nth 1 (header_bytes h) 0) (nth 2 (header_bytes h) 0) (nth 3 (header_bytes h) 0)
      (mkIs data pos e 0)
    = (Ok m, mkIs data (pos + checksum h + side_info h) e 0) /\
    m_bitrate m = 1000 * kbps h /\ m_rate m = hz h /\ (m_padded m = true <-> f_G h = 1) /\
    (m_crc m = true <-> f_D h = 0) /\ m_mode m = f_I h /\
    (m_version m = Mpeg1 <-> f_B h = 3) /\ (m_version m = Mpeg2 <-> f_B h = 2) /\
    (m_copyright m = true <-> f_K h = 1) /\ (m_original m = true <-> f_L h = 1) /\
    (m_private m = true <-> f_H h = 1) /\
    m_side m = side_info h /\ m_size m = frame_length h.
Proof. exact accept_l. Qed.
Print Assumptions C35_accept.
Definition ex_frame_layout : layout := mkLayout 3 1 1 9 0 0 0 1 0 0 1 0.
Example C35_accept_nontrivial : proper ex_frame_layout /\ header_bytes ex_frame_layout = [255; 251; 144; 68] /\
  frame_length ex_frame_layout = 417.
Proof. split; [|split; reflexivity]. repeat split; discriminate. Qed.

(** Any other four bytes are refused, and the stream is as it was. *)
Theorem C35_reject : forall b0 b1 b2 b3 data pos e,
  b0 < 256 -> b1 < 256 -> b2 < 256 -> b3 < 256 ->
  (forall h, proper h -> header_bytes h <> [b0; b1; b2; b3]) -> pos + 2 <= len data ->
  parse_header b0 b1 b2 b3 (mkIs data pos e 0) = (Throw BadHeader, mkIs data pos e 0).
Proof.
  intros b0 b1 b2 b3 data pos e H0 H1 H2 H3 HP HL.
  exact (parse_header_bad b0 b1 b2 b3 (mkIs data pos e 0) H0 H1 H2 H3 HP eq_refl HL).
Qed.
Print Assumptions C35_reject.
Example C35_reject_nontrivial : forall h, proper h -> header_bytes h <> [255; 251; 0; 68].
Proof.
  intros h (R & _ & _ & E0 & _) H. pose proof (f_equal (fun l => nth 2 l 0) H) as H2. cbn [header_bytes nth] in H2.
  destruct R as (_ & _ & _ & _). lia.
Qed.

(** Having read the header of a frame at [pos], the constructor leaves the stream
    at the frame's end, which is never before what it has read. *)
Theorem C35_advance : forall (h : layout) data pos e, proper h -> pos + 4 + checksum h <= len data ->
  (exists m, mp3_audio_frame 255 (nth 1 (header_bytes h) 0) (nth 2 (header_bytes h) 0) (nth 3 (header_bytes h) 0) false
    (mkIs data (pos + 4) e 0) = (Ok (m, None), mkIs data (pos + frame_length h) e 0)) /\
  4 + checksum h + side_info h <= frame_length h.
Proof. exact advance_l. Qed.
Print Assumptions C35_advance.
Example C35_advance_nontrivial : proper (mkLayout 0 1 0 1 1 0 0 3 0 0 0 0) /\
  frame_length (mkLayout 0 1 0 1 1 0 0 3 0 0 0 0) = 48.
Proof. split; [|reflexivity]. repeat split; discriminate. Qed.

(** The search stops at the first sync at or after the start; if there is none the
    stream has failed.  Two bytes must be left. *)
Theorem C36_find_sync_partial : forall data pos e, pos + 2 <= len data ->
  (exists p, first_sync data pos p /\ find_sync (mkIs data pos e 0) = (Ok tt, mkIs data p badbit 0)) \/
  ((forall p, pos <= p -> ~ sync_at data p) /\
   exists s', find_sync (mkIs data pos e 0) = (Ok tt, s') /\ s_data s' = data /\ s_exc s' = badbit /\
              (s_state s' = 4 \/ s_state s' = 6)).
Proof. exact find_sync_l. Qed.
Print Assumptions C36_find_sync_partial.
Example C36_find_sync_nontrivial :
  first_sync [1; 255; 255; 255; 251; 144] 0 1 /\
  first_sync [255; 224] 0 0 /\
  (forall p, 0 <= p -> ~ sync_at [255; 223; 255] p).
Proof.
  split; [|split].
  - split; [lia|]. split.
    + exists 255, 255, [255; 251; 144]. split; [reflexivity|]. lia.
    + intros q _ Hq (b0 & b1 & r & E & -> & _). assert (q = 0) by lia. subst q. discriminate E.
  - split; [lia|]. split; [|intros; lia]. exists 255, 224, []. split; [reflexivity|]. lia.
  - intros p _ (b0 & b1 & r & E & -> & L).
    assert (C : p = 0 \/ p = 1 \/ 2 <= p) by lia. destruct C as [-> | [-> | C]].
    + injection E as <- <-. lia.
    + discriminate E.
    + assert (len (dropN p [255; 223; 255]) = len (255 :: b1 :: r)) as EL by now rewrite E.
      rewrite len_dropN in EL. unfold len in EL. cbn [length] in EL. lia.
Qed.

(** At the end of the file it looks at bytes that were never set. *)
Theorem C36_nothing_left_refuted : forall data pos e, len data <= pos ->
  exists s', find_sync (mkIs data pos e 0) = (UB Uninitialised, s').
Proof. exact find_sync_nothing_left. Qed.
Print Assumptions C36_nothing_left_refuted.
Example C36_nothing_left_nontrivial : len [255; 251; 1] <= 3.
Proof. discriminate. Qed.

(** Consecutive frames without a variable bit rate header: what is reported is
    the duration of the first frame times the number of frames, so if they agree
    in samples and rate, the sum of the durations. *)
Theorem C36_duration_partial : forall (h : layout) (f : bytes) (frames : list (layout * bytes)) (pre rest : bytes) e,
  is_frame h f -> Forall (fun p => is_frame (fst p) (snd p)) frames -> no_frame_follows rest ->
  let data := pre ++ f ++ concat (map snd frames) ++ rest in
  no_vbr data h (len pre) -> len pre + 42 <= len data ->
  exists pos',
  get_mp3_duration (mkIs data (len pre) e 0)
  = (Ok (samples h * (1 + len frames), hz h), mkIs data pos' e 0).
Proof.
  intros h f frames pre rest e Hf HF HR. exact (duration_here h f frames pre rest e Hf HF (no_frame_no_sync rest HR)).
Qed.
Print Assumptions C36_duration_partial.
Definition ex_frame : bytes := header_bytes ex_frame_layout ++ repeat 0 413.
Example C36_duration_nontrivial :
  is_frame ex_frame_layout ex_frame /\ no_frame_follows (B "TAG") /\
  no_vbr (B "x" ++ ex_frame ++ concat (map snd [(ex_frame_layout, ex_frame)]) ++ B "TAG") ex_frame_layout 1.
Proof.
  split; [|split].
  - split; [repeat split; discriminate|]. split; reflexivity.
  - left. reflexivity.
  - split.
    + intros x [-> | ->]; split; intros E; vm_compute in E; discriminate E.
    + intros E; vm_compute in E; discriminate E.
Qed.

(** The same after bytes that are no sync: timing starts at the first sync four
    or more bytes on. *)
Theorem C36_resync_partial : forall (h : layout) (f : bytes) (frames : list (layout * bytes)) (pre rest : bytes) e here,
  is_frame h f -> Forall (fun p => is_frame (fst p) (snd p)) frames -> no_frame_follows rest ->
  let data := pre ++ f ++ concat (map snd frames) ++ rest in
  no_vbr data h (len pre) -> len pre + 42 <= len data ->
  ~ sync_at data here -> first_sync data (here + 4) (len pre) ->
  exists pos',
  get_mp3_duration (mkIs data here e 0)
  = (Ok (samples h * (1 + len frames), hz h), mkIs data pos' e 0).
Proof.
  intros h f frames pre rest e here Hf HF HR.
  exact (duration_resync h f frames pre rest e here Hf HF (no_frame_no_sync rest HR)).
Qed.
Print Assumptions C36_resync_partial.
Example C36_resync_nontrivial :
  let data := B "junk" ++ ex_frame ++ concat (map snd [(ex_frame_layout, ex_frame)]) ++ B "TAG" in
  ~ sync_at data 0 /\ first_sync data (0 + 4) (len (B "junk")).
Proof.
  split.
  - intros (b0 & b1 & r & E & -> & _). discriminate E.
  - split; [vm_compute; discriminate|]. split.
    + eexists 255, 251, _. split; [reflexivity|]. lia.
    + intros q H1 H2. change (len (B "junk")) with 4 in H2. lia.
Qed.

(** Frames of different durations: still the first frame's duration times the
    number of frames (by [C36_duration_partial]).  Here two MPEG 1 frames, at
    44100 and at 32000 Hz. *)
Definition ex_other_layout : layout := mkLayout 3 1 1 9 2 0 0 1 0 0 1 0.
Definition ex_other : bytes := header_bytes ex_other_layout ++ repeat 0 572.
Theorem C36_mixed_refuted :
  exists pos',
  get_mp3_duration (mkIs (ex_frame ++ ex_other) 0 0 0)
  = (Ok (2 * 1152, 44100), mkIs (ex_frame ++ ex_other) pos' 0 0) /\
  is_frame ex_frame_layout ex_frame /\ is_frame ex_other_layout ex_other /\
  (* 1152/44100 + 1152/32000 is something else *)
  1152 * hz ex_other_layout + 1152 * hz ex_frame_layout <> 2 * 1152 * hz ex_other_layout.
Proof.
  eexists. split; [vm_compute; reflexivity|].
  split; [split; [repeat split; discriminate|split; reflexivity]|].
  split; [split; [repeat split; discriminate|split; reflexivity]|].
  vm_compute. discriminate.
Qed.
Print Assumptions C36_mixed_refuted.

(** A sync one to three bytes on is not found: with no other after it, the
    duration is zero, and the exception mask is lost. *)
Theorem C36_skipped_refuted : forall data here e,
  here + 6 <= len data -> ~ sync_at data here -> (forall p, here + 4 <= p -> ~ sync_at data p) ->
  get_mp3_duration (mkIs data here e 0) = (Ok (0, 1), mkIs data here badbit 0).
Proof. exact duration_none. Qed.
Print Assumptions C36_skipped_refuted.
Example C36_skipped_nontrivial :
  get_mp3_duration (mkIs (B "x" ++ ex_frame) 0 0 0) = (Ok (0, 1), mkIs (B "x" ++ ex_frame) 0 badbit 0) /\
  sync_at (B "x" ++ ex_frame) 1.
Proof.
  split; [vm_compute; reflexivity|]. eexists 255, 251, _. split; [reflexivity|]. lia.
Qed.

(** A frame with an Xing tag that gives the number of frames and bytes: the
    duration is that number of frames', and the stream is left that number of
    bytes after the frame's beginning. *)
Theorem C36_xing_partial : forall (h : layout) (f pre rest : bytes) e frames nbytes,
  is_frame h f ->
  let data := pre ++ f ++ rest in
  let q := len pre + 4 + checksum h + side_info h in
  xing_tag data q frames nbytes -> no_l3 data q -> q + 152 <= len data ->
  get_mp3_duration (mkIs data (len pre) e 0)
  = (Ok (samples h * frames, hz h), mkIs data (len pre + nbytes) e 0).
Proof. exact duration_tag_l. Qed.
Print Assumptions C36_xing_partial.
Definition ex_xing : bytes :=
  header_bytes ex_frame_layout ++ repeat 0 32 ++ B "Xing" ++ [0; 0; 0; 15; 0; 0; 3; 232; 0; 1; 0; 0] ++ repeat 0 365.
Example C36_xing_nontrivial :
  is_frame ex_frame_layout ex_xing /\ xing_tag ([] ++ ex_xing ++ []) (len (@nil N) + 4 + 0 + 32) 1000 65536 /\
  get_mp3_duration (mkIs ex_xing 0 0 0) = (Ok (1152000, 44100), mkIs ex_xing 65536 0 0).
Proof.
  split; [|split].
  - split; [repeat split; discriminate|]. split; reflexivity.
  - split; [left; reflexivity|]. split; [exists 0, 0, 0, 15; split; reflexivity|].
    split; eexists; (split; [reflexivity|]); split; try reflexivity; repeat constructor.
  - vm_compute. reflexivity.
Qed.

(** A "VBRI" header 32 bytes after the frame's header is read into a variable that
    is too small. *)
Theorem C36_vbri_refuted : forall (h : layout) (f pre rest : bytes) e,
  is_frame h f ->
  let data := pre ++ f ++ rest in
  let q := len pre + 4 + checksum h + side_info h in
  let v := len pre + 4 + checksum h + 32 in
  slice q 4 data <> B "Xing" -> slice q 4 data <> B "Info" ->
  slice (q - 2) 4 data <> B "Xing" -> slice (q - 2) 4 data <> B "Info" ->
  slice v 4 data = B "VBRI" -> v + 22 <= len data ->
  exists s', get_mp3_duration (mkIs data (len pre) e 0) = (UB OutOfBounds, s').
Proof. exact duration_vbri. Qed.
Print Assumptions C36_vbri_refuted.
Example C36_vbri_nontrivial :
  let f := header_bytes ex_frame_layout ++ repeat 0 32 ++ B "VBRI" ++ repeat 1 377 in
  is_frame ex_frame_layout f /\ slice 36 4 f = B "VBRI" /\ 36 + 22 <= len f /\
  slice 36 4 f <> B "Xing" /\ slice 34 4 f <> B "Info".
Proof.
  split; [split; [repeat split; discriminate|split; reflexivity]|].
  split; [reflexivity|]. split; [vm_compute; discriminate|].
  split; intros E; vm_compute in E; discriminate E.
Qed.
