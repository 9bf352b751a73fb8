(** * Lemmas: variable bit rate headers. *)
From Verif Require Import Base M_Ints M_Stream S_Ints L_Ints L_Stream M_Mp3 S_Mp3 L_Mp3 L_Mp3b L_Mp3c.

Lemma be32_spec p data a b c d : slice p 4 data = [a; b; c; d] ->
  is_bytes [a; b; c; d] -> be32 (slice p 4 data) = positional 256 [a; b; c; d].
Proof. intros -> H. exact (proj2 (plain_positional a b c d H)). Qed.

(** Fields of an Xing tag whose flags byte announces frames and bytes. *)
Record xing_at (data : bytes) (q : N) (flags frames nbytes : N) : Prop := {
  xa_id : slice q 4 data = B "Xing" \/ slice q 4 data = B "Info";
  xa_flags : exists a b c, slice (q + 4) 4 data = [a; b; c; flags];
  xa_both : flags mod 4 = 3;
  xa_frames : be32 (slice (q + 8) 4 data) = frames;
  xa_bytes : be32 (slice (q + 12) 4 data) = nbytes }.

Lemma is_xing_true b : b = B "Xing" \/ b = B "Info" -> is_xing b = true.
Proof. intros [-> | ->]; reflexivity. Qed.

Lemma read_xing_ok data q flags frames nbytes e : xing_at data q flags frames nbytes ->
  q + 120 <= len data ->
  exists r, r <= q + 120 /\
  read_xing (mkIs data (q + 4) e 0) = (Ok (Some frames, Some nbytes), mkIs data r e 0).
Proof.
  intros [_ (a & b & c & HF) HB HN HY] HL. unfold read_xing.
  unfold sbind at 1. rewrite sread_all_good by (try reflexivity; cbn [s_pos s_data]; lia).
  cbn [s_pos s_data s_exc]. rewrite HF. cbn [nth].
  rewrite land1b, land2b.
  replace (flags mod 2 =? 0) with false by lia. replace ((flags / 2) mod 2 =? 0) with false by lia. cbn [negb].
  unfold sbind at 1. unfold sbind at 1. rewrite sread_all_good by (try reflexivity; cbn [s_pos s_data]; lia).
  cbn [s_pos s_data s_exc]. unfold sret at 1.
  replace (q + 4 + 4) with (q + 8) by lia. rewrite HN.
  unfold sbind at 1. unfold sbind at 1. rewrite sread_all_good by (try reflexivity; cbn [s_pos s_data]; lia).
  cbn [s_pos s_data s_exc]. unfold sret at 1.
  replace (q + 8 + 4) with (q + 12) by lia. rewrite HY.
  set (s1 := mkIs data (q + 12 + 4) e 0).
  assert (HT : exists r, r <= q + 116 /\
     (if negb (N.land flags 4 =? 0) then do _ <- sread 100;; sret tt else sret tt) s1 = (Ok tt, mkIs data r e 0)).
  { destruct (negb (N.land flags 4 =? 0)).
    - exists (q + 116). split; [lia|]. unfold sbind. rewrite sread_good; [|reflexivity|].
      + cbn [s_pos s_data s_exc s1]. unfold sret. f_equal. f_equal. lia.
      + apply len_slice_full. cbn [s_pos s_data s1]. lia.
    - exists (q + 16). split; [lia|]. unfold sret, s1. f_equal. f_equal. lia. }
  destruct HT as (r & Hr & HT). unfold sbind at 1. rewrite HT.
  assert (HQ : exists r', r' <= q + 120 /\
     (if negb (N.land flags 8 =? 0) then do _ <- sread_all 4;; sret tt else sret tt) (mkIs data r e 0) = (Ok tt, mkIs data r' e 0)).
  { destruct (negb (N.land flags 8 =? 0)).
    - exists (r + 4). split; [lia|]. unfold sbind. rewrite sread_all_good by (try reflexivity; cbn [s_pos s_data]; lia). reflexivity.
    - exists r. split; [lia|reflexivity]. }
  destruct HQ as (r' & Hr' & HQ). unfold sbind at 1. rewrite HQ. exists r'. split; [exact Hr'|reflexivity].
Qed.

Lemma xing_lame_ok data q flags frames nbytes e buf : xing_at data q flags frames nbytes ->
  q + 152 <= len data -> no_l3 data q -> len buf = 4 ->
  exists r, xing_and_lame buf (mkIs data (q + 4) e 0) = (Ok (Some (frames, nbytes)), mkIs data r e 0).
Proof.
  intros X HL NL HB.
  assert (exists r, q <= r /\ r <= q + 120 /\
  read_xing (mkIs data (q + 4) e 0) = (Ok (Some frames, Some nbytes), mkIs data r e 0)) as (r & Hq & Hr & ER).
  { destruct (read_xing_ok data q flags frames nbytes e X) as (r & Hr & ER); [lia|].
    destruct (N.leb_spec q r) as [C|C]; [exists r; auto|]. exfalso.
    (* the position never moves back *)
    revert ER. unfold read_xing.
    destruct X as [_ (a & b & c & HF) HM _ _].
    unfold sbind at 1. rewrite sread_all_good by (try reflexivity; cbn [s_pos s_data]; lia).
    cbn [s_pos s_data s_exc]. rewrite HF. cbn [nth]. rewrite land1b, land2b.
    replace (flags mod 2 =? 0) with false by lia. replace ((flags / 2) mod 2 =? 0) with false by lia. cbn [negb].
    unfold sbind at 1. unfold sbind at 1. rewrite sread_all_good by (try reflexivity; cbn [s_pos s_data]; lia).
    cbn [s_pos s_data s_exc]. unfold sret at 1.
    unfold sbind at 1. unfold sbind at 1. rewrite sread_all_good by (try reflexivity; cbn [s_pos s_data]; lia).
    cbn [s_pos s_data s_exc]. unfold sret at 1.
    unfold sbind, sret.
    destruct (negb (N.land flags 4 =? 0)).
    - rewrite sread_good; [|reflexivity|apply len_slice_full; cbn [s_pos s_data]; lia]. cbn [s_pos s_data s_exc].
      destruct (negb (N.land flags 8 =? 0)).
      + rewrite sread_all_good by (try reflexivity; cbn [s_pos s_data]; lia). cbn [s_pos s_data s_exc].
        intros ER. injection ER as _ _ ER. lia.
      + intros ER. injection ER as _ _ ER. lia.
    - destruct (negb (N.land flags 8 =? 0)).
      + rewrite sread_all_good by (try reflexivity; cbn [s_pos s_data]; lia). cbn [s_pos s_data s_exc].
        intros ER. injection ER as _ _ ER. lia.
      + intros ER. injection ER as _ _ ER. lia. }
  unfold xing_and_lame. unfold sbind at 1. rewrite ER.
  unfold sbind at 1. rewrite reread_good by (try reflexivity; try assumption; cbn [s_pos s_data]; lia).
  cbn [s_pos s_data s_exc]. unfold sbind at 1. unfold is_lame.
  destruct (bytes_eqb_spec (takeN 4 (slice r 4 data)) (B "LAME")) as [EL|NE].
  - unfold sret at 1. unfold sbind at 1. unfold read_lame.
    do 2 (unfold sbind at 1; rewrite sread_all_good by (try reflexivity; cbn [s_pos s_data]; lia); cbn [s_pos s_data s_exc]).
    unfold sbind at 1. rewrite seekg_rel_good by (try reflexivity; cbn [s_pos]; lia). cbn [s_pos s_data s_exc].
    unfold sbind at 1. rewrite sread_all_good by (try reflexivity; cbn [s_pos s_data]; lia). cbn [s_pos s_data s_exc].
    unfold sbind at 1. rewrite seekg_rel_good by (try reflexivity; cbn [s_pos]; lia). cbn [s_pos s_data s_exc].
    unfold sbind at 1. rewrite sread_all_good by (try reflexivity; cbn [s_pos s_data]; lia). cbn [s_pos s_data s_exc].
    eexists. reflexivity.
  - destruct (bytes_eqb_spec (takeN 3 (slice r 4 data)) (B "L3.")) as [E3|_].
    { exfalso. apply (NL r Hq). unfold slice in *. rewrite takeN_takeN in E3. exact E3. }
    eexists. reflexivity.
Qed.

(** A frame with such a tag right after its side information. *)
Lemma timed_xing h f pre rest fuel flags frames nbytes :
  is_frame h f ->
  let data := pre ++ f ++ rest in
  let q := len pre + 4 + checksum h + side_info h in
  xing_at data q flags frames nbytes -> no_l3 data q -> q + 152 <= len data ->
  timed fuel (header_bytes h) (mkIs data (len pre + 4) badbit 0)
  = (Ok (samples h * frames, hz h), mkIs data (len pre + nbytes) badbit 0).
Proof.
  intros Hf data q X NL HL. pose proof Hf as (P & T & L).
  pose proof (length_bounds h P) as (_ & _ & LB & _).
  pose proof (side_le h) as (SL & SH). pose proof (checksum_le h) as CL.
  unfold timed. unfold sbind at 1. unfold mp3_audio_frame. unfold sbind at 1.
  pose proof (parse_header_ok h (mkIs data (len pre + 4) badbit 0) P eq_refl) as HP.
  cbn [s_pos s_data s_exc] in HP. unfold header_bytes at 1 in HP. unfold header_bytes. cbn [nth].
  rewrite HP by lia. clear HP.
  unfold sbind at 1. cbn [m_side header_spec]. fold q.
  assert (PV : parse_vbr (side_info h) (mkIs data q badbit 0) = (Ok (Some (frames, nbytes)), mkIs data q badbit 0)).
  { unfold parse_vbr. unfold sbind at 1. rewrite tellg'_good by reflexivity. cbn [s_pos].
    unfold sbind at 1. rewrite reread_good by (try reflexivity; cbn [s_pos s_data]; lia). cbn [s_pos s_data s_exc].
    rewrite is_xing_true by exact (xa_id _ _ _ _ _ X).
    destruct (xing_lame_ok data q flags frames nbytes badbit (slice q 4 data) X HL NL) as (r & EX).
    { apply len_slice_full. lia. }
    unfold sbind at 1. rewrite EX. unfold sbind. cbn [seekg']. rewrite seekg_good by reflexivity. reflexivity. }
  rewrite PV. unfold sbind at 1. cbn [m_size m_crc header_spec].
  rewrite seekg_rel_good; [|reflexivity|cbn [s_pos]; unfold q, checksum; destruct (f_D h =? 0); lia].
  cbn [s_pos s_data s_exc]. unfold sret at 1.
  rewrite frame_duration_spec. unfold sbind. rewrite seekg_rel_good; [|reflexivity|cbn [s_pos]].
  - cbn [s_pos s_data s_exc m_size header_spec]. unfold sret. f_equal. f_equal.
    unfold q, checksum. unfold checksum in LB. destruct (f_D h =? 0); lia.
  - cbn [m_size header_spec]. unfold q, checksum. unfold checksum in LB. destruct (f_D h =? 0); lia.
Qed.

(** A call whose first four bytes are the header of a frame. *)
Lemma duration_header data h p e : proper h -> slice p 4 data = header_bytes h -> p + 4 <= len data ->
  get_mp3_duration (mkIs data p e 0) =
  (do dur <- timed (S (length data)) (header_bytes h);; do _ <- set_exc e;; sret dur)
    (mkIs data (p + 4) badbit 0).
Proof.
  intros P E HL. unfold get_mp3_duration. cbn [s_data].
  unfold sbind at 1. unfold get_exc. cbn [s_exc]. unfold sbind at 1. rewrite set_exc_good by reflexivity.
  cbn [s_data s_pos]. unfold sbind at 1. rewrite tellg'_good by reflexivity. cbn [s_pos].
  unfold sbind at 1.
  rewrite sread_good; [|reflexivity|cbn [s_pos s_data]; rewrite E; reflexivity].
  cbn [s_pos s_data s_exc]. rewrite E.
  unfold sbind at 1. rewrite is_fail_good by reflexivity.
  destruct (byte1 h (proj1 P)) as (S1 & _).
  assert (SY : is_sync (nth 0 (header_bytes h) 0) (nth 1 (header_bytes h) 0) = true) by exact S1.
  unfold sbind at 1. rewrite SY. cbn [negb andb]. unfold sret at 1.
  unfold sbind at 1. rewrite is_fail_good by reflexivity. rewrite SY. reflexivity.
Qed.

Lemma duration_xing h f pre rest e flags frames nbytes :
  is_frame h f ->
  let data := pre ++ f ++ rest in
  let q := len pre + 4 + checksum h + side_info h in
  xing_at data q flags frames nbytes -> no_l3 data q -> q + 152 <= len data ->
  get_mp3_duration (mkIs data (len pre) e 0)
  = (Ok (samples h * frames, hz h), mkIs data (len pre + nbytes) e 0).
Proof.
  intros Hf data q X NL HL. pose proof Hf as (P & T & L).
  rewrite (duration_header data h (len pre) e P); [|apply frame_at; exact Hf|unfold q in HL; lia].
  unfold sbind at 1. unfold data, q in *.
  rewrite (timed_xing h f pre rest (S (length (pre ++ f ++ rest))) flags frames nbytes Hf X NL HL).
  unfold sbind. rewrite set_exc_good by reflexivity. reflexivity.
Qed.

(** A "VBRI" header overruns a variable. *)
Lemma duration_vbri h f pre rest e :
  is_frame h f ->
  let data := pre ++ f ++ rest in
  let q := len pre + 4 + checksum h + side_info h in
  let v := len pre + 4 + checksum h + 32 in
  slice q 4 data <> B "Xing" -> slice q 4 data <> B "Info" ->
  slice (q - 2) 4 data <> B "Xing" -> slice (q - 2) 4 data <> B "Info" ->
  slice v 4 data = B "VBRI" -> v + 22 <= len data ->
  exists s', get_mp3_duration (mkIs data (len pre) e 0) = (UB OutOfBounds, s').
Proof.
  intros Hf data q v X1 X2 X3 X4 X5 HL. pose proof Hf as (P & T & L).
  pose proof (length_bounds h P) as (_ & _ & LB & _).
  pose proof (side_le h) as (SL & SH). pose proof (checksum_le h) as CL.
  rewrite (duration_header data h (len pre) e P); [|apply frame_at; exact Hf|unfold v in HL; lia].
  unfold sbind at 1. unfold timed. unfold sbind at 1. unfold mp3_audio_frame. unfold sbind at 1.
  pose proof (parse_header_ok h (mkIs data (len pre + 4) badbit 0) P eq_refl) as HP.
  cbn [s_pos s_data s_exc] in HP. unfold header_bytes at 1 in HP. unfold header_bytes. cbn [nth].
  rewrite HP by (unfold v in HL; lia). clear HP.
  unfold sbind at 1. cbn [m_side header_spec]. fold q.
  assert (PV : exists s', parse_vbr (side_info h) (mkIs data q badbit 0) = (UB OutOfBounds, s')).
  { unfold parse_vbr. assert (H4 : q + 4 <= len data) by (unfold q, v in *; lia).
    unfold sbind at 1. rewrite tellg'_good by reflexivity. cbn [s_pos].
    unfold sbind at 1. rewrite reread_good by (reflexivity || exact H4). cbn [s_pos s_data s_exc].
    rewrite is_xing_false by assumption.
    unfold sbind at 1. unfold sbind at 1.
    rewrite seekg_rel_good by (try reflexivity; cbn [s_pos]; lia). cbn [s_pos s_data s_exc].
    replace (Z.to_N (Z.of_N (q + 4) + -6)) with (q - 2) by (unfold q; lia).
    pose proof (len_slice_full q 4 data H4) as L1.
    assert (H4' : q - 2 + 4 <= len data) by (unfold q in *; lia).
    unfold sbind at 1. rewrite reread_good by (reflexivity || exact H4' || exact L1). cbn [s_pos s_data s_exc].
    rewrite is_xing_false by assumption.
    unfold sbind at 1.
    rewrite seekg_rel_good by (try reflexivity; cbn [s_pos]; unfold q; lia). cbn [s_pos s_data s_exc].
    replace (Z.to_N (Z.of_N (q - 2 + 4) + (32 - Z.of_N (side_info h) - 2))) with v by (unfold q, v; lia).
    pose proof (len_slice_full (q - 2) 4 data H4') as L2.
    unfold sbind at 1. rewrite reread_good by (try reflexivity; try exact L2; cbn [s_pos s_data]; lia). cbn [s_pos s_data s_exc].
    rewrite X5. change (bytes_eqb (B "VBRI") (B "VBRI")) with true. cbv iota.
    unfold sbind at 1. unfold read_vbri.
    do 5 (unfold sbind at 1; rewrite sread_all_good by (try reflexivity; cbn [s_pos s_data]; lia); cbn [s_pos s_data s_exc]).
    unfold sbind at 1. 
    assert (L4 : len (slice (v + 4 + 2 + 2 + 2 + 4 + 4) 4 data) = 4) by (apply len_slice_full; lia).
    rewrite sread_good by (reflexivity || exact L4). cbn [s_pos s_data s_exc]. rewrite L4.
    change (2 <? 4) with true. cbv iota. eexists. reflexivity. }
  destruct PV as (s' & PV). rewrite PV. eexists. reflexivity.
Qed.

Lemma xing_tag_at data q frames nbytes : q + 16 <= len data -> xing_tag data q frames nbytes ->
  exists flags, xing_at data q flags frames nbytes.
Proof.
  intros HL (H1 & (a & b & c & d & H2 & H3) & (n & H4 & H5 & H6) & (m & H7 & H8 & H9)).
  exists d. split; auto.
  - exists a, b, c. exact H2.
  - destruct (four n) as (w & x & y & z & ->). { rewrite <- H4. apply len_slice_full. lia. }
    rewrite H6. apply be32_spec; assumption.
  - destruct (four m) as (w & x & y & z & ->). { rewrite <- H7. apply len_slice_full. lia. }
    rewrite H9. apply be32_spec; assumption.
Qed.

Lemma no_frame_no_sync rest : no_frame_follows rest -> no_sync_start rest.
Proof.
  intros H. unfold no_sync_start. destruct rest as [|b0 [|b1 [|b2 [|b3 r]]]]; auto.
  destruct (is_sync b0 b1) eqn:E; [|reflexivity]. exfalso. destruct H as [H|H].
  - unfold len in H. cbn [length] in H. lia.
  - apply H. exists b0, b1, (b2 :: b3 :: r). rewrite dropN_0. split; [reflexivity|].
    unfold is_sync in E. lia.
Qed.

(** ** Statements of P_Mp3. *)
Lemma accept_l h data pos e : proper h -> pos + checksum h <= len data ->
  exists m,
    parse_header 255 (nth 1 (header_bytes h) 0) (nth 2 (header_bytes h) 0) (nth 3 (header_bytes h) 0) (mkIs data pos e 0)
    = (Ok m, mkIs data (pos + checksum h + side_info h) e 0) /\
    m_bitrate m = 1000 * kbps h /\ m_rate m = hz h /\ (m_padded m = true <-> f_G h = 1) /\
    (m_crc m = true <-> f_D h = 0) /\ m_mode m = f_I h /\
    (m_version m = Mpeg1 <-> f_B h = 3) /\ (m_version m = Mpeg2 <-> f_B h = 2) /\
    (m_copyright m = true <-> f_K h = 1) /\ (m_original m = true <-> f_L h = 1) /\ (m_private m = true <-> f_H h = 1) /\
    m_side m = side_info h /\ m_size m = frame_length h.
Proof.
  intros P HL. exists (header_spec h). split.
  - exact (parse_header_ok h (mkIs data pos e 0) P eq_refl HL).
  - unfold header_spec, version_spec. cbn.
    destruct (f_B h =? 3) eqn:E3; [apply N.eqb_eq in E3|apply N.eqb_neq in E3];
    (destruct (f_B h =? 2) eqn:E2; [apply N.eqb_eq in E2|apply N.eqb_neq in E2]);
    rewrite ?N.eqb_eq; repeat split; intros; try lia; try congruence.
Qed.

Lemma advance_l h data pos e : proper h -> pos + 4 + checksum h <= len data ->
  (exists m, mp3_audio_frame 255 (nth 1 (header_bytes h) 0) (nth 2 (header_bytes h) 0) (nth 3 (header_bytes h) 0) false
    (mkIs data (pos + 4) e 0) = (Ok (m, None), mkIs data (pos + frame_length h) e 0)) /\
  4 + checksum h + side_info h <= frame_length h.
Proof.
  intros P HL. split; [|apply length_bounds; exact P]. exists (header_spec h).
  pose proof (mp3_frame_ok h (mkIs data (pos + 4) e 0) P eq_refl) as M. cbn [s_pos s_data s_exc] in M.
  replace (pos + 4 - 4) with pos in M by lia. apply M; lia.
Qed.

Lemma duration_tag_l h f pre rest e frames nbytes :
  is_frame h f ->
  let data := pre ++ f ++ rest in
  let q := len pre + 4 + checksum h + side_info h in
  xing_tag data q frames nbytes -> no_l3 data q -> q + 152 <= len data ->
  get_mp3_duration (mkIs data (len pre) e 0)
  = (Ok (samples h * frames, hz h), mkIs data (len pre + nbytes) e 0).
Proof.
  intros Hf data q X NL HL. destruct (xing_tag_at data q frames nbytes) as (flags & XA); [lia|exact X|].
  exact (duration_xing h f pre rest e flags frames nbytes Hf XA NL HL).
Qed.
