(** * Lemmas: the audio portion. *)
From Verif Require Import Base M_Ints M_Stream L_Stream L_Id3v1c M_Mp3 L_Mp3 L_Mp3b M_Track S_Read.

Lemma all_fail : N.land all_bits 4 <> 0.
Proof. vm_compute. discriminate. Qed.

Lemma find_std data e pos : 128 <= len data \/ N.land e 4 <> 0 ->
  exists p', find_standard_tag (mkIs data pos e 0)
  = (Ok (if (128 <=? len data) && bytes_eqb (slice (len data - 128) 3 data) (B "TAG") then len data - 128 else len data),
     mkIs data p' (if 128 <=? len data then e else 0) 0).
Proof.
  intros H. unfold find_standard_tag, scatch. unfold sbind at 1.
  destruct (N.leb_spec 128 (len data)) as [HL|HL].
  - rewrite seekg_end_good by (try reflexivity; cbn [s_data]; lia). cbn [s_data s_pos s_exc].
    unfold sbind at 1. unfold sread_cmp. unfold sbind at 1.
    rewrite sread_all_good by (try reflexivity; cbn [s_data s_pos]; lia). cbn [s_data s_pos s_exc].
    unfold sret at 1. cbn [andb]. destruct (bytes_eqb (slice (len data - 128) 3 data) (B "TAG")).
    + unfold sbind. rewrite tellg_good by reflexivity. cbn [s_data s_pos s_exc]. unfold sret.
      replace (len data - 128 + 3 - 3) with (len data - 128) by lia. eexists. reflexivity.
    + unfold sbind. rewrite seekg_end_good by (try reflexivity; cbn [s_data]; lia). cbn [s_data s_pos s_exc].
      rewrite tellg_good by reflexivity. cbn [s_data s_pos s_exc]. rewrite N.sub_0_r. eexists. reflexivity.
  - unfold seekg_end at 1. cbn [s_data]. replace (128 <=? len data) with false by lia.
    unfold setstate. cbn [s_state s_data s_pos s_exc]. change (N.lor 0 failbit) with 4.
    destruct H as [H|H]; [lia|]. rewrite N.land_comm. apply N.eqb_neq in H. rewrite H.
    unfold sbind. unfold set_exc. cbn [s_state s_data s_pos s_exc]. change (N.land 4 goodbit =? 0) with true. cbv iota.
    unfold sclear. cbn [s_state s_data s_pos s_exc].
    rewrite seekg_end_good by (try reflexivity; cbn [s_data]; lia). cbn [s_data s_pos s_exc].
    rewrite tellg_good by reflexivity. cbn [s_data s_pos s_exc andb]. rewrite N.sub_0_r. eexists. reflexivity.
Qed.

Lemma find_ok data pos e : 128 <= len data \/ N.land e 4 <> 0 ->
  exists p', find_id3v1_tag (mkIs data pos e 0) = (Ok (pos, v1_start data), mkIs data p' e 0).
Proof.
  intros H. unfold find_id3v1_tag. unfold sbind at 1. unfold get_exc. cbn [s_exc].
  unfold sbind at 1. rewrite set_exc_good by reflexivity. cbn [s_data s_pos s_exc].
  unfold sbind at 1. rewrite tellg_good by reflexivity. cbn [s_data s_pos s_exc].
  unfold sbind at 1. unfold scatch at 1. unfold sbind at 1. unfold v1_start.
  destruct (N.leb_spec 355 (len data)) as [HL|HL].
  - rewrite seekg_end_good by (try reflexivity; cbn [s_data]; lia). cbn [s_data s_pos s_exc].
    unfold sbind at 1. unfold sread_cmp at 1. unfold sbind at 1.
    rewrite sread_all_good by (try reflexivity; cbn [s_data s_pos]; lia). cbn [s_data s_pos s_exc].
    unfold sret at 1. cbn [andb]. destruct (bytes_eqb (slice (len data - 355) 4 data) (B "TAG+")).
    + unfold sbind at 1. rewrite tellg_good by reflexivity. cbn [s_data s_pos s_exc]. unfold sret at 1. unfold sbind, sret.
      rewrite set_exc_good by reflexivity. cbn [s_data s_pos s_exc].
      replace (len data - 355 + 4 - 4) with (len data - 355) by lia. eexists. reflexivity.
    + unfold sret at 1. unfold sbind at 1.
      destruct (find_std data all_bits (len data - 355 + 4) (or_intror all_fail)) as (p' & E). rewrite E.
      unfold sbind. rewrite set_exc_good by reflexivity. cbn [s_data s_pos s_exc]. eexists. reflexivity.
  - unfold seekg_end at 1. cbn [s_data]. replace (355 <=? len data) with false by lia.
    unfold setstate. cbn [s_state s_data s_pos s_exc]. change (N.land (N.lor 0 failbit) all_bits =? 0) with false. cbv iota.
    unfold sbind at 1. unfold set_exc at 1. cbn [s_state s_data s_pos s_exc]. change (N.land (N.lor 0 failbit) goodbit =? 0) with true. cbv iota.
    unfold sbind at 1. unfold sclear at 1. cbn [s_state s_data s_pos s_exc].
    unfold sbind at 1. rewrite seekg_end_good by (try reflexivity; cbn [s_data]; lia). cbn [s_data s_pos s_exc].
    unfold sbind at 1. rewrite tellg_good by reflexivity. cbn [s_data s_pos s_exc].
    unfold sbind at 1. rewrite set_exc_good by reflexivity. cbn [s_data s_pos s_exc].
    unfold sret at 1. unfold sbind at 1. cbn [andb].
    destruct (find_std data e (len data - 0) H) as (p' & E). rewrite E.
    unfold sbind. rewrite set_exc_good by reflexivity. cbn [s_data s_pos s_exc]. eexists. reflexivity.
Qed.

(** A short file, and failures not reported as exceptions. *)
Lemma find_short data pos e : len data < 128 -> N.land e 4 = 0 ->
  exists s', find_id3v1_tag (mkIs data pos e 0) = (UB Uninitialised, s').
Proof.
  intros HL HE. unfold find_id3v1_tag. unfold sbind at 1. unfold get_exc. cbn [s_exc].
  unfold sbind at 1. rewrite set_exc_good by reflexivity. cbn [s_data s_pos s_exc].
  unfold sbind at 1. rewrite tellg_good by reflexivity. cbn [s_data s_pos s_exc].
  unfold sbind at 1. unfold scatch at 1. unfold sbind at 1.
  unfold seekg_end at 1. cbn [s_data]. replace (355 <=? len data) with false by lia.
  unfold setstate. cbn [s_state s_data s_pos s_exc]. change (N.land (N.lor 0 failbit) all_bits =? 0) with false. cbv iota.
  unfold sbind at 1. unfold set_exc at 1. cbn [s_state s_data s_pos s_exc]. change (N.land (N.lor 0 failbit) goodbit =? 0) with true. cbv iota.
  unfold sbind at 1. unfold sclear at 1. cbn [s_state s_data s_pos s_exc].
  unfold sbind at 1. rewrite seekg_end_good by (try reflexivity; cbn [s_data]; lia). cbn [s_data s_pos s_exc].
  unfold sbind at 1. rewrite tellg_good by reflexivity. cbn [s_data s_pos s_exc].
  unfold sbind at 1. rewrite set_exc_good by reflexivity. cbn [s_data s_pos s_exc].
  unfold sret at 1. unfold sbind at 1. unfold find_standard_tag, scatch. unfold sbind at 1.
  unfold seekg_end at 1. cbn [s_data]. replace (128 <=? len data) with false by lia.
  unfold setstate. cbn [s_state s_data s_pos s_exc]. change (N.lor 0 failbit) with 4.
  rewrite N.land_comm, HE. change (0 =? 0) with true. cbv iota.
  unfold sbind at 1. unfold sread_cmp at 1. unfold sbind at 1. unfold sread_all. unfold sbind at 1.
  unfold sread. cbn [s_state]. change (4 =? 0) with false. cbv iota.
  unfold setstate. cbn [s_state s_data s_pos s_exc]. change (N.lor 4 failbit) with 4.
  rewrite N.land_comm, HE. change (0 =? 0) with true. cbv iota.
  change (len (@nil N) =? 3) with false. cbv iota. eexists. reflexivity.
Qed.

(** The digest loop reads what it should. *)
Lemma digest_loop_ok data e : forall fuel pos n, pos + n <= len data -> (N.to_nat n < fuel)%nat ->
  digest_loop fuel n (mkIs data pos e 0) = (Ok (slice pos n data), mkIs data (pos + n) e 0).
Proof.
  induction fuel as [|fuel IH]; intros pos n HL Hf; [lia|]. cbn [digest_loop].
  destruct (N.ltb_spec 0 n) as [HN|HN].
  - cbv zeta. set (k := if n <? bufsize then n else bufsize).
    assert (HK : 0 < k /\ k <= n).
    { unfold k. destruct (N.ltb_spec n bufsize) as [C|C]; unfold bufsize in *; lia. }
    clearbody k. unfold sbind at 1.
    rewrite sread_good by (try reflexivity; cbn [s_data s_pos]; apply len_slice_full; lia). cbn [s_data s_pos s_exc].
    unfold sbind. rewrite IH by lia. unfold sret. replace (pos + k + (n - k)) with (pos + n) by lia.
    f_equal. f_equal. unfold slice. rewrite <- dropN_dropN.
    replace n with (k + (n - k)) at 2 by lia. set (r := dropN pos data). clearbody r.
    rewrite <- (takeN_dropN k (takeN (k + (n - k)) r)). rewrite takeN_takeN. f_equal.
    + f_equal. lia.
    + rewrite !takeN_firstn, !dropN_skipn. rewrite skipn_firstn_comm. f_equal. lia.
  - replace n with 0 by lia. unfold sret, slice. rewrite N.add_0_r.
    replace (takeN 0 (dropN pos data)) with (@nil N); [reflexivity|].
    rewrite takeN_firstn. reflexivity.
Qed.

Lemma md5_ok md5 data e pos tag : tag <= len data ->
  exists p', compute_track_md5 md5 tag (mkIs data pos e 0) = (Ok (md5 (slice pos (tag - pos) data)), mkIs data p' e 0).
Proof.
  intros HL. unfold compute_track_md5. unfold sbind at 1. unfold get_exc. cbn [s_exc].
  unfold sbind at 1. rewrite set_exc_good by reflexivity. cbn [s_data s_pos s_exc].
  unfold sbind at 1. rewrite tellg_good by reflexivity. cbn [s_data s_pos s_exc].
  unfold sbind at 1. destruct (N.leb_spec pos tag) as [C|C].
  - rewrite digest_loop_ok by lia. unfold sbind. rewrite set_exc_good by reflexivity. eexists. reflexivity.
  - replace (tag - pos) with 0 by lia. cbn [digest_loop N.ltb N.compare]. unfold sret at 1.
    unfold sbind. rewrite set_exc_good by reflexivity. cbn [s_data s_pos s_exc]. eexists.
    unfold slice. rewrite takeN_firstn. reflexivity.
Qed.

Lemma v1_start_le data : v1_start data <= len data.
Proof.
  unfold v1_start. destruct ((355 <=? len data) && _); [lia|]. destruct ((128 <=? len data) && _); lia.
Qed.

(** All but the duration. *)
Lemma track_eq md5 data pos e :
  track_data md5 (mkIs data pos e 0) =
  (do dur <- attempt get_mp3_duration;;
   do _ <- seekg (v1_start data);;
   do _ <- sclear;;
   do _ <- set_exc e;;
   sret (mkTrack (md5 (slice pos (v1_start data - pos) data))
                 (Z.to_N ((Z.of_N (v1_start data) - Z.of_N pos) mod 2 ^ 64)) dur)) (mkIs data pos all_bits 0).
Proof.
  unfold track_data. unfold sbind at 1. unfold get_exc. cbn [s_exc].
  unfold sbind at 1. rewrite set_exc_good by reflexivity. cbn [s_data s_pos s_exc].
  destruct (find_ok data pos all_bits (or_intror all_fail)) as (p1 & E1).
  unfold sbind at 1. rewrite E1. cbv iota zeta.
  unfold sbind at 1. rewrite seekg_good by reflexivity. cbn [s_data s_pos s_exc].
  destruct (md5_ok md5 data all_bits pos (v1_start data) (v1_start_le data)) as (p2 & E2).
  unfold sbind at 1. rewrite E2.
  unfold sbind at 1. rewrite seekg_good by reflexivity. cbn [s_data s_pos s_exc]. reflexivity.
Qed.

Lemma track_any md5 data pos e t s' :
  track_data md5 (mkIs data pos e 0) = (Ok t, s') ->
  tr_md5 t = md5 (slice pos (v1_start data - pos) data) /\
  tr_size t = Z.to_N ((Z.of_N (v1_start data) - Z.of_N pos) mod 2 ^ 64).
Proof.
  rewrite track_eq. unfold sbind.
  destruct (attempt get_mp3_duration (mkIs data pos all_bits 0)) as [[d|x|u|] s1]; try discriminate.
  destruct (seekg (v1_start data) s1) as [[[]|x|u|] s2]; try discriminate.
  destruct (sclear s2) as [[[]|x|u|] s3]; try discriminate.
  destruct (set_exc e s3) as [[[]|x|u|] s4]; try discriminate.
  unfold sret. intros H. injection H as <- _. split; reflexivity.
Qed.

Lemma track_between md5 data pos e t s' : pos <= v1_start data -> len data < 2 ^ 63 ->
  track_data md5 (mkIs data pos e 0) = (Ok t, s') ->
  tr_size t = v1_start data - pos /\ tr_md5 t = md5 (slice pos (v1_start data - pos) data).
Proof.
  intros HP HL H. destruct (track_any _ _ _ _ _ _ H) as (E1 & E2). split; [|exact E1]. rewrite E2.
  pose proof (v1_start_le data) as V. rewrite Z.mod_small.
  - lia.
  - change (2 ^ 63) with 9223372036854775808 in HL. change (2 ^ 64)%Z with 18446744073709551616%Z. lia.
Qed.

Lemma track_overlap md5 data pos e t s' : v1_start data < pos -> pos <= 2 ^ 63 ->
  track_data md5 (mkIs data pos e 0) = (Ok t, s') ->
  tr_size t = 2 ^ 64 - (pos - v1_start data) /\ tr_md5 t = md5 [].
Proof.
  intros HP HL H. destruct (track_any _ _ _ _ _ _ H) as (E1 & E2). split.
  - rewrite E2. change (2 ^ 63) with 9223372036854775808 in HL. change (2 ^ 64)%Z with 18446744073709551616%Z.
    change (2 ^ 64) with 18446744073709551616.
    replace (Z.of_N (v1_start data) - Z.of_N pos)%Z with (18446744073709551616 - Z.of_N (pos - v1_start data) + (-1) * 18446744073709551616)%Z by lia.
    rewrite Z_mod_plus_full. rewrite Z.mod_small by lia. lia.
  - rewrite E1. replace (v1_start data - pos) with 0 by lia. unfold slice. rewrite takeN_firstn. reflexivity.
Qed.

(** With a duration, or none, the stream ends up where the audio ends. *)
Lemma track_total md5 data pos e d p' e' :
  get_mp3_duration (mkIs data pos all_bits 0) = (Ok d, mkIs data p' e' 0) ->
  track_data md5 (mkIs data pos e 0) =
  (Ok (mkTrack (md5 (slice pos (v1_start data - pos) data))
               (Z.to_N ((Z.of_N (v1_start data) - Z.of_N pos) mod 2 ^ 64)) (Some d)),
   mkIs data (v1_start data) e 0).
Proof.
  intros H. rewrite track_eq. unfold sbind, attempt. rewrite H.
  rewrite seekg_good by reflexivity. cbn [s_data s_pos s_exc]. unfold sclear. cbn [s_data s_pos s_exc].
  rewrite set_exc_good by reflexivity. reflexivity.
Qed.

Lemma track_total_size md5 data pos e d p' e' : pos <= v1_start data -> len data < 2 ^ 63 ->
  get_mp3_duration (mkIs data pos all_bits 0) = (Ok d, mkIs data p' e' 0) ->
  track_data md5 (mkIs data pos e 0) =
  (Ok (mkTrack (md5 (slice pos (v1_start data - pos) data)) (v1_start data - pos) (Some d)),
   mkIs data (v1_start data) e 0).
Proof.
  intros HP HL H. pose proof (track_total md5 data pos e d p' e' H) as T.
  destruct (track_between md5 data pos e _ _ HP HL T) as (E & _). cbn [tr_size] in E. rewrite E in T. exact T.
Qed.
