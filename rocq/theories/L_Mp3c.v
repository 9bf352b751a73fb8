(** * Lemmas: durations. *)
From Verif Require Import Base M_Ints M_Stream L_Stream M_Mp3 S_Mp3 L_Mp3 L_Mp3b.

Lemma reread_good buf s : good s -> s_pos s + 4 <= len (s_data s) -> len buf = 4 ->
  reread buf s = (Ok (slice (s_pos s) 4 (s_data s)), mkIs (s_data s) (s_pos s + 4) (s_exc s) 0).
Proof.
  intros G H L. unfold reread, sbind. pose proof (len_slice_full _ _ _ H) as LS.
  rewrite sread_good by assumption. rewrite LS. unfold sret. rewrite dropN_all by lia.
  now rewrite app_nil_r.
Qed.

Lemma is_xing_false b : b <> B "Xing" -> b <> B "Info" -> is_xing b = false.
Proof.
  intros H1 H2. unfold is_xing. destruct (bytes_eqb_spec b (B "Xing")); [contradiction|].
  destruct (bytes_eqb_spec b (B "Info")); [contradiction|reflexivity].
Qed.

Lemma parse_vbr_none side data q e : side <= 32 -> 2 <= q -> side <= q -> q + 4 <= len data -> q + 36 - side <= len data ->
  slice q 4 data <> B "Xing" -> slice q 4 data <> B "Info" ->
  slice (q - 2) 4 data <> B "Xing" -> slice (q - 2) 4 data <> B "Info" ->
  slice (q + 32 - side) 4 data <> B "VBRI" ->
  parse_vbr side (mkIs data q e 0) = (Ok None, mkIs data q e 0).
Proof.
  intros HS H2 Hq H4 H36 X1 X2 X3 X4 X5. unfold parse_vbr.
  unfold sbind at 1. rewrite tellg'_good by reflexivity. cbn [s_pos].
  unfold sbind at 1. rewrite reread_good by (reflexivity || exact H4). cbn [s_pos s_data s_exc].
  rewrite is_xing_false by assumption.
  unfold sbind at 1. unfold sbind at 1.
  rewrite seekg_rel_good by (try reflexivity; cbn [s_pos]; lia). cbn [s_pos s_data s_exc].
  replace (Z.to_N (Z.of_N (q + 4) + -6)) with (q - 2) by lia.
  pose proof (len_slice_full q 4 data H4) as L1.
  assert (H4' : q - 2 + 4 <= len data) by lia.
  unfold sbind at 1. rewrite reread_good by (reflexivity || exact H4' || exact L1). cbn [s_pos s_data s_exc].
  rewrite is_xing_false by assumption.
  unfold sbind at 1.
  rewrite seekg_rel_good by (try reflexivity; cbn [s_pos]; lia). cbn [s_pos s_data s_exc].
  replace (Z.to_N (Z.of_N (q - 2 + 4) + (32 - Z.of_N side - 2))) with (q + 32 - side) by lia.
  pose proof (len_slice_full (q - 2) 4 data H4') as L2.
  assert (H5 : q + 32 - side + 4 <= len data) by lia.
  unfold sbind at 1. rewrite reread_good by (reflexivity || exact H5 || exact L2). cbn [s_pos s_data s_exc].
  destruct (bytes_eqb_spec (slice (q + 32 - side) 4 data) (B "VBRI")) as [E|_]; [contradiction|].
  unfold sret at 1. unfold sbind. cbn [seekg']. rewrite seekg_good by reflexivity. reflexivity.
Qed.

Lemma side_le h : 9 <= side_info h /\ side_info h <= 32.
Proof. unfold side_info. destruct (f_B h =? 3), (f_I h =? 3); lia. Qed.
Lemma checksum_le h : checksum h <= 2.
Proof. unfold checksum. destruct (f_D h =? 0); lia. Qed.

Lemma frame_duration_spec h : frame_duration (header_spec h) = (samples h, hz h).
Proof.
  unfold frame_duration, header_spec, version_spec, samples. cbn [m_version m_rate].
  destruct (f_B h =? 3); [reflexivity|]. destruct (f_B h =? 2); reflexivity.
Qed.

Lemma concat_long (frames : list (layout * bytes)) :
  Forall (fun p => is_frame (fst p) (snd p)) frames ->
  len frames <= len (concat (map snd frames)).
Proof.
  induction 1 as [|[h f] frames (P & _ & L) _ IH]; [apply N.le_refl|].
  cbn [map concat snd fst] in *. rewrite len_app. pose proof (length_bounds h P) as (_ & _ & LB & _).
  unfold len in *. cbn [length] in *. lia.
Qed.

(** With the first header read. *)
Lemma timed_walk h f (frames : list (layout * bytes)) pre rest fuel :
  is_frame h f -> Forall (fun p => is_frame (fst p) (snd p)) frames -> no_sync_start rest ->
  let data := pre ++ f ++ concat (map snd frames) ++ rest in
  no_vbr data h (len pre) -> len pre + 42 <= len data ->
  (length frames < fuel)%nat ->
  exists pos',
  timed fuel (header_bytes h) (mkIs data (len pre + 4) badbit 0)
  = (Ok (samples h * (1 + len frames), hz h), mkIs data pos' badbit 0).
Proof.
  intros Hf HF HR data (NX & NV) H42 Hfuel. pose proof Hf as (P & T & L).
  pose proof (length_bounds h P) as (_ & _ & LB & _).
  pose proof (side_le h) as (SL & SH). pose proof (checksum_le h) as CL.
  unfold timed. unfold sbind at 1. unfold mp3_audio_frame. unfold sbind at 1.
  pose proof (parse_header_ok h (mkIs data (len pre + 4) badbit 0) P eq_refl) as HP.
  cbn [s_pos s_data s_exc] in HP. unfold header_bytes at 1 in HP. unfold header_bytes. cbn [nth].
  rewrite HP by (unfold data; rewrite !len_app; lia).
  unfold sbind at 1. cbn [m_side header_spec].
  set (q := len pre + 4 + checksum h + side_info h) in *.
  destruct (NX (B "Xing") (or_introl eq_refl)) as [X1 X3].
  destruct (NX (B "Info") (or_intror eq_refl)) as [X2 X4].
  rewrite parse_vbr_none; try assumption; try (unfold q; lia).
  2:{ replace (q + 32 - side_info h) with (len pre + 4 + checksum h + 32) by (unfold q; lia). exact NV. }
  unfold sbind at 1. cbn [m_size m_crc header_spec].
  rewrite seekg_rel_good; [|reflexivity|cbn [s_pos]; unfold q, checksum; destruct (f_D h =? 0); lia].
  cbn [s_pos s_data s_exc]. unfold sret at 1.
  replace (Z.to_N (Z.of_N q + (Z.of_N (frame_length h) - 4 - (if f_D h =? 0 then 2 else 0) - Z.of_N (side_info h))))
    with (len (pre ++ f)).
  2:{ rewrite len_app. unfold q, checksum. unfold checksum in LB. destruct (f_D h =? 0); lia. }
  rewrite frame_duration_spec.
  destruct (walk_ok frames (pre ++ f) rest fuel 1 HF HR Hfuel) as (pos' & W).
  unfold sbind. unfold data. rewrite <- app_assoc in W. rewrite W. exists pos'. reflexivity.
Qed.

(** The whole call, the first frame at the read position. *)
Lemma duration_here h f (frames : list (layout * bytes)) pre rest e :
  is_frame h f -> Forall (fun p => is_frame (fst p) (snd p)) frames -> no_sync_start rest ->
  let data := pre ++ f ++ concat (map snd frames) ++ rest in
  no_vbr data h (len pre) -> len pre + 42 <= len data ->
  exists pos',
  get_mp3_duration (mkIs data (len pre) e 0)
  = (Ok (samples h * (1 + len frames), hz h), mkIs data pos' e 0).
Proof.
  intros Hf HF HR data NV H42. pose proof Hf as (P & _ & _).
  assert (HL : (length frames < S (length data))%nat).
  { pose proof (concat_long frames HF) as C. unfold data. rewrite !app_length. unfold len in C. lia. }
  destruct (timed_walk h f frames pre rest (S (length data)) Hf HF HR NV H42 HL) as (pos' & TW).
  fold data in TW. exists pos'. unfold get_mp3_duration. cbn [s_data].
  unfold sbind at 1. unfold get_exc. cbn [s_exc]. unfold sbind at 1. rewrite set_exc_good by reflexivity.
  cbn [s_data s_pos]. unfold sbind at 1. rewrite tellg'_good by reflexivity. cbn [s_pos].
  unfold sbind at 1.
  pose proof (frame_at h f pre (concat (map snd frames) ++ rest) Hf) as E. fold data in E.
  rewrite sread_good; [|reflexivity|cbn [s_pos s_data]; rewrite E; reflexivity].
  cbn [s_pos s_data s_exc]. rewrite E.
  unfold sbind at 1. rewrite is_fail_good by reflexivity.
  destruct (byte1 h (proj1 P)) as (S1 & _).
  assert (SY : is_sync (nth 0 (header_bytes h) 0) (nth 1 (header_bytes h) 0) = true) by exact S1.
  unfold sbind at 1. rewrite SY. cbn [negb andb]. unfold sret at 1.
  unfold sbind at 1. rewrite is_fail_good by reflexivity. rewrite SY. cbn [negb orb].
  unfold sbind at 1. rewrite TW. unfold sbind. rewrite set_exc_good by reflexivity. reflexivity.
Qed.

(** Garbage first: what is timed starts at the first sync four or more bytes on. *)
Lemma duration_resync h f (frames : list (layout * bytes)) pre rest e here :
  is_frame h f -> Forall (fun p => is_frame (fst p) (snd p)) frames -> no_sync_start rest ->
  let data := pre ++ f ++ concat (map snd frames) ++ rest in
  no_vbr data h (len pre) -> len pre + 42 <= len data ->
  ~ sync_at data here -> first_sync data (here + 4) (len pre) ->
  exists pos',
  get_mp3_duration (mkIs data here e 0)
  = (Ok (samples h * (1 + len frames), hz h), mkIs data pos' e 0).
Proof.
  intros Hf HF HR data NV H42 NS FS. pose proof Hf as (P & _ & _).
  assert (HL : (length frames < S (length data))%nat).
  { pose proof (concat_long frames HF) as C. unfold data. rewrite !app_length. unfold len in C. lia. }
  destruct (timed_walk h f frames pre rest (S (length data)) Hf HF HR NV H42 HL) as (pos' & TW).
  fold data in TW. exists pos'. pose proof FS as (F1 & F2 & F3).
  unfold get_mp3_duration. cbn [s_data].
  unfold sbind at 1. unfold get_exc. cbn [s_exc]. unfold sbind at 1. rewrite set_exc_good by reflexivity.
  cbn [s_data s_pos]. unfold sbind at 1. rewrite tellg'_good by reflexivity. cbn [s_pos].
  unfold sbind at 1.
  assert (L4 : len (slice here 4 data) = 4) by (apply len_slice_full; lia).
  rewrite sread_good; [|reflexivity|exact L4].
  cbn [s_pos s_data s_exc].
  destruct (four _ L4) as (x0 & x1 & x2 & x3 & EX). rewrite EX. cbn [nth].
  unfold sbind at 1. rewrite is_fail_good by reflexivity.
  assert (SN : is_sync x0 x1 = false).
  { destruct (is_sync x0 x1) eqn:SY; [|reflexivity]. elim NS.
    apply (proj2 (sync_at_slice data here x0 x1 ltac:(
      unfold slice in *; replace (takeN 2 (dropN here data)) with (takeN 2 (takeN 4 (dropN here data)))
        by (rewrite takeN_takeN; reflexivity); rewrite EX; rewrite takeN_firstn; reflexivity))). exact SY. }
  rewrite SN. cbn [negb andb]. unfold sbind at 1. unfold sbind at 1.
  destruct (find_sync_l data (here + 4) badbit ltac:(apply sync_at_in in F2; lia)) as [(p & FP & EF)|(NO & _)].
  2:{ elim (NO (len pre) F1 F2). }
  assert (p = len pre) as ->.
  { destruct FP as (G1 & G2 & G3). destruct (N.lt_trichotomy p (len pre)) as [C|[C|C]]; [|exact C|].
    - elim (F3 p G1 C G2).
    - elim (G3 (len pre) F1 C F2). }
  rewrite EF.
  pose proof (frame_at h f pre (concat (map snd frames) ++ rest) Hf) as E. fold data in E.
  assert (L4' : len [x0; x1; x2; x3] = 4) by reflexivity.
  rewrite reread_good; [|reflexivity|cbn [s_pos s_data]; lia|exact L4'].
  cbn [s_pos s_data s_exc]. rewrite E.
  destruct (byte1 h (proj1 P)) as (S1 & _).
  assert (SY : is_sync (nth 0 (header_bytes h) 0) (nth 1 (header_bytes h) 0) = true) by exact S1.
  unfold sbind at 1. rewrite is_fail_good by reflexivity. rewrite SY. cbn [negb orb].
  unfold sbind at 1. rewrite TW. unfold sbind. rewrite set_exc_good by reflexivity. reflexivity.
Qed.

Lemma sread_failed n d q st : N.land st badbit = 0 -> st <> 0 ->
  sread n (mkIs d q badbit st) = (Ok [], mkIs d q badbit (N.lor st failbit)).
Proof.
  intros HB HS. unfold sread. cbn [s_state]. apply N.eqb_neq in HS. rewrite HS.
  unfold setstate. cbn [s_state s_data s_pos s_exc].
  assert (N.land (N.lor st failbit) badbit = 0) as ->.
  { rewrite N.land_lor_distr_l, HB. reflexivity. }
  reflexivity.
Qed.

(** No sync four or more bytes on, and none here: no duration at all. *)
Lemma duration_none data here e :
  here + 6 <= len data -> ~ sync_at data here -> (forall p, here + 4 <= p -> ~ sync_at data p) ->
  get_mp3_duration (mkIs data here e 0) = (Ok (0, 1), mkIs data here badbit 0).
Proof.
  intros H6 NS NO. unfold get_mp3_duration. cbn [s_data].
  unfold sbind at 1. unfold get_exc. cbn [s_exc]. unfold sbind at 1. rewrite set_exc_good by reflexivity.
  cbn [s_data s_pos]. unfold sbind at 1. rewrite tellg'_good by reflexivity. cbn [s_pos].
  unfold sbind at 1.
  assert (L4 : len (slice here 4 data) = 4) by (apply len_slice_full; lia).
  rewrite sread_good; [|reflexivity|exact L4].
  cbn [s_pos s_data s_exc].
  destruct (four _ L4) as (x0 & x1 & x2 & x3 & EX). rewrite EX. cbn [nth].
  unfold sbind at 1. rewrite is_fail_good by reflexivity.
  assert (SN : is_sync x0 x1 = false).
  { destruct (is_sync x0 x1) eqn:SY; [|reflexivity]. elim NS.
    apply (proj2 (sync_at_slice data here x0 x1 ltac:(
      unfold slice in *; replace (takeN 2 (dropN here data)) with (takeN 2 (takeN 4 (dropN here data)))
        by (rewrite takeN_takeN; reflexivity); rewrite EX; rewrite takeN_firstn; reflexivity))). exact SY. }
  rewrite SN. cbn [negb andb]. unfold sbind at 1. unfold sbind at 1.
  destruct (find_sync_l data (here + 4) badbit ltac:(lia)) as [(p & (G1 & G2 & _) & _)|(_ & s' & EF & HD & HX & HT)].
  { elim (NO p G1 G2). }
  rewrite EF. destruct s' as [d q e' st]. cbn in HD, HX, HT. subst d e'.
  unfold reread. unfold sbind at 1.
  rewrite sread_failed; [|destruct HT; subst; reflexivity|destruct HT; subst; discriminate].
  unfold sret at 1. cbn [app]. rewrite dropN_0. unfold sbind at 1.
  assert (IFL : is_fail (mkIs data q badbit (N.lor st failbit)) = (Ok true, mkIs data q badbit (N.lor st failbit))).
  { unfold is_fail. cbn [s_state]. destruct HT; subst; reflexivity. }
  rewrite IFL. cbn [orb]. unfold sbind, sclear. cbn [s_data s_pos s_exc seekg'].
  rewrite seekg_good by reflexivity. reflexivity.
Qed.
