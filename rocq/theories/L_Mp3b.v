(** * Lemmas: walking MPEG frames, finding a sync. *)
From Verif Require Import Base M_Ints M_Stream L_Stream M_Mp3 S_Mp3 L_Mp3.

Lemma four {A} (l : list A) : len l = 4 -> exists a b c d, l = [a; b; c; d].
Proof.
  unfold len. intros H.
  destruct l as [|a [|b [|c [|d [|e l]]]]]; cbn [length] in H; try lia.
  exists a, b, c, d. reflexivity.
Qed.

Lemma len_slice_full p n (d : bytes) : p + n <= len d -> len (slice p n d) = n.
Proof. intros H. unfold slice. rewrite len_takeN, len_dropN. lia. Qed.

(** The constructor moves past the frame. *)
Lemma mp3_frame_ok h s : proper h -> good s -> 4 <= s_pos s ->
  s_pos s + checksum h <= len (s_data s) ->
  match header_bytes h with
  | [h0; h1; h2; h3] =>
      mp3_audio_frame h0 h1 h2 h3 false s =
      (Ok (header_spec h, None), mkIs (s_data s) (s_pos s - 4 + frame_length h) (s_exc s) 0)
  | _ => False
  end.
Proof.
  intros P G H4 HL. pose proof (parse_header_ok h s P G HL) as HP.
  pose proof (length_bounds h P) as (_ & _ & LB & _).
  unfold header_bytes in *. unfold mp3_audio_frame. unfold sbind at 1. rewrite HP.
  unfold sbind, sret. cbn [m_size m_crc m_side header_spec].
  rewrite seekg_rel_good; [|reflexivity|].
  - cbn [s_pos s_data s_exc]. f_equal. f_equal. unfold checksum in *. destruct (f_D h =? 0); lia.
  - cbn [s_pos]. unfold checksum in *. destruct (f_D h =? 0); lia.
Qed.

Lemma frame_at h f pre post : is_frame h f ->
  slice (len pre) 4 (pre ++ f ++ post) = header_bytes h.
Proof.
  intros (P & T & L). pose proof (length_bounds h P) as (_ & _ & LB & _).
  unfold slice. rewrite dropN_app_exact by reflexivity.
  rewrite takeN_app_le by lia. exact T.
Qed.

Definition no_sync_start (rest : bytes) : Prop :=
  match rest with b0 :: b1 :: _ :: _ :: _ => is_sync b0 b1 = false | _ => True end.

Lemma is_fail_good s : good s -> is_fail s = (Ok false, s).
Proof. destruct s as [d q e st]. unfold good. simpl. intros ->. reflexivity. Qed.

Lemma walk_ok : forall (frames : list (layout * bytes)) pre rest fuel n,
  Forall (fun p => is_frame (fst p) (snd p)) frames ->
  no_sync_start rest ->
  (length frames < fuel)%nat ->
  exists pos',
  frame_walk fuel n (mkIs (pre ++ concat (map snd frames) ++ rest) (len pre) badbit 0)
  = (Ok (n + len frames), mkIs (pre ++ concat (map snd frames) ++ rest) pos' badbit 0).
Proof.
  induction frames as [|[h f] frames IH]; intros pre rest fuel n HF HR Hfuel; destruct fuel as [|fuel]; try lia.
  - cbn [map concat app]. cbn [frame_walk]. unfold sbind.
    destruct (N.leb_spec 4 (len rest)) as [H4|H4].
    + assert (E : slice (len pre) 4 (pre ++ rest) = takeN 4 rest).
      { unfold slice. now rewrite dropN_app_exact. }
      assert (L4 : len (takeN 4 rest) = 4) by (rewrite len_takeN; lia).
      rewrite sread_good; [|reflexivity|cbn [s_pos s_data]; rewrite E; exact L4].
      cbn [s_pos s_data s_exc]. rewrite E.
      rewrite is_fail_good by reflexivity. cbn [orb].
      destruct rest as [|b0 [|b1 [|b2 [|b3 rest]]]]; try (unfold len in H4; cbn [length] in H4; lia).
      unfold no_sync_start in HR.
      assert (takeN 4 (b0 :: b1 :: b2 :: b3 :: rest) = [b0; b1; b2; b3]) as -> by (rewrite takeN_firstn; reflexivity). cbn [nth]. rewrite HR. cbn [negb].
      unfold sclear, sret. cbn [s_data s_pos s_exc]. eexists. rewrite N.add_0_r. reflexivity.
    + assert (E : slice (len pre) 4 (pre ++ rest) = rest).
      { unfold slice. rewrite dropN_app_exact by reflexivity. apply takeN_all. lia. }
      unfold sread. cbn [s_state N.eqb s_data s_pos s_exc]. rewrite E.
      replace (len rest =? 4) with false by lia.
      unfold setstate. cbn [s_state s_data s_pos s_exc]. change (N.lor 0 (N.lor eofbit failbit)) with 6.
      change (N.land 6 badbit =? 0) with true. cbv iota.
      unfold is_fail. cbn [s_state]. change (negb (N.land 6 (N.lor badbit failbit) =? 0)) with true. cbn [orb].
      unfold sclear, sret. cbn [s_data s_pos s_exc]. eexists. rewrite N.add_0_r. reflexivity.
  - apply Forall_cons_iff in HF as [Hf HF]. cbn [fst snd] in Hf.
    cbn [map concat snd]. rewrite <- app_assoc.
    pose proof (frame_at h f pre (concat (map snd frames) ++ rest) Hf) as E.
    pose proof Hf as (P & T & L). pose proof (length_bounds h P) as (_ & _ & LB & _).
    cbn [frame_walk]. unfold sbind at 1.
    assert (LH : len (header_bytes h) = 4) by reflexivity.
    rewrite sread_good; [|reflexivity|cbn [s_pos s_data]; rewrite E; exact LH].
    cbn [s_pos s_data s_exc]. rewrite E. unfold sbind at 1. rewrite is_fail_good by reflexivity.
    cbn [orb]. unfold header_bytes at 1 2. cbn [nth].
    destruct (byte1 h (proj1 P)) as (S1 & _). rewrite S1. cbn [negb].
    unfold sbind at 1.
    pose proof (mp3_frame_ok h (mkIs (pre ++ f ++ concat (map snd frames) ++ rest) (len pre + 4) badbit 0) P eq_refl) as HM.
    cbn [s_pos s_data s_exc] in HM. unfold header_bytes at 1 in HM.
    unfold header_bytes at 1 2 3 4. cbn [nth].
    rewrite HM; [|lia|rewrite !len_app; lia].
    replace (len pre + 4 - 4 + frame_length h) with (len (pre ++ f)) by (rewrite len_app; lia).
    rewrite app_assoc.
    destruct (IH (pre ++ f) rest fuel (n + 1) HF HR ltac:(cbn [length] in Hfuel; lia)) as (pos' & HI).
    rewrite HI. exists pos'. f_equal. f_equal. unfold len. cbn [length]. lia.
Qed.

(** ** Finding a sync *)

Lemma sync_at_slice data p b0 b1 : slice p 2 data = [b0; b1] ->
  (sync_at data p <-> is_sync b0 b1 = true).
Proof.
  intros H. unfold slice in H. unfold sync_at, is_sync.
  destruct (dropN p data) as [|x [|y r]] eqn:E.
  1,2: rewrite takeN_firstn in H; discriminate H.
  assert (HH : takeN 2 (x :: y :: r) = [x; y]) by (rewrite takeN_firstn; reflexivity).
  rewrite HH in H. injection H as -> ->. split.
  - intros (c0 & c1 & r' & E1 & -> & L). injection E1 as -> -> ->. lia.
  - intros L. exists b0, b1, r. split; [reflexivity|]. lia.
Qed.

Lemma sync_at_in data p : sync_at data p -> p + 2 <= len data.
Proof.
  intros (b0 & b1 & r & E & _). assert (L : len (dropN p data) = len (b0 :: b1 :: r)) by now rewrite E.
  rewrite len_dropN in L. unfold len in L at 2. cbn [length] in L. lia.
Qed.

Lemma sync_at_byte data p b0 b1 : slice p 2 data = [b0; b1] -> b1 <> 255 -> ~ sync_at data (p + 1).
Proof.
  intros H Hb (c0 & c1 & r & E & -> & _). apply Hb.
  unfold slice in H. destruct (dropN p data) as [|x [|y r']] eqn:E'.
  1,2: rewrite takeN_firstn in H; discriminate H.
  assert (HH : takeN 2 (x :: y :: r') = [x; y]) by (rewrite takeN_firstn; reflexivity).
  rewrite HH in H. injection H as -> ->.
  rewrite <- dropN_dropN, E' in E. rewrite dropN_skipn in E. cbn in E. now injection E.
Qed.

Lemma two {A} (l : list A) : len l = 2 -> exists a b, l = [a; b].
Proof.
  unfold len. intros H. destruct l as [|a [|b [|c l]]]; cbn [length] in H; try lia.
  exists a, b. reflexivity.
Qed.

Lemma read2_full data p b0 b1 e : p + 2 <= len data ->
  exists c0 c1, slice p 2 data = [c0; c1] /\
  read2 b0 b1 (mkIs data p e 0) = (Ok (Some c0, Some c1), mkIs data (p + 2) e 0).
Proof.
  intros H. destruct (two (slice p 2 data)) as (c0 & c1 & E); [now apply len_slice_full|].
  exists c0, c1. split; [exact E|]. unfold read2, sbind.
  rewrite sread_good; [|reflexivity|now apply len_slice_full]. cbn [s_pos s_data s_exc].
  rewrite E. reflexivity.
Qed.

Lemma read2_short data p (b0 b1 : N) : len data < p + 2 ->
  exists c0 pos', read2 (Some b0) (Some b1) (mkIs data p badbit 0) = (Ok (Some c0, Some b1), mkIs data pos' badbit 6).
Proof.
  intros H. unfold read2, sbind, sread. cbn [s_state N.eqb s_data s_pos s_exc].
  assert (L : len (slice p 2 data) < 2).
  { unfold slice. rewrite len_takeN, len_dropN. lia. }
  replace (len (slice p 2 data) =? 2) with false by lia.
  unfold setstate. cbn [s_state s_data s_pos s_exc]. change (N.lor 0 (N.lor eofbit failbit)) with 6.
  change (N.land 6 badbit =? 0) with true. cbv iota.
  destruct (slice p 2 data) as [|x [|y r]] eqn:E.
  - eexists _, _. reflexivity.
  - eexists _, _. reflexivity.
  - unfold len in L. cbn [length] in L. lia.
Qed.

Lemma is_sync_buf_some c0 c1 s : is_sync_buf (Some c0) (Some c1) s = (Ok (is_sync c0 c1), s).
Proof. unfold is_sync_buf, is_sync, sbind. cbn [cell]. unfold sret. destruct (255 =? c0); reflexivity. Qed.

Lemma sync_loop : forall fuel data here b0 b1,
  slice here 2 data = [b0; b1] -> is_sync b0 b1 = false ->
  (length data < N.to_nat here + fuel)%nat ->
  exists hit here' s',
    find_sync_loop fuel here (Some b0) (Some b1) false (mkIs data (here + 2) badbit 0) = (Ok (hit, here'), s') /\
    ((hit = true /\ first_sync data here here' /\ s' = mkIs data (here' + 2) badbit 0) \/
     ((forall p, here <= p -> ~ sync_at data p) /\ s_data s' = data /\ s_exc s' = badbit /\ s_state s' = 6)).
Proof.
  induction fuel as [|fuel IH]; intros data here b0 b1 HS HN HF.
  { exfalso. assert (len (slice here 2 data) = 2) by now rewrite HS.
    unfold slice in H. rewrite len_takeN, len_dropN in H. unfold len in H. lia. }
  cbn [find_sync_loop]. unfold sbind at 1. rewrite is_fail_good by reflexivity. cbn [negb andb].
  unfold sbind at 1. cbn [cell]. unfold sret at 1. cbv zeta.
  set (here1 := here + (if b1 =? 255 then 1 else 2)).
  assert (HSK : forall p, here <= p -> p < here1 -> ~ sync_at data p).
  { intros p Hp1 Hp2. assert (p = here \/ (p = here + 1 /\ b1 <> 255)) as [-> | [-> Hb]].
    { unfold here1 in Hp2. destruct (N.eqb_spec b1 255); lia. }
    - rewrite (sync_at_slice _ _ _ _ HS). congruence.
    - now apply (sync_at_byte data here b0 b1). }
  assert (H1 : here + 1 <= here1) by (unfold here1; destruct (b1 =? 255); lia).
  unfold sbind at 1. rewrite seekg_good by reflexivity. cbn [s_data s_exc].
  destruct (N.leb_spec (here1 + 2) (len data)) as [HL|HL].
  - destruct (read2_full data here1 (Some b0) (Some b1) badbit HL) as (c0 & c1 & E & ER).
    unfold sbind at 1. rewrite ER. unfold sbind at 1. rewrite is_sync_buf_some.
    destruct (is_sync c0 c1) eqn:SY.
    + destruct fuel as [|fuel].
      { exfalso. unfold len in HL. lia. }
      cbn [find_sync_loop]. unfold sbind at 1. rewrite is_fail_good by reflexivity. cbn [negb andb].
      exists true, here1. eexists. split; [reflexivity|]. left. split; [reflexivity|]. split; [|reflexivity].
      split; [lia|]. split; [|exact HSK].
      rewrite (sync_at_slice _ _ _ _ E). exact SY.
    + destruct (IH data here1 c0 c1 E SY ltac:(lia)) as (hit & here' & s' & EL & HC).
      exists hit, here', s'. split; [exact EL|].
      destruct HC as [(-> & (F1 & F2 & F3) & ->)|(F & HR)].
      * left. split; [reflexivity|]. split; [|reflexivity]. split; [lia|]. split; [exact F2|].
        intros q Hq1 Hq2. destruct (N.ltb_spec q here1) as [HQ|HQ]; [now apply HSK|now apply F3].
      * right. split; [|exact HR]. intros p Hp. destruct (N.ltb_spec p here1) as [HQ|HQ]; [now apply HSK|now apply F].
  - destruct (read2_short data here1 b0 b1 HL) as (c0 & pos' & ER).
    unfold sbind at 1. rewrite ER. unfold sbind at 1. rewrite is_sync_buf_some.
    destruct fuel as [|fuel].
    { exfalso. assert (len (slice here 2 data) = 2) by now rewrite HS.
      unfold slice in H. rewrite len_takeN, len_dropN in H. unfold len in H. lia. }
    cbn [find_sync_loop]. unfold sbind at 1. unfold is_fail at 1. cbn [s_state].
    change (negb (N.land 6 (N.lor badbit failbit) =? 0)) with true. cbn [negb andb].
    eexists _, _, _. split; [reflexivity|]. right. split; [|repeat split].
    intros p Hp HSY. apply sync_at_in in HSY as HI. apply (HSK p Hp); [lia|exact HSY].
Qed.

Lemma find_sync_eq data pos e : pos + 2 <= len data ->
  exists c0 c1, slice pos 2 data = [c0; c1] /\
  find_sync (mkIs data pos e 0) =
  (do (hit, here) <- find_sync_loop (S (S (length data))) pos (Some c0) (Some c1) (is_sync c0 c1);;
   if (hit : bool) then seekg here else sret tt) (mkIs data (pos + 2) badbit 0).
Proof.
  intros H. destruct (read2_full data pos None None badbit H) as (c0 & c1 & E & ER).
  exists c0, c1. split; [exact E|]. unfold find_sync. cbn [s_data].
  unfold sbind at 1. rewrite set_exc_good by reflexivity. cbn [s_data s_pos].
  unfold sbind at 1. rewrite tellg_good by reflexivity. cbn [s_pos].
  unfold sbind at 1. rewrite ER. unfold sbind at 1. rewrite is_sync_buf_some. reflexivity.
Qed.

Lemma find_sync_l data pos e : pos + 2 <= len data ->
  (exists p, first_sync data pos p /\ find_sync (mkIs data pos e 0) = (Ok tt, mkIs data p badbit 0)) \/
  ((forall p, pos <= p -> ~ sync_at data p) /\
   exists s', find_sync (mkIs data pos e 0) = (Ok tt, s') /\ s_data s' = data /\ s_exc s' = badbit /\
              (s_state s' = 4 \/ s_state s' = 6)).
Proof.
  intros H. destruct (find_sync_eq data pos e H) as (c0 & c1 & E & EQ). rewrite EQ. clear EQ.
  destruct (is_sync c0 c1) eqn:SY.
  - left. exists pos. split.
    { split; [lia|]. split; [now rewrite (sync_at_slice _ _ _ _ E)|]. intros; lia. }
    unfold sbind. cbn [find_sync_loop]. unfold sbind at 1. rewrite is_fail_good by reflexivity. cbn [negb andb].
    unfold sret. rewrite seekg_good by reflexivity. reflexivity.
  - destruct (sync_loop (S (S (length data))) data pos c0 c1 E SY ltac:(lia)) as (hit & here' & s' & EL & HC).
    unfold sbind. rewrite EL. destruct HC as [(-> & F & ->)|(F & HD & HX & HT)].
    + left. exists here'. split; [exact F|]. rewrite seekg_good by reflexivity. reflexivity.
    + right. split; [exact F|]. destruct s' as [d q e' st]. cbn in HD, HX, HT. subst.
      destruct hit.
      * unfold seekg. cbn [s_state s_data s_pos s_exc]. change (N.ldiff 6 eofbit) with 4.
        change (N.land 4 badbit =? 0) with true. change (N.land 4 (N.lor badbit failbit) =? 0) with false.
        cbv iota. eexists. split; [reflexivity|]. cbn. auto.
      * eexists. split; [reflexivity|]. cbn. auto.
Qed.

Lemma find_sync_nothing_left data pos e : len data <= pos ->
  exists s', find_sync (mkIs data pos e 0) = (UB Uninitialised, s').
Proof.
  intros H. unfold find_sync, sbind. rewrite set_exc_good by reflexivity. cbn [s_data s_pos].
  rewrite tellg_good by reflexivity. cbn [s_pos]. unfold read2, sbind, sread. cbn [s_state N.eqb s_data s_pos s_exc].
  assert (E : slice pos 2 data = []).
  { unfold slice. rewrite dropN_all by exact H. reflexivity. }
  rewrite E. cbn [len length]. change (len [] =? 2) with false. cbv iota.
  unfold setstate. cbn [s_state s_data s_pos s_exc]. change (N.lor 0 (N.lor eofbit failbit)) with 6.
  change (N.land 6 badbit =? 0) with true. cbv iota.
  unfold is_sync_buf, sbind, sret. cbn [cell]. eexists. reflexivity.
Qed.
