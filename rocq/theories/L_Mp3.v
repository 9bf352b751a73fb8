(** * Lemmas: MPEG frames. *)
From Verif Require Import Base M_Ints M_Stream L_Stream M_Mp3 S_Mp3.

Lemma land3 x : N.land x 3 = x mod 4. Proof. exact (N.land_ones x 2). Qed.
Lemma land255 x : N.land x 255 = x mod 256. Proof. exact (N.land_ones x 8). Qed.
Lemma land1 x : N.land x 1 = x mod 2. Proof. exact (N.land_ones x 1). Qed.
Lemma shr x n : N.shiftr x n = x / 2 ^ n. Proof. apply N.shiftr_div_pow2. Qed.

(** A single bit. *)
Lemma land_bit x n : (N.land x (2 ^ n) =? 0) = ((x / 2 ^ n) mod 2 =? 0).
Proof.
  destruct (N.land x (2 ^ n) =? 0) eqn:E.
  - apply N.eqb_eq in E. assert (N.testbit x n = false) as H.
    { assert (N.testbit (N.land x (2 ^ n)) n = false) as H by (rewrite E; apply N.bits_0).
      rewrite N.land_spec, N.pow2_bits_true, andb_true_r in H. exact H. }
    symmetry. apply N.eqb_eq. rewrite N.testbit_eqb in H. apply N.eqb_neq in H.
    pose proof (N.mod_lt (x / 2 ^ n) 2 ltac:(discriminate)) as L.
    set (r := (x / 2 ^ n) mod 2) in *. clearbody r. lia.
  - symmetry. apply N.eqb_neq. intros H. apply N.eqb_neq in E. apply E. apply N.bits_inj. intros m.
    rewrite N.land_spec, N.bits_0. destruct (N.eq_dec m n) as [->|Hn].
    + rewrite N.testbit_eqb, H. reflexivity.
    + rewrite N.pow2_bits_false by congruence. apply andb_false_r.
Qed.
Lemma land2b x : (N.land x 2 =? 0) = ((x / 2) mod 2 =? 0). Proof. exact (land_bit x 1). Qed.
Lemma land1b x : (N.land x 1 =? 0) = (x mod 2 =? 0). Proof. now rewrite land1. Qed.
Lemma land8b x : (N.land x 8 =? 0) = ((x / 8) mod 2 =? 0). Proof. exact (land_bit x 3). Qed.
Lemma land4b x : (N.land x 4 =? 0) = ((x / 4) mod 2 =? 0). Proof. exact (land_bit x 2). Qed.

Definition version_spec (h : layout) : mpeg_version :=
  if f_B h =? 3 then Mpeg1 else if f_B h =? 2 then Mpeg2 else Mpeg25.

Definition header_spec (h : layout) : mp3_header :=
  mkMp3 (version_spec h) (f_D h =? 0) (1000 * kbps h) (hz h) (f_G h =? 1) (f_H h =? 1) (f_I h)
        (f_K h =? 1) (f_L h =? 1) (side_info h) (frame_length h).

Lemma tellg'_good s : good s -> tellg' s = (Ok (Some (s_pos s)), s).
Proof. destruct s as [d q e st]. unfold good. simpl. intros ->. reflexivity. Qed.

Lemma seekg_rel_good off s : good s -> (0 <= Z.of_N (s_pos s) + off)%Z ->
  seekg_rel off s = (Ok tt, mkIs (s_data s) (Z.to_N (Z.of_N (s_pos s) + off)) (s_exc s) 0).
Proof.
  intros G H. unfold seekg_rel. apply Z.leb_le in H. rewrite H. now apply seekg_good.
Qed.

Lemma sread_all_good n s : good s -> s_pos s + n <= len (s_data s) ->
  sread_all n s = (Ok (slice (s_pos s) n (s_data s)), mkIs (s_data s) (s_pos s + n) (s_exc s) 0).
Proof.
  intros G H. assert (L : len (slice (s_pos s) n (s_data s)) = n).
  { unfold slice. rewrite len_takeN, len_dropN. lia. }
  unfold sread_all, sbind. rewrite sread_good by assumption. rewrite L, N.eqb_refl. reflexivity.
Qed.

(** The fields of a header, from its bytes. *)
Lemma byte1 h : in_range h ->
  let b := 224 + 8 * f_B h + 2 * f_C h + f_D h in
  is_sync 255 b = true /\ N.land (N.shiftr b 3) 3 = f_B h /\ N.land (N.shiftr b 1) 3 = f_C h /\
  (N.land b 1 =? 0) = (f_D h =? 0).
Proof.
  intros (HB & HC & HD & _). intros b. unfold b.
  rewrite !shr, !land3, land1b. change (2 ^ 3) with 8. change (2 ^ 1) with 2.
  split; [unfold is_sync; lia|]. split; [lia|]. split; lia.
Qed.

Lemma byte2 h : in_range h ->
  let b := 16 * f_E h + 4 * f_F h + 2 * f_G h + f_H h in
  N.land (N.shiftr b 4) 255 = f_E h /\ N.land (N.shiftr b 2) 3 = f_F h /\
  negb (N.land b 2 =? 0) = (f_G h =? 1) /\ negb (N.land b 1 =? 0) = (f_H h =? 1).
Proof.
  intros (_ & _ & _ & HE & HF & HG & HH & _). intros b. unfold b.
  rewrite !shr, !land3, land255, land1b, land2b. change (2 ^ 4) with 16. change (2 ^ 2) with 4.
  split; [lia|]. split; [lia|]. split; lia.
Qed.

Lemma byte3 h : in_range h ->
  let b := 64 * f_I h + 16 * f_J h + 8 * f_K h + 4 * f_L h + f_M h in
  N.land (N.shiftr b 6) 3 = f_I h /\ negb (N.land b 8 =? 0) = (f_K h =? 1) /\
  negb (N.land b 4 =? 0) = (f_L h =? 1).
Proof.
  intros (_ & _ & _ & _ & _ & _ & _ & HI & HJ & HK & HL & HM). intros b. unfold b.
  rewrite !shr, !land3, land8b, land4b. change (2 ^ 6) with 64.
  split; [lia|]. split; lia.
Qed.

(** Small finite case analyses. *)
Lemma small (n : N) (P : N -> bool) : forallb P (map N.of_nat (seq 0 (N.to_nat n))) = true ->
  forall x, x < n -> P x = true.
Proof.
  intros H x Hx. rewrite forallb_forall in H. apply H.
  apply in_map_iff. exists (N.to_nat x). split; [apply N2Nat.id|]. apply in_seq. lia.
Qed.

Lemma bitrate_ok h : proper h ->
  nth (N.to_nat (f_E h - 1)) (match version_spec h with Mpeg1 => bitrates_v1 | _ => bitrates_v2 end) 0
  = 1000 * kbps h.
Proof.
  intros ((HB & _ & _ & HE & _) & _ & _ & E0 & E15 & _). unfold version_spec, kbps.
  assert (A : forall e, e < 15 ->
    ((e =? 0) || (nth (N.to_nat (e - 1)) bitrates_v1 0 =?
       1000 * nth (N.to_nat e) [0; 32; 40; 48; 56; 64; 80; 96; 112; 128; 160; 192; 224; 256; 320] 0) &&
      (nth (N.to_nat (e - 1)) bitrates_v2 0 =?
       1000 * nth (N.to_nat e) [0; 8; 16; 24; 32; 40; 48; 56; 64; 80; 96; 112; 128; 144; 160] 0)) = true).
  { apply small. vm_compute. reflexivity. }
  specialize (A (f_E h) ltac:(lia)). apply N.eqb_neq in E0. rewrite E0 in A. cbn [orb] in A.
  apply andb_prop in A as [A1 A2]. apply N.eqb_eq in A1. apply N.eqb_eq in A2.
  destruct (f_B h =? 3); [exact A1|]. destruct (f_B h =? 2); exact A2.
Qed.

Lemma rate_ok h : proper h ->
  nth (N.to_nat (f_F h)) (sample_rates (version_spec h)) 0 = hz h.
Proof.
  intros ((_ & _ & _ & _ & HF & _) & _ & _ & _ & _ & F3). unfold version_spec, hz.
  assert (f_F h = 0 \/ f_F h = 1 \/ f_F h = 2) as [-> | [-> | ->]] by lia;
  destruct (f_B h =? 3); try reflexivity; destruct (f_B h =? 2); reflexivity.
Qed.

(** All lengths. *)
Lemma length_bounds h : proper h ->
  kbps h <= 320 /\ 0 < hz h /\ 4 + checksum h + side_info h <= frame_length h /\ frame_length h <= 1441.
Proof.
  intros ((HB & _ & HD & HE & HF & HG & _ & HI & _) & B1 & _ & E0 & E15 & F3).
  assert (A : forall b, b < 4 -> forallb (fun e => forallb (fun f =>
     let h' := mkLayout b 1 0 e f 0 0 0 0 0 0 0 in
     ((b =? 1) || (e =? 0) || (e =? 15) || (f =? 3)) ||
     ((kbps h' <=? 320) && (0 <? hz h') && (4 + 2 + (if b =? 3 then 32 else 17) <=? samples h' / 8 * (1000 * kbps h') / hz h')
      && (samples h' / 8 * (1000 * kbps h') / hz h' <=? 1440)))
     [0; 1; 2; 3]) [0; 1; 2; 3; 4; 5; 6; 7; 8; 9; 10; 11; 12; 13; 14; 15] = true).
  { intros b Hb. apply (small 4 (fun b => forallb (fun e => forallb (fun f =>
     let h' := mkLayout b 1 0 e f 0 0 0 0 0 0 0 in
     ((b =? 1) || (e =? 0) || (e =? 15) || (f =? 3)) ||
     ((kbps h' <=? 320) && (0 <? hz h') && (4 + 2 + (if b =? 3 then 32 else 17) <=? samples h' / 8 * (1000 * kbps h') / hz h')
      && (samples h' / 8 * (1000 * kbps h') / hz h' <=? 1440)))
     [0; 1; 2; 3]) [0; 1; 2; 3; 4; 5; 6; 7; 8; 9; 10; 11; 12; 13; 14; 15])); [vm_compute; reflexivity|exact Hb]. }
  specialize (A (f_B h) HB). rewrite forallb_forall in A.
  assert (IE : In (f_E h) [0; 1; 2; 3; 4; 5; 6; 7; 8; 9; 10; 11; 12; 13; 14; 15]) by (cbn [In]; lia).
  specialize (A _ IE). rewrite forallb_forall in A.
  assert (IFF : In (f_F h) [0; 1; 2; 3]) by (cbn [In]; lia).
  specialize (A _ IFF). cbv zeta in A.
  replace ((f_B h =? 1) || (f_E h =? 0) || (f_E h =? 15) || (f_F h =? 3)) with false in A by lia.
  cbn [orb] in A.
  change (kbps (mkLayout (f_B h) 1 0 (f_E h) (f_F h) 0 0 0 0 0 0 0)) with (kbps h) in A.
  change (hz (mkLayout (f_B h) 1 0 (f_E h) (f_F h) 0 0 0 0 0 0 0)) with (hz h) in A.
  change (samples (mkLayout (f_B h) 1 0 (f_E h) (f_F h) 0 0 0 0 0 0 0)) with (samples h) in A.
  apply andb_prop in A as [A A4]. apply andb_prop in A as [A A3]. apply andb_prop in A as [A1 A2].
  apply N.leb_le in A1. apply N.ltb_lt in A2. apply N.leb_le in A3. apply N.leb_le in A4.
  split; [exact A1|]. split; [exact A2|]. unfold frame_length, checksum, side_info.
  set (q := samples h / 8 * (1000 * kbps h) / hz h) in *. clearbody q.
  destruct (f_B h =? 3); destruct (f_I h =? 3); destruct (f_D h =? 0); lia.
Qed.

Lemma size_ok h : proper h ->
  (let s := (samples h * (1000 * kbps h)) mod 2 ^ 32 / 8 / hz h in
   if f_G h =? 1 then s + 1 else s) = frame_length h.
Proof.
  intros P. pose proof (length_bounds h P) as (HK & _). destruct P as ((_ & _ & _ & _ & _ & HG & _) & _).
  unfold frame_length.
  assert (E : (samples h * (1000 * kbps h)) mod 2 ^ 32 / 8 = samples h / 8 * (1000 * kbps h)).
  { unfold samples. destruct (f_B h =? 3).
    - change (1152 / 8) with 144. change (2 ^ 32) with 4294967296. lia.
    - change (576 / 8) with 72. change (2 ^ 32) with 4294967296. lia. }
  cbv zeta. rewrite E. set (q := samples h / 8 * (1000 * kbps h) / hz h). clearbody q.
  destruct (f_G h =? 1) eqn:EG; lia.
Qed.

Lemma on_throw_ok {A} (m : ST A) h s a s' : m s = (Ok a, s') -> on_throw m h s = (Ok a, s').
Proof. unfold on_throw. now intros ->. Qed.

Lemma version_cases (b : N) (s : istream) : b < 4 -> b <> 1 ->
  (match b with 0 => sret Mpeg25 | 1 => sthrow BadHeader | 2 => sret Mpeg2 | _ => sret Mpeg1 end) s
  = (Ok (if b =? 3 then Mpeg1 else if b =? 2 then Mpeg2 else Mpeg25), s).
Proof.
  intros HB B1. assert (b = 0 \/ b = 2 \/ b = 3) as [-> | [-> | ->]] by lia; reflexivity.
Qed.
Lemma seek_forward p n : (0 <= Z.of_N p + Z.of_N n)%Z.
Proof. lia. Qed.
Lemma seek_there p n : Z.to_N (Z.of_N p + Z.of_N n) = p + n.
Proof. lia. Qed.

(** Accepting. *)
Lemma parse_header_ok h s : proper h -> good s ->
  s_pos s + checksum h <= len (s_data s) ->
  match header_bytes h with
  | [h0; h1; h2; h3] =>
      parse_header h0 h1 h2 h3 s =
      (Ok (header_spec h), mkIs (s_data s) (s_pos s + checksum h + side_info h) (s_exc s) 0)
  | _ => False
  end.
Proof.
  intros P G HL. pose proof P as (R & B1 & C1 & E0 & E15 & F3). unfold header_bytes.
  destruct (byte1 h R) as (S1 & S2 & S3 & S4). destruct (byte2 h R) as (T1 & T2 & T3 & T4).
  destruct (byte3 h R) as (U1 & U2 & U3).
  unfold parse_header. unfold sbind at 1. rewrite tellg'_good by exact G.
  apply on_throw_ok. rewrite S1. cbn [negb]. cbv beta zeta.
  unfold sbind at 1. rewrite S2.
  assert (V : (match f_B h with 0 => sret Mpeg25 | 1 => sthrow BadHeader | 2 => sret Mpeg2 | _ => sret Mpeg1 end) s
              = (Ok (version_spec h), s)).
  { unfold version_spec. apply version_cases; [apply R|exact B1]. }
  rewrite V. rewrite S3. rewrite (proj2 (N.eqb_eq (f_C h) 1) C1). cbn [negb]. rewrite S4. unfold sbind at 1.
  assert (CR : (if f_D h =? 0 then do _ <- sread_all 2;; sret true else sret false) s
               = (Ok (f_D h =? 0), mkIs (s_data s) (s_pos s + checksum h) (s_exc s) 0)).
  { unfold checksum in *. destruct (f_D h =? 0).
    - unfold sbind. rewrite sread_all_good by assumption. reflexivity.
    - destruct s as [d q e st]. unfold good in G. cbn in G. subst st. cbn [s_data s_pos s_exc].
      rewrite N.add_0_r. reflexivity. }
  rewrite CR. rewrite T1, T2, T3, T4, U1, U2, U3.
  rewrite (proj2 (N.eqb_neq (f_E h) 0) E0), (proj2 (N.eqb_neq (f_E h) 15) E15).
  rewrite (proj2 (N.eqb_neq (f_F h) 3) F3). cbn [orb].
  rewrite bitrate_ok by exact P. rewrite rate_ok by exact P.
  assert (SD : match version_spec h with Mpeg1 => if f_I h =? 3 then 17 else 32 | _ => if f_I h =? 3 then 9 else 17 end = side_info h).
  { unfold version_spec, side_info. destruct (f_B h =? 3); [reflexivity|]. destruct (f_B h =? 2); reflexivity. }
  rewrite SD. unfold sbind at 1.
  rewrite seekg_rel_good by (try reflexivity; apply seek_forward). cbn [s_pos s_data s_exc].
  assert (SM : match version_spec h with Mpeg1 => 1152 | _ => 576 end = samples h).
  { unfold version_spec, samples. destruct (f_B h =? 3); [reflexivity|]. destruct (f_B h =? 2); reflexivity. }
  rewrite SM. pose proof (size_ok h P) as SZ. cbv zeta in SZ. rewrite SZ.
  unfold sret, header_spec. rewrite seek_there. reflexivity.
Qed.

(** Every four bytes that start with a sync are the bytes of some layout. *)
Lemma layout_of b1 b2 b3 : 224 <= b1 -> b1 < 256 -> b2 < 256 -> b3 < 256 ->
  exists h, in_range h /\ header_bytes h = [255; b1; b2; b3].
Proof.
  intros H0 H1 H2 H3.
  exists (mkLayout ((b1 - 224) / 8) ((b1 / 2) mod 4) (b1 mod 2)
                   (b2 / 16) ((b2 / 4) mod 4) ((b2 / 2) mod 2) (b2 mod 2)
                   (b3 / 64) ((b3 / 16) mod 4) ((b3 / 8) mod 2) ((b3 / 4) mod 2) (b3 mod 4)).
  unfold in_range, header_bytes. cbn [f_B f_C f_D f_E f_F f_G f_H f_I f_J f_K f_L f_M].
  split; [repeat split; lia|]. repeat (f_equal; try lia).
Qed.

Definition rewound (s s' : istream) : Prop :=
  s_data s' = s_data s /\ s_pos s' = s_pos s /\ s_exc s' = s_exc s /\ good s'.

Lemma on_throw_rewinds {A} (m : ST A) s s' p :
  m s = (Throw BadHeader, s') -> good s' ->
  on_throw m (do e <- is_eof;; if e then sret tt else seekg' (Some p)) s
  = (Throw BadHeader, mkIs (s_data s') p (s_exc s') 0).
Proof.
  intros E G. unfold on_throw. rewrite E. unfold sbind, is_eof.
  destruct s' as [d q e st]. unfold good in G. cbn in G. subst st.
  cbn [s_state]. change (negb (N.land 0 eofbit =? 0)) with false. cbv iota. cbn [seekg'].
  rewrite seekg_good by reflexivity. reflexivity.
Qed.

(** Refusing: anything else, with the stream where it was. *)
Lemma parse_header_bad b0 b1 b2 b3 s : b0 < 256 -> b1 < 256 -> b2 < 256 -> b3 < 256 ->
  (forall h, proper h -> header_bytes h <> [b0; b1; b2; b3]) ->
  good s -> s_pos s + 2 <= len (s_data s) ->
  parse_header b0 b1 b2 b3 s = (Throw BadHeader, mkIs (s_data s) (s_pos s) (s_exc s) 0).
Proof.
  intros L0 L1 L2 L3 NP G HL.
  assert (ES : mkIs (s_data s) (s_pos s) (s_exc s) 0 = s).
  { destruct s as [d q e st]. unfold good in G. cbn in G. subst st. reflexivity. }
  unfold parse_header. unfold sbind at 1. rewrite tellg'_good by exact G.
  destruct (is_sync b0 b1) eqn:SY.
  2:{ cbn [negb]. rewrite (on_throw_rewinds _ s s (s_pos s)); [reflexivity|reflexivity|exact G]. }
  unfold is_sync in SY. assert (b0 = 255) as -> by lia. assert (224 <= b1) as HS by lia.
  destruct (layout_of b1 b2 b3 HS L1 L2 L3) as (h & R & HH).
  specialize (NP h). rewrite HH in NP. assert (NP' : ~ proper h) by (intros X; now apply (NP X)). clear NP.
  unfold header_bytes in HH. pose proof (f_equal (fun l => nth 1 l 0) HH) as H1. pose proof (f_equal (fun l => nth 2 l 0) HH) as H2.
  pose proof (f_equal (fun l => nth 3 l 0) HH) as H3. cbn [nth] in H1, H2, H3. clear HH. rewrite <- H1, <- H2, <- H3. clear H1 H2 H3 SY HS.
  destruct (byte1 h R) as (S1 & S2 & S3 & S4). destruct (byte2 h R) as (T1 & T2 & T3 & T4).
  cbn [negb].
  destruct (N.eq_dec (f_B h) 1) as [B1|B1].
  { rewrite (on_throw_rewinds _ s s (s_pos s)); [reflexivity| |exact G].
    unfold sbind at 1. rewrite S2.
    assert (V : (match f_B h with 0 => sret Mpeg25 | 1 => sthrow BadHeader | 2 => sret Mpeg2 | _ => sret Mpeg1 end) s
                = (Throw BadHeader, s)) by (rewrite B1; reflexivity).
    rewrite V. reflexivity. }
  assert (V : (match f_B h with 0 => sret Mpeg25 | 1 => sthrow BadHeader | 2 => sret Mpeg2 | _ => sret Mpeg1 end) s
              = (Ok (version_spec h), s)).
  { unfold version_spec. destruct R as (HB & _).
    assert (f_B h = 0 \/ f_B h = 2 \/ f_B h = 3) as [-> | [-> | ->]] by lia; reflexivity. }
  assert (SK : seekg' (Some (s_pos s)) s = (Ok tt, s)).
  { cbn [seekg']. rewrite seekg_good by exact G. now rewrite ES. }
  destruct (N.eq_dec (f_C h) 1) as [C1|C1].
  2:{ rewrite (on_throw_rewinds _ s s (s_pos s)); [reflexivity| |exact G].
      unfold sbind at 1. rewrite S2, V. rewrite S3. apply N.eqb_neq in C1. rewrite C1. cbn [negb].
      unfold sbind. rewrite SK. reflexivity. }
  set (s1 := mkIs (s_data s) (s_pos s + checksum h) (s_exc s) 0).
  assert (CR : (if f_D h =? 0 then do _ <- sread_all 2;; sret true else sret false) s
               = (Ok (f_D h =? 0), s1)).
  { unfold s1, checksum. destruct (f_D h =? 0).
    - unfold sbind. rewrite sread_all_good by assumption. reflexivity.
    - rewrite N.add_0_r, ES. reflexivity. }
  assert (SK1 : seekg' (Some (s_pos s)) s1 = (Ok tt, s)).
  { cbn [seekg']. rewrite seekg_good by reflexivity. unfold s1. cbn [s_data s_exc]. now rewrite ES. }
  destruct (N.eq_dec (f_E h) 0) as [E0|E0]; [|destruct (N.eq_dec (f_E h) 15) as [E15|E15]].
  1,2: rewrite (on_throw_rewinds _ s s (s_pos s)); [reflexivity| |exact G];
       unfold sbind at 1; rewrite S2, V, S3; rewrite (proj2 (N.eqb_eq (f_C h) 1) C1); cbn [negb]; rewrite S4;
       unfold sbind at 1; rewrite CR, T1; replace ((f_E h =? 0) || (f_E h =? 15)) with true by lia;
       unfold sbind; rewrite SK1; reflexivity.
  destruct (N.eq_dec (f_F h) 3) as [F3|F3].
  { rewrite (on_throw_rewinds _ s s (s_pos s)); [reflexivity| |exact G].
    unfold sbind at 1. rewrite S2, V, S3. rewrite (proj2 (N.eqb_eq (f_C h) 1) C1). cbn [negb]. rewrite S4.
    unfold sbind at 1. rewrite CR, T1, T2. replace ((f_E h =? 0) || (f_E h =? 15)) with false by lia.
    replace (f_F h =? 3) with true by lia. unfold sbind. rewrite SK1. reflexivity. }
  elim NP'. exact (conj R (conj B1 (conj C1 (conj E0 (conj E15 F3))))) .
Qed.
