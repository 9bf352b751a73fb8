(** * Lemmas: tags with extended headers. *)
From Verif Require Import Base M_Ints M_Unsync M_Stream M_Payload M_Cloud M_Frame M_Tag23 M_Tag24
  S_Ints S_Stream S_Unsync S_Payload S_Cloud S_Tag S_Tag23 S_Tag24 S_Ext
  L_Ints L_Unsync L_Stream L_Payload L_Cloud L_Cloud2 L_Frame L_Tag23 L_Tag23b L_Tag23c L_Tag23d L_Tag23e
  L_Tag24 L_Tag24b.

(** ** ID3v2.3 *)
Definition payload23 (z : zlib) (id : bytes) (dcsz : option N) (pread : bytes) (cbr : N) : outcome body :=
  match dcsz with
  | Some n => let* d := decompressed z pread cbr n in parse_payload V23 (kind_of V23 id) d (len d)
  | None => parse_payload V23 (kind_of V23 id) pread cbr
  end.

Lemma pos256_4 s0 s1 s2 s3 : is_bytes [s0; s1; s2; s3] ->
  uint32_from_non_sync_safe4 s0 s1 s2 s3 = positional 256 [s0; s1; s2; s3].
Proof. intros H. now apply plain_positional. Qed.

Lemma not_encr23 id b : kind_of V23 id = kind_of_body b -> wf_body V23 b -> bytes_eqb id (B "ENCR") = false.
Proof.
  intros Hk Hb. destruct (bytes_eqb_spec id (B "ENCR")) as [E|E]; [|reflexivity]. exfalso.
  rewrite E in Hk. change (kind_of V23 (B "ENCR")) with KEncr in Hk. destruct b; try discriminate. destruct Hb.
Qed.

Lemma payload_plain23 z id b p r : kind_of V23 id = kind_of_body b -> wf_body V23 b -> write_body b = Ok p ->
  p <> [] -> payload23 z id None (p ++ r) (len p) = Ok b.
Proof.
  intros Hk Hb Hp Hne. unfold payload23. destruct (body_roundtrip V23 b Hb) as (p' & E' & _ & HP).
  rewrite Hp in E'. apply Ok_inj in E'. subst p'. rewrite Hk. apply parse_payload_exact. now apply HP.
Qed.

Lemma extras_plain23 gid (p r : bytes) :
  frame_extras23 (match gid with Some _ => 32 | None => 0 end) ((opt_bytes gid ++ p) ++ r) (len (opt_bytes gid ++ p)) =
  Ok (None, None, gid, p ++ r, len p).
Proof.
  destruct gid as [g|]; cbn [opt_bytes app]; [|reflexivity]. unfold frame_extras23.
  change (negb (N.land 32 128 =? 0)) with false. change (negb (N.land 32 64 =? 0)) with false.
  change (negb (N.land 32 32 =? 0)) with true. cbn [bind]. unfold take1. rewrite len_cons.
  replace (1 + len p =? 0) with false by lia. cbn [bind]. now replace (1 + len p - 1) with (len p) by lia.
Qed.

Lemma extras_compressed23 gid d0 d1 d2 d3 (c r : bytes) : is_bytes [d0; d1; d2; d3] ->
  frame_extras23 (match gid with Some _ => 160 | None => 128 end) (([d0; d1; d2; d3] ++ opt_bytes gid ++ c) ++ r)
    (len ([d0; d1; d2; d3] ++ opt_bytes gid ++ c)) =
  Ok (Some (positional 256 [d0; d1; d2; d3]), None, gid, c ++ r, len c).
Proof.
  intros F. rewrite len_app. change (len [d0; d1; d2; d3]) with 4. cbn [app].
  set (n := len (opt_bytes gid ++ c)).
  assert (E : forall f1, negb (N.land f1 128 =? 0) = true -> frame_extras23 f1 (d0 :: d1 :: d2 :: d3 :: (opt_bytes gid ++ c) ++ r) (4 + n) =
    let* (enc, pread, cb) :=
      (if negb (N.land f1 64 =? 0) then
         let* (b, r, cb) := take1 ((opt_bytes gid ++ c) ++ r) n in Ok (Some b, r, cb)
       else Ok (None, (opt_bytes gid ++ c) ++ r, n)) in
    let* (gid, pread, cb) :=
      (if negb (N.land f1 32 =? 0) then
         let* (b, r, cb) := take1 pread cb in Ok (Some b, r, cb)
       else Ok (None, pread, cb)) in
    Ok (Some (positional 256 [d0; d1; d2; d3]), enc, gid, pread, cb)).
  { intros f1 H. unfold frame_extras23. rewrite H. replace (4 + n <? 4) with false by lia. cbn [bind].
    rewrite pos256_4 by exact F. now replace (4 + n - 4) with n by lia. }
  rewrite E by now destruct gid. destruct gid as [g|]; cbn [opt_bytes app] in *; [|reflexivity].
  change (negb (N.land 160 64 =? 0)) with false. change (negb (N.land 160 32 =? 0)) with true. cbn [bind].
  unfold take1, n. rewrite len_cons. replace (1 + len c =? 0) with false by lia. cbn [bind].
  now replace (1 + len c - 1) with (len c) by lia.
Qed.

Lemma frames_laid_len z fs pad l : frames_laid23 z fs pad l -> (length fs <= length l)%nat.
Proof.
  induction 1 as [|id f0 f1 gid cmp b p data fs pad l s0 s1 s2 s3 Hid _ _ _ _ _ _ _ _ _ IH]; [cbn; lia|].
  cbn [length]. rewrite !app_length. cbn [length]. lia.
Qed.

Lemma read_frames_laid z fs pad l : frames_laid23 z fs pad l -> forall fuel cb after, (length fs < fuel)%nat ->
  len l <= cb ->
  (forall ms found, encr_pass23 z fuel l after 0 ms found = Ok (pad, ms, found)) /\
  frames23 z fuel cb l after = Ok (map as_read23 fs).
Proof.
  induction 1 as [pad|id f0 f1 gid cmp b p data fs pad l s0 s1 s2 s3 Hid Hhd Hk Hb Hp Hne Hd F Hs _ IH];
    intros fuel cb after Hfu Hcb.
  - destruct fuel as [|fuel]; [cbn in Hfu; lia|]. split; [|apply frames23_zeros].
    intros ms found. destruct (N.eq_dec pad 0) as [->|Hn]; [reflexivity|].
    destruct (repeatN 0 pad) as [|x l] eqn:E.
    { apply (f_equal len) in E. rewrite len_repeatN, len_nil in E. lia. }
    rewrite encr_pass_cons, <- E, frame_head_zeros by lia. cbn [bind]. now rewrite len_repeatN.
  - destruct fuel as [|fuel]; [cbn in Hfu; lia|].
    assert (X : data <> [] /\ exists dcsz q,
      (forall r, frame_extras23 f1 (data ++ r) (len data) = Ok (dcsz, None, gid, q ++ r, len q)) /\
      (forall r, payload23 z id dcsz (q ++ r) (len q) = Ok b) /\ is_some dcsz = cmp).
    { destruct Hd as [|c d0 d1 d2 d3 Fd Hl Hu].
      - split; [destruct gid, p; discriminate || congruence|]. exists None, p. split; [intros r; apply extras_plain23|].
        split; [|reflexivity]. intros r. now apply payload_plain23.
      - split; [discriminate|]. exists (Some (len p)), c. split.
        + intros r. rewrite Hl. now apply extras_compressed23.
        + split; [|reflexivity]. intros r. unfold payload23, decompressed. rewrite takeN_app_exact by reflexivity.
          rewrite len_app. replace (len c + len r <? len c) with false by lia. rewrite Hu. cbn [bind].
          pose proof (payload_plain23 z id b p [] Hk Hb Hp Hne) as H. rewrite app_nil_r in H. exact H. }
    destruct X as (Hdn & dcsz & q & He & Hq & Hc).
    assert (Hu : uint32_from_non_sync_safe4 s0 s1 s2 s3 = len data) by (rewrite Hs; now apply pos256_4).
    destruct (drop_raw id s0 s1 s2 s3 f0 f1 data l (len data + 10) Hid eq_refl) as [D1 D2].
    assert (HL : len l + len data < cb).
    { rewrite !len_app in Hcb. change (len [s0; s1; s2; s3]) with 4 in Hcb. lia. }
    assert (Hw : frame_head23 (id ++ [s0; s1; s2; s3] ++ [f0; f1] ++ data ++ l) after =
                 Ok (Some (id, len data, f0, f1))).
    { rewrite <- Hu. destruct data as [|x d']; [congruence|]. exact (head_raw id s0 s1 s2 s3 f0 f1 x (d' ++ l) after Hid Hhd). }
    assert (Hx : exists x w', id ++ [s0; s1; s2; s3] ++ [f0; f1] ++ data ++ l = x :: w').
    { destruct id; [now elim Hhd|]. cbn [app]. eauto. }
    destruct Hx as (x & w' & Ew). rewrite Ew in *.
    destruct (IH fuel cb after) as [I1 I2]; [cbn in Hfu; lia|lia|].
    split.
    + intros ms found. rewrite encr_pass_cons, Hw. cbn [bind]. rewrite (not_encr23 id b Hk Hb).
      cbv zeta. rewrite D2. apply I1.
    + rewrite frames23_cons, Hw. cbn [bind]. replace (cb <=? len data) with false by lia.
      rewrite D1, <- app_assoc, He. cbn [bind].
      change (match dcsz with
              | Some n => let* d := decompressed z (q ++ l ++ after) (len q) n in
                          parse_payload V23 (kind_of V23 id) d (len d)
              | None => parse_payload V23 (kind_of V23 id) (q ++ l ++ after) (len q)
              end) with (payload23 z id dcsz (q ++ l ++ after) (len q)).
      rewrite Hq. cbn [bind]. rewrite D2, I2. cbn [bind map as_read23]. rewrite Hc.
      change 128 with (2 ^ 7). change 64 with (2 ^ 6). change 32 with (2 ^ 5). now rewrite !testbit_land.
Qed.

Definition ext_of23 (x : option (N * option N)) : option ext23 :=
  option_map (fun y => mkExt (fst y) (snd y) true [] [] 0) x.

Lemma read_ext23 y xb r : ext_laid23 (Some y) xb ->
  parse_ext23 (xb ++ r) = Ok (mkExt (fst y) (snd y) true [] [] 0) /\
  ext_size23 (mkExt (fst y) (snd y) true [] [] 0) + 4 = len xb.
Proof.
  inversion 1 as [|p0 p1 p2 p3 F E1 E2|p0 p1 p2 p3 c0 c1 c2 c3 F F' E1 E2]; subst; cbn [fst snd app]; split; try reflexivity.
  - unfold parse_ext23. change (uint32_from_non_sync_safe4 0 0 0 6) with 6.
    change (negb (N.land 0 128 =? 0)) with false. cbn [andb orb negb N.eqb Pos.eqb].
    change (dropN 6 (0 :: 0 :: 0 :: 6 :: 0 :: 0 :: p0 :: p1 :: p2 :: p3 :: r)) with (p0 :: p1 :: p2 :: p3 :: r).
    cbn iota. now rewrite pos256_4.
  - unfold parse_ext23. change (uint32_from_non_sync_safe4 0 0 0 10) with 10.
    change (negb (N.land 128 128 =? 0)) with true. cbn [andb orb negb N.eqb Pos.eqb].
    change (dropN 6 (0 :: 0 :: 0 :: 10 :: 128 :: 0 :: p0 :: p1 :: p2 :: p3 :: c0 :: c1 :: c2 :: c3 :: r))
      with (p0 :: p1 :: p2 :: p3 :: c0 :: c1 :: c2 :: c3 :: r).
    cbn iota. now rewrite !pos256_4.
Qed.

Lemma read_whole23 z passes f x xb fs pad l buf : (0 < passes)%nat -> ext_laid23 x xb -> frames_laid23 z fs pad l ->
  N.testbit f 6 = is_some x ->
  (if N.testbit f 7 then resynchronise buf else buf) = xb ++ l ->
  parse_body23 z passes f buf =
  Ok (mkTag23 (Some (N.testbit f 7)) (N.testbit f 5) (ext_of23 x) pad (map new_frame (map as_read23 fs))).
Proof.
  intros Hp HX HL H6 Hb. unfold parse_body23.
  change 128 with (2 ^ 7). change 64 with (2 ^ 6). change 32 with (2 ^ 5). rewrite !testbit_land.
  rewrite Hb, H6.
  set (after := if N.testbit f 7 then resync_rest buf else []). clearbody after. cbv zeta.
  match goal with |- bind ?t _ = _ => assert (E : t = Ok (ext_of23 x, l)) end.
  { destruct x as [y|]; cbn [is_some].
    - destruct (read_ext23 y xb (l ++ after) HX) as [R1 R2]. rewrite <- app_assoc, R1. cbn [bind]. rewrite R2.
      now rewrite dropN_app_exact by reflexivity.
    - inversion HX. reflexivity. }
  rewrite E. cbn [bind].
  pose proof (frames_laid_len _ _ _ _ HL) as Hl.
  destruct (read_frames_laid z fs pad l HL (S (length l)) (len (xb ++ l)) after) as [R1 R2]; [lia|rewrite len_app; lia|].
  destruct passes as [|k]; [lia|]. cbn [encr_passes23]. rewrite R1. cbn [bind]. rewrite R2. reflexivity.
Qed.

Lemma read_whole23_stream z passes r f x xb fs pad l buf pre post e : (0 < passes)%nat ->
  ext_laid23 x xb -> frames_laid23 z fs pad l -> N.testbit f 6 = is_some x ->
  (if N.testbit f 7 then resynchronise buf else buf) = xb ++ l ->
  exists t, read23 z passes (mkInfo 3 r f (len buf)) (mkIs (pre ++ buf ++ post) (len pre) e 0) =
    (Ok t, mkIs (pre ++ buf ++ post) (len pre + len buf) e 0) /\
  map c_frame (t3_frames t) = map as_read23 fs /\
  option_map (fun y => (x_pad y, x_crc y)) (t3_ext t) = x /\
  t3_pad t = pad /\ t3_unsync t = Some (N.testbit f 7) /\ t3_exp t = N.testbit f 5.
Proof.
  intros Hp HX HL H6 Hb. eexists. split.
  - unfold read23. cbn [i_flags i_size]. apply parse_stream_ok.
    exact (read_whole23 z passes f x xb fs pad l buf Hp HX HL H6 Hb).
  - cbn [t3_frames t3_pad t3_unsync t3_exp t3_ext]. rewrite map_map. cbn [c_frame new_frame].
    rewrite map_id. split; [reflexivity|]. split; [|auto]. now destruct x as [[? ?]|].
Qed.

(** ** ID3v2.4 *)
Definition ext_of24 (y : N * bool * option N * option N) : ext24 :=
  match y with (n, u, c, r) => mkExt24 n u c r end.

Lemma flag_data_ok k (d r : bytes) : len d = k -> flag_data k (k :: d ++ r) = Ok (d, r).
Proof.
  intros H. unfold flag_data. rewrite len_cons, len_app, H. replace (1 + (k + len r) <? k + 1) with false by lia.
  rewrite N.eqb_refl. cbn [orb negb]. now rewrite takeN_app_exact, dropN_app_exact by now symmetry.
Qed.

Lemma pos128_5 c0 c1 c2 c3 c4 : c0 <= 15 -> Forall (fun x => x < 128) [c1; c2; c3; c4] ->
  uint32_from_sync_safe5 c0 c1 c2 c3 c4 = positional 128 [c0; c1; c2; c3; c4].
Proof.
  intros H F. destruct (sync_safe_positional c0 c1 c2 c3 c4) as (_ & _ & ->).
  repeat (apply Forall_cons_iff in F as [? F]). rewrite !N.mod_small by lia. reflexivity.
Qed.

Lemma crc_bounds c0 c1 c2 c3 c4 : c0 <= 15 -> Forall (fun x => x < 128) [c1; c2; c3; c4] ->
  (15 <? c0) || (127 <? c1) || (127 <? c2) || (127 <? c3) || (127 <? c4) = false.
Proof. intros H F. repeat (apply Forall_cons_iff in F as [? F]). lia. Qed.

(** The flags of an extended header, tested one at a time. *)
Lemma ext_flags24 (u c r : bool) :
  let f := (if u then 64 else 0) + (if c then 32 else 0) + (if r then 16 else 0) in
  negb (N.land f 64 =? 0) = u /\ negb (N.land f 32 =? 0) = c /\ negb (N.land f 16 =? 0) = r.
Proof. destruct u, c, r; repeat split. Qed.

(** The constructor, for one byte of flags. *)
Definition parse_crc24 (n : N) (u c r : bool) (p2 : bytes) : outcome ext24 :=
  let* (crc, p3) :=
    (if c then
       let* (d, r) := flag_data 5 p2 in
       match d with
       | [c0; c1; c2; c3; c4] =>
           if (15 <? c0) || (127 <? c1) || (127 <? c2) || (127 <? c3) || (127 <? c4)
           then Throw BadExtHeader
           else Ok (Some (uint32_from_sync_safe5 c0 c1 c2 c3 c4), r)
       | _ => Throw BadExtHeader
       end
     else Ok (None, p2)) in
  let* restr :=
    (if r then
       let* (d, r) := flag_data 1 p3 in
       match d with [b] => Ok (Some b) | _ => Throw BadExtHeader end
     else Ok None) in
  Ok (mkExt24 n u crc restr).

Lemma parse_ext24_one a0 a1 a2 a3 (u c r : bool) p1 :
  parse_ext24 (a0 :: a1 :: a2 :: a3 :: 1 :: (if u then 64 else 0) + (if c then 32 else 0) + (if r then 16 else 0) :: p1) =
  let* p2 := (if u then let* (_, r) := flag_data 0 p1 in Ok r else Ok p1) in
  parse_crc24 (uint32_from_sync_safe4 a0 a1 a2 a3) u c r p2.
Proof.
  destruct (ext_flags24 u c r) as (B1 & B2 & B3). cbv zeta in B1, B2, B3.
  set (f := _ + (if r then 16 else 0)) in *. clearbody f.
  pose proof (dropN_app_exact 6 [a0; a1; a2; a3; 1; f] p1 eq_refl) as E. cbn [app] in E.
  unfold parse_ext24. change (1 =? 0) with false. change (5 + 1) with 6. rewrite E, B1, B2, B3. reflexivity.
Qed.

Lemma parse_ext24_bits a0 a1 a2 a3 (u c r : bool) q :
  parse_ext24 ([a0; a1; a2; a3] ++ [1] ++ [(if u then 64 else 0) + (if c then 32 else 0) + (if r then 16 else 0)]
               ++ (if u then [0] else []) ++ q) =
  parse_crc24 (uint32_from_sync_safe4 a0 a1 a2 a3) u c r q.
Proof.
  change ([a0; a1; a2; a3] ++ [1] ++ [?x] ++ ?y) with (a0 :: a1 :: a2 :: a3 :: 1 :: x :: y).
  rewrite parse_ext24_one. destruct u; [|reflexivity].
  exact (f_equal (fun o => bind (let* (_, x) := o in Ok x) (parse_crc24 _ true c r)) (flag_data_ok 0 [] q eq_refl)).
Qed.

Lemma read_ext24 y xb r : ext_laid24 (Some y) xb ->
  parse_ext24 (xb ++ r) = Ok (ext_of24 y) /\ y_size (ext_of24 y) = len xb.
Proof.
  inversion 1 as [|s0 s1 s2 s3 update crc restr b F Hl Hc Hb E1 E2]. subst b.
  split; [|reflexivity]. clear E1 H. cbn [ext_of24]. rewrite Hl. rewrite Hb. clear Hb Hl.
  rewrite <- !app_assoc.
  replace (if crc then 32 else 0) with (if is_some crc then 32 else 0) by now destruct crc.
  replace (if restr then 16 else 0) with (if is_some restr then 16 else 0) by now destruct restr.
  rewrite parse_ext24_bits, uss4_pos by exact F. unfold parse_crc24.
  assert (E3 : (if is_some restr then let* (d, _) := flag_data 1 (match restr with Some x => [1; x] | None => [] end ++ r) in
                  match d with [b] => Ok (Some b) | _ => Throw BadExtHeader end
                else Ok None) = Ok restr).
  { destruct restr as [x|]; [|reflexivity]. exact (f_equal (fun o => let* (d, _) := o in
                  match d with [b] => Ok (Some b) | _ => Throw BadExtHeader end) (flag_data_ok 1 [x] r eq_refl)). }
  set (rb := match restr with Some x => [1; x] | None => [] end ++ r) in *. clearbody rb.
  destruct crc as [[[[[c0 c1] c2] c3] c4]|]; cbn [is_some].
  - destruct Hc as [H0 F']. pose proof (flag_data_ok 5 [c0; c1; c2; c3; c4] rb eq_refl) as E5. cbn [app] in E5.
    cbn [app]. rewrite E5. cbn [bind]. rewrite crc_bounds, pos128_5 by assumption. cbn [bind]. rewrite E3. reflexivity.
  - cbn [app bind]. rewrite E3. reflexivity.
Qed.

Lemma read_whole24 z passes f x xb fs pad l : (0 < passes)%nat -> ext_laid24 x xb -> laid_out24 z fs pad l ->
  N.testbit f 6 = is_some x ->
  parse_body24 z passes f (xb ++ l) =
  Ok (mkTag24 (Some (N.testbit f 7)) (N.testbit f 5) (N.testbit f 4) (option_map ext_of24 x) pad
              (map new_frame (map as_read24 fs))).
Proof.
  intros Hp HX HL H6. apply laid_items in HL as (ws & Hi & ->).
  destruct (tail_zeros z _ (zeros_tail pad)) as [T1 T2].
  rewrite (parse_body24_items z passes f _ ws (repeatN 0 pad) pad xb (option_map ext_of24 x) Hp Hi).
  - rewrite T2. cbn [bind]. now rewrite app_nil_r.
  - intros [|fuel] ms found H; [lia|]. now rewrite T1, len_repeatN.
  - rewrite H6. now destruct x.
  - intros y. destruct x as [v|]; cbn [option_map]; [now apply read_ext24|now inversion HX].
Qed.

Lemma read_whole24_stream z passes r f x xb fs pad l pre post e : (0 < passes)%nat ->
  ext_laid24 x xb -> laid_out24 z fs pad l -> N.testbit f 6 = is_some x ->
  let buf := xb ++ l in
  exists t, read24 z passes (mkInfo 4 r f (len buf)) (mkIs (pre ++ buf ++ post) (len pre) e 0) =
    (Ok t, mkIs (pre ++ buf ++ post) (len pre + len buf) e 0) /\
  map c_frame (t4_frames t) = map as_read24 fs /\
  option_map (fun y => (y_size y, y_update y, y_crc y, y_restr y)) (t4_ext t) = x /\
  t4_pad t = pad /\ t4_unsync t = Some (N.testbit f 7) /\ t4_exp t = N.testbit f 5 /\ t4_foot t = N.testbit f 4.
Proof.
  intros Hp HX HL H6 buf. eexists. split.
  - unfold read24. cbn [i_flags i_size]. apply parse_stream_ok. exact (read_whole24 z passes f x xb fs pad l Hp HX HL H6).
  - cbn [t4_frames t4_pad t4_unsync t4_exp t4_foot t4_ext]. rewrite map_map. cbn [c_frame new_frame].
    rewrite map_id. split; [reflexivity|]. split; [|auto]. now destruct x as [[[[? ?] ?] ?]|].
Qed.

(** ** What is written for an extended header of ID3v2.4 *)
Lemma sync_safe_top x s : sync_safe_from_unsigned x = Ok s -> exists s1 s2 s3, s = [x / 2 ^ 21; s1; s2; s3] /\ x < 2 ^ 28.
Proof.
  intros H. destruct (N.lt_ge_cases x (2 ^ 28)) as [L|L].
  - rewrite ssfu_ok in H by exact L. apply Ok_inj in H. subst s. do 3 eexists. split; [|exact L].
    f_equal. change (2 ^ 28) with 268435456 in L. change (2 ^ 21) with 2097152.
    change (128 ^ 3) with 2097152. apply N.mod_small. apply N.div_lt_upper_bound; lia.
  - exfalso. unfold sync_safe_from_unsigned in H. revert H.
    change (2 ^ 28) with 268435456 in L. replace (268435455 <? x) with true by lia. discriminate.
Qed.

Lemma ext_wire24_shape x w : ext_wire24 x = Ok w -> exists s0 s1 s2 s3 cb,
  w = [s0; s1; s2; s3] ++ [1] ++
      [(if y_update x then 64 else 0) + (if is_some (y_crc x) then 32 else 0) + (if is_some (y_restr x) then 16 else 0)]
      ++ (if y_update x then [0] else []) ++ cb ++ opt_bytes (y_restr x) /\
  match y_crc x with
  | Some c => exists c1 c2 c3, cb = [c / 2 ^ 21; c1; c2; c3; 1] /\ c < 2 ^ 28
  | None => cb = []
  end.
Proof.
  unfold ext_wire24. intros H. apply bind_ok in H as (s & Hs & H). apply bind_ok in H as (c & Hc & H).
  apply Ok_inj in H. apply sync_safe_top in Hs as (s1 & s2 & s3 & -> & _). exists (y_size x / 2 ^ 21), s1, s2, s3, c.
  split.
  - rewrite <- H. unfold bit_if. reflexivity.
  - destruct (y_crc x) as [v|]; [|now apply Ok_inj in Hc]. apply bind_ok in Hc as (cs & Hcs & Hc). apply Ok_inj in Hc.
    apply sync_safe_top in Hcs as (c1 & c2 & c3 & -> & L). exists c1, c2, c3. now subst c.
Qed.

Definition written_size24 (x : ext24) : N :=
  6 + (if y_update x then 1 else 0) + (if y_crc x then 5 else 0) + (if y_restr x then 1 else 0).

Lemma ext_wire24_len x w : ext_wire24 x = Ok w -> len w = written_size24 x.
Proof.
  intros H. apply ext_wire24_shape in H as (s0 & s1 & s2 & s3 & cb & -> & Hc). unfold written_size24.
  rewrite !len_app. change (len [s0; s1; s2; s3]) with 4. rewrite !len_cons, !len_nil.
  destruct (y_crc x); [destruct Hc as (c1 & c2 & c3 & -> & _)|subst cb]; destruct (y_update x), (y_restr x); reflexivity.
Qed.

Lemma size_any24 z t u b t' : write24 z t u = Ok (b, t') ->
  exists n, size24 z t u = Ok (n, t') /\
  len b + t4_pad t + match t4_ext t with Some x => y_size x | None => 0 end =
  10 + n + match t4_ext t with Some x => written_size24 x | None => 0 end /\ n < 2 ^ 28.
Proof.
  intros H. apply write24_inv in H as (n & h & x & ft & Hs & Hh & Ex & Eft & Eb).
  exists n. split; [exact Hs|].
  assert (Hxl : len x = match t4_ext t with Some x => written_size24 x | None => 0 end).
  { destruct (t4_ext t) as [y|]; [now apply ext_wire24_len|now subst x]. }
  destruct (size24_inv z t u n t' Hs) as (_ & _ & _ & _ & _ & _ & En).
  pose proof (tag_header_inv _ _ _ _ _ Hh) as (z0 & z1 & z2 & z3 & Eh & _ & _ & _ & L). split; [|exact L].
  assert (Hfl : len ft = bit_if (t4_foot t) 10).
  { unfold opt_footer in Eft. destruct (t4_foot t); [|now subst ft]. destruct Eft as (s & Es & ->).
    destruct (sync_safe_roundtrip_l n L) as (b0 & b1 & b2 & b3 & E & _). rewrite E in Es. apply Ok_inj in Es.
    subst s. reflexivity. }
  rewrite Eb, Eh, !len_app, Hxl, En, Hfl, sum_len_concat, len_repeatN. change (len (B "ID3")) with 3.
  change (len [4; 0; flags24 t; z0; z1; z2; z3]) with 7. lia.
Qed.

Lemma size_standard24 z t u b t' x : write24 z t u = Ok (b, t') -> t4_ext t = Some x -> y_size x = standard_size24 x ->
  exists n, size24 z t u = Ok (n, t') /\ len b + t4_pad t + unannounced x = 10 + n.
Proof.
  intros H Ex Hz. destruct (size_any24 z t u b t' H) as (n & Hs & Hl & _). rewrite Ex, Hz in Hl.
  exists n. split; [exact Hs|]. revert Hl. unfold standard_size24, written_size24, unannounced.
  destruct (y_update x), (y_crc x), (y_restr x); lia.
Qed.

(** Such a header is refused when it is read, the whole of it or a part. *)
Lemma flag_data_bad k l : match l with [] => True | n :: _ => n <> k end -> flag_data k l = Throw BadExtHeader.
Proof.
  destruct l as [|n l]; [reflexivity|]. intros H. unfold flag_data.
  replace (n =? k) with false by (symmetry; now apply N.eqb_neq). now rewrite orb_true_r.
Qed.

Lemma short_ext24 l : len l < 6 -> parse_ext24 l = Throw BadExtHeader.
Proof.
  intros H. do 6 (destruct l as [|? l]; [reflexivity|]). rewrite !len_cons in H. lia.
Qed.

Lemma take_hd (j : N) n (l : bytes) k : n <> k -> match takeN j (n :: l) with [] => True | m :: _ => m <> k end.
Proof.
  intros H. destruct (N.eq_dec j 0) as [->|Hj]; [now rewrite takeN_0|].
  change (n :: l) with ([n] ++ l). rewrite takeN_app_ge by (rewrite len_cons, len_nil; lia). exact H.
Qed.

Lemma ext_refused24 x w r k : ext_wire24 x = Ok w ->
  match y_crc x, y_restr x with
  | Some c, _ => c / 2 ^ 21 <> 5
  | None, Some b => b <> 1
  | None, None => False
  end -> parse_ext24 (takeN k (w ++ r)) = Throw BadExtHeader.
Proof.
  intros H Hb. apply ext_wire24_shape in H as (s0 & s1 & s2 & s3 & cb & -> & Hc).
  destruct (N.lt_ge_cases k 6) as [L|L].
  { apply short_ext24. rewrite len_takeN. lia. }
  rewrite <- !app_assoc. set (f := _ + (if is_some (y_restr x) then 16 else 0)).
  set (rest := cb ++ opt_bytes (y_restr x) ++ r).
  change ([s0; s1; s2; s3] ++ [1] ++ [f] ++ ?y) with ([s0; s1; s2; s3; 1; f] ++ y).
  rewrite takeN_app_ge by exact L. change (len [s0; s1; s2; s3; 1; f]) with 6. cbn [app].
  unfold f. rewrite parse_ext24_one.
  assert (P : forall j, parse_crc24 (uint32_from_sync_safe4 s0 s1 s2 s3) (y_update x) (is_some (y_crc x)) (is_some (y_restr x))
                (takeN j rest) = Throw BadExtHeader).
  { intros j. unfold parse_crc24, rest. destruct (y_crc x) as [c|]; cbn [is_some].
    - destruct Hc as (c1 & c2 & c3 & -> & _). cbn [app]. rewrite flag_data_bad by now apply take_hd. reflexivity.
    - subst cb. cbn [app bind]. destruct (y_restr x) as [b|]; [|destruct Hb]. cbn [is_some opt_bytes app].
      rewrite flag_data_bad by now apply take_hd. reflexivity. }
  destruct (y_update x); cbn [app]; [|apply P].
  destruct (N.eq_dec (k - 6) 0) as [->|Hj]; [rewrite takeN_0; reflexivity|].
  change (0 :: rest) with ([0] ++ rest). rewrite takeN_app_ge by (rewrite len_cons, len_nil; lia).
  pose proof (flag_data_ok 0 [] (takeN (k - 6 - len [0]) rest) eq_refl) as E. cbn [app] in E. cbn [app]. rewrite E.
  cbn [bind]. apply P.
Qed.

Lemma ext_never_back24 z passes t u b t' pre post e x : write24 z t u = Ok (b, t') -> t4_ext t = Some x ->
  match y_crc x, y_restr x with
  | Some c, _ => c / 2 ^ 21 <> 5
  | None, Some r => r <> 1
  | None, None => False
  end ->
  exists info ex s,
    looking_at_id3v2 false (mkIs (pre ++ b ++ post) (len pre) e 0) =
      (Ok (Some info), mkIs (pre ++ b ++ post) (len pre + 10) e 0) /\ i_version info = 4 /\
    read24 z passes info (mkIs (pre ++ b ++ post) (len pre + 10) e 0) = (Throw ex, s).
Proof.
  intros H Ex Hr. destruct (size_any24 z t u b t' H) as (n & Hs & _ & _).
  apply write24_inv in H as (n' & h & w & ft & Hs' & Hh & Hw & _ & Eb).
  rewrite Hs in Hs'. apply Ok_inj in Hs'. injection Hs' as <-. rewrite Ex in Hw.
  destruct (header24_found pre b post h n (flags24 t) e 4 Hh) as [L1 L2]; [discriminate|eexists; exact Eb|].
  set (rest := concat (map (cached u) (t4_frames t')) ++ repeatN 0 (t4_pad t) ++ ft) in *.
  assert (Ed : pre ++ b ++ post = (pre ++ h) ++ (w ++ rest ++ post)) by (rewrite Eb, <- !app_assoc; reflexivity).
  assert (Hp : len pre + 10 = len (pre ++ h)) by (rewrite len_app, L2; reflexivity).
  exists (mkInfo 4 0 (flags24 t) n).
  destruct (N.eq_dec (len (slice (len pre + 10) n (pre ++ b ++ post))) n) as [El|El].
  - exists BadExtHeader. eexists. split; [exact L1|]. split; [reflexivity|].
    rewrite Ed, Hp in *. unfold slice in El. rewrite dropN_app_exact in El by reflexivity.
    unfold read24. cbn [i_flags i_size].
    set (buf := takeN n (w ++ rest ++ post)) in *.
    assert (Eb' : w ++ rest ++ post = buf ++ dropN n (w ++ rest ++ post)) by (unfold buf; now rewrite takeN_dropN).
    rewrite Eb'. rewrite <- El at 1. apply parse_stream_throw.
    unfold parse_body24. pose proof (flags24_bits t) as (_ & B6 & _). rewrite Ex in B6. cbn [is_some] in B6.
    change 64 with (2 ^ 6) at 1. rewrite testbit_land, B6.
    unfold buf. rewrite (ext_refused24 x w (rest ++ post) n Hw Hr). reflexivity.
  - exists IosFailure. eexists. split; [exact L1|]. split; [reflexivity|].
    unfold read24. cbn [i_flags i_size]. now apply parse_stream_short.
Qed.
