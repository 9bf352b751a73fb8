(** * C101: the checksum of a tag. *)
From Verif Require Import Base M_Ints M_Unsync M_Stream M_Payload M_Cloud M_Frame M_Tag23 M_Tag24 M_Crc
  S_Ints S_Stream S_Unsync S_Payload S_Cloud S_Tag S_Tag23 S_Tag24 S_Crc L_Ints L_Unsync L_Tag23b L_Tag23c L_Tag23d L_Tag23e L_Tag24 L_Crc.

(** zlib with the checksum of the specification, for the examples. *)
Definition crc_zlib : zlib := mkZlib (fun _ => None) (fun _ _ => None) crc32.
(** The check value of the catalogues. *)
Example crc32_check : crc32 0 (B "123456789") = 3421780262 /\ crc32 (crc32 0 (B "1234")) (B "56789") = 3421780262.
Proof. split; vm_compute; reflexivity. Qed.

(** Not stale: what the extended header has serialized is what it holds. *)
Definition header_current (x : ext23) : Prop :=
  x_dirty x = false -> x_plain x = ext_wire23 x /\ x_unsync x = unsynchronise (ext_wire23 x) false.

(** An ID3v2.3 tag with a checksum, whatever that was and whatever frames it has
    now, is written with the checksum of the frames that are written.  [fs] are the
    bytes of the frames, [hd] those of the extended header: those of the standard,
    if there is nothing in them that unsynchronisation would change.

    Missing: headers with something in them that would be changed, and the size of the padding in
    the header (both refuted below). *)
Theorem C101_written_partial : forall z t x b t', uses_crc32 z -> t3_ext t = Some x -> x_crc x <> None -> header_current x ->
  Forall (coherent (wire23 z)) (t3_frames t) -> write23 z t false = Ok (b, t') ->
  exists h hd ws, let fs := concat ws in b = h ++ hd ++ fs ++ repeatN 0 (t3_pad t) /\ len h = 10 /\
    Forall2 (fun c w => wire23 z (c_frame c) = Ok w) (t3_frames t) ws /\
    desync hd (summed_header (x_pad x) (crc32 0 fs)) /\
    (calm_bytes (summed_header (x_pad x) (crc32 0 fs)) -> hd = summed_header (x_pad x) (crc32 0 fs)).
Proof.
  intros z t x b t' U Hx Hc Hco Hf Hw. destruct (written_sum z t x false b t' U Hx Hc Hco Hw) as ((n & h & Hs & Hh & Hb) & x' & _ & _ & W).
  set (e := summed_header (x_pad x) (crc32 0 (concat (map c_plain (t3_frames t'))))) in *.
  exists h, (unsynchronise e false), (map c_plain (t3_frames t')). cbv zeta. fold e. split; [exact Hb|]. split; [|split; [|split]].
  - apply tag_header_inv in Hh as (z0 & z1 & z2 & z3 & -> & _). reflexivity.
  - exact (wires_of z t n t' Hs Hf).
  - apply resynchronise_desync. apply resync_unsync.
  - intros C. apply unaffected_unsync; [|exact C]. rewrite <- W. apply ext_wire_bytes.
Qed.
Print Assumptions C101_written_partial.
Definition ex_written : bytes :=
  [73; 68; 51; 3; 0; 96; 0; 0; 0; 60] ++ [0; 0; 0; 10; 128; 0; 0; 0; 0; 7; 82; 35; 58; 233] ++
  [84; 73; 84; 50; 0; 0; 0; 6; 0; 0; 0; 255; 224; 255; 0; 65; 80; 67; 78; 84; 0; 0; 0; 4; 0; 0; 1; 0; 0; 255; 87; 88; 89; 90; 0; 0; 0; 1; 0; 0; 255] ++ [0; 0; 0; 0; 0].
Example C101_written_nontrivial :
  match write23 crc_zlib ex_tag23 false with Ok (b, _) => b | _ => [] end = ex_written /\
  t3_ext ex_tag23 = Some (mkExt 7 (Some 3) true [] [] 0) /\
  be32 (crc32 0 (takeN 41 (dropN 24 ex_written))) = [82; 35; 58; 233] /\ calm_bytes (takeN 14 (dropN 10 ex_written)).
Proof.
  split; [vm_compute; reflexivity|]. split; [reflexivity|]. split; [vm_compute; reflexivity|].
  intros i. change (takeN 14 (dropN 10 ex_written)) with [0; 0; 0; 10; 128; 0; 0; 0; 0; 7; 82; 35; 58; 233].
  do 14 (destruct i as [|i]; [reflexivity|]). now destruct i.
Qed.

(** What is read back has that checksum, too, with unsynchronisation and without. *)
Theorem C101_read_partial : forall z passes t x u b t' pre post e,
  uses_crc32 z -> (0 < passes)%nat -> wf_tag23 z t -> Forall plain_flags (map c_frame (t3_frames t)) ->
  (t3_unsync t = Some true -> u = true) -> t3_ext t = Some x -> x_crc x <> None ->
  write23 z t u = Ok (b, t') -> ext_unaffected (t3_ext t') ->
  exists info t'' x'' fs pad,
    looking_at_id3v2 false (mkIs (pre ++ b ++ post) (len pre) e 0) =
      (Ok (Some info), mkIs (pre ++ b ++ post) (len pre + 10) e 0) /\
    read23 z passes info (mkIs (pre ++ b ++ post) (len pre + 10) e 0) =
      (Ok t'', mkIs (pre ++ b ++ post) (len pre + len b) e 0) /\
    map c_frame (t3_frames t'') = map c_frame (t3_frames t) /\
    t3_ext t'' = Some x'' /\ x_crc x'' = Some (crc32 0 fs) /\
    (if u then desync (dropN 10 b) else eq (dropN 10 b)) (summed_header (x_pad x) (crc32 0 fs) ++ fs ++ repeatN 0 pad).
Proof.
  intros z passes t x u b t' pre post e U Hp Hwf Hfl Hu Hx Hc Hw Hun.
  assert (R : crc_range z) by (intros n l; rewrite U; apply crc32_small).
  destruct (roundtrip23_plain z passes t u b t' pre post e R Hp Hwf Hfl Hu Hw Hun) as (info & t'' & A1 & A2 & A3 & A4 & A5 & A6 & A7 & A8).
  assert (Hco : ext_coherent x).
  { destruct Hwf as [_ Hx0]. rewrite Hx in Hx0. exact (proj2 Hx0). }
  destruct (written_sum z t x u b t' U Hx Hc Hco Hw) as ((n & h & Hs & Hh & Hb) & x' & B1 & B2 & B3).
  destruct (size23_post z t u n t' R Hwf Hs) as (F1 & F3 & F4).
  destruct (body_settled z t' u F1 F3 Hun) as (n' & Q1 & Q2).
  rewrite B1 in A7. destruct (t3_ext t'') as [x''|] eqn:Ex''; [|destruct A7]. destruct A7 as [A7 A7'].
  exists info, t'', x'', (concat (map c_plain (t3_frames t'))), n'.
  split; [exact A1|]. split; [exact A3|]. split; [exact A4|]. split; [exact Ex''|]. split; [exact (eq_trans A7' B2)|].
  assert (Hd : dropN 10 b = body_of23 u t').
  { destruct (write23_inv z t u b t' Hw) as (n2 & h2 & _ & Hh2 & Hb2). unfold body_of23. rewrite Hb2.
    apply tag_header_inv in Hh2 as (z0 & z1 & z2 & z3 & -> & _). apply dropN_app_exact. reflexivity. }
  rewrite Hd. rewrite B1 in Q1. cbn [ext_part] in Q1. rewrite B3 in Q1.
  destruct u; [apply resynchronise_desync; exact Q1|exact Q1].
Qed.
Print Assumptions C101_read_partial.
Example C101_read_nontrivial :
  uses_crc32 crc_zlib /\ wf_tag23 crc_zlib ex_tag23 /\ Forall plain_flags (map c_frame (t3_frames ex_tag23)) /\
  exists b t', write23 crc_zlib ex_tag23 true = Ok (b, t') /\ ext_unaffected (t3_ext t') /\ len b = 72.
Proof.
  split; [intros ? ?; reflexivity|]. split; [|split; [repeat constructor|]].
  - split; [|split; [reflexivity|discriminate]].
    repeat constructor; cbn; try discriminate; try (exists false, false, false; reflexivity); auto.
  - eexists _, _. split; [vm_compute; reflexivity|]. split; [|reflexivity]. intros i.
    match goal with |- context [ext_wire23 ?y] => change (ext_wire23 y) with [0; 0; 0; 10; 128; 0; 0; 0; 0; 7; 82; 35; 58; 233] end.
    do 14 (destruct i as [|i]; [reflexivity|]). now destruct i.
Qed.

(** A tag constructed with a checksum, to which frames are then added, is written as
    the standard says if the header is calm. *)
Theorem C101_constructed_partial : forall z cbpad fexp cs b t', uses_crc32 z -> Forall (coherent (wire23 z)) cs ->
  let t := constructed23 z cbpad fexp WantCrc in
  write23 z (mkTag23 (t3_unsync t) (t3_exp t) (t3_ext t) (t3_pad t) cs) false = Ok (b, t') ->
  exists h ws, let fs := concat ws in Forall2 (fun c w => wire23 z (c_frame c) = Ok w) cs ws /\ len h = 10 /\
    (calm_bytes (summed_header cbpad (crc32 0 fs)) -> b = h ++ summed_header cbpad (crc32 0 fs) ++ fs ++ repeatN 0 cbpad).
Proof.
  intros z cbpad fexp cs b t' U Hf t Hw.
  set (t0 := mkTag23 (t3_unsync t) (t3_exp t) (t3_ext t) (t3_pad t) cs) in Hw.
  destruct (C101_written_partial z t0 (mkExt cbpad (Some (z_crc z 0 [])) true [] [] 0) b t' U eq_refl ltac:(discriminate) ltac:(discriminate) Hf Hw)
    as (h & hd & ws & Hb & Hl & Hws & _ & Hc). cbn [t3_frames t3_pad x_pad t constructed23] in *.
  exists h, ws. split; [exact Hws|]. split; [exact Hl|]. intros C. rewrite <- (Hc C). exact Hb.
Qed.
Print Assumptions C101_constructed_partial.
Example C101_constructed_nontrivial : let t := constructed23 crc_zlib 3 true WantCrc in
  match write23 crc_zlib (mkTag23 (t3_unsync t) (t3_exp t) (t3_ext t) (t3_pad t) [new_frame (title [65])]) false with Ok (b, _) => dropN 10 b | _ => [] end =
  summed_header 3 (crc32 0 (B "TIT2" ++ [0; 0; 0; 2; 0; 0; 0; 65])) ++ (B "TIT2" ++ [0; 0; 0; 2; 0; 0; 0; 65]) ++ [0; 0; 0].
Proof. vm_compute. reflexivity. Qed.

(** ** ID3v2.3: what is not as the standard says *)

(** A header with something in it that unsynchronisation would change is written
    changed, although no unsynchronisation was asked for: it is longer than it says. *)
Theorem C101_stuffed_refuted : forall z t x b t' i, uses_crc32 z -> t3_ext t = Some x -> x_crc x <> None -> header_current x ->
  Forall (coherent (wire23 z)) (t3_frames t) -> write23 z t false = Ok (b, t') ->
  exists h hd ws, let fs := concat ws in b = h ++ hd ++ fs ++ repeatN 0 (t3_pad t) /\ len h = 10 /\
    Forall2 (fun c w => wire23 z (c_frame c) = Ok w) (t3_frames t) ws /\
    (needs_protection (summed_header (x_pad x) (crc32 0 fs)) false i = true -> 14 < len hd).
Proof.
  intros z t x b t' i U Hx Hc Hco Hf Hw. destruct (written_sum z t x false b t' U Hx Hc Hco Hw) as ((n & h & Hs & Hh & Hb) & x' & _ & _ & W).
  set (e := summed_header (x_pad x) (crc32 0 (concat (map c_plain (t3_frames t'))))) in *.
  exists h, (unsynchronise e false), (map c_plain (t3_frames t')). cbv zeta. fold e. split; [exact Hb|]. split; [|split].
  - apply tag_header_inv in Hh as (z0 & z1 & z2 & z3 & -> & _). reflexivity.
  - exact (wires_of z t n t' Hs Hf).
  - intros P0. pose proof (unsync_grows e i (summed_bytes _ _) P0) as G. unfold e in G at 1. rewrite summed_len in G. exact G.
Qed.
Print Assumptions C101_stuffed_refuted.
Example C101_stuffed_nontrivial : let t := mkTag23 None false (Some (mkExt 65280 (Some 0) true [] [] 0)) 0 [new_frame (title [65])] in
  let fs := B "TIT2" ++ [0; 0; 0; 2; 0; 0; 0; 65] in
  match write23 crc_zlib t false with Ok (b, _) => dropN 10 b | _ => [] end =
    [0; 0; 0; 10; 128; 0; 0; 0; 255; 0; 0] ++ be32 (crc32 0 fs) ++ fs /\
  needs_protection (summed_header 65280 (crc32 0 fs)) false 8 = true.
Proof. split; vm_compute; reflexivity. Qed.

(** The padding the header tells of is that which the tag was read or constructed
    with: if the tag has another by now, no frames and no checksum make what is
    written a tag as the standard lays it out. *)
Theorem C101_padding_refuted : forall z t x b t', uses_crc32 z -> t3_ext t = Some x -> x_crc x <> None -> header_current x ->
  Forall (coherent (wire23 z)) (t3_frames t) -> write23 z t false = Ok (b, t') ->
  ext_unaffected (t3_ext t') -> x_pad x < 2 ^ 32 -> t3_pad t < 2 ^ 32 -> x_pad x <> t3_pad t ->
  forall h sum fs, len h = 10 -> b <> h ++ summed_header (t3_pad t) sum ++ fs.
Proof.
  intros z t x b t' U Hx Hc Hco Hf Hw C P1 P2 P3 h sum fs Hl E.
  destruct (written_sum z t x false b t' U Hx Hc Hco Hw) as ((n & h' & _ & Hh & Hb) & x' & X1 & _ & W).
  rewrite X1 in C. cbn [ext_unaffected] in C. rewrite W in C. cbv iota in Hb.
  rewrite (unaffected_unsync _ (summed_bytes _ _) C) in Hb. rewrite Hb in E.
  assert (Hl' : len h' = 10) by (apply tag_header_inv in Hh as (z0 & z1 & z2 & z3 & -> & _); reflexivity). apply (f_equal (dropN 10)) in E.
  rewrite (dropN_app_exact 10 h' _ Hl'), (dropN_app_exact 10 h _ Hl) in E. apply summed_inj in E; auto.
Qed.
Print Assumptions C101_padding_refuted.
Example C101_padding_nontrivial : exists b t', write23 crc_zlib ex_tag23 false = Ok (b, t') /\ ext_unaffected (t3_ext t') /\
  t3_ext ex_tag23 = Some (mkExt 7 (Some 3) true [] [] 0) /\ t3_pad ex_tag23 = 5.
Proof.
  eexists _, _. split; [vm_compute; reflexivity|]. split; [|split; reflexivity]. intros i.
  match goal with |- context [ext_wire23 ?y] => change (ext_wire23 y) with [0; 0; 0; 10; 128; 0; 0; 0; 0; 7; 82; 35; 58; 233] end.
  do 14 (destruct i as [|i]; [reflexivity|]). now destruct i.
Qed.

(** No checksum is looked at when a tag is read: with any other in its place the
    same is read, and the other checksum. *)
Theorem C101_unchecked_refuted : forall z passes r f p c c' l pre post e t s,
  p < 2 ^ 32 -> c < 2 ^ 32 -> c' < 2 ^ 32 -> N.testbit f 7 = false -> N.testbit f 6 = true ->
  let file k := mkIs (pre ++ (summed_header p k ++ l) ++ post) (len pre) e 0 in
  read23 z passes (mkInfo 3 r f (14 + len l)) (file c) = (Ok t, s) ->
  exists s', read23 z passes (mkInfo 3 r f (14 + len l)) (file c') = (Ok (with_sum23 t c'), s').
Proof.
  intros z passes r f p c c' l pre post e t s Hp Hc Hc' H7 H6 file H. unfold read23, file in *. cbn [i_flags i_size] in *.
  assert (L : forall k, 14 + len l = len (summed_header p k ++ l)) by (intros k; rewrite len_app, summed_len; reflexivity).
  rewrite (L c) in H. rewrite (L c'). apply parse_stream_inv in H.
  pose proof (unchecked_body23 z passes f p c c' l t Hp Hc Hc' H7 H6 H) as G.
  eexists. exact (parse_stream_ok _ pre _ post e _ G).
Qed.
Print Assumptions C101_unchecked_refuted.
Example C101_unchecked_nontrivial : exists t s, let l := B "TIT2" ++ [0; 0; 0; 2; 0; 0; 0; 65] in
  read23 no_zlib 1 (mkInfo 3 0 64 26) (mkIs ([] ++ (summed_header 0 1 ++ l) ++ []) 0 0 0) = (Ok t, s) /\
  option_map x_crc (t3_ext t) = Some (Some 1) /\ crc32 0 l <> 1.
Proof. eexists _, _. split; [vm_compute; reflexivity|]. split; [reflexivity|]. vm_compute. discriminate. Qed.

(** ** ID3v2.4 *)
Theorem C101_v24_unchecked_refuted : forall z passes r f c0 c1 c2 c3 c4 d0 d1 d2 d3 d4 l pre post e t s,
  c0 <= 15 -> Forall (fun x => x < 128) [c1; c2; c3; c4] -> d0 <= 15 -> Forall (fun x => x < 128) [d1; d2; d3; d4] ->
  N.testbit f 6 = true ->
  read24 z passes (mkInfo 4 r f (12 + len l)) (mkIs (pre ++ (summed24 c0 c1 c2 c3 c4 ++ l) ++ post) (len pre) e 0) = (Ok t, s) ->
  exists s', read24 z passes (mkInfo 4 r f (12 + len l)) (mkIs (pre ++ (summed24 d0 d1 d2 d3 d4 ++ l) ++ post) (len pre) e 0) =
    (Ok (with_sum24 t (uint32_from_sync_safe5 d0 d1 d2 d3 d4)), s').
Proof.
  intros z passes r f c0 c1 c2 c3 c4 d0 d1 d2 d3 d4 l pre post e t s Hc0 Hc Hd0 Hd H6 H. unfold read24 in *. cbn [i_flags i_size] in *.
  assert (L : forall k0 k1 k2 k3 k4, 12 + len l = len (summed24 k0 k1 k2 k3 k4 ++ l)) by (intros; rewrite len_app; reflexivity).
  rewrite (L c0 c1 c2 c3 c4) in H. rewrite (L d0 d1 d2 d3 d4). apply parse_stream_inv in H.
  pose proof (unchecked_body24 z passes f c0 c1 c2 c3 c4 d0 d1 d2 d3 d4 l t Hc0 Hc Hd0 Hd H6 H) as G.
  eexists. exact (parse_stream_ok _ pre _ post e _ G).
Qed.
Print Assumptions C101_v24_unchecked_refuted.
Example C101_v24_unchecked_nontrivial : exists t s, let l := B "TIT2" ++ [0; 0; 0; 2; 0; 0; 3; 65] in
  read24 no_zlib 1 (mkInfo 4 0 64 24) (mkIs ([] ++ (summed24 0 0 0 0 1 ++ l) ++ []) 0 0 0) = (Ok t, s) /\
  option_map y_crc (t4_ext t) = Some (Some 1) /\ crc32 0 l <> 1.
Proof. eexists _, _. split; [vm_compute; reflexivity|]. split; [reflexivity|]. vm_compute. discriminate. Qed.

(** An ID3v2.4 tag keeps the checksum it was read with: whatever frames and
    padding it is given, the extended header is written in the same way. *)
Theorem C101_v24_stale_refuted : forall z t x c cs pad u b t' b2 t2', t4_ext t = Some x -> y_crc x = Some c ->
  write24 z t u = Ok (b, t') ->
  write24 z (mkTag24 (t4_unsync t) (t4_exp t) (t4_foot t) (t4_ext t) pad cs) u = Ok (b2, t2') ->
  exists h h2 before after r r2, let hd := before ++ [c / 128 ^ 3; c / 128 ^ 2 mod 128; c / 128 mod 128; c mod 128] ++ after in
    b = h ++ hd ++ r /\ b2 = h2 ++ hd ++ r2 /\ len h = 10 /\ len h2 = 10.
Proof.
  intros z t x c cs pad u b t' b2 t2' Hx Hc H1 H2.
  apply write24_inv in H1 as (n & h & xb & ft & _ & Hh & Ex & _ & Eb).
  apply write24_inv in H2 as (n2 & h2 & xb2 & ft2 & _ & Hh2 & Ex2 & _ & Eb2).
  cbn [t4_ext] in Ex2. rewrite Hx in Ex, Ex2. rewrite Ex in Ex2. apply Ok_inj in Ex2. subst xb2.
  destruct (sum_bytes24 x c xb Hc Ex) as (before & after & ->).
  exists h, h2, before, after. eexists _, _. cbv zeta. split; [exact Eb|]. split; [exact Eb2|].
  apply tag_header_inv in Hh as (z0 & z1 & z2 & z3 & -> & _). apply tag_header_inv in Hh2 as (w0 & w1 & w2 & w3 & -> & _). split; reflexivity.
Qed.
Print Assumptions C101_v24_stale_refuted.
Definition ex_summed24 (s : bytes) (pad : N) : tag24 := mkTag24 (Some false) false false (Some (mkExt24 12 false (Some 65537) None)) pad [new_frame (title24 s)].
Example C101_v24_stale_nontrivial : match write24 no_zlib (ex_summed24 [65] 0) false, write24 no_zlib (ex_summed24 [66; 67] 9) false with
  | Ok (b1, _), Ok (b2, _) => takeN 12 (dropN 10 b1) = takeN 12 (dropN 10 b2) /\ dropN 10 b1 <> dropN 10 b2
  | _, _ => False
  end.
Proof. vm_compute. split; [reflexivity|discriminate]. Qed.

(** Nor is one with a checksum of 2^28 or more, fifteen of sixteen, written at all. *)
Theorem C101_v24_unwritable_refuted : forall z t x c u b t', t4_ext t = Some x -> y_crc x = Some c -> 2 ^ 28 <= c ->
  write24 z t u <> Ok (b, t').
Proof.
  intros z t x c u b t' Hx Hc H W. apply write24_inv in W as (n & h & xb & ft & _ & _ & Ex & _).
  rewrite Hx in Ex. unfold ext_wire24 in Ex. apply bind_ok in Ex as (sz & _ & Ex). rewrite Hc, (ssfu_throw c H) in Ex. discriminate Ex.
Qed.
Print Assumptions C101_v24_unwritable_refuted.
Example C101_v24_unwritable_nontrivial : 2 ^ 28 <= crc32 0 (B "TIT2" ++ [0; 0; 0; 2; 0; 0; 3; 66]) /\
  write24 no_zlib (mkTag24 (Some false) false false (Some (mkExt24 12 false (Some (crc32 0 (B "TIT2" ++ [0; 0; 0; 2; 0; 0; 3; 66]))) None)) 0 [new_frame (title24 [66])]) false =
    Throw InvalidArgument.
Proof. split; [vm_compute; discriminate|vm_compute; reflexivity]. Qed.
