(** * C99: tags constructed straight from a stream. *)
From Verif Require Import Base M_Ints M_Stream M_Payload M_Cloud M_Frame M_Tag22 M_Tag23 M_Tag24 M_Open
  S_Ints S_Stream S_Unsync S_Payload S_Cloud S_Tag S_Tag23 S_Tag22 S_Tag24 S_Open
  L_Stream L_Tag23d L_Tag23e L_Open P_Tag23 P_Tag22 P_Tag24.

(** Wherever a header with a size above 0 stands, constructing a tag from the
    stream is the same as looking for the header and reading what it announces:
    the same tag, the same exception, the stream left in the same state.  This
    holds whatever version the header gives: nobody compares it.

    Missing: headers with the size 0, and streams without a header (both
    refuted below). *)
Theorem C99_same_partial : forall data pos v r f sz e, id3v2_header_at data pos v r f sz -> 0 < sz ->
  let s := mkIs data pos e 0 in
  let s' := mkIs data (pos + 10) e 0 in
  let info := mkInfo v r f sz in
  looking_at_id3v2 false s = (Ok (Some info), s') /\
  open22 s = of_version v r (read22 info s') /\
  (forall z passes, open23 z passes s = of_version v r (read23 z passes info s')) /\
  (forall z passes, open24 z passes s = of_version v r (read24 z passes info s')).
Proof.
  intros data pos v r f sz e H Z. cbv zeta.
  assert (E : (sz =? 0) = false) by (apply N.eqb_neq; intros ->; discriminate).
  split; [|repeat split; intros].
  - rewrite looking_at_eq by reflexivity. cbn [s_data s_pos s_exc]. now rewrite (proj2 (info_at_spec _ _ _ _ _ _) H).
  - unfold open22. rewrite (open_header _ _ _ _ _ _ _ _ H), E. reflexivity.
  - unfold open23. rewrite (open_header _ _ _ _ _ _ _ _ H), E. reflexivity.
  - unfold open24. rewrite (open_header _ _ _ _ _ _ _ _ H), E. reflexivity.
Qed.
Print Assumptions C99_same_partial.
Definition ex_open : bytes :=
  B "ID3" ++ [3; 0; 0; 0; 0; 0; 13] ++ B "TIT2" ++ [0; 0; 0; 3; 0; 0; 0] ++ B "Hi" ++ [9; 9].
Example C99_same_nontrivial : id3v2_header_at (7 :: ex_open) 1 3 0 0 13 /\
  exists t s, open23 no_zlib 1 (mkIs (7 :: ex_open) 1 0 0) = (Ok (Some (3, 0), t), s) /\
    len (t3_frames t) = 1 /\ s_pos s = 24.
Proof.
  split; [exists 0, 0, 0, 13, (dropN 10 ex_open); repeat split; try discriminate; repeat constructor|].
  eexists _, _. split; [vm_compute; reflexivity|split; reflexivity].
Qed.

(** So the tags that C17 reads back from the bytes written can be constructed
    from the stream too, unless they have neither frames nor padding. *)
Theorem C99_v23_partial : forall z passes t u b t' pre post e,
  crc_range z -> (0 < passes)%nat -> wf_tag23 z t ->
  Forall plain_flags (map c_frame (t3_frames t)) ->
  (t3_unsync t = Some true -> u = true) ->
  write23 z t u = Ok (b, t') -> ext_unaffected (t3_ext t') -> 10 < len b ->
  exists r t'',
    open23 z passes (mkIs (pre ++ b ++ post) (len pre) e 0) =
      (Ok (Some (3, r), t''), mkIs (pre ++ b ++ post) (len pre + len b) e 0) /\
    map c_frame (t3_frames t'') = map c_frame (t3_frames t) /\
    t3_unsync t'' = Some u /\ t3_exp t'' = t3_exp t /\ same_ext (t3_ext t'') (t3_ext t') /\
    (t3_pad t'' = t3_pad t \/ u = true /\ t3_pad t'' + 1 = t3_pad t).
Proof.
  intros z passes t u b t' pre post e H1 H2 H3 H4 H5 H6 H7 LB.
  destruct (C17_v23_partial z passes t u b t' pre post e H1 H2 H3 H4 H5 H6 H7)
    as (info & t'' & L & V & R & Q).
  exists (i_revision info), t''. split; [|exact Q]. rewrite <- V.
  apply (written_open (read23 z passes) (parse_body23 z passes) _ _ _ _ _ _ (fun _ => eq_refl) L R).
  clear -LB. lia.
Qed.
Print Assumptions C99_v23_partial.
Example C99_v23_nontrivial :
  exists b t', write23 no_zlib ex_tag23 true = Ok (b, t') /\ 10 < len b.
Proof. eexists _, _. split; [vm_compute; reflexivity|reflexivity]. Qed.

(** The same for C18. *)
Theorem C99_v22_partial : forall t u b t' pre post e, wf_tag22 t -> write22 t u = Ok (b, t') ->
  (t2_unsync t = Some true /\ u = false \/ Forall unaffected22 (map c_frame (t2_frames t))) -> 10 < len b ->
  exists r t'',
    open22 (mkIs (pre ++ b ++ post) (len pre) e 0) =
      (Ok (Some (2, r), t''), mkIs (pre ++ b ++ post) (len pre + len b) e 0) /\
    map c_frame (t2_frames t'') = map c_frame (t2_frames t) /\ t2_comp t'' = t2_comp t /\
    (t2_pad t'' = t2_pad t \/ t2_unsync t'' = Some true /\ t2_pad t'' + 1 = t2_pad t).
Proof.
  intros t u b t' pre post e H1 H2 H3 LB.
  destruct (C18_v22_partial t u b t' pre post e H1 H2 H3) as (info & t'' & L & V & R & Q).
  exists (i_revision info), t''. split; [|exact Q]. rewrite <- V.
  apply (written_open read22 parse_body22 _ _ _ _ _ _ (fun _ => eq_refl) L R).
  clear -LB. lia.
Qed.
Print Assumptions C99_v22_partial.
Example C99_v22_nontrivial :
  exists b t', write22 (mkTag22 (Some true) false 4 (map new_frame ex_frames22)) false = Ok (b, t') /\ 10 < len b.
Proof. eexists _, _. split; [vm_compute; reflexivity|reflexivity]. Qed.

(** And for C19. *)
Theorem C99_v24_partial : forall z passes t u b t' pre post e, (0 < passes)%nat -> wf_tag24 z t ->
  Forall plain_flags (map c_frame (t4_frames t)) -> write24 z t u = Ok (b, t') ->
  (u = false \/ Forall (unaffected24 z) (map c_frame (t4_frames t))) -> ext_simple (t4_ext t) ->
  t4_foot t = false -> (t4_pad t = 0 \/ 4 <= t4_pad t /\ t4_pad t <= len post) -> 10 < len b ->
  exists r t'',
    open24 z passes (mkIs (pre ++ b ++ post) (len pre) e 0) =
      (Ok (Some (4, r), t''), mkIs (pre ++ b ++ post) (len pre + len b + t4_pad t) e 0) /\
    map c_frame (t4_frames t'') = map c_frame (t4_frames t) /\
    t4_unsync t'' = Some (match t4_unsync t with Some true => true | _ => false end) /\
    t4_exp t'' = t4_exp t /\ t4_foot t'' = false /\ t4_ext t'' = t4_ext t /\ t4_pad t'' = 2 * t4_pad t.
Proof.
  intros z passes t u b t' pre post e H1 H2 H3 H4 H5 H6 H7 H8 LB.
  destruct (C19_v24_partial z passes t u b t' pre post e H1 H2 H3 H4 H5 H6 H7 H8)
    as (info & t'' & L & V & R & Q).
  exists (i_revision info), t''. split; [|exact Q]. rewrite <- V.
  apply (written_open (read24 z passes) (parse_body24 z passes) _ _ _ _ _ _ (fun _ => eq_refl) L R).
  clear -LB. lia.
Qed.
Print Assumptions C99_v24_partial.
Example C99_v24_nontrivial :
  exists b t', write24 no_zlib (mkTag24 (Some true) false false None 5 (map new_frame [title24 [255; 224; 65]])) false
    = Ok (b, t') /\ 10 < len b.
Proof. eexists _, _. split; [vm_compute; reflexivity|reflexivity]. Qed.

(** A header without a size (0, or bytes that are no sync-safe number): no
    exception but a tag without frames, and the stream stands in the middle of
    the header, five bytes in.  If the header announces an extended header, the
    ID3v2.3 constructor reads outside its buffer; the ID3v2.4 one throws. *)
Theorem C99_size_refuted : forall data pos v r f e z passes, sizeless_header_at data pos v r f ->
  let s := mkIs data pos e 0 in
  let s' := mkIs data (pos + 5) e 0 in
  (exists t, open22 s = (Ok (Some (v, r), t), s') /\ t2_frames t = [] /\ t2_pad t = 0) /\
  (~ says_extended f ->
   (exists t, open23 z (S passes) s = (Ok (Some (v, r), t), s') /\ t3_frames t = [] /\ t3_pad t = 0) /\
   (exists t, open24 z (S passes) s = (Ok (Some (v, r), t), s') /\ t4_frames t = [] /\ t4_pad t = 0)) /\
  (says_extended f ->
   fst (open23 z (S passes) s) = UB OutOfBounds /\ open24 z (S passes) s = (Throw BadExtHeader, s')).
Proof.
  intros data pos v r f e z passes H. cbv zeta. unfold open22, open23, open24.
  rewrite !(open_sizeless _ _ _ _ _ _ _ H). split; [|split].
  - rewrite (parse_stream_none _ _ _ _ _ (body22_none f)). eexists. repeat split.
  - intros X. apply ext_bit_not in X.
    rewrite (parse_stream_none _ _ _ _ _ (body23_none z passes f X)).
    rewrite (parse_stream_none _ _ _ _ _ (body24_none z passes f X)).
    split; eexists; repeat split.
  - intros X. apply ext_bit in X. split.
    + pose proof (parse_stream_none_ub _ data (pos + 5) e _ (body23_none_ext z (S passes) f X)) as U.
      destruct (parse_stream _ _ _) as [o s]. cbn [fst] in U. rewrite U. reflexivity.
    + rewrite (parse_stream_none_throw _ _ _ _ _ (body24_none_ext z (S passes) f X)). reflexivity.
Qed.
Print Assumptions C99_size_refuted.
Example C99_size_nontrivial : sizeless_header_at (B "ID3" ++ [4; 0; 64; 0; 0; 0; 0; 5]) 0 4 0 64 /\ says_extended 64 /\
  sizeless_header_at (B "ID3" ++ [4; 0; 0; 0; 200; 0; 0; 5]) 0 4 0 0 /\ ~ says_extended 0.
Proof.
  split; [exists 0, 0, 0, 0, [5]; repeat split; try discriminate; auto|]. split; [reflexivity|].
  split; [|discriminate]. exists 0, 200, 0, 0, [5]. repeat split; try discriminate.
  left. apply Exists_cons_tl. apply Exists_cons_hd. discriminate.
Qed.

(** No tag there, say because the audio begins at once: no exception either.
    The five bytes are read again as if they were the second half of a header.
    The ID3v2.2 constructor gives a tag without frames; the others do so if the
    first byte has its bit 6 clear.  If it is set, as it is in every MPEG audio
    frame, the ID3v2.3 constructor reads outside its buffer and the ID3v2.4 one
    complains of an extended header. *)
Theorem C99_absent_refuted : forall data pos b e z passes, no_tag_at data pos b ->
  let s := mkIs data pos e 0 in
  (exists v t, open22 s = (Ok (v, t), s) /\ t2_frames t = []) /\
  (~ says_extended b ->
   (exists v t, open23 z (S passes) s = (Ok (v, t), s) /\ t3_frames t = []) /\
   (exists v t, open24 z (S passes) s = (Ok (v, t), s) /\ t4_frames t = [])) /\
  (says_extended b ->
   fst (open23 z (S passes) s) = UB OutOfBounds /\ open24 z (S passes) s = (Throw BadExtHeader, s)).
Proof.
  intros data pos b e z passes H. cbv zeta. unfold open22, open23, open24. split; [|split].
  - destruct (open_none (fun f n => parse_stream (parse_body22 f) n) data pos b e H) as [v ->].
    rewrite (parse_stream_none _ _ _ _ _ (body22_none b)). eexists _, _. repeat split.
  - intros X. apply ext_bit_not in X. split.
    + destruct (open_none (fun f n => parse_stream (parse_body23 z (S passes) f) n) data pos b e H) as [v ->].
      rewrite (parse_stream_none _ _ _ _ _ (body23_none z passes b X)). eexists _, _. repeat split.
    + destruct (open_none (fun f n => parse_stream (parse_body24 z (S passes) f) n) data pos b e H) as [v ->].
      rewrite (parse_stream_none _ _ _ _ _ (body24_none z passes b X)). eexists _, _. repeat split.
  - intros X. apply ext_bit in X. split.
    + destruct (open_none (fun f n => parse_stream (parse_body23 z (S passes) f) n) data pos b e H) as [v ->].
      pose proof (parse_stream_none_ub _ data pos e _ (body23_none_ext z (S passes) b X)) as U.
      destruct (parse_stream _ _ _) as [o s]. cbn [fst] in U. rewrite U. reflexivity.
    + destruct (open_none (fun f n => parse_stream (parse_body24 z (S passes) f) n) data pos b e H) as [v ->].
      rewrite (parse_stream_none_throw _ _ _ _ _ (body24_none_ext z (S passes) b X)). reflexivity.
Qed.
Print Assumptions C99_absent_refuted.
Example C99_absent_nontrivial :
  no_tag_at [255; 251; 144; 100; 0; 0] 0 255 /\ says_extended 255 /\
  no_tag_at (B "RIFF" ++ [200; 1]) 0 82 /\ says_extended 82 /\
  no_tag_at [0; 0; 0; 0; 0] 0 0 /\ ~ says_extended 0.
Proof.
  repeat split; try discriminate.
  - exists 251, 144, 100, 0, [0]. split; [reflexivity|]. split; [left; discriminate|].
    left. apply Exists_cons_hd. discriminate.
  - exists 73, 70, 70, 200, [1]. split; [reflexivity|]. split; [left; discriminate|].
    left. do 3 apply Exists_cons_tl. apply Exists_cons_hd. discriminate.
  - exists 0, 0, 0, 0, []. split; [reflexivity|]. split; [left; discriminate|]. now right.
Qed.

(** Fewer than five bytes left, or five bytes of a header and fewer than five
    after them: an I/O failure from all three.  The stream is as it was (or just
    before the second half) if the caller's exception mask has neither eofbit
    nor failbit; with either of them it is left at its end and failed. *)
Theorem C99_short_partial : forall data pos e z passes,
  let after q := if N.testbit e 1 || N.testbit e 2 then mkIs data (q + len (slice q 5 data)) e 6 else mkIs data q e 0 in
  let s := mkIs data pos e 0 in
  forall q,
  (q = pos /\ len (slice pos 5 data) < 5 \/
   q = pos + 5 /\ (exists v r, slice pos 5 data = B "ID3" ++ [v; r] /\ v <> 255 /\ r <> 255) /\
     len (slice q 5 data) < 5) ->
  open22 s = (Throw IosFailure, after q) /\
  open23 z passes s = (Throw IosFailure, after q) /\
  open24 z passes s = (Throw IosFailure, after q).
Proof.
  intros data pos e z passes. cbv zeta. intros q H.
  assert (M : (N.land 6 e =? 0) = negb (N.testbit e 1 || N.testbit e 2)).
  { destruct (N.testbit e 1) eqn:E1.
    - apply N.eqb_neq. intros X. apply (f_equal (fun x => N.testbit x 1)) in X.
      rewrite N.land_spec, E1 in X. discriminate.
    - destruct (N.testbit e 2) eqn:E2.
      + apply N.eqb_neq. intros X. apply (f_equal (fun x => N.testbit x 2)) in X.
        rewrite N.land_spec, E2 in X. discriminate.
      + apply N.eqb_eq. apply N.bits_inj. intros i. rewrite N.land_spec, N.bits_0.
        destruct (N.eq_dec i 1) as [->|N1]; [now rewrite E1|].
        destruct (N.eq_dec i 2) as [->|N2]; [now rewrite E2|].
        destruct (N.testbit 6 i) eqn:E6; [|reflexivity]. exfalso.
        destruct (N.le_gt_cases 3 i) as [G|G].
        * rewrite N.bits_above_log2 in E6 by (change (N.log2 6) with 2; clear -G; lia). discriminate.
        * assert (i = 0) as -> by (clear -N1 N2 G; lia). discriminate. }
  assert (F : forall b : bool, forall x y : istream, (if negb b then x else y) = (if b then y else x))
    by (intros []; reflexivity).
  unfold open22, open23, open24.
  destruct H as [[-> H]|[-> ((v & r & S1 & V & R) & H)]].
  - assert (L : len (slice pos 5 data) <> 5) by (clear -H; lia).
    rewrite !open_short by exact L. rewrite M, F. repeat split.
  - assert (L : len (slice (pos + 5) 5 data) <> 5) by (clear -H; lia).
    rewrite !(open_half_there _ _ _ _ _ _ S1 V R L). rewrite M, F. repeat split.
Qed.
Print Assumptions C99_short_partial.
Example C99_short_nontrivial :
  let d := B "ID3" ++ [3; 0; 0; 0] in
  fst (open22 (mkIs d 0 0 0)) = Throw IosFailure /\ snd (open22 (mkIs d 0 0 0)) = mkIs d 5 0 0 /\
  snd (open22 (mkIs d 0 2 0)) = mkIs d 7 2 6 /\ snd (open22 (mkIs d 4 0 0)) = mkIs d 4 0 0.
Proof. repeat split; vm_compute; reflexivity. Qed.

(** If the four bytes after the first happen to be a number in base 128 (text,
    say), that many bytes from the sixth on are read as a tag. *)
Theorem C99_misread_refuted : forall data pos b z0 z1 z2 z3 rest e,
  dropN pos data = [b; z0; z1; z2; z3] ++ rest ->
  ([b; z0; z1] <> B "ID3" \/ z2 = 255 \/ z3 = 255) -> Forall (fun z => z < 128) [z0; z1; z2; z3] ->
  let s := mkIs data pos e 0 in
  let info := mkInfo 0 0 b (positional 128 [z0; z1; z2; z3]) in
  0 < i_size info ->
  (forall t s', read22 info (mkIs data (pos + 5) e 0) = (Ok t, s') -> exists v, open22 s = (Ok (v, t), s')) /\
  (forall z passes t s', read23 z passes info (mkIs data (pos + 5) e 0) = (Ok t, s') ->
     exists v, open23 z passes s = (Ok (v, t), s')) /\
  (forall z passes t s', read24 z passes info (mkIs data (pos + 5) e 0) = (Ok t, s') ->
     exists v, open24 z passes s = (Ok (v, t), s')).
Proof.
  intros data pos b z0 z1 z2 z3 rest e D P Z. cbv zeta. intros G. cbn [i_size] in G.
  assert (F : flags_size [b; z0; z1; z2; z3] = (b, positional 128 [z0; z1; z2; z3])).
  { cbn [flags_size]. f_equal.
    inversion_clear Z as [|? ? Z0 Z']. inversion_clear Z' as [|? ? Z1 Z'']. inversion_clear Z'' as [|? ? Z2 Z'].
    inversion_clear Z' as [|? ? Z3 _]. clear -Z0 Z1 Z2 Z3.
    rewrite <- uss4_positional by assumption.
    apply N.ltb_lt in Z0, Z1, Z2, Z3. now rewrite Z0, Z1, Z2, Z3. }
  assert (E : (positional 128 [z0; z1; z2; z3] =? 0) = false).
  { revert G. generalize (positional 128 [z0; z1; z2; z3]). intros [|q] G; [discriminate|reflexivity]. }
  pose proof (not_present _ _ _ _ _ P) as NP.
  unfold open22, open23, open24, read22, read23, read24. cbn [i_flags i_size].
  repeat split; intros; eexists; rewrite (open_absent _ _ _ _ _ _ _ _ _ _ D NP), F; cbn [snd];
    rewrite E; try rewrite H; reflexivity.
Qed.
Print Assumptions C99_misread_refuted.
Definition ex_text : bytes := [32; 0; 0; 0; 13] ++ B "TIT2" ++ [0; 0; 0; 3; 0; 0; 0] ++ B "Hi".
Example C99_misread_nontrivial :
  exists v t s', open23 no_zlib 1 (mkIs ex_text 0 0 0) = (Ok (v, t), s') /\ v = None /\ len (t3_frames t) = 1.
Proof. eexists _, _, _. split; [vm_compute; reflexivity|split; reflexivity]. Qed.

(** The version in the header is not compared with the constructor's: there is
    an ID3v2.4 tag with two frames that the ID3v2.3 constructor takes, without
    an exception, for a tag with one -- of the length that the sync-safe number
    would have without its gaps. *)
Theorem C99_version_refuted : exists data t t' s,
  looking_at_id3v2 true (mkIs data 0 0 0) = (Ok (Some (mkInfo 4 0 0 338)), mkIs data 0 0 0) /\
  open24 no_zlib 1 (mkIs data 0 0 0) = (Ok (Some (4, 0), t), s) /\
  open23 no_zlib 1 (mkIs data 0 0 0) = (Ok (Some (4, 0), t'), s) /\
  map (fun c => f_id (c_frame c)) (t4_frames t) = [B "TIT2"; B "TPE1"] /\
  map (fun c => f_id (c_frame c)) (t3_frames t') = [B "TIT2"].
Proof.
  exists (B "ID3" ++ [4; 0; 0; 0; 0; 2; 82] ++
          B "TIT2" ++ [0; 0; 1; 72; 0; 0; 0] ++ repeatN 65 199 ++
          B "TPE1" ++ [0; 0; 0; 118; 0; 0; 0] ++ repeatN 66 117).
  eexists _, _, _. split; [vm_compute; reflexivity|]. split; [vm_compute; reflexivity|].
  split; [vm_compute; reflexivity|]. split; vm_compute; reflexivity.
Qed.
Print Assumptions C99_version_refuted.
