(** * Lemmas: ID3v2.4 tags, what fails; sizes; termination. *)
From Verif Require Import Base M_Ints M_Unsync M_Stream M_Payload M_Cloud M_Frame M_Tag23 M_Tag24
  S_Ints S_Stream S_Unsync S_Payload S_Cloud S_Tag S_Tag23 S_Tag24
  L_Ints L_Unsync L_Stream L_Payload L_Cloud L_Cloud2 L_Frame L_Tag23 L_Tag23b L_Tag23c L_Tag23d L_Tag23e L_Tag24.

(** ** Sizes *)
Lemma size_written24 z t u b t' : write24 z t u = Ok (b, t') -> ext_simple (t4_ext t) ->
  exists n, size24 z t u = Ok (n, t') /\ len b + t4_pad t = 10 + n /\
  exists z0 z1 z2 z3 rest, b = B "ID3" ++ [4; 0; flags24 t; z0; z1; z2; z3] ++ rest /\
    Forall (fun z => z < 128) [z0; z1; z2; z3] /\ n = positional 128 [z0; z1; z2; z3].
Proof.
  intros H Hx. apply write24_inv in H as (n & h & x & ft & Hs & Hh & Ex & Eft & Eb).
  exists n. split; [exact Hs|]. pose proof (x_len t x Hx Ex) as Hxl.
  destruct (size24_inv z t u n t' Hs) as (_ & _ & _ & _ & _ & _ & En). rewrite <- Hxl in En.
  assert (Hfl : len ft = bit_if (t4_foot t) 10).
  { unfold opt_footer in Eft. destruct (t4_foot t); [|now subst ft]. destruct Eft as (s & Es & ->).
    apply tag_header_inv in Hh as (_ & _ & _ & _ & _ & _ & _ & _ & L).
    destruct (sync_safe_roundtrip_l n L) as (b0 & b1 & b2 & b3 & E & _). rewrite E in Es. apply Ok_inj in Es.
    subst s. reflexivity. }
  apply tag_header_inv in Hh as (z0 & z1 & z2 & z3 & -> & F & P & _). split.
  - rewrite Eb, !len_app, En, Hfl, sum_len_concat, len_repeatN. change (len (B "ID3")) with 3.
    change (len [4; 0; flags24 t; z0; z1; z2; z3]) with 7. lia.
  - eexists z0, z1, z2, z3, _. split; [|auto]. rewrite Eb, <- app_assoc. reflexivity.
Qed.

Lemma size_exact24 z t u b t' : write24 z t u = Ok (b, t') -> ext_simple (t4_ext t) -> t4_pad t = 0 ->
  exists n, size24 z t u = Ok (n, t') /\ len b = 10 + n /\
  exists z0 z1 z2 z3 rest, b = B "ID3" ++ [4; 0; flags24 t; z0; z1; z2; z3] ++ rest /\
    Forall (fun z => z < 128) [z0; z1; z2; z3] /\ n = positional 128 [z0; z1; z2; z3].
Proof.
  intros H Hx Hp. destruct (size_written24 z t u b t' H Hx) as (n & H1 & H2 & H3). exists n.
  split; [exact H1|]. split; [|exact H3]. lia.
Qed.

Lemma ext_size_refuted24 : exists z t b t' n, wf_tag24 z t /\ t4_pad t = 0 /\
  size24 z t false = Ok (n, t') /\ write24 z t false = Ok (b, t') /\ len b <> 10 + n.
Proof.
  exists no_zlib, (mkTag24 None false false (Some (mkExt24 12 false (Some 5) None)) 0 [new_frame (title24 [65])]).
  eexists _, _, _. split; [wf1; eexists _, _, _, _; reflexivity|]. split; [reflexivity|]. split; [vm_compute; reflexivity|].
  split; [vm_compute; reflexivity|]. intros E. vm_compute in E. discriminate E.
Qed.

Lemma writable24 z t u n t' : size24 z t u = Ok (n, t') -> ext_simple (t4_ext t) ->
  (n < 2 ^ 28 -> exists b, write24 z t u = Ok (b, t')) /\
  (2 ^ 28 <= n -> exists e, write24 z t u = Throw e).
Proof.
  intros Hs Hx. destruct (size24_inv z t u n t' Hs) as (_ & _ & _ & Ex & _ & (_ & Hcl & _) & _). split; intros Hn.
  - destruct (sync_safe_roundtrip_l n Hn) as (b0 & b1 & b2 & b3 & E & _).
    unfold write24. rewrite Hs. cbn [bind]. unfold tag_header. rewrite E. cbn [bind]. rewrite Ex.
    assert (exists x, match t4_ext t with Some y => ext_wire24 y | None => Ok [] end = Ok x) as (x & Hxx).
    { destruct (t4_ext t) as [[sz up crc restr]|]; [|eauto]. destruct Hx as (Hc & Hr & Hz). cbn in Hc, Hr, Hz. subst.
      destruct up; eexists; reflexivity. }
    rewrite Hxx. cbn [bind]. rewrite map_refresh_clean by exact Hcl. cbn [bind].
    unfold tag_footer. rewrite E. destruct t' as [a b c d p fs]. cbn [t4_foot t4_unsync t4_exp t4_ext t4_pad t4_frames] in *.
    subst d. destruct c; cbn [bind]; eauto.
  - unfold write24. rewrite Hs. cbn [bind]. unfold tag_header. rewrite ssfu_throw by exact Hn. cbn [bind]. eauto.
Qed.

(** ** Padding and footers *)
Lemma padding_short24 z passes t u b t' pre post e : write24 z t u = Ok (b, t') -> ext_simple (t4_ext t) ->
  len post < t4_pad t ->
  exists info p,
    looking_at_id3v2 false (mkIs (pre ++ b ++ post) (len pre) e 0) =
      (Ok (Some info), mkIs (pre ++ b ++ post) (len pre + 10) e 0) /\ i_version info = 4 /\
    read24 z passes info (mkIs (pre ++ b ++ post) (len pre + 10) e 0) =
      (Throw IosFailure, mkIs (pre ++ b ++ post) p all_bits failbit).
Proof.
  intros H Hx Hlt. destruct (size_written24 z t u b t' H Hx) as (n & Hs & Hl & _).
  apply write24_inv in H as (n' & h & x & ft & Hs' & Hh & _ & _ & Eb).
  rewrite Hs in Hs'. apply Ok_inj in Hs'. injection Hs' as <-.
  destruct (header24_found pre b post h n (flags24 t) e 4 Hh) as [L1 L2]; [discriminate|eexists; exact Eb|].
  exists (mkInfo 4 0 (flags24 t) n). eexists. split; [exact L1|]. split; [reflexivity|].
  unfold read24. cbn [i_flags i_size]. apply parse_stream_short. unfold slice.
  assert (10 <= len b) by (rewrite Eb, len_app; lia).
  rewrite len_takeN, len_dropN, !len_app. lia.
Qed.

Lemma footer24 z passes t u b t' pre post e : (0 < passes)%nat -> wf_tag24 z t -> write24 z t u = Ok (b, t') ->
  (u = false \/ Forall (unaffected24 z) (map c_frame (t4_frames t))) -> ext_simple (t4_ext t) ->
  t4_foot t = true -> t4_pad t = 0 ->
  exists info,
    looking_at_id3v2 false (mkIs (pre ++ b ++ post) (len pre) e 0) =
      (Ok (Some info), mkIs (pre ++ b ++ post) (len pre + 10) e 0) /\ i_version info = 4 /\
    read24 z passes info (mkIs (pre ++ b ++ post) (len pre + 10) e 0) =
      (Throw InvalidTag, mkIs (pre ++ b ++ post) (len pre + 10) e 0).
Proof.
  intros Hp Hw H Hu Hx Hft Hpad. destruct (size_exact24 z t u b t' H Hx Hpad) as (n & Hs & Hl & _).
  apply write24_inv in H as (n' & h & x & ft & Hs' & Hh & Ex & Eft & Eb).
  rewrite Hs in Hs'. apply Ok_inj in Hs'. injection Hs' as <-.
  destruct (header24_found pre b post h n (flags24 t) e 4 Hh) as [L1 L2]; [discriminate|eexists; exact Eb|].
  rewrite Hpad in Eb. change (repeatN 0 0) with (@nil N) in Eb. cbn [app] in Eb.
  unfold opt_footer in Eft. rewrite Hft in Eft. destruct Eft as (s & Es & Eft).
  assert (Hfl : len ft = 10).
  { subst ft. apply tag_header_inv in Hh as (_ & _ & _ & _ & _ & _ & _ & _ & L).
    destruct (sync_safe_roundtrip_l n L) as (b0 & b1 & b2 & b3 & E & _). rewrite E in Es. apply Ok_inj in Es.
    subst s. reflexivity. }
  destruct (tail_footer z ft Hfl) as [T1 T2]; [subst ft; discriminate|subst ft; reflexivity|].
  destruct (reread24 z passes t u n t' x ft 0 Hp Hw Hs Hu Hx Ex) as (k & cb & P).
  { intros fuel ms found Hfu. unfold len in Hfl. destruct fuel as [|[|fuel]]; [lia|lia|]. apply T1. }
  rewrite T2 in P. cbn [bind] in P.
  exists (mkInfo 4 0 (flags24 t) n). split; [exact L1|]. split; [reflexivity|].
  set (body := x ++ concat (map (cached u) (t4_frames t')) ++ ft) in *.
  assert (Hbl : len body = n) by (rewrite Eb, len_app in Hl; lia).
  unfold read24. cbn [i_flags i_size]. rewrite Eb, <- Hbl, <- (app_assoc h), (app_assoc pre h).
  replace (len pre + 10) with (len (pre ++ h)) by (rewrite len_app; lia).
  exact (parse_stream_throw _ (pre ++ h) body post e _ P).
Qed.

(** ** Termination *)
Lemma id24_nt l : frame_id24 l <> NonTerm.
Proof.
  unfold frame_id24. destruct (_ && _); [discriminate|].
  destruct l as [|? [|? [|? [|? ?]]]]; try discriminate. destruct (_ && _); discriminate.
Qed.
Lemma size24_nt l : frame_size24 l <> NonTerm.
Proof. unfold frame_size24. destruct (dropN 4 l) as [|? [|? [|? [|? ?]]]]; discriminate. Qed.
Lemma extras24_nt f1 p cb : frame_extras24 f1 p cb <> NonTerm.
Proof.
  unfold frame_extras24. apply bind_nt.
  { destruct (negb _); [|discriminate]. apply bind_nt; [apply take1_nt|]. intros [[? ?] ?]. discriminate. }
  intros [[d q] c] _. apply bind_nt.
  { destruct (negb _); [|discriminate]. apply bind_nt; [apply take1_nt|]. intros [[? ?] ?]. discriminate. }
  intros [[e q'] c'] _. apply bind_nt.
  { destruct (negb _); [|discriminate]. destruct q' as [|? [|? [|? [|]]]]; try discriminate. destruct (c' <? 4); discriminate. }
  intros [[g q''] c'']. discriminate.
Qed.

Lemma drop_less (l : bytes) k fuel : l <> [] -> (length l < S fuel)%nat -> 10 <= k -> (length (dropN k l) < fuel)%nat.
Proof. intros H1 H2 H3. rewrite dropN_skipn, skipn_length. destruct l; [congruence|]. cbn [length] in *. lia. Qed.

Lemma frames24_nt z cb ms fuel : forall l, (length l < fuel)%nat -> frames24 z fuel cb ms l <> NonTerm.
Proof.
  induction fuel as [|fuel IH]; intros l H; [lia|]. destruct l as [|x l]; [discriminate|].
  rewrite frames24_cons. apply bind_nt; [apply id24_nt|]. intros [id|] _; [|discriminate].
  destruct (_ <? 11); [discriminate|]. apply bind_nt; [apply size24_nt|]. intros c _.
  destruct (cb <=? c); [discriminate|]. cbv zeta. apply bind_nt; [apply extras24_nt|].
  intros [[[[gid enc] dli] pread] cbr] _. apply bind_nt.
  { destruct enc; [destruct (existsb _ _); discriminate|]. unfold payload24. destruct dli; [|apply parse_payload_nt].
    apply bind_nt; [apply decompressed_nt|]. intros d _. apply parse_payload_nt. }
  intros b _. apply bind_nt; [|discriminate]. apply IH. apply drop_less; [discriminate|exact H|lia].
Qed.

Lemma id24_some l id : frame_id24 l = Ok (Some id) -> exists r, l = id ++ r.
Proof.
  unfold frame_id24. destruct (_ && _); [discriminate|].
  destruct l as [|i0 [|i1 [|i2 [|i3 r]]]]; try discriminate. destruct (_ && _); [discriminate|].
  intros H. apply Ok_inj in H. injection H as <-. exists r. reflexivity.
Qed.

Lemma encr_pass24_nt z fuel : forall l pad ms, (length l < fuel)%nat -> ~ contains (B "ENCR") l ->
  encr_pass24 z fuel l pad ms false <> NonTerm /\
  (forall pad' ms' found', encr_pass24 z fuel l pad ms false = Ok (pad', ms', found') -> found' = false).
Proof.
  induction fuel as [|fuel IH]; intros l pad ms H Hno; [lia|]. destruct l as [|x l].
  { split; [discriminate|]. cbn [encr_pass24]. intros ? ? ? E. apply Ok_inj in E. congruence. }
  rewrite encr_pass24_cons. destruct (frame_id24 (x :: l)) as [h| | |] eqn:Hh; cbn [bind];
    try (split; discriminate).
  2: { exfalso. now apply id24_nt in Hh. }
  destruct h as [id|].
  - apply id24_some in Hh as (r & El). destruct (frame_size24 (x :: l)) as [c| | |] eqn:Hc; cbn [bind];
      try (split; discriminate).
    2: { exfalso. now apply size24_nt in Hc. }
    cbv zeta.
    assert (bytes_eqb id (B "ENCR") = false) as ->.
    { destruct (bytes_eqb_spec id (B "ENCR")) as [E|E]; [|reflexivity]. exfalso. apply Hno.
      exists [], r. now rewrite El, E. }
    apply IH; [apply drop_less; [discriminate|exact H|lia]|]. intros Hcn. apply Hno.
    now apply contains_drop in Hcn.
  - split; [discriminate|]. intros ? ? ? E. apply Ok_inj in E. congruence.
Qed.

Lemma flag_data_nt k p : flag_data k p <> NonTerm.
Proof. unfold flag_data. destruct p; [discriminate|]. destruct (_ || _); discriminate. Qed.
Lemma parse_ext24_nt p : parse_ext24 p <> NonTerm.
Proof.
  unfold parse_ext24. destruct p as [|a0 [|a1 [|a2 [|a3 [|nf [|f r]]]]]]; try discriminate.
  destruct (nf =? 0); [discriminate|]. cbv zeta. apply bind_nt.
  { destruct (negb _); [|discriminate]. apply bind_nt; [apply flag_data_nt|]. intros [? ?]. discriminate. }
  intros p2 _. apply bind_nt.
  { destruct (negb _); [|discriminate]. apply bind_nt; [apply flag_data_nt|]. intros [d ?] _.
    destruct d as [|? [|? [|? [|? [|? [|]]]]]]; try discriminate. destruct (_ || _); discriminate. }
  intros [crc p3] _. apply bind_nt; [|discriminate].
  destruct (negb _); [|discriminate]. apply bind_nt; [apply flag_data_nt|]. intros [d ?] _.
  destruct d as [|? [|]]; discriminate.
Qed.

Lemma parse_body24_nt z passes f buf : (0 < passes)%nat -> ~ contains (B "ENCR") buf ->
  parse_body24 z passes f buf <> NonTerm.
Proof.
  intros Hp Hno. unfold parse_body24. apply bind_nt.
  { destruct (negb _); [|discriminate]. apply bind_nt; [apply parse_ext24_nt|discriminate]. }
  intros [ext l] He. assert (Hl : ~ contains (B "ENCR") l).
  { destruct (negb _) in He.
    - apply bind_ok in He as (x & _ & He). apply Ok_inj in He. injection He as _ <-.
      intros Hc. now apply contains_drop in Hc.
    - apply Ok_inj in He. injection He as _ <-. exact Hno. }
  destruct (encr_pass24_nt z (S (length l)) l 0 [] ltac:(lia) Hl) as [N1 N2].
  apply bind_nt.
  { destruct passes as [|k]; [lia|]. cbn [encr_passes24]. apply bind_nt; [exact N1|].
    intros [[pad' ms'] found'] E. rewrite (N2 _ _ _ E). discriminate. }
  intros [pad ms] _. apply bind_nt; [|discriminate]. apply frames24_nt. lia.
Qed.

Definition looping24 : bytes := B "ENCR" ++ [0; 0; 0; 2; 0; 4; 1; 65; 0; 0; 0; 0].
Lemma looping24_nt z passes : parse_body24 z passes 0 looping24 = NonTerm.
Proof.
  unfold parse_body24. cbn [N.land N.eqb negb bind].
  assert (H : forall k (found : bool), encr_passes24 z k looping24 (if found then 4 else 0) [] found = NonTerm).
  { induction k as [|k IH]; intros found; [reflexivity|]. cbn [encr_passes24].
    assert (E : encr_pass24 z (S (length looping24)) looping24 (if found then 4 else 0) [] found =
                Ok (4, [], true)) by (destruct found; vm_compute; reflexivity).
    rewrite E. cbn [bind]. exact (IH true). }
  change (encr_passes24 z passes looping24 0 [] false) with
    (encr_passes24 z passes looping24 (if false then 4 else 0) [] false). now rewrite H.
Qed.

Lemma overread24 : exists buf, forall z passes, (0 < passes)%nat -> parse_body24 z passes 0 buf = UB OutOfBounds.
Proof. exists [65; 66; 67; 68; 0]. intros z [|k] H; [lia|]. reflexivity. Qed.

Lemma read24_error z passes r f buf pre post e x :
  parse_body24 z passes f buf = Throw x ->
  read24 z passes (mkInfo 4 r f (len buf)) (mkIs (pre ++ buf ++ post) (len pre) e 0) =
  (Throw x, mkIs (pre ++ buf ++ post) (len pre) e 0).
Proof. apply parse_stream_throw. Qed.

(** ** Witnesses *)
Ltac wf4 := repeat constructor; cbn; try discriminate; try (eexists _, _, _, _; reflexivity); auto.

Lemma unsync24_refuted : exists z t b t',
  wf_tag24 z t /\ Forall plain_flags (map c_frame (t4_frames t)) /\ t4_ext t = None /\ t4_pad t = 0 /\
  t4_foot t = false /\ write24 z t true = Ok (b, t') /\
  forall passes, (0 < passes)%nat ->
    parse_body24 z passes (nth 5 b 0) (dropN 10 b) = UB OutOfBounds.
Proof.
  exists no_zlib, (mkTag24 (Some true) false false None 0 [new_frame (title24 [255; 0; 65])]). eexists _, _.
  split; [wf4|]. split; [wf4|]. do 3 (split; [reflexivity|]).
  split; [vm_compute; reflexivity|]. intros [|passes] H; [lia|]. reflexivity.
Qed.

(** The same title, last but one: what it is read as. *)
Lemma unsync_frame24_refuted : exists z buf t,
  parse_body24 z 1 128 buf = Ok t /\
  laid_out24 z [(B "TIT2", 0, None, false, BText (mkText 3 [255; 224]))] 0
     (B "TIT2" ++ [0; 0; 0; 3; 0; 0; 3; 255; 224]) /\
  buf = B "TIT2" ++ [0; 0; 0; 4; 0; 2] ++ unsynchronise [3; 255; 224] true /\
  map (fun c => f_body (c_frame c)) (t4_frames t) = [BText (mkText 3 [255; 0; 224])].
Proof.
  exists no_zlib. eexists _, _. split; [|split; [|split; [reflexivity|]]].
  - vm_compute. reflexivity.
  - apply (laid_frame24 _ (B "TIT2") 0 0 None false _ [3; 255; 224] [3; 255; 224] [] 0 [] 0 0 0 3);
      try reflexivity; try discriminate; try exact I; try (repeat constructor); try apply (data_plain24 _ None).
  - reflexivity.
Qed.

Definition rev_zlib : zlib := mkZlib (fun p => Some (rev p)) (fun p _ => Some (rev p)) (fun _ _ => 0).
Lemma compressed24_refuted : exists z t b t' t'',
  (forall p c, z_compress z p = Some c -> z_uncompress z c (len p) = Some p) /\
  Forall (fun c => wf_frame V24 (c_frame c)) (t4_frames t) /\ t4_ext t = None /\ t4_foot t = false /\ t4_pad t = 0 /\
  write24 z t false = Ok (b, t') /\
  parse_body24 z 1 (nth 5 b 0) (dropN 10 b) = Ok t'' /\
  map (fun c => fl_cmp (f_flags (c_frame c))) (t4_frames t) = [true] /\
  map (fun c => fl_cmp (f_flags (c_frame c))) (t4_frames t'') = [false] /\
  map (fun c => f_body (c_frame c)) (t4_frames t) = [BUnknown [65; 66]] /\
  map (fun c => f_body (c_frame c)) (t4_frames t'') = [BUnknown [66; 65]].
Proof.
  exists rev_zlib, (mkTag24 None false false None 0
    [new_frame (mkFrame (B "WXYZ") (mkFl false false false true None None false false) (BUnknown [65; 66]))]).
  eexists _, _, _. split.
  { intros p c H. injection H as <-. cbn. now rewrite rev_involutive. }
  split; [wf4|]. do 3 (split; [reflexivity|]). do 2 (split; [vm_compute; reflexivity|]). auto.
Qed.

Lemma group24_refuted : exists z t b t',
  Forall (fun c => wf_frame V24 (c_frame c)) (t4_frames t) /\ t4_ext t = None /\ t4_foot t = false /\ t4_pad t = 0 /\
  map (fun c => fl_gid (f_flags (c_frame c))) (t4_frames t) = [Some 9] /\
  write24 z t false = Ok (b, t') /\
  forall passes, (0 < passes)%nat -> parse_body24 z passes (nth 5 b 0) (dropN 10 b) = UB OutOfBounds.
Proof.
  exists no_zlib, (mkTag24 None false false None 0
    [new_frame (mkFrame (B "WXYZ") (mkFl false false false false None (Some 9) false false) (BUnknown [65]))]).
  eexists _, _. split; [wf4|]. do 4 (split; [reflexivity|]). split; [vm_compute; reflexivity|].
  intros [|k] H; [lia|]. reflexivity.
Qed.

Lemma dli24_refuted : exists buf, parse_body24 no_zlib 1 0 buf = Throw ZlibError /\
  (* an uncompressed frame with a data length indicator, which the standard allows *)
  buf = B "TIT2" ++ [0; 0; 0; 6; 0; 1] ++ [0; 0; 0; 2] ++ [3; 65].
Proof. eexists. split; [|reflexivity]. reflexivity. Qed.

Lemma status24_refuted : exists z t b t' t'',
  wf_tag24 z t /\ t4_ext t = None /\ t4_foot t = false /\ t4_pad t = 0 /\ write24 z t false = Ok (b, t') /\
  parse_body24 z 1 (nth 5 b 0) (dropN 10 b) = Ok t'' /\
  map c_frame (t4_frames t'') <> map c_frame (t4_frames t).
Proof.
  exists no_zlib, (mkTag24 None false false None 0
             [new_frame (mkFrame (B "TIT2") (mkFl true false false false None None false false)
                                 (BText (mkText 0 [65])))]). eexists _, _, _.
  split; [wf4|]. do 3 (split; [reflexivity|]). do 2 (split; [vm_compute; reflexivity|]).
  intros E. vm_compute in E. discriminate E.
Qed.

(** ** Plain flags *)
Lemma plain_shift24 l : Forall plain_flags l -> map shift_flags24 l = l.
Proof.
  intros H. apply map_id_ext. revert H. apply Forall_impl. intros f Hf. unfold plain_flags in Hf.
  unfold shift_flags24. rewrite Hf. destruct f as [i fl b]. cbn in *. now subst fl.
Qed.

Lemma roundtrip24_plain z passes t u b t' pre post e : (0 < passes)%nat -> wf_tag24 z t ->
  Forall plain_flags (map c_frame (t4_frames t)) -> write24 z t u = Ok (b, t') ->
  (u = false \/ Forall (unaffected24 z) (map c_frame (t4_frames t))) -> ext_simple (t4_ext t) ->
  t4_foot t = false -> (t4_pad t = 0 \/ 4 <= t4_pad t /\ t4_pad t <= len post) ->
  exists info t'',
    looking_at_id3v2 false (mkIs (pre ++ b ++ post) (len pre) e 0) =
      (Ok (Some info), mkIs (pre ++ b ++ post) (len pre + 10) e 0) /\ i_version info = 4 /\
    read24 z passes info (mkIs (pre ++ b ++ post) (len pre + 10) e 0) =
      (Ok t'', mkIs (pre ++ b ++ post) (len pre + len b + t4_pad t) e 0) /\
    map c_frame (t4_frames t'') = map c_frame (t4_frames t) /\
    t4_unsync t'' = Some (match t4_unsync t with Some true => true | _ => false end) /\
    t4_exp t'' = t4_exp t /\ t4_foot t'' = false /\ t4_ext t'' = t4_ext t /\ t4_pad t'' = 2 * t4_pad t.
Proof.
  intros Hp Hw Hf H Hu Hx Hft Hpad.
  destruct (roundtrip24 z passes t u b t' pre post e Hp Hw H Hu Hx Hft Hpad)
    as (info & t'' & R1 & R2 & R3 & R4 & R5). rewrite (plain_shift24 _ Hf) in R4. eauto 12.
Qed.
