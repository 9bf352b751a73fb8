(** * Lemmas: ID3v2.3 tags, reading what the standard lays out; termination. *)
From Verif Require Import Base M_Ints M_Unsync M_Stream M_Payload M_Cloud M_Frame M_Tag23
  S_Ints S_Stream S_Unsync S_Payload S_Cloud S_Tag S_Tag23
  L_Ints L_Unsync L_Stream L_Payload L_Cloud L_Cloud2 L_Frame L_Tag23 L_Tag23b L_Tag23c L_Tag23d.

(** ** Reading conforming tags *)
Lemma testbit_land f k : negb (N.land f (2 ^ k) =? 0) = N.testbit f k.
Proof.
  destruct (N.testbit f k) eqn:E.
  - destruct (N.eqb_spec (N.land f (2 ^ k)) 0) as [H|H]; [|reflexivity].
    apply (f_equal (fun x => N.testbit x k)) in H. rewrite N.land_spec, N.pow2_bits_true, E in H. discriminate.
  - destruct (N.eqb_spec (N.land f (2 ^ k)) 0) as [H|H]; [reflexivity|]. elim H.
    apply N.bits_inj. intros j. rewrite N.land_spec, N.bits_0.
    destruct (N.eq_dec k j) as [<-|D]; [now rewrite E|]. now rewrite N.pow2_bits_false, andb_false_r by exact D.
Qed.

Lemma be32_of_bytes s0 s1 s2 s3 n : Forall (fun x => x < 256) [s0; s1; s2; s3] ->
  n = 16777216 * s0 + 65536 * s1 + 256 * s2 + s3 ->
  n < 2 ^ 32 /\ uint32_from_non_sync_safe4 s0 s1 s2 s3 = n.
Proof.
  intros F ->. repeat (apply Forall_cons_iff in F as [? F]). split.
  - change (2 ^ 32) with 4294967296. lia.
  - rewrite nss4_spec by assumption. change (256 ^ 3) with 16777216. change (256 ^ 2) with 65536. lia.
Qed.

Definition as_frame (x : bytes * N * body) : frame :=
  match x with (id, f0, b) => mkFrame id (status23 f0) b end.

Lemma head_raw id s0 s1 s2 s3 f0 f1 x xs after : len id = 4 -> hd 0 id <> 0 ->
  frame_head23 (id ++ [s0; s1; s2; s3] ++ [f0; f1] ++ x :: xs) after =
  Ok (Some (id, uint32_from_non_sync_safe4 s0 s1 s2 s3, f0, f1)).
Proof.
  intros Hid Hhd. apply len4 in Hid as (a & b & c & d & ->). cbn [hd app] in *.
  unfold frame_head23. rewrite !len_cons.
  replace (1 + _ <=? 3) with false by (symmetry; apply N.leb_gt; lia). cbn [andb app].
  replace (a =? 0) with false by (symmetry; now apply N.eqb_neq). reflexivity.
Qed.

Lemma drop_raw id s0 s1 s2 s3 f0 f1 (p l : bytes) k : len id = 4 -> k = len p + 10 ->
  dropN 10 (id ++ [s0; s1; s2; s3] ++ [f0; f1] ++ p ++ l) = p ++ l /\
  dropN k (id ++ [s0; s1; s2; s3] ++ [f0; f1] ++ p ++ l) = l.
Proof.
  intros Hid ->. apply len4 in Hid as (a & b & c & d & ->). cbn [app].
  change (a :: b :: c :: d :: s0 :: s1 :: s2 :: s3 :: f0 :: f1 :: p ++ l) with
    ([a; b; c; d; s0; s1; s2; s3; f0; f1] ++ p ++ l). split; [now apply dropN_app_exact|].
  rewrite app_assoc. apply dropN_app_exact.
  rewrite len_app. change (len [a; b; c; d; s0; s1; s2; s3; f0; f1]) with 10. lia.
Qed.

Lemma laid_len fs pad l : laid_out23 fs pad l -> (length fs <= length l)%nat.
Proof.
  induction 1 as [|id f0 b p fs pad l s0 s1 s2 s3 Hid Hhd Hk Hb Hp Hne F Hs _ IH]; [cbn; lia|].
  cbn [length]. rewrite !app_length. cbn [length]. lia.
Qed.

Lemma read_laid_out z fs pad l : laid_out23 fs pad l -> forall fuel cb after, (length fs < fuel)%nat ->
  len l <= cb ->
  (forall ms found, encr_pass23 z fuel l after 0 ms found = Ok (pad, ms, found)) /\
  frames23 z fuel cb l after = Ok (map as_frame fs).
Proof.
  induction 1 as [pad|id f0 b p fs pad l s0 s1 s2 s3 Hid Hhd Hk Hb Hp Hne F Hs _ IH]; intros fuel cb after Hfu Hcb.
  - destruct fuel as [|fuel]; [cbn in Hfu; lia|]. split; [|apply frames23_zeros].
    intros ms found. destruct (N.eq_dec pad 0) as [->|Hn]; [reflexivity|].
    destruct (repeatN 0 pad) as [|x l] eqn:E.
    { apply (f_equal len) in E. rewrite len_repeatN, len_nil in E. lia. }
    rewrite encr_pass_cons, <- E, frame_head_zeros by lia. cbn [bind]. now rewrite len_repeatN.
  - destruct fuel as [|fuel]; [cbn in Hfu; lia|].
    destruct (be32_of_bytes s0 s1 s2 s3 (len p) F Hs) as [Hn Hd].
    destruct (drop_raw id s0 s1 s2 s3 f0 0 p l (len p + 10) Hid eq_refl) as [D1 D2].
    assert (HL : len l + len p < cb).
    { rewrite !len_app in Hcb. change (len [s0; s1; s2; s3]) with 4 in Hcb. lia. }
    pose proof (head_raw id s0 s1 s2 s3 f0 0) as HH.
    assert (Hw : frame_head23 (id ++ [s0; s1; s2; s3] ++ [f0; 0] ++ p ++ l) after =
                 Ok (Some (id, len p, f0, 0))).
    { rewrite <- Hd. destruct p as [|x p']; [congruence|]. exact (HH x (p' ++ l) after Hid Hhd). }
    assert (Hx : exists x w', id ++ [s0; s1; s2; s3] ++ [f0; 0] ++ p ++ l = x :: w').
    { destruct id; [now elim Hhd|]. cbn [app]. eauto. }
    destruct Hx as (x & w' & Ew). rewrite Ew in *.
    destruct (IH fuel cb after) as [I1 I2]; [cbn in Hfu; lia|lia|].
    split.
    + intros ms found. rewrite encr_pass_cons, Hw. cbn [bind].
      assert (bytes_eqb id (B "ENCR") = false) as ->.
      { destruct (bytes_eqb_spec id (B "ENCR")) as [E|E]; [|reflexivity]. exfalso.
        rewrite E in Hk. change (kind_of V23 (B "ENCR")) with KEncr in Hk.
        destruct b; try discriminate. destruct Hb. }
      cbv zeta. rewrite D2. apply I1.
    + rewrite frames23_cons, Hw. cbn [bind].
      replace (cb <=? len p) with false by lia.
      rewrite D1, extras_none. cbn [bind].
      rewrite <- app_assoc.
      destruct (body_roundtrip V23 b Hb) as (p' & E' & _ & HP). rewrite Hp in E'.
      apply Ok_inj in E'. subst p'.
      rewrite Hk, (parse_payload_exact V23 _ p (l ++ after) b) by now apply HP.
      cbn [bind is_some]. rewrite D2, I2. cbn [bind map as_frame]. unfold status23.
      change 128 with (2 ^ 7). change 64 with (2 ^ 6). change 32 with (2 ^ 5). now rewrite !testbit_land.
Qed.

Lemma read_conforming z passes f fs pad l buf : (0 < passes)%nat -> laid_out23 fs pad l ->
  N.testbit f 6 = false ->
  (if N.testbit f 7 then resynchronise buf else buf) = l ->
  parse_body23 z passes f buf =
  Ok (mkTag23 (Some (N.testbit f 7)) (N.testbit f 5) None pad (map new_frame (map as_frame fs))).
Proof.
  intros Hp HL H6 Hb. unfold parse_body23.
  change 128 with (2 ^ 7). change 64 with (2 ^ 6). change 32 with (2 ^ 5). rewrite !testbit_land.
  rewrite Hb, H6. cbn [bind].
  set (after := if N.testbit f 7 then resync_rest buf else []). clearbody after. cbv zeta.
  pose proof (laid_len _ _ _ HL) as Hl.
  destruct (read_laid_out z fs pad l HL (S (length l)) (len l) after) as [R1 R2]; [lia|lia|].
  destruct passes as [|k]; [lia|]. cbn [encr_passes23]. rewrite R1. cbn [bind]. rewrite R2. reflexivity.
Qed.

(** ** Termination *)
Lemma bind_nt {A B} (x : outcome A) (f : A -> outcome B) : x <> NonTerm ->
  (forall a, x = Ok a -> f a <> NonTerm) -> bind x f <> NonTerm.
Proof. destruct x; cbn; intros H1 H2; try discriminate; auto. Qed.

Lemma find_null1_nt l : forall after, find_null1 l after <> NonTerm.
Proof.
  induction l as [|b r IH]; intros after; cbn [find_null1]; [discriminate|].
  destruct (b =? 0); [discriminate|]. destruct (r ++ after); [discriminate|].
  apply bind_nt; [apply IH|discriminate].
Qed.
Lemma find_null2_nt n : forall l after, (length l <= n)%nat -> find_null2 l after <> NonTerm.
Proof.
  induction n as [|n IH]; intros l after H.
  - destruct l; [discriminate|cbn in H; lia].
  - destruct l as [|b0 [|b1 r]]; [discriminate|destruct after; discriminate|].
    cbn [find_null2]. destruct ((b0 =? 0) && (b1 =? 0)); [discriminate|].
    apply bind_nt; [apply IH; cbn in H; lia|discriminate].
Qed.
Lemma parse_described_nt cu l after : parse_described cu l after <> NonTerm.
Proof.
  unfold parse_described. apply bind_nt; [|discriminate]. unfold find_null.
  destruct (cu =? 1); [apply find_null1_nt|now apply (find_null2_nt (length l))].
Qed.
Lemma parse_body_nt v k l after : parse_body v k l after <> NonTerm.
Proof.
  destruct k; cbn [parse_body]; try discriminate; apply bind_nt; try discriminate.
  - destruct l, after; discriminate.
  - unfold parse_txxx. destruct l; [destruct after; discriminate|].
    apply bind_nt; [apply parse_described_nt|]. intros [d t]. discriminate.
  - unfold parse_comm. destruct l as [|u r]; [discriminate|]. destruct (comm_unicode_ok v u); [|discriminate].
    destruct (3 <=? len r); [|discriminate]. destruct (dropN 3 r); [discriminate|].
    apply bind_nt; [apply parse_described_nt|]. intros [d t]. discriminate.
  - unfold parse_popm. destruct (split0 l) as [e [[|]|]]; destruct after as [|? [|]]; discriminate.
  - apply parse_cloud_term.
  - unfold parse_priv. destruct (split0 l) as [e [|]]; discriminate.
Qed.
Lemma parse_payload_nt v k p cb : parse_payload v k p cb <> NonTerm.
Proof.
  unfold parse_payload. destruct (len p <? cb); [|apply parse_body_nt].
  destruct (parse_body v k _ _); discriminate.
Qed.
Lemma decompressed_nt z p cb n : decompressed z p cb n <> NonTerm.
Proof. unfold decompressed. destruct (len p <? cb); [discriminate|]. destruct (z_uncompress z _ n); discriminate. Qed.
Lemma take1_nt p cb : take1 p cb <> NonTerm.
Proof. unfold take1. destruct p; [discriminate|]. destruct (cb =? 0); discriminate. Qed.
Lemma extras_nt f1 p cb : frame_extras23 f1 p cb <> NonTerm.
Proof.
  unfold frame_extras23. apply bind_nt.
  { destruct (negb _); [|discriminate]. destruct p as [|? [|? [|? [|]]]]; try discriminate. destruct (cb <? 4); discriminate. }
  intros [[d q] c] _. apply bind_nt.
  { destruct (negb _); [|discriminate]. apply bind_nt; [apply take1_nt|]. intros [[? ?] ?]. discriminate. }
  intros [[e q'] c'] _. apply bind_nt.
  { destruct (negb _); [|discriminate]. apply bind_nt; [apply take1_nt|]. intros [[? ?] ?]. discriminate. }
  intros [[g q''] c'']. discriminate.
Qed.
Lemma head_nt l after : frame_head23 l after <> NonTerm.
Proof.
  unfold frame_head23. destruct (_ && _); [discriminate|].
  destruct (l ++ after) as [|? [|? [|? [|? ?]]]]; try discriminate.
  destruct (_ && _); [discriminate|].
  destruct l as [|? [|? [|? [|? [|? [|? [|? [|? [|? [|? [|? ?]]]]]]]]]]]; discriminate.
Qed.

(** A frame header with a frame in it stands in the tag itself. *)
Lemma head_some l after id cb f0 f1 : frame_head23 l after = Ok (Some (id, cb, f0, f1)) ->
  exists r, l = id ++ r /\ len id = 4 /\ (11 <= length l)%nat.
Proof.
  unfold frame_head23. destruct (_ && _); [discriminate|].
  destruct l as [|i0 [|i1 [|i2 [|i3 [|s0 [|s1 [|s2 [|s3 [|g0 [|g1 [|x r]]]]]]]]]]];
    try (destruct after as [|? [|? [|? [|? ?]]]]; cbn [app]; try discriminate; destruct (_ && _); discriminate).
  cbn [app]. destruct (_ && _); [discriminate|]. intros H. apply Ok_inj in H. injection H as <- _ _ _.
  exists (s0 :: s1 :: s2 :: s3 :: g0 :: g1 :: x :: r). split; [reflexivity|]. split; [reflexivity|]. cbn. lia.
Qed.

Lemma dropN_shorter (l : bytes) k fuel : (length l < S fuel)%nat -> (11 <= length l)%nat -> 10 <= k ->
  (length (dropN k l) < fuel)%nat.
Proof. intros H1 H2 H3. rewrite dropN_skipn, skipn_length. lia. Qed.

Lemma frames23_nt z cb fuel : forall l after, (length l < fuel)%nat -> frames23 z fuel cb l after <> NonTerm.
Proof.
  induction fuel as [|fuel IH]; intros l after H; [lia|]. destruct l as [|x l]; [discriminate|].
  rewrite frames23_cons. apply bind_nt; [apply head_nt|].
  intros [[[[id c] f0] f1]|] Hh; [|discriminate]. apply head_some in Hh as (r & _ & _ & Hlen).
  destruct (cb <=? c); [discriminate|]. apply bind_nt; [apply extras_nt|].
  intros [[[[dcsz enc] gid] pread] cbr] _. apply bind_nt.
  { destruct enc; [discriminate|]. destruct dcsz; [|apply parse_payload_nt].
    apply bind_nt; [apply decompressed_nt|]. intros d _. apply parse_payload_nt. }
  intros b _. apply bind_nt; [|discriminate]. apply IH. apply dropN_shorter; [exact H|exact Hlen|lia].
Qed.

Lemma contains_drop w k (l : bytes) : contains w (dropN k l) -> contains w l.
Proof.
  intros (a & b & E). exists (takeN k l ++ a), b. rewrite <- app_assoc, <- E. symmetry. apply takeN_dropN.
Qed.

Lemma encr_pass_nt z fuel : forall l after pad ms, (length l < fuel)%nat -> ~ contains (B "ENCR") l ->
  encr_pass23 z fuel l after pad ms false <> NonTerm /\
  (forall pad' ms' found', encr_pass23 z fuel l after pad ms false = Ok (pad', ms', found') -> found' = false).
Proof.
  induction fuel as [|fuel IH]; intros l after pad ms H Hno; [lia|]. destruct l as [|x l].
  { split; [discriminate|]. cbn [encr_pass23]. intros ? ? ? E. apply Ok_inj in E. congruence. }
  rewrite encr_pass_cons. destruct (frame_head23 (x :: l) after) as [h| | |] eqn:Hh; cbn [bind];
    try (split; discriminate).
  2: { exfalso. now apply head_nt in Hh. }
  destruct h as [[[[id c] f0] f1]|].
  - apply head_some in Hh as (r & El & Hid & Hlen). cbv zeta.
    assert (bytes_eqb id (B "ENCR") = false) as ->.
    { destruct (bytes_eqb_spec id (B "ENCR")) as [E|E]; [|reflexivity]. exfalso. apply Hno.
      exists [], r. now rewrite El, E. }
    apply IH; [apply dropN_shorter; [exact H|exact Hlen|lia]|]. intros Hc. apply Hno.
    now apply contains_drop in Hc.
  - split; [discriminate|]. intros ? ? ? E. apply Ok_inj in E. congruence.
Qed.

Lemma parse_body23_nt z passes f buf : (0 < passes)%nat ->
  ~ contains (B "ENCR") (if N.testbit f 7 then resynchronise buf else buf) ->
  parse_body23 z passes f buf <> NonTerm.
Proof.
  intros Hp Hno. unfold parse_body23. change 128 with (2 ^ 7). rewrite (testbit_land f 7).
  set (l0 := if N.testbit f 7 then resynchronise buf else buf) in *.
  set (after := if N.testbit f 7 then resync_rest buf else []). clearbody after l0. cbv zeta.
  apply bind_nt.
  { destruct (negb _); [|discriminate]. apply bind_nt; [|discriminate]. unfold parse_ext23.
    destruct (l0 ++ after) as [|? [|? [|? [|? [|? ?]]]]]; try discriminate.
    destruct (_ || _); [discriminate|]. destruct (dropN 6 _) as [|? [|? [|? [|? r]]]]; try discriminate.
    destruct (negb _); [|discriminate]. destruct r as [|? [|? [|? [|? ?]]]]; discriminate. }
  intros [ext l] He. assert (Hl : ~ contains (B "ENCR") l).
  { destruct (negb _) in He.
    - apply bind_ok in He as (x & _ & He). apply Ok_inj in He. injection He as _ <-.
      intros Hc. now apply contains_drop in Hc.
    - apply Ok_inj in He. injection He as _ <-. exact Hno. }
  destruct (encr_pass_nt z (S (length l)) l after 0 [] ltac:(lia) Hl) as [N1 N2].
  apply bind_nt.
  { destruct passes as [|k]; [lia|]. cbn [encr_passes23]. apply bind_nt; [exact N1|].
    intros [[pad' ms'] found'] E. rewrite (N2 _ _ _ E). discriminate. }
  intros [pad ms] _. apply bind_nt; [|discriminate]. apply frames23_nt. lia.
Qed.

(** An encrypted encryption-method registration: the loop never ends. *)
Definition looping23 : bytes := B "ENCR" ++ [0; 0; 0; 2; 0; 64; 1; 65; 0; 0; 0; 0].
Lemma looping23_nt z passes : parse_body23 z passes 0 looping23 = NonTerm.
Proof.
  unfold parse_body23. cbn [N.land N.eqb negb bind].
  assert (H : forall k (found : bool), encr_passes23 z k looping23 [] (if found then 4 else 0) [] found = NonTerm).
  { induction k as [|k IH]; intros found; [reflexivity|]. cbn [encr_passes23].
    assert (E : encr_pass23 z (S (length looping23)) looping23 [] (if found then 4 else 0) [] found =
                Ok (4, [], true)) by (destruct found; vm_compute; reflexivity).
    rewrite E. cbn [bind]. exact (IH true). }
  change (encr_passes23 z passes looping23 [] 0 [] false) with
    (encr_passes23 z passes looping23 [] (if false then 4 else 0) [] false). now rewrite H.
Qed.

(** ** Sizes *)
Definition tag23_sizes (t : tag23) : Prop :=
  match t3_ext t with None => True | Some x => ext_coherent x end.

Lemma size_is_written23 z t (u : bool) b t' : (t3_ext t = None \/ tag23_sizes t /\ ext_unaffected (t3_ext t')) ->
  write23 z t u = Ok (b, t') -> exists n, size23 z t u = Ok (n, t') /\ len b = 10 + n /\
  exists z0 z1 z2 z3 rest, b = B "ID3" ++ [3; 0; N.lor (flags23 t) (bit_if u 128); z0; z1; z2; z3] ++ rest /\
    Forall (fun z => z < 128) [z0; z1; z2; z3] /\ n = positional 128 [z0; z1; z2; z3].
Proof.
  intros Hx H. pose proof H as H0. apply write23_len in H as (n & Hs & E & R). exists n.
  split; [exact Hs|]. split; [|exact R].
  destruct (size23_inv _ _ _ _ _ Hs) as (_ & _ & _ & _ & Hrel & _ & _).
  assert (EL : match t3_ext t' with Some x => len (ext_serialized23 u x) | None => 0 end =
            match t3_ext t' with Some x => len (ext_written23 u x) | None => 0 end).
  { unfold ext_rel in Hrel. destruct Hx as [Hx|[Hx Hu]].
    - rewrite Hx in Hrel. destruct (t3_ext t'); [destruct Hrel|reflexivity].
    - unfold tag23_sizes in Hx. destruct (t3_ext t) as [x|], (t3_ext t') as [y|]; try reflexivity; try now elim Hrel.
      destruct Hrel as (_ & _ & D & C). destruct (C Hx D) as [P1 P2].
      unfold ext_serialized23, ext_written23. rewrite P1, P2.
      rewrite unaffected_unsync by (auto using ext_wire_bytes). now destruct u. }
  lia.
Qed.

Lemma writable23 z t u n t' : size23 z t u = Ok (n, t') -> n < 2 ^ 28 ->
  exists b, write23 z t u = Ok (b, t').
Proof.
  intros Hs Hn. destruct (sync_safe_roundtrip_l n Hn) as (b0 & b1 & b2 & b3 & E & _).
  eexists. eapply (write23_of_size z t u n t'); [exact Hs|]. unfold tag_header. rewrite E. reflexivity.
Qed.

Lemma too_big23 z t u n t' : size23 z t u = Ok (n, t') -> 2 ^ 28 <= n ->
  exists e, write23 z t u = Throw e.
Proof.
  intros Hs Hn. unfold write23. cbv zeta. rewrite Hs. cbn [bind]. unfold tag_header.
  rewrite ssfu_throw by exact Hn. cbn [bind]. eauto.
Qed.

(** ** Round trips, at stream level *)
Lemma roundtrip23_stream z passes t u b t' pre post e : crc_range z -> (0 < passes)%nat -> wf_tag23 z t ->
  (t3_unsync t = Some true -> u = true) -> write23 z t u = Ok (b, t') -> ext_unaffected (t3_ext t') ->
  exists info t'',
    looking_at_id3v2 false (mkIs (pre ++ b ++ post) (len pre) e 0) =
      (Ok (Some info), mkIs (pre ++ b ++ post) (len pre + 10) e 0) /\ i_version info = 3 /\
    read23 z passes info (mkIs (pre ++ b ++ post) (len pre + 10) e 0) =
      (Ok t'', mkIs (pre ++ b ++ post) (len pre + len b) e 0) /\
    map c_frame (t3_frames t'') = map shift_flags (map c_frame (t3_frames t)) /\
    t3_unsync t'' = Some u /\ t3_exp t'' = t3_exp t /\ same_ext (t3_ext t'') (t3_ext t') /\
    (t3_pad t'' = t3_pad t \/ u = true /\ t3_pad t'' + 1 = t3_pad t).
Proof.
  intros Hz Hp Hw Hu H Hx.
  destruct (roundtrip23 z passes t u b t' pre post e Hz Hp Hw Hu H Hx)
    as (n & f & t'' & Hi & Hl & Hr & R1 & R2 & R3 & R4 & R5 & _).
  exists (mkInfo 3 0 f n), t''. rewrite looking_at_eq by reflexivity. cbn [s_data s_pos s_exc].
  rewrite Hi. auto 10.
Qed.

Lemma plain_shift l : Forall plain_flags l -> map shift_flags l = l.
Proof. intros H. apply map_id_ext. revert H. apply Forall_impl. intros f Hf. now apply plain_status. Qed.

Lemma roundtrip23_plain z passes t u b t' pre post e : crc_range z -> (0 < passes)%nat -> wf_tag23 z t ->
  Forall plain_flags (map c_frame (t3_frames t)) ->
  (t3_unsync t = Some true -> u = true) -> write23 z t u = Ok (b, t') -> ext_unaffected (t3_ext t') ->
  exists info t'',
    looking_at_id3v2 false (mkIs (pre ++ b ++ post) (len pre) e 0) =
      (Ok (Some info), mkIs (pre ++ b ++ post) (len pre + 10) e 0) /\ i_version info = 3 /\
    read23 z passes info (mkIs (pre ++ b ++ post) (len pre + 10) e 0) =
      (Ok t'', mkIs (pre ++ b ++ post) (len pre + len b) e 0) /\
    map c_frame (t3_frames t'') = map c_frame (t3_frames t) /\
    t3_unsync t'' = Some u /\ t3_exp t'' = t3_exp t /\ same_ext (t3_ext t'') (t3_ext t') /\
    (t3_pad t'' = t3_pad t \/ u = true /\ t3_pad t'' + 1 = t3_pad t).
Proof.
  intros Hz Hp Hw Hf Hu H Hx.
  destruct (roundtrip23_stream z passes t u b t' pre post e Hz Hp Hw Hu H Hx)
    as (info & t'' & R1 & R2 & R3 & R4 & R5). rewrite (plain_shift _ Hf) in R4. eauto 10.
Qed.

Lemma read_conforming_stream z passes r f fs pad l buf pre post e : (0 < passes)%nat ->
  laid_out23 fs pad l -> N.testbit f 6 = false ->
  (if N.testbit f 7 then resynchronise buf else buf) = l ->
  exists t, read23 z passes (mkInfo 3 r f (len buf)) (mkIs (pre ++ buf ++ post) (len pre) e 0) =
    (Ok t, mkIs (pre ++ buf ++ post) (len pre + len buf) e 0) /\
  map c_frame (t3_frames t) = map (fun x => match x with (id, f0, b) => mkFrame id (status23 f0) b end) fs /\
  t3_pad t = pad /\ t3_unsync t = Some (N.testbit f 7) /\ t3_exp t = N.testbit f 5.
Proof.
  intros Hp HL H6 Hb. eexists. split.
  - unfold read23. cbn [i_flags i_size]. apply parse_stream_ok.
    exact (read_conforming z passes f fs pad l buf Hp HL H6 Hb).
  - cbn [t3_frames t3_pad t3_unsync t3_exp]. rewrite map_map. cbn [c_frame new_frame].
    rewrite map_id. auto.
Qed.

Lemma read23_error z passes r f buf pre post e x :
  parse_body23 z passes f buf = Throw x ->
  read23 z passes (mkInfo 3 r f (len buf)) (mkIs (pre ++ buf ++ post) (len pre) e 0) =
  (Throw x, mkIs (pre ++ buf ++ post) (len pre) e 0).
Proof. apply parse_stream_throw. Qed.

Lemma read23_truncated z passes r f n data pos e : len data < pos + n -> 0 < n ->
  exists p, read23 z passes (mkInfo 3 r f n) (mkIs data pos e 0) = (Throw IosFailure, mkIs data p all_bits failbit).
Proof.
  intros H Hn. eexists. unfold read23. cbn [i_flags i_size]. apply parse_stream_short.
  unfold slice. rewrite len_takeN, len_dropN. lia.
Qed.

(** ** Witnesses *)
Lemma writable23_iff z t u n t' : size23 z t u = Ok (n, t') ->
  (n < 2 ^ 28 -> exists b, write23 z t u = Ok (b, t')) /\
  (2 ^ 28 <= n -> exists e, write23 z t u = Throw e).
Proof. intros H. split; [now apply writable23|now apply (too_big23 z t u n t')]. Qed.

Ltac wf1 := repeat constructor; cbn; try discriminate; try (eexists _, _, _; reflexivity); auto.

Lemma unsync_flag_refuted : exists z t b t',
  crc_range z /\ wf_tag23 z t /\ Forall plain_flags (map c_frame (t3_frames t)) /\ t3_ext t = None /\
  write23 z t false = Ok (b, t') /\
  forall passes, (0 < passes)%nat -> exists t'',
    parse_body23 z passes (nth 5 b 0) (dropN 10 b) = Ok t'' /\
    map c_frame (t3_frames t'') <> map c_frame (t3_frames t).
Proof.
  exists no_zlib, (mkTag23 (Some true) false None 1 [new_frame (title [255; 0; 65])]). eexists _, _.
  split; [intros ? ?; reflexivity|]. split; [wf1|]. split; [wf1|]. split; [reflexivity|].
  split; [vm_compute; reflexivity|]. intros [|passes] H; [lia|]. eexists.
  split; [vm_compute; reflexivity|]. intros E. vm_compute in E. discriminate E.
Qed.

Lemma status_refuted : exists z t b t',
  crc_range z /\ wf_tag23 z t /\ t3_ext t = None /\ write23 z t false = Ok (b, t') /\
  forall passes, (0 < passes)%nat -> exists t'',
    parse_body23 z passes (nth 5 b 0) (dropN 10 b) = Ok t'' /\
    map c_frame (t3_frames t'') <> map c_frame (t3_frames t).
Proof.
  exists no_zlib, (mkTag23 None false None 0
             [new_frame (mkFrame (B "TIT2") (mkFl true false false false None None false false)
                                 (BText (mkText 0 [65])))]). eexists _, _.
  split; [intros ? ?; reflexivity|]. split; [wf1|]. split; [reflexivity|].
  split; [vm_compute; reflexivity|]. intros [|passes] H; [lia|]. eexists.
  split; [vm_compute; reflexivity|]. intros E. vm_compute in E. discriminate E.
Qed.

Lemma compressed_refuted : exists z t b t',
  crc_range z /\ (forall p, z_compress z p = Some p) /\ (forall p, z_uncompress z p (len p) = Some p) /\
  Forall (fun c => wf_frame V23 (c_frame c)) (t3_frames t) /\ t3_ext t = None /\
  write23 z t false = Ok (b, t') /\
  forall passes, (0 < passes)%nat -> parse_body23 z passes (nth 5 b 0) (dropN 10 b) = Throw LogicError.
Proof.
  exists id_zlib, (mkTag23 None false None 0
             [new_frame (mkFrame (B "TIT2") (mkFl false false false true None None false false)
                                 (BText (mkText 0 [65])))]). eexists _, _.
  split; [intros ? ?; reflexivity|]. do 2 (split; [reflexivity|]). split; [wf1|]. split; [reflexivity|].
  split; [vm_compute; reflexivity|]. intros [|passes] H; [lia|]. vm_compute. reflexivity.
Qed.

Lemma group_refuted : exists z t b t' t'',
  Forall (fun c => wf_frame V23 (c_frame c)) (t3_frames t) /\ t3_ext t = None /\
  write23 z t false = Ok (b, t') /\
  parse_body23 z 1 (nth 5 b 0) (dropN 10 b) = Ok t'' /\
  map (fun c => fl_gid (f_flags (c_frame c))) (t3_frames t) = [Some 9] /\
  map (fun c => fl_gid (f_flags (c_frame c))) (t3_frames t'') = [None] /\
  map (fun c => f_body (c_frame c)) (t3_frames t) = [BUnknown [65]] /\
  map (fun c => f_body (c_frame c)) (t3_frames t'') = [BUnknown [9; 65]].
Proof.
  exists no_zlib, (mkTag23 None false None 0
             [new_frame (mkFrame (B "WXYZ") (mkFl false false false false None (Some 9) false false)
                                 (BUnknown [65]))]). eexists _, _, _.
  split; [wf1|]. split; [reflexivity|].
  split; [vm_compute; reflexivity|]. split; [vm_compute; reflexivity|]. repeat split.
Qed.

Lemma ext_size_refuted : exists z t b t' n,
  wf_tag23 z t /\ size23 z t true = Ok (n, t') /\ write23 z t true = Ok (b, t') /\ len b <> 10 + n.
Proof.
  exists no_zlib, (mkTag23 None false (Some (mkExt 65504 None true [] [] 0)) 0 [new_frame (title [65])]).
  eexists _, _, _. split; [split; [wf1|split; [reflexivity|discriminate]]|].
  split; [vm_compute; reflexivity|]. split; [vm_compute; reflexivity|]. intros E. vm_compute in E. discriminate E.
Qed.

Lemma overread_refuted : exists buf, forall z passes, (0 < passes)%nat ->
  parse_body23 z passes 0 buf = UB OutOfBounds.
Proof.
  exists (B "TIT2" ++ [0; 0; 0; 11; 0; 0; 0; 65]). intros z [|passes] H; [lia|]. reflexivity.
Qed.
