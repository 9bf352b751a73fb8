(** * Lemmas: ID3v2.3 tags, sizes and round trips. *)
From Verif Require Import Base M_Ints M_Unsync M_Stream M_Payload M_Cloud M_Frame M_Tag23
  S_Ints S_Stream S_Unsync S_Payload S_Cloud S_Tag S_Tag23
  L_Ints L_Unsync L_Stream L_Payload L_Cloud L_Cloud2 L_Frame L_Tag23 L_Tag23b L_Tag23c.

(** ** Sizes *)
Lemma write23_len z t u b t' : write23 z t u = Ok (b, t') -> exists n, size23 z t u = Ok (n, t') /\
  len b + match t3_ext t' with Some x => len (ext_serialized23 u x) | None => 0 end =
  10 + n + match t3_ext t' with Some x => len (ext_written23 u x) | None => 0 end /\
  exists z0 z1 z2 z3 rest, b = B "ID3" ++ [3; 0; N.lor (flags23 t) (bit_if u 128); z0; z1; z2; z3] ++ rest /\
    Forall (fun z => z < 128) [z0; z1; z2; z3] /\ n = positional 128 [z0; z1; z2; z3].
Proof.
  intros H. apply write23_inv in H as (n & h & Hs & Hh & ->). exists n. split; [exact Hs|].
  apply tag_header_inv in Hh as (z0 & z1 & z2 & z3 & -> & F & P & _).
  destruct (size23_inv _ _ _ _ _ Hs) as (_ & _ & _ & _ & _ & E & _). split.
  - rewrite E, !len_app, sum_len_concat, len_repeatN. cbn [B len List.length].
    destruct (t3_ext t') as [x|]; [|change (len (@nil N)) with 0]; 
    repeat rewrite len_cons; change (len (@nil N)) with 0; lia.
  - exists z0, z1, z2, z3, (match t3_ext t' with Some x => ext_written23 u x | None => [] end
          ++ concat (map (cached u) (t3_frames t')) ++ repeatN 0 (t3_pad t')).
    split; [|auto]. rewrite <- app_assoc. reflexivity.
Qed.

(** ** Round trips *)
Definition body_of23 (u : bool) (t : tag23) : bytes :=
  match t3_ext t with Some x => ext_written23 u x | None => [] end
  ++ concat (map (cached u) (t3_frames t)) ++ repeatN 0 (t3_pad t).

Lemma map_cached_true l : map (cached true) l = map c_unsync l. Proof. reflexivity. Qed.
Lemma map_cached_false l : map (cached false) l = map c_plain l. Proof. reflexivity. Qed.

Lemma body_settled (z : zlib) (t : tag23) (u : bool) : Forall (settled z) (t3_frames t) -> post_ext z (t3_ext t) ->
  ext_unaffected (t3_ext t) -> exists n',
  (if u then resynchronise (body_of23 u t) else body_of23 u t) =
    ext_part (t3_ext t) ++ concat (map c_plain (t3_frames t)) ++ repeatN 0 n' /\
  (n' = t3_pad t \/ u = true /\ n' + 1 = t3_pad t).
Proof.
  intros Hf Hp Hu.
  assert (Hw : match t3_ext t with Some x => ext_written23 u x | None => [] end = ext_part (t3_ext t)).
  { unfold post_ext in Hp. destruct (t3_ext t) as [x|]; [|reflexivity]. destruct Hp as [P1 P2].
    unfold ext_written23, ext_part. destruct u; [exact P1|]. rewrite P2.
    apply unaffected_unsync; [apply ext_wire_bytes|exact Hu]. }
  assert (Eb : body_of23 u t =
    ext_part (t3_ext t) ++ concat (map (cached u) (t3_frames t)) ++ repeatN 0 (t3_pad t)).
  { unfold body_of23. f_equal. exact Hw. }
  rewrite Eb. clear Eb Hw. destruct u.
  - rewrite resynchronise_strip, map_cached_true, app_assoc.
    destruct (strip_app_zeros (ext_part (t3_ext t) ++ concat (map c_unsync (t3_frames t))) (t3_pad t))
      as (n' & E & Hn). exists n'. split; [|destruct Hn; auto]. rewrite E, app_assoc. f_equal.
    assert (He : strip (ext_part (t3_ext t)) = ext_part (t3_ext t)).
    { unfold ext_part. destruct (t3_ext t) as [x|]; [|reflexivity].
      rewrite <- (unaffected_unsync _ (ext_wire_bytes x) Hu) at 1. apply strip_unsynchronise. }
    rewrite strip_app.
    + rewrite He. f_equal. now apply (settled_strip z).
    + right. destruct (t3_frames t) as [|c l]; [discriminate|]. now apply (settled_hd z).
  - exists (t3_pad t). auto.
Qed.

Lemma map_id_ext {A} (f : A -> A) l : Forall (fun a => f a = a) l -> map f l = l.
Proof. induction 1; [reflexivity|]. cbn. now f_equal. Qed.

Lemma roundtrip_body z passes t u n t' : crc_range z -> (0 < passes)%nat -> wf_tag23 z t ->
  (t3_unsync t = Some true -> u = true) -> size23 z t u = Ok (n, t') -> ext_unaffected (t3_ext t') ->
  exists n', parse_body23 z passes (N.lor (flags23 t) (bit_if u 128)) (body_of23 u t') =
    Ok (mkTag23 (Some u) (t3_exp t) (new_ext (t3_ext t')) n' (map new_frame (map shift_flags (map c_frame (t3_frames t))))) /\
  (n' = t3_pad t \/ u = true /\ n' + 1 = t3_pad t).
Proof.
  intros Hz Hp Hw Hu Hs Hx. destruct (size23_post z t u n t' Hz Hw Hs) as (F1 & F3 & F4).
  destruct (size23_inv z t u n t' Hs) as (_ & _ & E3 & (E4 & _) & E5 & _ & _).
  destruct (body_settled z t' u F1 F3 Hx) as (n' & B1 & B2). exists n'. rewrite <- E3. split; [|exact B2].
  pose proof (settled_wired z _ F1) as Hwired.
  unfold flags23. set (a := match t3_unsync t with Some true => true | _ => false end).
  assert (Ha : a || u = u).
  { unfold a. destruct (t3_unsync t) as [[|]|]; cbn; auto. now rewrite Hu. }
  assert (Ee : is_some (t3_ext t) = is_some (t3_ext t')).
  { unfold ext_rel in E5. destruct (t3_ext t), (t3_ext t'); auto; now elim E5. }
  rewrite Ee.
  pose proof (parse_body23_ok z passes a (t3_exp t) (t3_ext t') (map c_frame (t3_frames t'))
    (map c_plain (t3_frames t')) n' (body_of23 u t') u _ (if u then resync_rest (body_of23 u t') else [])
    Hwired Hp F4 eq_refl) as P.
  rewrite Ha in P. rewrite (P B1 eq_refl). now rewrite E4.
Qed.

(** The stream part of [parse]. *)
Lemma parse_stream_ok {T} (P : bytes -> outcome T) pre buf post e t :
  P buf = Ok t ->
  parse_stream P (len buf) (mkIs (pre ++ buf ++ post) (len pre) e 0) =
  (Ok t, mkIs (pre ++ buf ++ post) (len pre + len buf) e 0).
Proof.
  intros H. set (d := pre ++ buf ++ post).
  assert (Hs : slice (len pre) (len buf) d = buf).
  { unfold slice, d. rewrite dropN_app_exact by reflexivity. now apply takeN_app_exact. }
  unfold parse_stream, sbind, get_exc. cbn [s_exc].
  rewrite set_exc_good by reflexivity. cbn [s_data s_pos].
  rewrite tellg_good by reflexivity. cbn [s_data s_pos s_exc].
  unfold restoring.
  rewrite (sread_good (len buf)) by (try reflexivity; cbn [s_data s_pos]; now rewrite Hs).
  cbn [s_data s_pos s_exc]. rewrite Hs. unfold slift. rewrite H.
  rewrite set_exc_good by reflexivity. reflexivity.
Qed.

(** A tag that cannot be parsed leaves position and mask as they were. *)
Lemma parse_stream_throw {T} (P : bytes -> outcome T) pre buf post e x :
  P buf = Throw x ->
  parse_stream P (len buf) (mkIs (pre ++ buf ++ post) (len pre) e 0) =
  (Throw x, mkIs (pre ++ buf ++ post) (len pre) e 0).
Proof.
  intros H. set (d := pre ++ buf ++ post).
  assert (Hs : slice (len pre) (len buf) d = buf).
  { unfold slice, d. rewrite dropN_app_exact by reflexivity. now apply takeN_app_exact. }
  unfold parse_stream, sbind, get_exc. cbn [s_exc].
  rewrite set_exc_good by reflexivity. cbn [s_data s_pos].
  rewrite tellg_good by reflexivity. cbn [s_data s_pos s_exc].
  unfold restoring.
  rewrite (sread_good (len buf)) by (try reflexivity; cbn [s_data s_pos]; now rewrite Hs).
  cbn [s_data s_pos s_exc]. rewrite Hs. unfold slift. rewrite H.
  unfold sbind. rewrite seekg_good by reflexivity. cbn [s_data s_pos s_exc].
  rewrite set_exc_good by reflexivity. reflexivity.
Qed.

(** A tag longer than the file: the exception comes from the handler's own
    [seekg], and the caller's mask is not restored. *)
Lemma parse_stream_short {T} (P : bytes -> outcome T) d p e n : len (slice p n d) <> n ->
  parse_stream P n (mkIs d p e 0) = (Throw IosFailure, mkIs d (p + len (slice p n d)) all_bits failbit).
Proof.
  intros H. unfold parse_stream, sbind, get_exc. cbn [s_exc].
  rewrite set_exc_good by reflexivity. cbn [s_data s_pos].
  rewrite tellg_good by reflexivity. cbn [s_data s_pos s_exc].
  unfold restoring. rewrite sread_short_throw by (try reflexivity; exact H). reflexivity.
Qed.

Lemma roundtrip23 z passes t u b t' pre post e : crc_range z -> (0 < passes)%nat -> wf_tag23 z t ->
  (t3_unsync t = Some true -> u = true) -> write23 z t u = Ok (b, t') -> ext_unaffected (t3_ext t') ->
  exists n f t'',
    info_at (pre ++ b ++ post) (len pre) = Some (mkInfo 3 0 f n) /\ len b = 10 + n /\
    read23 z passes (mkInfo 3 0 f n) (mkIs (pre ++ b ++ post) (len pre + 10) e 0) =
      (Ok t'', mkIs (pre ++ b ++ post) (len pre + len b) e 0) /\
    map c_frame (t3_frames t'') = map shift_flags (map c_frame (t3_frames t)) /\
    t3_unsync t'' = Some u /\ t3_exp t'' = t3_exp t /\ same_ext (t3_ext t'') (t3_ext t') /\
    (t3_pad t'' = t3_pad t \/ u = true /\ t3_pad t'' + 1 = t3_pad t) /\
    wf_tag23 z t''.
Proof.
  intros Hz Hp Hw Hu H Hx. pose proof H as H0.
  apply write23_inv in H as (n & h & Hs & Hh & Eb). fold (body_of23 u t') in Eb.
  destruct (roundtrip_body z passes t u n t' Hz Hp Hw Hu Hs Hx) as (n' & P1 & P2).
  destruct (tag_header_inv _ _ _ _ _ Hh) as (z0 & z1 & z2 & z3 & Eh & Fz & Ez & Dz & _).
  set (f := N.lor (flags23 t) (bit_if u 128)) in *. exists n, f.
  destruct (size23_post z t u n t' Hz Hw Hs) as (_ & F3 & F4).
  assert (Hlen : len (body_of23 u t') = n).
  { destruct (write23_len z t u b t' H0) as (n0 & Hs0 & E & _). rewrite Hs in Hs0.
    apply Ok_inj in Hs0. injection Hs0 as <-. rewrite Eb, len_app, Eh in E.
    assert (EL : match t3_ext t' with Some x => len (ext_serialized23 u x) | None => 0 end =
            match t3_ext t' with Some x => len (ext_written23 u x) | None => 0 end).
    { unfold post_ext in F3. destruct (t3_ext t') as [x|]; [|reflexivity]. destruct F3 as [X1 X2].
      unfold ext_serialized23, ext_written23. rewrite X1, X2.
      rewrite unaffected_unsync by (auto using ext_wire_bytes). now destruct u. }
    rewrite EL in E. cbn [B app] in E. rewrite !len_cons in E. change (len (@nil N)) with 0 in E. lia. }
  eexists. split; [|split; [|split; [|]]].
  - unfold info_at, slice. rewrite dropN_app_exact by reflexivity. rewrite Eb, <- app_assoc.
    rewrite takeN_app_exact by (rewrite Eh; reflexivity). rewrite Eh.
    change (B "ID3") with [73; 68; 51]. cbn [app classify_header N.eqb Pos.eqb andb negb].
    repeat (apply Forall_cons_iff in Fz as [? Fz]).
    repeat match goal with |- context [?x <? 128] => replace (x <? 128) with true by lia end.
    cbn [andb]. now rewrite Dz.
  - rewrite Eb, len_app, Eh, Hlen. reflexivity.
  - assert (Ed : pre ++ b ++ post = (pre ++ h) ++ body_of23 u t' ++ post).
    { rewrite Eb. now rewrite <- !app_assoc. }
    assert (Ehl : len h = 10) by (rewrite Eh; reflexivity).
    rewrite Ed. replace (len pre + 10) with (len (pre ++ h)) by (rewrite len_app; lia).
    replace (len pre + len b) with (len (pre ++ h) + n) by (rewrite Eb, !len_app; lia).
    unfold read23. cbn [i_flags i_size]. rewrite <- Hlen.
    apply parse_stream_ok. exact P1.
  - cbn [t3_frames t3_unsync t3_exp t3_ext t3_pad]. rewrite map_map. cbn [c_frame new_frame]. rewrite (map_id (map shift_flags (map c_frame (t3_frames t)))).
    repeat (split; [reflexivity|]). split; [|split; [exact P2|]].
    + unfold same_ext, new_ext. destruct (t3_ext t'); cbn; auto.
    + split; cbn [t3_frames t3_ext].
      * apply Forall_map, Forall_map, Forall_map. destruct Hw as [Hw _]. revert Hw. apply Forall_impl.
        intros c (W1 & W2 & _). cbn [c_frame new_frame]. split; [exact W1|].
        split; [unfold status_only, shift_flags; cbn; eauto|]. intros E. discriminate.
      * unfold new_ext. destruct (t3_ext t') as [x|]; [|exact I]. cbn [x_pad x_dirty].
        split; [exact (proj1 F4)|discriminate].
Qed.
