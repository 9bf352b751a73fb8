(** * C16, C18, C20 and C50: ID3v2.2 tags. *)
From Verif Require Import Base M_Ints M_Unsync M_Stream M_Payload M_Cloud M_Frame M_Tag23 M_Tag22
  S_Ints S_Stream S_Unsync S_Payload S_Cloud S_Tag S_Tag22 L_Tag23e L_Tag22.

(** C18: writing a tag [t] and reading the bytes back, wherever they stand in a
    file: the header is found, the frames are the same in the same order, the
    padding is the same (one byte less is possible if the tag is marked as
    unsynchronised) and the stream is left at the byte after the tag.

    Proved for tags in which nothing needs unsynchronising, and for tags marked
    as unsynchronised that are written "without" unsynchronisation (which, the
    two caches being swapped, is with it).  Missing: all others (refuted). *)
Theorem C18_v22_partial : forall t u b t' pre post e, wf_tag22 t -> write22 t u = Ok (b, t') ->
  (t2_unsync t = Some true /\ u = false \/ Forall unaffected22 (map c_frame (t2_frames t))) ->
  exists info t'',
    looking_at_id3v2 false (mkIs (pre ++ b ++ post) (len pre) e 0) =
      (Ok (Some info), mkIs (pre ++ b ++ post) (len pre + 10) e 0) /\ i_version info = 2 /\
    read22 info (mkIs (pre ++ b ++ post) (len pre + 10) e 0) =
      (Ok t'', mkIs (pre ++ b ++ post) (len pre + len b) e 0) /\
    map c_frame (t2_frames t'') = map c_frame (t2_frames t) /\ t2_comp t'' = t2_comp t /\
    (t2_pad t'' = t2_pad t \/ t2_unsync t'' = Some true /\ t2_pad t'' + 1 = t2_pad t).
Proof. exact roundtrip22. Qed.
Print Assumptions C18_v22_partial.
Example C18_v22_nontrivial :
  let t := mkTag22 (Some true) false 4 (map new_frame ex_frames22) in
  wf_tag22 t /\ exists b t', write22 t false = Ok (b, t') /\ len b = 38.
Proof.
  split.
  - repeat constructor; cbn; try discriminate; auto.
  - eexists _, _. split; [vm_compute; reflexivity|reflexivity].
Qed.
Example C18_v22_unaffected_nontrivial : unaffected22 (title22 [65; 66; 255; 1]).
Proof.
  intros w H. apply Ok_inj in H. subst w. split; [repeat constructor|].
  intros i. do 12 (destruct i as [|i]; [reflexivity|]). now destruct i.
Qed.

(** For either choice there is a tag with one title, not marked as
    unsynchronised, that is not read back as it was. *)
Theorem C18_v22_refuted : forall u : bool, exists t b t', wf_tag22 t /\ t2_unsync t = Some false /\
  write22 t u = Ok (b, t') /\
  forall t'', parse_body22 (nth 5 b 0) (dropN 10 b) = Ok t'' ->
    map c_frame (t2_frames t'') <> map c_frame (t2_frames t).
Proof. exact roundtrip22_refuted. Qed.
Print Assumptions C18_v22_refuted.

(** Every tag whose reported size fits the header can be written, and no other. *)
Theorem C18_v22_writable : forall t u n t', size22 t u = Ok (n, t') ->
  (n < 2 ^ 28 -> exists b, write22 t u = Ok (b, t')) /\
  (2 ^ 28 <= n -> exists e, write22 t u = Throw e).
Proof. exact writable22_iff. Qed.
Print Assumptions C18_v22_writable.
Example C18_v22_writable_nontrivial : exists t',
  size22 (mkTag22 None false 4 (map new_frame ex_frames22)) true = Ok (26, t').
Proof. eexists. vm_compute. reflexivity. Qed.

(** C16: the reported size is what is written beyond the header and what the
    header says, for every ID3v2.2 tag in any state and either choice. *)
Theorem C16_v22 : forall t u b t', write22 t u = Ok (b, t') ->
  exists n, size22 t u = Ok (n, t') /\ len b = 10 + n /\
  exists z0 z1 z2 z3 rest, b = B "ID3" ++ [2; 0; N.lor (flags22 t) (bit_if u 128); z0; z1; z2; z3] ++ rest /\
    Forall (fun z => z < 128) [z0; z1; z2; z3] /\ n = positional 128 [z0; z1; z2; z3].
Proof. exact size_is_written22. Qed.
Print Assumptions C16_v22.
Example C16_v22_nontrivial : exists b t',
  write22 (mkTag22 None true 4 (map new_frame ex_frames22)) true = Ok (b, t') /\ len b = 36.
Proof. eexists _, _. split; [vm_compute; reflexivity|reflexivity]. Qed.

(** C50: a tag laid out as the standard says is read as its frames and padding,
    and the stream is left after it. *)
Theorem C50_v22_conforming : forall r f fs pad l buf pre post e, laid_out22 fs pad l ->
  (if N.testbit f 7 then resynchronise buf else buf) = l ->
  exists t, read22 (mkInfo 2 r f (len buf)) (mkIs (pre ++ buf ++ post) (len pre) e 0) =
    (Ok t, mkIs (pre ++ buf ++ post) (len pre + len buf) e 0) /\
  map c_frame (t2_frames t) = map (fun x => mkFrame (fst x) no_flags (snd x)) fs /\
  t2_pad t = pad /\ t2_unsync t = Some (N.testbit f 7) /\ t2_comp t = N.testbit f 6.
Proof. exact read_conforming22_stream. Qed.
Print Assumptions C50_v22_conforming.
Example C50_v22_nontrivial : exists fs, laid_out22 fs 3
  (B "TT2" ++ [0; 0; 4] ++ [0; 65; 66; 67] ++ B "TAL" ++ [0; 0; 2] ++ [0; 65] ++ [0; 0; 0]).
Proof.
  exists [(B "TT2", BText (mkText 0 [65; 66; 67])); (B "TAL", BText (mkText 0 [65]))].
  repeat first [apply laid_pad22 | apply (laid_frame22 _ _ [0; 65; 66; 67] _ 3) | apply (laid_frame22 _ _ [0; 65] _ 3)];
    cbn; try discriminate; try reflexivity; auto; repeat constructor.
Qed.

(** C20: reading an ID3v2.2 tag always ends. *)
Theorem C20_v22_terminates : forall f buf, parse_body22 f buf <> NonTerm.
Proof. exact parse_body22_nt. Qed.
Print Assumptions C20_v22_terminates.

(** A frame longer than what is left, but shorter than the tag, is read past the
    end of the tag; so is the identifier of a frame if one or two bytes, not
    zero, are left. *)
Theorem C20_v22_overread_refuted : exists buf, parse_body22 0 buf = UB OutOfBounds.
Proof. exact overread22_refuted. Qed.
Print Assumptions C20_v22_overread_refuted.
Theorem C20_v22_short_refuted : parse_body22 0 [1] = UB OutOfBounds.
Proof. exact short22_refuted. Qed.
Print Assumptions C20_v22_short_refuted.

(** If parsing fails the stream is where it was, in the state it was in. *)
Theorem C20_v22_error_restores : forall r f buf pre post e x, parse_body22 f buf = Throw x ->
  read22 (mkInfo 2 r f (len buf)) (mkIs (pre ++ buf ++ post) (len pre) e 0) =
  (Throw x, mkIs (pre ++ buf ++ post) (len pre) e 0).
Proof. exact read22_error. Qed.
Print Assumptions C20_v22_error_restores.
Example C20_v22_error_nontrivial : parse_body22 0 [84; 84; 50; 9] = Throw InvalidTag.
Proof. reflexivity. Qed.
