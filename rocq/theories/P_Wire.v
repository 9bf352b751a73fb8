(** * C15 and C16: the bytes of each frame in a tag that has been written,
      whatever its flags, and the checksum in an extended header. *)
From Verif Require Import Base M_Ints M_Unsync M_Stream M_Payload M_Cloud M_Frame M_Tag22 M_Tag23 M_Tag24
  S_Ints S_Unsync S_Payload S_Cloud S_Tag S_Tag22 S_Tag23 S_Tag24 S_Wire L_Wire.

(** C15, C17: an ID3v2.3 tag is its header, the extended header if it has one,
    its frames in order and its padding.  Each frame is laid out as [stored23]
    says -- compressed or not, in a group or not --, then unsynchronised if
    asked for; the checksum in the extended header, if there is one, is that of
    the frames as they are before unsynchronisation.  (Unsynchronisation is
    applied to the extended header when it is not asked for, C16.)  Frames that
    were not serialized before are unsynchronised each for itself, the last one
    as the end of the tag if there is no padding.  Nothing is
    asked of the frames but that no cache is stale. *)
Theorem C15_v23_stored_partial : forall z t u b t', crc_joins z -> Forall (coherent (wire23 z)) (t3_frames t) ->
  (forall x, t3_ext t = Some x -> x_dirty x = false ->
     x_plain x = ext_wire23 x /\ x_unsync x = unsynchronise (ext_wire23 x) false) ->
  write23 z t u = Ok (b, t') ->
  exists h e ws cs, b = h ++ e ++ concat cs ++ repeatN 0 (t3_pad t) /\ len h = 10 /\
    Forall2 (stored23 z) (map c_frame (t3_frames t)) ws /\ Forall2 (guarded u) ws cs /\
    (u = true -> Forall (fun c => c_dirty c = true) (t3_frames t) ->
     (forall x, t3_ext t = Some x -> x_crc x = None) -> cs = in_turn (t3_pad t =? 0) ws) /\
    match t3_ext t with
    | None => e = []
    | Some x => exists e', stored_ext23 z (x_pad x) (is_some (x_crc x)) ws e' /\ guarded (negb u) e' e
    end.
Proof. exact written23. Qed.
Print Assumptions C15_v23_stored_partial.

(** A compressed title in a group, a plain counter and an extended header with a
    checksum; the library turns bytes round for compression and sums them up. *)
Definition ex_wlib : zlib :=
  mkZlib (fun b => Some (rev b)) (fun b _ => Some (rev b)) (fun n b => fold_left N.add b n).
Definition ex_wframes : list frame :=
  [mkFrame (B "TIT2") (mkFl true false true true None (Some 9) false false) (BText (mkText 0 (B "abc")));
   mkFrame (B "PCNT") no_flags (BCount [0; 0; 1; 0])].
Example C15_v23_stored_nontrivial : crc_joins ex_wlib /\
  exists b t', write23 ex_wlib (mkTag23 None false (Some (mkExt 2 (Some 0) true [] [] 0)) 2 (map new_frame ex_wframes)) false
    = Ok (b, t') /\
  b = B "ID3" ++ [3; 0; 64; 0; 0; 0; 49] ++ [0; 0; 0; 10; 128; 0; 0; 0; 0; 2; 0; 0; 4; 57] ++
      B "TIT2" ++ [0; 0; 0; 9; 80; 80; 4; 0; 0; 0; 9] ++ B "cba" ++ [0] ++
      B "PCNT" ++ [0; 0; 0; 4; 0; 0; 0; 0; 1; 0] ++ [0; 0].
Proof.
  split.
  - split; [reflexivity|]. intros n a b. cbn [z_crc ex_wlib]. symmetry. apply fold_left_app.
  - eexists _, _. split; [vm_compute; reflexivity|]. reflexivity.
Qed.

(** The length of its contents that a compressed frame must have is not as the
    standard says: most significant byte first, it is another number. *)
Theorem C15_v23_length_refuted : forall z un ex pad f b t' p, len (f_id f) = 4 -> fl_cmp (f_flags f) = true ->
  write_body (f_body f) = Ok p -> 0 < len p < 65536 ->
  write23 z (mkTag23 un ex None pad [new_frame f]) false = Ok (b, t') ->
  positional 256 (takeN 4 (dropN 20 b)) <> len p.
Proof. exact length23_refuted. Qed.
Print Assumptions C15_v23_length_refuted.
Example C15_v23_length_nontrivial : exists b t',
  write23 ex_wlib (mkTag23 None false None 2 [new_frame (hd (title []) ex_wframes)]) false = Ok (b, t') /\
  takeN 4 (dropN 20 b) = [4; 0; 0; 0].
Proof. eexists _, _. split; vm_compute; reflexivity. Qed.

(** The same for ID3v2.4; the footer, if any, is the header with its name turned
    round.  The size in a frame's header is that of its contents before they are
    compressed, without group and data length indicator. *)
Theorem C15_v24_stored_partial : forall z t u b t', Forall (coherent (wire24 z)) (t4_frames t) -> write24 z t u = Ok (b, t') ->
  exists h e ws cs ft, b = h ++ e ++ concat cs ++ repeatN 0 (t4_pad t) ++ ft /\ len h = 10 /\
    Forall2 (stored24 z) (map c_frame (t4_frames t)) ws /\ Forall2 (guarded u) ws cs /\
    (u = true -> Forall (fun c => c_dirty c = true) (t4_frames t) -> cs = in_turn (t4_pad t =? 0) ws) /\
    (t4_ext t = None -> e = []) /\
    ft = if t4_foot t then B "3DI" ++ dropN 3 h else [].
Proof. exact written24. Qed.
Print Assumptions C15_v24_stored_partial.
Definition ex_wframes24 : list frame :=
  [mkFrame (B "TIT2") (mkFl true false true true None (Some 9) true true) (BText (mkText 3 (B "abc")));
   mkFrame (B "PCNT") no_flags (BCount [0; 0; 1; 0])].
Example C15_v24_stored_nontrivial : exists b t',
  write24 ex_wlib (mkTag24 None false true None 1 (map new_frame ex_wframes24)) false = Ok (b, t') /\
  b = B "ID3" ++ [4; 0; 16; 0; 0; 0; 45] ++
      B "TIT2" ++ [0; 0; 0; 4; 40; 43; 9; 4; 0; 0; 0] ++ B "cba" ++ [3] ++
      B "PCNT" ++ [0; 0; 0; 4; 0; 0; 0; 0; 1; 0] ++ [0] ++ B "3DI" ++ [4; 0; 16; 0; 0; 0; 45].
Proof. eexists _, _. split; [vm_compute; reflexivity|]. vm_compute. reflexivity. Qed.

(** The same for ID3v2.2, where unsynchronisation is applied when it is not asked
    for (C16). *)
Theorem C15_v22_stored_partial : forall t u b t', Forall coherent22 (t2_frames t) -> write22 t u = Ok (b, t') ->
  exists h ws cs, b = h ++ concat cs ++ repeatN 0 (t2_pad t) /\ len h = 10 /\
    Forall2 stored22 (map c_frame (t2_frames t)) ws /\ Forall2 (guarded (negb u)) ws cs.
Proof. exact written22. Qed.
Print Assumptions C15_v22_stored_partial.
Example C15_v22_stored_nontrivial : exists b t',
  write22 (mkTag22 None false 2 (map new_frame ex_frames22)) true = Ok (b, t') /\
  b = B "ID3" ++ [2; 0; 128; 0; 0; 0; 24] ++
      B "TT2" ++ [0; 0; 6; 0; 255; 224; 255; 0; 65] ++ B "CNT" ++ [0; 0; 4; 1; 0; 0; 255] ++ [0; 0].
Proof. eexists _, _. split; vm_compute; reflexivity. Qed.
