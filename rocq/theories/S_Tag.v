(** * Specification: well-formed frames and tags. *)
From Verif Require Import Base M_Payload M_Cloud M_Frame S_Payload S_Cloud.

(** Contents that the frame's kind can represent: terminated strings hold no
    terminator, and widths are those of the encoding.  Encryption method
    registrations are excluded: they do not survive being written (C13). *)
Definition wf_body (v : version) (b : body) : Prop :=
  match b with
  | BUnknown _ | BText _ | BCount _ => True
  | BUfid u => ~ In 0 (uf_owner u)
  | BEncr _ => False
  | BTxxx t => wf_txxx v t
  | BComm c => wf_comm v c
  | BPopm p => ~ In 0 (po_email p)
  | BCloud c => is_map (tc_tags c) /\ ~ In 0 (tc_owner c) /\ plain_map (tc_tags c) /\ fits_map (tc_tags c)
  | BPriv p => ~ In 0 (pr_email p)
  end.

(** Bytes in a frame identifier. *)
Definition id_width (v : version) : N := match v with V22 => 3 | _ => 4 end.

(** A frame whose identifier is one of its kind, does not begin with the padding
    byte, whose contents are well-formed and which has at least one byte of
    them ("A frame must be at least 1 byte big, excluding the header"). *)
Definition wf_frame (v : version) (f : frame) : Prop :=
  len (f_id f) = id_width v /\ hd 0 (f_id f) <> 0 /\
  kind_of v (f_id f) = kind_of_body (f_body f) /\
  wf_body v (f_body f) /\ write_body (f_body f) <> Ok [].

(** No status or format flag is set. *)
Definition plain_flags (f : frame) : Prop := f_flags f = no_flags.

(** No format flag is set: at most the three status flags are. *)
Definition status_only (f : frame) : Prop :=
  exists tap fap ro, f_flags f = mkFl tap fap ro false None None false false.

(** The frame with its status flags taken one place further: what was "discard
    on tag alteration" becomes "discard on file alteration", what was that
    becomes "read only", and what was read only becomes nothing. *)
Definition shift_flags (f : frame) : frame :=
  mkFrame (f_id f) (mkFl false (fl_tap (f_flags f)) (fl_fap (f_flags f)) false None None false false)
          (f_body f).

(** What a frame has cached is what it would serialize now. *)
Definition coherent (wire : frame -> outcome bytes) (c : cframe) : Prop :=
  c_dirty c = false ->
  wire (c_frame c) = Ok (c_plain c) /\
  (M_Unsync.unsynchronise (c_plain c) true = c_unsync c \/
   M_Unsync.unsynchronise (c_plain c) false = c_unsync c).

(** The checksum function returns 32-bit words. *)
Definition crc_range (z : zlib) : Prop := forall n b, z_crc z n b < 2 ^ 32.
