(** * Specification: ID3v2.4 tags. *)
From Verif Require Import Base M_Ints M_Unsync M_Payload M_Cloud M_Frame M_Tag23 M_Tag24
  S_Ints S_Unsync S_Payload S_Cloud S_Tag.

(** No group, no encryption, no compression, no data length indicator: at most
    status flags and the mark that says "unsynchronised". *)
Definition status_only24 (f : frame) : Prop :=
  exists tap fap ro uns, f_flags f = mkFl tap fap ro false None None uns false.

(** The frame with its status flags taken one place further, as in ID3v2.3. *)
Definition shift_flags24 (f : frame) : frame :=
  mkFrame (f_id f) (mkFl false (fl_tap (f_flags f)) (fl_fap (f_flags f)) false None None
                         (fl_unsync (f_flags f)) false)
          (f_body f).

(** An extended header whose only flag, if any, is "tag is an update", and whose
    size is its length. *)
Definition simple_ext (x : ext24) : Prop :=
  y_crc x = None /\ y_restr x = None /\ y_size x = if y_update x then 7 else 6.

Definition ext_simple (x : option ext24) : Prop := match x with Some x => simple_ext x | None => True end.

(** Well-formed frames without format flags, nothing stale in any cache. *)
Definition wf_tag24 (z : zlib) (t : tag24) : Prop :=
  Forall (fun c => wf_frame V24 (c_frame c) /\ status_only24 (c_frame c) /\ coherent (wire24 z) c)
         (t4_frames t).

(** Nothing in the frame, as serialized, is touched by the unsynchronisation
    scheme, even if it stands last in the tag. *)
Definition unaffected24 (z : zlib) (f : frame) : Prop :=
  forall w, wire24 z f = Ok w -> is_bytes w /\ forall i, needs_protection w true i = false.

(** What follows a frame's header, and the second byte of flags (%0h00kmnp) that
    tells so: the group if any; for a compressed frame the length of its
    contents (four bytes, seven bits each) and the contents compressed, else
    the contents.  No encryption, no unsynchronisation. *)
Inductive data24 (z : zlib) (gid : option N) (p : bytes) : bool -> N -> bytes -> Prop :=
| data_plain24 : data24 z gid p false (match gid with Some _ => 64 | None => 0 end) (opt_bytes gid ++ p)
| data_compressed24 : forall c d0 d1 d2 d3,
    Forall (fun x => x < 128) [d0; d1; d2; d3] -> len p = positional 128 [d0; d1; d2; d3] ->
    z_uncompress z c (len p) = Some p ->
    data24 z gid p true (match gid with Some _ => 73 | None => 9 end)
      (opt_bytes gid ++ [d0; d1; d2; d3] ++ c).

(** The frames section of an ID3v2.4 tag as the standard lays it out: for each
    frame its identifier, the length of what follows the header (four bytes,
    seven bits each), two bytes of flags, and what follows; then padding. *)
Inductive laid_out24 (z : zlib) : list (bytes * N * option N * bool * body) -> N -> bytes -> Prop :=
| laid_pad24 : forall pad, laid_out24 z [] pad (repeatN 0 pad)
| laid_frame24 : forall id f0 f1 gid cmp b p data fs pad l s0 s1 s2 s3,
    len id = 4 -> hd 0 id <> 0 -> kind_of V24 id = kind_of_body b ->
    wf_body V24 b -> write_body b = Ok p -> p <> [] ->
    data24 z gid p cmp f1 data ->
    Forall (fun x => x < 128) [s0; s1; s2; s3] -> len data = positional 128 [s0; s1; s2; s3] ->
    laid_out24 z fs pad l ->
    laid_out24 z ((id, f0, gid, cmp, b) :: fs) pad (id ++ [s0; s1; s2; s3] ++ [f0; f1] ++ data ++ l).

(** The frame so laid out, with the status flags of the standard (%0abc0000), as
    it is read: a compressed frame is not marked as compressed but as having a
    data length indicator. *)
Definition as_read24 (x : bytes * N * option N * bool * body) : frame :=
  match x with
  | (id, f0, gid, cmp, b) =>
      mkFrame id (mkFl (N.testbit f0 6) (N.testbit f0 5) (N.testbit f0 4) false None gid false cmp) b
  end.

(** ** Examples for the theorems *)
Definition title24 (s : bytes) : frame := mkFrame (B "TIT2") no_flags (BText (mkText 3 s)).
Definition ex_frames24 : list frame :=
  [title24 [255; 224; 255; 0; 65]; mkFrame (B "PCNT") no_flags (BCount [1; 0; 0; 255]);
   mkFrame (B "WXYZ") (mkFl true false false false None None true false) (BUnknown [255])].
Definition ex_tag24 : tag24 :=
  mkTag24 None true false (Some (mkExt24 7 true None None)) 0 (map new_frame ex_frames24).
