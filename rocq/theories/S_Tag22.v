(** * Specification: ID3v2.2 tags. *)
From Verif Require Import Base M_Unsync M_Payload M_Cloud M_Frame M_Tag22 S_Unsync S_Payload S_Cloud S_Tag.

(** What a frame has cached is what it would serialize now. *)
Definition coherent22 (c : cframe) : Prop :=
  c_dirty c = false ->
  wire22 (c_frame c) = Ok (c_plain c) /\ c_unsync c = M_Unsync.unsynchronise (c_plain c) false.

(** Well-formed frames, none of them with flags (ID3v2.2 has none), nothing
    stale in any cache. *)
Definition wf_tag22 (t : tag22) : Prop :=
  Forall (fun c => wf_frame V22 (c_frame c) /\ plain_flags (c_frame c) /\ coherent22 c) (t2_frames t).

(** Nothing in the frame, as serialized, is touched by the unsynchronisation
    scheme. *)
Definition unaffected22 (f : frame) : Prop :=
  forall w, wire22 f = Ok w -> is_bytes w /\ forall i, needs_protection w false i = false.

(** The frames section of an ID3v2.2 tag as the standard lays it out: for each
    frame its identifier, the payload's length (three bytes, big-endian) and the
    payload; then padding. *)
Inductive laid_out22 : list (bytes * body) -> N -> bytes -> Prop :=
| laid_pad22 : forall pad, laid_out22 [] pad (repeatN 0 pad)
| laid_frame22 : forall id b p fs pad l s0 s1 s2,
    len id = 3 -> hd 0 id <> 0 -> kind_of V22 id = kind_of_body b ->
    wf_body V22 b -> write_body b = Ok p -> p <> [] ->
    Forall (fun x => x < 256) [s0; s1; s2] ->
    len p = 65536 * s0 + 256 * s1 + s2 ->
    laid_out22 fs pad l ->
    laid_out22 ((id, b) :: fs) pad (id ++ [s0; s1; s2] ++ p ++ l).

(** Example frames: the first holds 0xff 0xe0 and 0xff 0x00. *)
Definition title22 (s : bytes) : frame := mkFrame (B "TT2") no_flags (BText (mkText 0 s)).
Definition ex_frames22 : list frame :=
  [title22 [255; 224; 255; 0; 65]; mkFrame (B "CNT") no_flags (BCount [1; 0; 0; 255])].
