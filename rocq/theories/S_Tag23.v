(** * Specification: well-formed ID3v2.3 tags. *)
From Verif Require Import Base M_Unsync M_Payload M_Cloud M_Frame M_Tag23 S_Unsync S_Payload S_Cloud S_Tag.

(** Well-formed frames without format flags, nothing stale in any
    cache; an extended header whose padding field is a 32-bit number and whose
    cache is not stale. *)
Definition wf_tag23 (z : zlib) (t : tag23) : Prop :=
  Forall (fun c => wf_frame V23 (c_frame c) /\ status_only (c_frame c) /\ coherent (wire23 z) c)
         (t3_frames t) /\
  match t3_ext t with
  | None => True
  | Some x => x_pad x < 2 ^ 32 /\
      (x_dirty x = false ->
       x_plain x = ext_wire23 x /\ x_unsync x = unsynchronise (ext_wire23 x) false)
  end.

(** The extended header, if any, holds nothing that the unsynchronisation scheme
    would touch. *)
Definition ext_unaffected (x : option ext23) : Prop :=
  match x with
  | None => True
  | Some x => forall i, needs_protection (ext_wire23 x) false i = false
  end.

(** The same extended header, as far as its contents go. *)
Definition same_ext (x y : option ext23) : Prop :=
  match x, y with
  | None, None => True
  | Some x, Some y => x_pad x = x_pad y /\ x_crc x = x_crc y
  | _, _ => False
  end.

(** ** The format on disk *)

(** The frames section of an ID3v2.3 tag as the standard lays it out: for each
    frame its identifier, the payload's length (four bytes, big-endian), two
    bytes of flags of which the second says "not compressed, not encrypted, not
    grouped", and the payload; then padding. *)
Inductive laid_out23 : list (bytes * N * body) -> N -> bytes -> Prop :=
| laid_pad : forall pad, laid_out23 [] pad (repeatN 0 pad)
| laid_frame : forall id f0 b p fs pad l s0 s1 s2 s3,
    len id = 4 -> hd 0 id <> 0 -> kind_of V23 id = kind_of_body b ->
    wf_body V23 b -> write_body b = Ok p -> p <> [] ->
    Forall (fun x => x < 256) [s0; s1; s2; s3] ->
    len p = 16777216 * s0 + 65536 * s1 + 256 * s2 + s3 ->
    laid_out23 fs pad l ->
    laid_out23 ((id, f0, b) :: fs) pad (id ++ [s0; s1; s2; s3] ++ [f0; 0] ++ p ++ l).

(** The status flags of the standard: %abc00000. *)
Definition status23 (f0 : N) : fflags :=
  mkFl (N.testbit f0 7) (N.testbit f0 6) (N.testbit f0 5) false None None false false.

(** [l] contains [w]. *)
Definition contains (w l : bytes) : Prop := exists a b, l = a ++ w ++ b.

(** ** Examples for the theorems *)
Definition no_zlib : zlib := mkZlib (fun _ => None) (fun _ _ => None) (fun _ _ => 0).
(** A library whose compression is the identity. *)
Definition id_zlib : zlib := mkZlib Some (fun b _ => Some b) (fun _ _ => 0).

Definition title (s : bytes) : frame := mkFrame (B "TIT2") no_flags (BText (mkText 0 s)).
(** A title holding 0xff 0xe0 and 0xff 0x00, a counter and an unknown frame. *)
Definition ex_frames : list frame :=
  [title [255; 224; 255; 0; 65]; mkFrame (B "PCNT") no_flags (BCount [1; 0; 0; 255]);
   mkFrame (B "WXYZ") no_flags (BUnknown [255])].
Definition ex_tag23 : tag23 :=
  mkTag23 (Some false) true (Some (mkExt 7 (Some 3) true [] [] 0)) 5 (map new_frame ex_frames).
