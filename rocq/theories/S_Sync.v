(** * Specification: unsynchronisation of the tags that are saved. *)
From Verif Require Import Base M_Frame M_Tag22 M_Tag23 M_Tag24 M_Read M_Tagset S_Unsync S_Tag24.
#[local] Open Scope N_scope.

(** Nothing that a player would take for an MPEG frame. *)
Definition no_false_sync (b : bytes) : Prop := forall i, ~ false_sync_at b i.

(** The frames of a tag, and the bytes of each. *)
Definition frames_of (t : anytag) : list cframe :=
  match t with A22 t => t2_frames t | A23 t => t3_frames t | A24 t => t4_frames t end.
Definition wire_of (z : zlib) (t : anytag) : frame -> outcome bytes :=
  match t with A22 _ => wire22 | A23 _ => wire23 z | A24 _ => wire24 z end.

(** Frames whose identifiers start with an ASCII character, and whose contents are
    bytes; what has been serialized before is as serialization leaves it. *)
Definition ordinary (z : zlib) (t : anytag) (c : cframe) : Prop :=
  (exists x r, f_id (c_frame c) = x :: r /\ x < 128) /\
  (forall w, wire_of z t (c_frame c) = Ok w -> is_bytes w) /\
  (c_dirty c = true \/ exists last, refresh (wire_of z t) last (new_frame (c_frame c)) = Ok c).

(** ID3v2.3 without extended header, ID3v2.4 with none or one without checksum and
    restrictions. *)
Definition recent (t : anytag) : Prop :=
  match t with A22 _ => False | A23 t => t3_ext t = None | A24 t => ext_simple (t4_ext t) end.

(** In [b] an ff is followed by nothing above [n]. *)
Definition ff_upto (n : N) (b : bytes) : Prop :=
  forall i y, nth_error b i = Some 255 -> nth_error b (S i) = Some y -> y <= n.

(** Bit 7 of the flags in the header of a tag: "unsynchronised". *)
Definition says_unsync (b : bytes) : bool := N.testbit (nth 5 b 0) 7.
