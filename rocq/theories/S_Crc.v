(** * Specification: the CRC-32 of ISO 3309 and RFC 1952, section 8, which the
    ID3v2 standards want in extended headers. *)
From Verif Require Import Base M_Ints M_Frame M_Tag23 M_Tag24 S_Ints S_Unsync S_Tag23.

(** One bit, with the polynomial 0xedb88320, and one byte. *)
Definition crc_bit (c : N) : N := if N.odd c then N.lxor (c / 2) 3988292384 else c / 2.
Definition crc_byte (c x : N) : N := Nat.iter 8 crc_bit (N.lxor c (x mod 256)).
(** The checksum of some bytes [l], given that of those before them; 0 if there are none. *)
Definition crc32 (c : N) (l : bytes) : N :=
  N.lxor (fold_left crc_byte l (N.lxor (c mod 2 ^ 32) 4294967295)) 4294967295.

(** zlib's [crc32] computes it. *)
Definition uses_crc32 (z : zlib) : Prop := forall c l, z_crc z c l = crc32 c l.

(** An extended header with a checksum, as ID3v2.3 lays it out (section 3.2): its
    size, without the size itself; the flag for a checksum; the size of the
    padding; the checksum. *)
Definition summed_header (padding checksum : N) : bytes :=
  [0; 0; 0; 10] ++ [128; 0] ++ be32 padding ++ be32 checksum.

(** An extended header with a checksum and no more, as ID3v2.4 lays it out
    (section 3.2): its size, the number of bytes of flags, the flag for a checksum,
    five bytes of it with seven bits each. *)
Definition summed24 (c0 c1 c2 c3 c4 : N) : bytes := [0; 0; 0; 12; 1; 32; 5; c0; c1; c2; c3; c4].

(** There is nothing in [l] that unsynchronisation would change. *)
Definition calm_bytes (l : bytes) : Prop := forall i, needs_protection l false i = false.

(** A tag with another checksum. *)
Definition with_sum23 (t : tag23) (c : N) : tag23 :=
  mkTag23 (t3_unsync t) (t3_exp t)
    (option_map (fun x => mkExt (x_pad x) (Some c) (x_dirty x) (x_plain x) (x_unsync x) (x_syncs x)) (t3_ext t))
    (t3_pad t) (t3_frames t).
Definition with_sum24 (t : tag24) (c : N) : tag24 :=
  mkTag24 (t4_unsync t) (t4_exp t) (t4_foot t)
    (option_map (fun x => mkExt24 (y_size x) (y_update x) (Some c) (y_restr x)) (t4_ext t)) (t4_pad t) (t4_frames t).
