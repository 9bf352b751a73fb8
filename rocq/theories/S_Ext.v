(** * Specification: ID3v2.3 and ID3v2.4 tags with extended headers, groups and
    compression, as the standards lay them out. *)
From Verif Require Import Base M_Ints M_Payload M_Cloud M_Frame M_Tag23 M_Tag24
  S_Ints S_Payload S_Cloud S_Tag S_Tag23 S_Tag24.

(** ** ID3v2.3 *)

(** What follows a frame's header, and the second byte of flags (%ijk00000) that
    tells so: for a compressed frame the length of its contents (four bytes,
    big-endian); the group if any; the contents, compressed or not.  No
    encryption. *)
Inductive data23 (z : zlib) (gid : option N) (p : bytes) : bool -> N -> bytes -> Prop :=
| data_plain23 : data23 z gid p false (match gid with Some _ => 32 | None => 0 end) (opt_bytes gid ++ p)
| data_compressed23 : forall c d0 d1 d2 d3,
    is_bytes [d0; d1; d2; d3] -> len p = positional 256 [d0; d1; d2; d3] ->
    z_uncompress z c (len p) = Some p ->
    data23 z gid p true (match gid with Some _ => 160 | None => 128 end)
      ([d0; d1; d2; d3] ++ opt_bytes gid ++ c).

(** The frames section: for each frame its identifier, the length of what
    follows the header (four bytes, big-endian), two bytes of flags, and what
    follows; then padding. *)
Inductive frames_laid23 (z : zlib) : list (bytes * N * option N * bool * body) -> N -> bytes -> Prop :=
| frames_pad23 : forall pad, frames_laid23 z [] pad (repeatN 0 pad)
| frames_next23 : forall id f0 f1 gid cmp b p data fs pad l s0 s1 s2 s3,
    len id = 4 -> hd 0 id <> 0 -> kind_of V23 id = kind_of_body b ->
    wf_body V23 b -> write_body b = Ok p -> p <> [] ->
    data23 z gid p cmp f1 data ->
    is_bytes [s0; s1; s2; s3] -> len data = positional 256 [s0; s1; s2; s3] ->
    frames_laid23 z fs pad l ->
    frames_laid23 z ((id, f0, gid, cmp, b) :: fs) pad (id ++ [s0; s1; s2; s3] ++ [f0; f1] ++ data ++ l).

(** The extended header, if there is one: its size without the size field
    itself, two bytes of flags (%x0000000 %00000000), the size of the padding it
    tells, and the checksum if any; all big-endian. *)
Inductive ext_laid23 : option (N * option N) -> bytes -> Prop :=
| no_ext23 : ext_laid23 None []
| ext_plain23 : forall p0 p1 p2 p3, is_bytes [p0; p1; p2; p3] ->
    ext_laid23 (Some (positional 256 [p0; p1; p2; p3], None)) ([0; 0; 0; 6] ++ [0; 0] ++ [p0; p1; p2; p3])
| ext_crc23 : forall p0 p1 p2 p3 c0 c1 c2 c3, is_bytes [p0; p1; p2; p3] -> is_bytes [c0; c1; c2; c3] ->
    ext_laid23 (Some (positional 256 [p0; p1; p2; p3], Some (positional 256 [c0; c1; c2; c3])))
      ([0; 0; 0; 10] ++ [128; 0] ++ [p0; p1; p2; p3] ++ [c0; c1; c2; c3]).

(** The frame so laid out, with the status flags of the standard (%abc00000). *)
Definition as_read23 (x : bytes * N * option N * bool * body) : frame :=
  match x with
  | (id, f0, gid, cmp, b) =>
      mkFrame id (mkFl (N.testbit f0 7) (N.testbit f0 6) (N.testbit f0 5) cmp None gid false false) b
  end.

(** ** ID3v2.4 *)

(** The extended header, if there is one: its size (four bytes, seven bits each;
    the whole of it), the number of bytes of flags (one), the flags (%0bcd0000),
    and the data of each flag, with a byte before it that says how long it is:
    none for "is an update", five bytes of seven bits for the checksum (32 bits:
    the first byte is at most 15), one for the restrictions. *)
Inductive ext_laid24 : option (N * bool * option N * option N) -> bytes -> Prop :=
| no_ext24 : ext_laid24 None []
| ext_some24 : forall s0 s1 s2 s3 (update : bool) (crc : option (N * N * N * N * N)) (restr : option N) b,
    Forall (fun x => x < 128) [s0; s1; s2; s3] -> len b = positional 128 [s0; s1; s2; s3] ->
    match crc with
    | Some (c0, c1, c2, c3, c4) => c0 <= 15 /\ Forall (fun x => x < 128) [c1; c2; c3; c4]
    | None => True
    end ->
    b = [s0; s1; s2; s3] ++ [1]
        ++ [(if update then 64 else 0) + (if crc then 32 else 0) + (if restr then 16 else 0)]
        ++ (if update then [0] else [])
        ++ match crc with Some (c0, c1, c2, c3, c4) => [5; c0; c1; c2; c3; c4] | None => [] end
        ++ match restr with Some r => [1; r] | None => [] end ->
    ext_laid24 (Some (len b, update,
                      match crc with Some (c0, c1, c2, c3, c4) => Some (positional 128 [c0; c1; c2; c3; c4]) | None => None end,
                      restr)) b.

(** What the standard's size of an extended header is. *)
Definition standard_size24 (x : ext24) : N :=
  6 + (if y_update x then 1 else 0) + (if y_crc x then 6 else 0) + (if y_restr x then 2 else 0).
(** The data for which no length is written. *)
Definition unannounced (x : ext24) : N := (if y_crc x then 1 else 0) + (if y_restr x then 1 else 0).
