(** * Specification: how each frame lies in the bytes of a tag that has been
      written, whatever its flags. *)
From Verif Require Import Base M_Unsync M_Payload M_Frame M_Tag22 M_Tag23 M_Tag24 S_Ints S_Tag S_Tag22.

(** A number's share in a byte of flags. *)
Definition flag (c : bool) (b : N) : N := if c then b else 0.

(** [q] is how [p] is kept: compressed or as it is. *)
Definition packed (z : zlib) (compressed : bool) (p q : bytes) : Prop :=
  if compressed then z_compress z p = Some q else q = p.

(** A four byte field that holds the length of [p], least significant byte first. *)
Definition length_le (u p : bytes) : Prop :=
  len u = 4 /\ is_bytes u /\ positional 256 (rev u) = len p mod 2 ^ 32.

(** An ID3v2.3 frame: identifier, the length of what follows the ten bytes of the
    header, two bytes of flags, for a compressed frame the length of its contents
    (least significant byte first), its group if it has one, and the contents,
    compressed if they are to be.  The standard's flags are %abc00000 %ijk00000;
    these are one place further right. *)
Definition stored23 (z : zlib) (f : frame) (w : bytes) : Prop :=
  let fl := f_flags f in
  exists p q s c0 c1 u,
    write_body (f_body f) = Ok p /\ packed z (fl_cmp fl) p q /\ fl_enc fl = None /\
    w = f_id f ++ s ++ [c0; c1] ++ u ++ opt_bytes (fl_gid fl) ++ q /\
    len s = 4 /\ is_bytes s /\ (len w < 2 ^ 32 -> positional 256 s + (len (f_id f) + 6) = len w) /\
    2 * c0 = flag (fl_tap fl) 128 + flag (fl_fap fl) 64 + flag (fl_ro fl) 32 /\
    2 * c1 = flag (fl_cmp fl) 128 + flag (is_some (fl_gid fl)) 32 /\
    (if fl_cmp fl then length_le u p else u = []).

(** An ID3v2.4 frame: identifier, the length of the contents in four bytes of
    seven bits, two bytes of flags, its group if it has one, the length of the
    contents if a data length indicator is asked for (as above), and the contents,
    compressed if they are to be.  The standard's flags are %0abc0000 %0h00kmnp;
    the first byte and the group's flag are one place further right. *)
Definition stored24 (z : zlib) (f : frame) (w : bytes) : Prop :=
  let fl := f_flags f in
  exists p q s c0 c1 u,
    write_body (f_body f) = Ok p /\ packed z (fl_cmp fl) p q /\ fl_enc fl = None /\
    w = f_id f ++ s ++ [c0; c1] ++ opt_bytes (fl_gid fl) ++ u ++ q /\
    len s = 4 /\ Forall (fun x => x < 128) s /\ (wf_body V24 (f_body f) -> positional 128 s = len p) /\
    2 * c0 = flag (fl_tap fl) 64 + flag (fl_fap fl) 32 + flag (fl_ro fl) 16 /\
    c1 = flag (is_some (fl_gid fl)) 32 + flag (fl_cmp fl) 8 + flag (fl_unsync fl) 2 + flag (fl_dli fl) 1 /\
    (if fl_dli fl then length_le u p else u = []).

(** An ID3v2.2 frame: identifier, length and contents. *)
Definition stored22 (f : frame) (w : bytes) : Prop :=
  exists p s, write_body (f_body f) = Ok p /\ w = f_id f ++ s ++ p /\
    len s = 3 /\ is_bytes s /\ positional 256 s = len p.

(** [c] is [w], with unsynchronisation applied if asked for. *)
Definition guarded (u : bool) (w c : bytes) : Prop :=
  if u then exists last, c = unsynchronise w last else c = w.

(** The ID3v2.3 extended header: its size, two bytes of flags, the size of the
    padding, and the checksum, if any, which is that of the frames [ws]. *)
Definition stored_ext23 (z : zlib) (pad : N) (checked : bool) (ws : list bytes) (e : bytes) : Prop :=
  exists s d k, e = s ++ [flag checked 128; 0] ++ d ++ k /\
    len s = 4 /\ is_bytes s /\ positional 256 s + 4 = len e /\
    len d = 4 /\ is_bytes d /\ positional 256 d = pad mod 2 ^ 32 /\
    (if checked
     then len k = 4 /\ is_bytes k /\ positional 256 k = z_crc z 0 (concat ws) mod 2 ^ 32
     else k = []).

(** A checksum can be taken piece by piece. *)
Definition crc_joins (z : zlib) : Prop :=
  z_crc z 0 [] = 0 /\ forall n a b, z_crc z (z_crc z n a) b = z_crc z n (a ++ b).

(** What unsynchronisation makes of frames one after the other: only the last one
    is followed by nothing, and only if there is no padding. *)
Fixpoint in_turn (no_pad : bool) (ws : list bytes) : list bytes :=
  match ws with
  | [] => []
  | [w] => [unsynchronise w no_pad]
  | w :: r => unsynchronise w false :: in_turn no_pad r
  end.
