(** * Model: size fields (scribbu/id3v2.cc). *)
From Verif Require Import Base.

(** scribbu/id3v2.cc:40-46 [detail::unsigned_from_sync_safe], three bytes. *)
Definition unsigned_from_sync_safe3 (b0 b1 b2 : N) : N :=
  N.lor (N.lor (N.shiftl (N.land b0 127) 14) (N.shiftl (N.land b1 127) 7))
        (N.land b2 127).

(** scribbu/id3v2.cc:48-55, 67-77 [unsigned_from_sync_safe] (four bytes)
    delegating to [uint32_from_sync_safe].  No wrap-around can occur: the
    operands are at most 127. *)
Definition uint32_from_sync_safe4 (b0 b1 b2 b3 : N) : N :=
  N.lor (N.lor (N.lor (N.shiftl (N.land b0 127) 21) (N.shiftl (N.land b1 127) 14))
               (N.shiftl (N.land b2 127) 7))
        (N.land b3 127).

(** scribbu/id3v2.cc:57-65, 79-91 five-byte form; the int expression
    [(b0 & 0x0f) << 28] wraps to 32 bits on conversion to uint32_t.  (For
    [b0 & 0x0f >= 8] the shift overflows [int]; with the C++20 rules, and in
    every supported compiler, the result is the value modulo 2^32.) *)
Definition uint32_from_sync_safe5 (b0 b1 b2 b3 b4 : N) : N :=
  N.lor (N.lor (N.lor (N.lor (N.shiftl (N.land b0 15) 28) (N.shiftl (N.land b1 127) 21))
                      (N.shiftl (N.land b2 127) 14))
               (N.shiftl (N.land b3 127) 7))
        (N.land b4 127).

(** scribbu/id3v2.cc:93-99, 110-116 [uint32_from_non_sync_safe], three bytes. *)
Definition uint32_from_non_sync_safe3 (b0 b1 b2 : N) : N :=
  N.lor (N.lor (N.shiftl b0 16) (N.shiftl b1 8)) b2.

(** scribbu/id3v2.cc:101-108, 118-128 [uint32_from_non_sync_safe], four bytes
    (same remark on [b0 << 24] as above). *)
Definition uint32_from_non_sync_safe4 (b0 b1 b2 b3 : N) : N :=
  N.lor (N.lor (N.lor (N.shiftl b0 24) (N.shiftl b1 16)) (N.shiftl b2 8)) b3.

(** scribbu/id3v2.cc:130-151 [detail::sync_safe_from_unsigned]: the four bytes
    stored in [b], or the exception. *)
Definition sync_safe_from_unsigned (x : N) : outcome bytes :=
  if 268435455 <? x then Throw InvalidArgument
  else Ok [ N.land (N.shiftr x 21) 127; N.land (N.shiftr x 14) 127;
            N.land (N.shiftr x 7) 127;  N.land x 127 ].

(** The two big-endian stores the frame writers use: scribbu/framesv22.cc:
    149-175 (three bytes) and scribbu/framesv23.cc:352-420 (four bytes),
    [(x & 0xff0000) >> 16] and so on. *)
Definition be24 (x : N) : bytes :=
  [ N.land (N.shiftr x 16) 255; N.land (N.shiftr x 8) 255; N.land x 255 ].
Definition be32 (x : N) : bytes :=
  [ N.land (N.shiftr x 24) 255; N.land (N.shiftr x 16) 255;
    N.land (N.shiftr x 8) 255; N.land x 255 ].
