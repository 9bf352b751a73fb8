(** * C01: size fields are exact. *)
From Verif Require Import Base M_Ints S_Ints L_Ints.

(** Every number below 2^28 is encoded, in four bytes below 0x80, and decodes to
    itself. *)
Theorem C01_sync_safe_encode_decode : forall x : N, x < 2 ^ 28 ->
  exists b0 b1 b2 b3, sync_safe_from_unsigned x = Ok [b0; b1; b2; b3] /\
    Forall (fun b => b < 128) [b0; b1; b2; b3] /\
    uint32_from_sync_safe4 b0 b1 b2 b3 = x.
Proof. exact sync_safe_roundtrip_l. Qed.
Print Assumptions C01_sync_safe_encode_decode.
Example C01_sync_safe_encode_decode_nontrivial :
  sync_safe_from_unsigned 268435455 = Ok [127; 127; 127; 127] /\
  sync_safe_from_unsigned 257 = Ok [0; 0; 2; 1].
Proof. split; reflexivity. Qed.

(** Every larger number is refused. *)
Theorem C01_sync_safe_refuses : forall x : N, 2 ^ 28 <= x ->
  sync_safe_from_unsigned x = Throw InvalidArgument.
Proof. exact ssfu_throw. Qed.
Print Assumptions C01_sync_safe_refuses.
Example C01_sync_safe_refuses_nontrivial : 2 ^ 28 <= 268435456. Proof. lia. Qed.

(** Re-encoding a decoded field reproduces it. *)
Theorem C01_sync_safe_decode_encode : forall b0 b1 b2 b3 : N,
  Forall (fun b => b < 128) [b0; b1; b2; b3] ->
  sync_safe_from_unsigned (uint32_from_sync_safe4 b0 b1 b2 b3) = Ok [b0; b1; b2; b3].
Proof. exact sync_safe_roundtrip_r. Qed.
Print Assumptions C01_sync_safe_decode_encode.
Example C01_sync_safe_decode_encode_nontrivial :
  Forall (fun b => b < 128) [0; 1; 100; 127].
Proof. repeat constructor. Qed.

(** Sync-safe fields are base 128 (the top bit of each byte is ignored; the
    first byte of the five byte form holds four bits). *)
Theorem C01_sync_safe_positional : forall b0 b1 b2 b3 b4 : N,
  unsigned_from_sync_safe3 b0 b1 b2 = positional 128 [b0 mod 128; b1 mod 128; b2 mod 128] /\
  uint32_from_sync_safe4 b0 b1 b2 b3 =
    positional 128 [b0 mod 128; b1 mod 128; b2 mod 128; b3 mod 128] /\
  uint32_from_sync_safe5 b0 b1 b2 b3 b4 =
    positional 128 [b0 mod 16; b1 mod 128; b2 mod 128; b3 mod 128; b4 mod 128].
Proof. exact sync_safe_positional. Qed.
Print Assumptions C01_sync_safe_positional.

(** Plain fields are base 256, and the writers' big-endian stores are read back. *)
Theorem C01_plain_positional : forall b0 b1 b2 b3 : N, is_bytes [b0; b1; b2; b3] ->
  uint32_from_non_sync_safe3 b0 b1 b2 = positional 256 [b0; b1; b2] /\
  uint32_from_non_sync_safe4 b0 b1 b2 b3 = positional 256 [b0; b1; b2; b3].
Proof. exact plain_positional. Qed.
Print Assumptions C01_plain_positional.
Example C01_plain_positional_nontrivial : is_bytes [255; 254; 1; 0].
Proof. repeat constructor. Qed.

Theorem C01_plain_encode_decode : forall x : N,
  (x < 2 ^ 24 -> exists b0 b1 b2, be24 x = [b0; b1; b2] /\ is_bytes [b0; b1; b2] /\
     uint32_from_non_sync_safe3 b0 b1 b2 = x) /\
  (x < 2 ^ 32 -> exists b0 b1 b2 b3, be32 x = [b0; b1; b2; b3] /\ is_bytes [b0; b1; b2; b3] /\
     uint32_from_non_sync_safe4 b0 b1 b2 b3 = x).
Proof. exact plain_roundtrip. Qed.
Print Assumptions C01_plain_encode_decode.
Example C01_plain_encode_decode_nontrivial : 16909060 < 2 ^ 32 /\ be32 16909060 = [1; 2; 3; 4].
Proof. split; [lia|reflexivity]. Qed.
