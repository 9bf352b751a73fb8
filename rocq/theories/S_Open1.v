(** * Specification: ID3v1 blocks. *)
From Verif Require Import Base.

(** The 128 bytes of an ID3v1 tag, or the 355 of an enhanced one. *)
Definition v1_block (enhanced : bool) (blk : bytes) : Prop :=
  if enhanced then len blk = 355 /\ takeN 4 blk = B "TAG+" /\ slice 227 3 blk = B "TAG"
  else len blk = 128 /\ takeN 3 blk = B "TAG".
Definition v1_length (enhanced : bool) : N := if enhanced then 355 else 128.
