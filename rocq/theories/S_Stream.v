(** * Specification: ID3v2 headers in a file. *)
From Verif Require Import Base S_Ints.

(** An ID3v2 header (ID3v2 informal standard, section 3.1) with these fields
    stands at offset [pos] of [data]. *)
Definition id3v2_header_at (data : bytes) (pos version revision flags size : N) : Prop :=
  exists z0 z1 z2 z3 rest,
    dropN pos data = B "ID3" ++ [version; revision; flags; z0; z1; z2; z3] ++ rest /\
    version <> 255 /\ revision <> 255 /\
    Forall (fun z => z < 128) [z0; z1; z2; z3] /\
    size = positional 128 [z0; z1; z2; z3].
