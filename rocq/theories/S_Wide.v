(** * Specification: the encoding of a text in UCS-2, by its byte order mark. *)
From Verif Require Import Base M_Charset.

Definition ucs2_of (out : bytes) : enc :=
  match out with
  | 254 :: 255 :: _ => E_UCS_2BE
  | 255 :: 254 :: _ => E_UCS_2LE
  | _ => E_UCS_2
  end.
