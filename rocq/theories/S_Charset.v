(** * Specification: byte order marks and plain text. *)
From Verif Require Import Base M_Charset.

(** Unicode 15.0, section 23.8, table 23-6: U+FEFF in each encoding scheme that
    names a byte order; UCS-2 and UCS-4 are the machine's (little-endian). *)
Definition standard_bom (e : enc) : bytes :=
  match e with
  | E_UTF_8 => [239; 187; 191]
  | E_UTF_16BE | E_UCS_2BE => [254; 255]
  | E_UTF_16LE | E_UCS_2LE | E_UCS_2 => [255; 254]
  | E_UTF_32BE | E_UCS_4BE => [0; 0; 254; 255]
  | E_UTF_32LE | E_UCS_4LE | E_UCS_4 => [255; 254; 0; 0]
  | _ => []
  end.

(** Text that a C string can hold. *)
Definition no_nul (s : bytes) : Prop := ~ In 0 s.

(** Text that does not end in a NUL or a space. *)
Definition no_trailing (s : bytes) : Prop :=
  forall s' c, s = s' ++ [c] -> c <> 0 /\ c <> 32.

(** Text that does not start with the bytes of a byte order mark. *)
Definition no_bom (s : bytes) : Prop :=
  forall r, ~ (s = 239 :: 187 :: 191 :: r) /\ ~ (s = 254 :: 255 :: r) /\ ~ (s = 255 :: 254 :: r) /\
            ~ (s = 0 :: 0 :: 254 :: 255 :: r).
