(** * Specification: the encodings of an ID3v2.4 text frame. *)
From Verif Require Import Base M_Charset M_Lookup.

(** ID3 tag version 2.4.0 - Main Structure, section 4: the byte in front of a text
    for each encoding a program can ask for ... *)
Definition asked_byte (x : fenc24) : N :=
  match x with FE_Latin1 => 0 | FE_Utf16Bom => 1 | FE_Utf16BE => 2 | FE_Utf8 => 3 end.
(** ... and what that byte says the text is in. *)
Definition asked_encoding (x : fenc24) : enc :=
  match x with FE_Latin1 => E_ISO_8859_1 | FE_Utf16Bom => E_UTF_16 | FE_Utf16BE => E_UTF_16BE | FE_Utf8 => E_UTF_8 end.

(** UTF-16, its byte order by the mark at the front, if there is one. *)
Definition utf16_of (out : bytes) : enc :=
  match out with
  | 254 :: 255 :: _ => E_UTF_16BE
  | 255 :: 254 :: _ => E_UTF_16LE
  | _ => E_UTF_16
  end.
Definition utf16 (x : fenc24) : bool := match x with FE_Utf16Bom | FE_Utf16BE => true | _ => false end.
