(** * Model: ID3v2.3 tags made with an extended header. *)
From Verif Require Import Base M_Frame M_Tag23.

(** scribbu/id3v23.hh:204. *)
Inductive want_ext := WantNone | WantPresent | WantCrc.

(** scribbu/id3v23.cc:395-409, the constructor from a size of padding, with
    208-216: the checksum is that of no frames, and everything is still to be
    serialized.  [unsync_] is not set. *)
Definition constructed23 (z : zlib) (cbpad : N) (fexp : bool) (w : want_ext) : tag23 :=
  let t := mkTag23 None fexp None cbpad [] in
  match w with
  | WantNone => t
  | WantPresent => mkTag23 None fexp (Some (mkExt cbpad None true [] [] 0)) cbpad []
  | WantCrc => mkTag23 None fexp (Some (ext_crc z (mkExt cbpad None true [] [] 0) (t3_frames t))) cbpad []
  end.
