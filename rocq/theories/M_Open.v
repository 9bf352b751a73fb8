(** * Model: tags constructed straight from a stream, without looking first. *)
From Verif Require Import Base M_Ints M_Stream M_Frame M_Tag22 M_Tag23 M_Tag24.

(** The handlers at scribbu/id3v2.cc:431-436 and 487-492 when a read fails:
    the caller's mask comes back first, and that throws if it covers what the
    read has set. *)
Definition half_failed (here exc_mask : N) : ST bytes :=
  do _ <- set_exc exc_mask;;
  do _ <- sclear;;
  do _ <- seekg here;;
  sthrow IosFailure.

(** scribbu/id3v2.cc:438-445: "ID3" and the two bytes after it.  The first
    component is what [version_] and [revision_] are given ([None]: they stay
    uninitialised), the second is [present]. *)
Definition half_header (buf : bytes) : option (N * N) * bool :=
  match buf with
  | b0 :: b1 :: b2 :: b3 :: b4 :: _ =>
      if (b0 =? 73) && (b1 =? 68) && (b2 =? 51)
      then (Some (b3, b4), negb (b3 =? 255) && negb (b4 =? 255))
      else (None, false)
  | _ => (None, false)
  end.

(** scribbu/id3v2.cc:409-453, [id3v2_tag(std::istream&)]: the first five bytes. *)
Definition open_half : ST (option (N * N)) :=
  do exc_mask <- get_exc;;
  do _ <- set_exc all_bits;;
  do here <- tellg;;
  do buf <- scatch (sread 5) (half_failed here exc_mask);;
  let '(v, present) := half_header buf in
  do _ <- (if present then sret tt else seekg here);;
  do _ <- set_exc exc_mask;;
  sret v.

(** scribbu/id3v2.cc:494-503: the flags, and the size if its four bytes are a
    sync-safe number (0 if not). *)
Definition flags_size (buf : bytes) : N * N :=
  match buf with
  | f :: b1 :: b2 :: b3 :: b4 :: _ =>
      (f, if (b1 <? 128) && (b2 <? 128) && (b3 <? 128) && (b4 <? 128)
          then uint32_from_sync_safe4 b1 b2 b3 b4 else 0)
  | _ => (0, 0)
  end.

(** scribbu/id3v2.cc:465-514 [parse_flags_and_size]: the next five bytes. *)
Definition parse_flags_and_size : ST (N * N) :=
  do exc_mask <- get_exc;;
  do _ <- set_exc all_bits;;
  do here <- tellg;;
  do buf <- scatch (sread 5) (half_failed here exc_mask);;
  let '(flags, cb) := flags_size buf in
  do _ <- (if cb =? 0 then seekg here else sret tt);;
  do _ <- set_exc exc_mask;;
  sret (flags, cb).

(** What the three constructors share; [parse] is given flags and size. *)
Definition open_with {T} (parse : N -> N -> ST T) : ST (option (N * N) * T) :=
  do v <- open_half;;
  do (flags, size) <- parse_flags_and_size;;
  do t <- parse flags size;;
  sret (v, t).

(** scribbu/id3v22.cc:169-186, [id3v2_2_tag(std::istream&)]. *)
Definition open22 : ST (option (N * N) * tag22) :=
  open_with (fun flags size => parse_stream (parse_body22 flags) size).

(** scribbu/id3v23.cc:315-333, [id3v2_3_tag(std::istream&)]. *)
Definition open23 (z : zlib) (passes : nat) : ST (option (N * N) * tag23) :=
  open_with (fun flags size => parse_stream (parse_body23 z passes flags) size).

(** scribbu/id3v24.cc:451-469, [id3v2_4_tag(std::istream&)]. *)
Definition open24 (z : zlib) (passes : nat) : ST (option (N * N) * tag24) :=
  open_with (fun flags size => parse_stream (parse_body24 z passes flags) size).
