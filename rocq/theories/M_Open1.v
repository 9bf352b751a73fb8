(** * Model: ID3v1 tags constructed from a stream by a caller who knows the kind. *)
From Verif Require Import Base M_Stream M_Id3v1.

(** scribbu/id3v1.cc:125-156, [id3v1_tag(std::istream&, bool)]: the mask set at
    the beginning is put back only where a read has failed. *)
Definition id3v1_known (enhanced : bool) : ST id3v1_tag :=
  do exc_mask <- get_exc;;
  do _ <- set_exc all_bits;;
  do here <- tellg;;
  scatch
    (if enhanced then do b <- sread 355;; lift (init_extended b)
     else do b <- sread 128;; lift (init_standard b))
    (do _ <- set_exc goodbit;;
     do _ <- seekg here;;
     do _ <- set_exc exc_mask;;
     sthrow InvalidTag).
