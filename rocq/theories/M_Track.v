(** * Model: the audio portion of a file (scribbu/scribbu.cc). *)
From Verif Require Import Base M_Ints M_Stream M_Mp3.

(** A read into [buf] whose first [n] bytes are then compared: undefined if the
    read did not happen. *)
Definition sread_cmp (n : N) (want : bytes) : ST bool :=
  do b <- sread_all n;; sret (bytes_eqb b want).

(** scribbu/scribbu.cc:184-206, the second attempt. *)
Definition find_standard_tag : ST N :=
  scatch
    (do _ <- seekg_end 128;;
     do hit <- sread_cmp 3 (B "TAG");;
     if (hit : bool) then do p <- tellg;; sret (p - 3)
     else do _ <- seekg_end 0;; tellg)
    (do _ <- set_exc goodbit;;
     do _ <- sclear;;
     do _ <- seekg_end 0;;
     tellg).

(** scribbu/scribbu.cc:143-213 [find_id3v1_tag].  Once the first attempt has
    failed the caller's exception mask is in force.  Simplification: [buf] is
    taken to be unset if the read fails (if the first attempt filled it, the file
    has 355 bytes and the second cannot fail). *)
Definition find_id3v1_tag : ST (N * N) :=
  do exc_mask <- get_exc;;
  do _ <- set_exc all_bits;;
  do here <- tellg;;
  do r1 <- scatch
    (do _ <- seekg_end 355;;
     do hit <- sread_cmp 4 (B "TAG+");;
     if (hit : bool) then do p <- tellg;; sret (Some (p - 4)) else sret None)
    (do _ <- set_exc goodbit;;
     do _ <- sclear;;
     do _ <- seekg_end 0;;
     do _ <- tellg;;
     do _ <- set_exc exc_mask;;
     sret None);;
  do tag <- (match r1 with
             | Some p => sret p
             | None => find_standard_tag
             end);;
  do _ <- set_exc exc_mask;;
  sret (here, tag).

(** scribbu/scribbu.cc:235. *)
Definition bufsize : N := 4 * 1024 * 1024.

(** scribbu/scribbu.cc:250-262, the loop: everything handed to
    [EVP_DigestUpdate], in order. *)
Fixpoint digest_loop (fuel : nat) (nleft : N) : ST bytes :=
  match fuel with
  | O => fun s => (NonTerm, s)
  | S fuel =>
      if 0 <? nleft then
        let nbytes := if nleft <? bufsize then nleft else bufsize in
        do b <- sread nbytes;;
        do r <- digest_loop fuel (nleft - nbytes);;
        sret (b ++ r)
      else sret []
  end.

(** scribbu/scribbu.cc:215-274 [compute_track_md5] with a hint.  [md5] is OpenSSL's
    digest of all the updates together; failures of OpenSSL are not modelled.
    [tag - here] is signed: nothing is read if it is negative. *)
Definition compute_track_md5 (md5 : bytes -> bytes) (tag : N) : ST bytes :=
  do exc_mask <- get_exc;;
  do _ <- set_exc all_bits;;
  do here <- tellg;;
  do b <- digest_loop (S (N.to_nat (tag - here))) (tag - here);;
  do _ <- set_exc exc_mask;;
  sret (md5 b).

(** scribbu/scribbu.hh:315-345. *)
Record track := mkTrack { tr_md5 : bytes; tr_size : N; tr_duration : option (N * N) }.

(** [try { ... } catch (const std::exception&) { }] *)
Definition attempt {A} (m : ST A) : ST (option A) :=
  fun s => match m s with
           | (Ok a, s') => (Ok (Some a), s')
           | (Throw _, s') => (Ok None, s')
           | (UB u, s') => (UB u, s')
           | (NonTerm, s') => (NonTerm, s')
           end.

(** scribbu/scribbu.cc:280-321 [track_data::track_data].  The size is unsigned. *)
Definition track_data (md5 : bytes -> bytes) : ST track :=
  do exc_mask <- get_exc;;
  do _ <- set_exc all_bits;;
  do (here, tag) <- find_id3v1_tag;;
  let size := Z.to_N ((Z.of_N tag - Z.of_N here) mod 2 ^ 64) in
  do _ <- seekg here;;
  do sum <- compute_track_md5 md5 tag;;
  do _ <- seekg here;;
  do dur <- attempt get_mp3_duration;;
  do _ <- seekg tag;;
  do _ <- sclear;;
  do _ <- set_exc exc_mask;;
  sret (mkTrack sum size dur).
