(** * Specification: the pieces of a file. *)
From Verif Require Import Base S_Ints S_Stream M_Fs M_Tagset M_Split.

(** The names the manual gives to the pieces: "id3v2NS", N = 0, 1, 2, ...,
    "trackS" and "id3v1S", S being the suffix. *)
Definition tag_piece (i : N) (suffix : bytes) : bytes := B "id3v2" ++ decimal i ++ suffix.
Definition track_piece (suffix : bytes) : bytes := B "track" ++ suffix.
Definition v1_piece (suffix : bytes) : bytes := B "id3v1" ++ suffix.
Definition is_piece (suffix n : bytes) : Prop :=
  (exists i, n = tag_piece i suffix) \/ n = track_piece suffix \/ n = v1_piece suffix.

(** A byte string that is one ID3v2 tag: ten bytes of header, and as much after
    them as the header says. *)
Definition one_tag (t : bytes) : Prop := exists v r f sz, id3v2_header_at t 0 v r f sz /\ len t = 10 + sz.
Definition starts_with_tag (t : bytes) : Prop := exists v r f sz, id3v2_header_at t 0 v r f sz.

(** The working directory exists and no piece's name is taken by a directory. *)
Definition room (cwd suffix : bytes) (fs : fsys) : Prop :=
  is_dir fs (resolve_abs cwd) = true /\ forall n, is_piece suffix n -> find_node (resolve cwd n) fs <> Some Dir.

(** The file is not itself one of the pieces. *)
Definition no_piece (cwd suffix : bytes) (k : key) : Prop := forall n, is_piece suffix n -> k <> resolve cwd n.
