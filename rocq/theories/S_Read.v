(** * Specification: the ID3v2 tags at the front of a file. *)
From Verif Require Import Base S_Ints S_Stream.

(** The headers of consecutive tags from [pos] on: offset, version, revision,
    flags, size. *)
Record head := mkHead { hd_at : N; hd_version : N; hd_rev : N; hd_flags : N; hd_size : N }.

Fixpoint tags_from (data : bytes) (pos : N) (l : list head) : Prop :=
  match l with
  | [] => forall v r f sz, ~ id3v2_header_at data pos v r f sz
  | h :: l' =>
      hd_at h = pos /\
      id3v2_header_at data pos (hd_version h) (hd_rev h) (hd_flags h) (hd_size h) /\
      tags_from data (pos + 10 + hd_size h) l'
  end.

(** Where they end. *)
Fixpoint tags_end (pos : N) (l : list head) : N :=
  match l with [] => pos | h :: l' => tags_end (pos + 10 + hd_size h) l' end.

(** What stands between a tag's header and the next tag. *)
Definition tag_body (data : bytes) (h : head) : bytes := slice (hd_at h + 10) (hd_size h) data.

(** Where the trailing ID3v1 tag begins: the last 355 bytes if they start with
    "TAG+", else the last 128 bytes if they start with "TAG", else the end. *)
Definition v1_start (data : bytes) : N :=
  if (355 <=? len data) && bytes_eqb (slice (len data - 355) 4 data) (B "TAG+") then len data - 355
  else if (128 <=? len data) && bytes_eqb (slice (len data - 128) 3 data) (B "TAG") then len data - 128
  else len data.
