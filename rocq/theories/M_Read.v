(** * Model: reading ID3v2 tags of any version (scribbu/id3v2-utils.cc, .hh). *)
From Verif Require Import Base M_Ints M_Stream M_Payload M_Frame M_Tag22 M_Tag23 M_Tag24.

(** A [std::unique_ptr<id3v2_tag>] that is not null. *)
Inductive anytag := A22 (t : tag22) | A23 (t : tag23) | A24 (t : tag24).

(** scribbu/id3v2-utils.cc:51-59 (and 80-88): the constructor for the version. *)
Definition read_version (z : zlib) (passes : nat) (H : id3v2_info) : ST anytag :=
  if 2 =? i_version H then do t <- read22 H;; sret (A22 t)
  else if 3 =? i_version H then do t <- read23 z passes H;; sret (A23 t)
  else if 4 =? i_version H then do t <- read24 z passes H;; sret (A24 t)
  else sthrow UnknownVersion.

(** What these make of the bytes they read. *)
Definition parse_any (z : zlib) (passes : nat) (version flags : N) (buf : bytes) : outcome anytag :=
  if 2 =? version then let* t := parse_body22 flags buf in Ok (A22 t)
  else if 3 =? version then let* t := parse_body23 z passes flags buf in Ok (A23 t)
  else if 4 =? version then let* t := parse_body24 z passes flags buf in Ok (A24 t)
  else Throw UnknownVersion.

(** scribbu/id3v2-utils.cc:43-61 [maybe_read_id3v2]. *)
Definition maybe_read_id3v2 (z : zlib) (passes : nat) : ST (option anytag) :=
  do h <- looking_at_id3v2 false;;
  match h with
  | None => sret None
  | Some H => do t <- read_version z passes H;; sret (Some t)
  end.

(** scribbu/id3v2-utils.hh:101-113 [read_all_id3v2]; each tag takes at least ten
    bytes, [fuel] exceeds their number. *)
Fixpoint read_all_loop (z : zlib) (passes : nat) (fuel : nat) : ST (list anytag) :=
  match fuel with
  | O => fun s => (NonTerm, s)
  | S fuel =>
      do p <- maybe_read_id3v2 z passes;;
      match p with
      | None => sret []
      | Some t => do r <- read_all_loop z passes fuel;; sret (t :: r)
      end
  end.
Definition read_all_id3v2 (z : zlib) (passes : nat) : ST (list anytag) :=
  fun s => read_all_loop z passes (S (length (s_data s))) s.

(** scribbu/id3v2-utils.cc:66-73, the loop. *)
Fixpoint skip_tags (idx : nat) : ST unit :=
  match idx with
  | O => sret tt
  | S idx =>
      do h <- looking_at_id3v2 true;;
      match h with
      | None => sthrow InvalidArgument
      | Some H => do _ <- seekg_cur (i_size H + 10);; skip_tags idx
      end
  end.

(** scribbu/id3v2-utils.cc:63-90 [read_id3v2]. *)
Definition read_id3v2 (z : zlib) (passes : nat) (idx : nat) : ST anytag :=
  do _ <- skip_tags idx;;
  do h <- looking_at_id3v2 true;;
  match h with
  | None => sthrow InvalidArgument
  | Some H => read_version z passes H
  end.

(** The identifier of the first frame, [begin()->id()]. *)
Definition first_frame_id (a : anytag) : option bytes :=
  match a with
  | A22 t => option_map (fun c => f_id (c_frame c)) (hd_error (t2_frames t))
  | A23 t => option_map (fun c => f_id (c_frame c)) (hd_error (t3_frames t))
  | A24 t => option_map (fun c => f_id (c_frame c)) (hd_error (t4_frames t))
  end.
