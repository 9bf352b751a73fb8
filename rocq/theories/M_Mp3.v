(** * Model: MPEG audio frames (scribbu/mp3.cc, scribbu/mp3.hh).

    Durations are kept as fractions; the conversion to [double] is not modelled. *)
From Verif Require Import Base M_Ints M_Stream.

(** scribbu/mp3.cc:36-42 [BITRATES_BPS]. *)
Definition bitrates_v1 : list N :=
  [32000; 40000; 48000; 56000; 64000; 80000; 96000; 112000;
   128000; 160000; 192000; 224000; 256000; 320000].
Definition bitrates_v2 : list N :=
  [8000; 16000; 24000; 32000; 40000; 48000; 56000;
   64000; 80000; 96000; 112000; 128000; 144000; 160000].

(** scribbu/mp3.hh:732-736 [mpeg_version]. *)
Inductive mpeg_version := Mpeg1 | Mpeg2 | Mpeg25.

(** scribbu/mp3.cc:45-50 [SAMPLE_RATE_HZ]. *)
Definition sample_rates (v : mpeg_version) : list N :=
  match v with
  | Mpeg1 => [44100; 48000; 32000]
  | Mpeg2 => [22050; 24000; 16000]
  | Mpeg25 => [11025; 12000; 8000]
  end.

(** scribbu/mp3.hh:787-806, the data members read from the header.  [channel_mode]
    is the two bits of the header. *)
Record mp3_header := mkMp3 {
  m_version : mpeg_version; m_crc : bool; m_bitrate : N; m_rate : N; m_padded : bool;
  m_private : bool; m_mode : N; m_copyright : bool; m_original : bool;
  m_side : N; m_size : N }.

(** scribbu/mp3.hh:705-709 [is_sync]. *)
Definition is_sync (b0 b1 : N) : bool := (255 =? b0) && (224 <=? b1).

(** [is.tellg()] on a stream that may have failed: -1 is [None]. *)
Definition tellg' : ST (option N) :=
  fun s => if N.land (s_state s) (N.lor badbit failbit) =? 0
           then (Ok (Some (s_pos s)), s) else (Ok None, s).

(** [is.seekg(off, cur)], either direction: fails if that lies before the
    beginning. *)
Definition seekg_rel (off : Z) : ST unit :=
  fun s => if (0 <=? Z.of_N (s_pos s) + off)%Z then seekg (Z.to_N (Z.of_N (s_pos s) + off)) s
           else match seekg (s_pos s) s with          (* clears eofbit *)
                | (Ok _, s') => setstate failbit s'
                | r => r
                end.

(** [is.seekg(here)] for a position [tellg] returned; -1 is no position. *)
Definition seekg' (here : option N) : ST unit :=
  match here with
  | Some p => seekg p
  | None => fun s => match seekg (s_pos s) s with
                     | (Ok _, s') => setstate failbit s'
                     | r => r
                     end
  end.

(** [catch (const std::exception&) { ...; throw; }] *)
Definition on_throw {A} (m : ST A) (h : ST unit) : ST A :=
  fun s => match m s with
           | (Throw e, s') => (do _ <- h;; sthrow e) s'
           | r => r
           end.

(** [is.eof()] *)
Definition is_eof : ST bool := fun s => (Ok (negb (N.land (s_state s) eofbit =? 0)), s).
(** [!is] *)
Definition is_fail : ST bool :=
  fun s => (Ok (negb (N.land (s_state s) (N.lor badbit failbit) =? 0)), s).

(** A read into a variable that holds no value yet, which is then used. *)
Definition sread_all (n : N) : ST bytes :=
  do b <- sread n;; if len b =? n then sret b else (fun s => (UB Uninitialised, s)).

(** scribbu/mp3.cc:304-433 [parse_header]. *)
Definition parse_header (h0 h1 h2 h3 : N) : ST mp3_header :=
  do here <- tellg';;
  on_throw
    (if negb (is_sync h0 h1) then sthrow BadHeader
     else
       do version <- (match N.land (N.shiftr h1 3) 3 with
                      | 0 => sret Mpeg25
                      | 1 => sthrow BadHeader
                      | 2 => sret Mpeg2
                      | _ => sret Mpeg1
                      end);;
       if negb (N.land (N.shiftr h1 1) 3 =? 1)
       then do _ <- seekg' here;; sthrow BadHeader
       else
         do crc <- (if N.land h1 1 =? 0 then do _ <- sread_all 2;; sret true else sret false);;
         let j := N.land (N.shiftr h2 4) 255 in
         if (j =? 0) || (j =? 15) then do _ <- seekg' here;; sthrow BadHeader
         else
           let bitrate := nth (N.to_nat (j - 1))
                              (match version with Mpeg1 => bitrates_v1 | _ => bitrates_v2 end) 0 in
           let k := N.land (N.shiftr h2 2) 3 in
           if k =? 3 then do _ <- seekg' here;; sthrow BadHeader
           else
             let rate := nth (N.to_nat k) (sample_rates version) 0 in
             let padded := negb (N.land h2 2 =? 0) in
             let private := negb (N.land h2 1 =? 0) in
             let mode := N.land (N.shiftr h3 6) 3 in
             let side := match version with
                         | Mpeg1 => if mode =? 3 then 17 else 32
                         | _ => if mode =? 3 then 9 else 17
                         end in
             do _ <- seekg_rel (Z.of_N side);;
             let copyright := negb (N.land h3 8 =? 0) in
             let original := negb (N.land h3 4 =? 0) in
             let samples := match version with Mpeg1 => 1152 | _ => 576 end in
             let size := (samples * bitrate) mod 2 ^ 32 / 8 / rate in
             let size := if padded then size + 1 else size in
             sret (mkMp3 version crc bitrate rate padded private mode copyright original side size))
    (do e <- is_eof;; if e then sret tt else seekg' here).

(** What [mp3_audio_frame::vbri] (scribbu/mp3.cc:530-552) later returns: number of
    frames, number of bytes. *)
Definition vbr_info := option (N * N).

(** A four byte read into [buf], which keeps what the read does not reach. *)
Definition reread (buf : bytes) : ST bytes :=
  do b <- sread 4;; sret (b ++ dropN (len b) buf).

Definition be32 (l : bytes) : N := uint32_from_non_sync_safe4 (nth 0 l 0) (nth 1 l 0) (nth 2 l 0) (nth 3 l 0).

(** scribbu/mp3.cc:123-152 [xing_mp3_tag]: frames and bytes. *)
Definition read_xing : ST (option N * option N) :=
  do f <- sread_all 4;;
  let flags := nth 3 f 0 in
  do frames <- (if negb (N.land flags 1 =? 0) then do n <- sread_all 4;; sret (Some (be32 n))
                else sret None);;
  do nbytes <- (if negb (N.land flags 2 =? 0) then do n <- sread_all 4;; sret (Some (be32 n))
                else sret None);;
  do _ <- (if negb (N.land flags 4 =? 0) then do _ <- sread 100;; sret tt else sret tt);;
  do _ <- (if negb (N.land flags 8 =? 0) then do _ <- sread_all 4;; sret tt else sret tt);;
  sret (frames, nbytes).

(** scribbu/mp3.cc:70-76 [is_lame]: the second test looks at a fifth byte of a
    four byte buffer. *)
Definition is_lame (b : bytes) : ST bool :=
  if bytes_eqb (takeN 4 b) (B "LAME") then sret true
  else if bytes_eqb (takeN 3 b) (B "L3.") then fun s => (UB OutOfBounds, s)
  else sret false.

(** scribbu/mp3.cc:158-182 [lame_mp3_tag]; nothing of it is used later. *)
Definition read_lame : ST unit :=
  do _ <- sread_all 5;;
  do _ <- sread_all 1;;
  do _ <- seekg_rel 10;;
  do _ <- sread_all 1;;
  do _ <- seekg_rel 7;;
  do _ <- sread_all 4;;
  sret tt.

(** scribbu/mp3.cc:83-117 [vbri_mp3_tag]: four bytes are read into the two byte
    [num_entries].  If no more than two are left, [ntohl] of what they hold,
    stored in sixteen bits, is zero. *)
Definition read_vbri : ST (N * N) :=
  do _ <- sread_all 2;;
  do _ <- sread_all 2;;
  do _ <- sread_all 2;;
  do fsz <- sread_all 4;;
  do nf <- sread_all 4;;
  do e <- sread 4;;
  if 2 <? len e then fun s => (UB OutOfBounds, s)
  else if len e <? 2 then fun s => (UB Uninitialised, s)
  else do _ <- sread 2;; do _ <- sread 2;; do _ <- sread 2;; do _ <- sread 0;;
       sret (be32 nf, be32 fsz).

Definition is_xing (b : bytes) : bool := bytes_eqb b (B "Xing") || bytes_eqb b (B "Info").

(** scribbu/mp3.cc:480-488 and 491-501: an Xing tag, perhaps followed by a LAME tag. *)
Definition xing_and_lame (buf : bytes) : ST vbr_info :=
  do x <- read_xing;;
  do buf <- reread buf;;
  do l <- is_lame buf;;
  do _ <- (if (l : bool) then read_lame else sret tt);;
  sret (match x with (Some a, Some b) => Some (a, b) | _ => None end).

(** scribbu/mp3.cc:437-518 [parse_vbr]. *)
Definition parse_vbr (side : N) : ST vbr_info :=
  do here <- tellg';;
  do buf <- reread [0; 0; 0; 0];;
  do r <- (if is_xing buf then xing_and_lame buf
           else
             do _ <- seekg_rel (-6);;
             do buf <- reread buf;;
             if is_xing buf then xing_and_lame buf
             else
               do _ <- seekg_rel (32 - Z.of_N side - 2);;
               do buf <- reread buf;;
               if bytes_eqb buf (B "VBRI") then do p <- read_vbri;; sret (Some p)
               else sret None);;
  do _ <- seekg' here;;
  sret r.

(** scribbu/mp3.cc:259-277, the constructor given a header already read. *)
Definition mp3_audio_frame (h0 h1 h2 h3 : N) (check_vbr : bool) : ST (mp3_header * vbr_info) :=
  do m <- parse_header h0 h1 h2 h3;;
  do v <- (if check_vbr then parse_vbr (m_side m) else sret None);;
  do _ <- seekg_rel (Z.of_N (m_size m) - 4 - (if m_crc m then 2 else 0) - Z.of_N (m_side m));;
  sret (m, v).

(** scribbu/mp3.cc:279-300, the constructor that reads the header itself (into a
    buffer of zeros). *)
Definition mp3_audio_frame_from (check_vbr : bool) : ST (mp3_header * vbr_info) :=
  do h <- reread [0; 0; 0; 0];;
  mp3_audio_frame (nth 0 h 0) (nth 1 h 0) (nth 2 h 0) (nth 3 h 0) check_vbr.

(** scribbu/mp3.cc:520-527 [duration]. *)
Definition frame_duration (m : mp3_header) : N * N :=
  (match m_version m with Mpeg1 => 1152 | _ => 576 end, m_rate m).

(** A byte of a buffer that may not have been written yet. *)
Definition cell (o : option N) : ST N :=
  match o with Some b => sret b | None => fun s => (UB Uninitialised, s) end.

(** [is_sync] on such a buffer: the second byte is looked at only after the
    first. *)
Definition is_sync_buf (b0 b1 : option N) : ST bool :=
  do x <- cell b0;;
  if 255 =? x then do y <- cell b1;; sret (224 <=? y) else sret false.

(** [is.read(buf, 2)] *)
Definition read2 (b0 b1 : option N) : ST (option N * option N) :=
  do b <- sread 2;;
  sret (match b with
        | x :: y :: _ => (Some x, Some y)
        | [x] => (Some x, b1)
        | [] => (b0, b1)
        end).

(** scribbu/mp3.cc:573-579, the loop; [hit] on the way out, and [here]. *)
Fixpoint find_sync_loop (fuel : nat) (here : N) (b0 b1 : option N) (hit : bool) : ST (bool * N) :=
  match fuel with
  | O => fun s => (NonTerm, s)
  | S fuel =>
      do bad <- is_fail;;
      if negb bad && negb hit then
        do y <- cell b1;;
        let here := here + (if y =? 255 then 1 else 2) in
        do _ <- seekg here;;
        do (b0, b1) <- read2 b0 b1;;
        do hit <- is_sync_buf b0 b1;;
        find_sync_loop fuel here b0 b1 hit
      else sret (hit, here)
  end.

(** scribbu/mp3.cc:554-584 [find_sync].  The exception mask is not put back. *)
Definition find_sync : ST unit :=
  fun s =>
  (do _ <- set_exc badbit;;
   do here <- tellg;;
   do (b0, b1) <- read2 None None;;
   do hit <- is_sync_buf b0 b1;;
   do (hit, here) <- find_sync_loop (S (S (length (s_data s)))) here b0 b1 hit;;
   if (hit : bool) then seekg here else sret tt) s.

(** scribbu/mp3.cc:625-636, the walk over the frames: their number. *)
Fixpoint frame_walk (fuel : nat) (n : N) : ST N :=
  match fuel with
  | O => fun s => (NonTerm, s)
  | S fuel =>
      do h <- sread 4;;
      do bad <- is_fail;;
      if bad || negb (is_sync (nth 0 h 0) (nth 1 h 0)) then do _ <- sclear;; sret n
      else
        do _ <- mp3_audio_frame (nth 0 h 0) (nth 1 h 0) (nth 2 h 0) (nth 3 h 0) false;;
        frame_walk fuel (n + 1)
  end.

(** scribbu/mp3.cc:609-638: the duration, given the first header.  [fuel] exceeds
    the number of frames. *)
Definition timed (fuel : nat) (h : bytes) : ST (N * N) :=
  do (f, vbri) <- mp3_audio_frame (nth 0 h 0) (nth 1 h 0) (nth 2 h 0) (nth 3 h 0) true;;
  let (num, den) := frame_duration f in
  match vbri with
  | Some (num_frames, num_bytes) =>
      do _ <- seekg_rel (Z.of_N num_bytes - Z.of_N (m_size f));;
      sret (num * num_frames, den)
  | None =>
      do num_frames <- frame_walk fuel 1;;
      sret (num * num_frames, den)
  end.

(** scribbu/mp3.cc:586-643 [get_mp3_duration], as a fraction.  In the early
    return the exception mask is not put back. *)
Definition get_mp3_duration : ST (N * N) :=
  fun s =>
  (do exc_mask <- get_exc;;
   do _ <- set_exc badbit;;
   do here <- tellg';;
   do h <- sread 4;;
   do bad <- is_fail;;
   do h <- (if negb bad && negb (is_sync (nth 0 h 0) (nth 1 h 0))
            then do _ <- find_sync;; reread h
            else sret h);;
   do bad <- is_fail;;
   if bad || negb (is_sync (nth 0 h 0) (nth 1 h 0))
   then do _ <- sclear;; do _ <- seekg' here;; sret (0, 1)
   else
     do dur <- timed (S (length (s_data s))) h;;
     do _ <- set_exc exc_mask;;
     sret dur) s.
