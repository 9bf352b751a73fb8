(** * Model: ID3v1 tags (scribbu/id3v1.hh, scribbu/id3v1.cc). *)
From Verif Require Import Base M_Stream.

(** scribbu/id3v1.hh:615-630, the data members.  [None] marks a member that no
    constructor or setter has initialised. *)
Record id3v1_tag := mkV1 {
  v_extended : bool;
  v_v1_1     : bool;
  v_album    : bytes;
  v_artist   : bytes;
  v_comment  : bytes;
  v_genre    : N;
  v_ext_genre: bytes;
  v_start    : option bytes;   (* std::array<unsigned char, 6> *)
  v_end      : option bytes;   (* std::array<unsigned char, 6> *)
  v_speed    : option N;
  v_title    : bytes;
  v_track    : option N;
  v_year     : bytes           (* std::array<unsigned char, 4> *)
}.

(** scribbu/id3v1.hh:595-598, 609-610 [size]. *)
Definition v1_size (t : id3v1_tag) : N := if v_extended t then 355 else 128.

(** [std::vector::resize(n, 0)]. *)
Definition vresize (n : N) (l : bytes) : bytes := takeN n (l ++ repeatN 0 n).

(** scribbu/id3v1.hh:269-286, the from-scratch constructor: [speed_] and
    [track_number_] are not initialised. *)
Definition v1_scratch (v11 enh : bool) : id3v1_tag :=
  mkV1 enh v11 (repeatN 0 (if enh then 90 else 30)) (repeatN 0 (if enh then 90 else 30))
       (repeatN 0 (if v11 then 28 else 30)) 0 (repeatN 0 (if enh then 30 else 0))
       (Some (repeatN 0 6)) (Some (repeatN 0 6)) None
       (repeatN 0 (if enh then 90 else 30)) None (repeatN 0 4).

(** The bytes of a C string: up to the terminating NUL. *)
Fixpoint cstr (l : bytes) : bytes :=
  match l with
  | [] => []
  | b :: r => if b =? 0 then [] else b :: cstr r
  end.

(** The setters, scribbu/id3v1.hh (lines at each).  Text arguments stand for the
    bytes [convert_encoding] returned (iconv is not modelled). *)
Inductive v1_setter :=
| SetAlbum (x : bytes)      (* 316-325 *)
| SetArtist (x : bytes)     (* 347-356 *)
| SetComment (x : bytes)    (* 378-387 *)
| SetGenre (g : N)          (* 401-404 *)
| SetEnhGenre (x : bytes)   (* 423-435 *)
| SetSpeed (s : N)          (* 445-449 *)
| SetStart (x : bytes)      (* 467-478 *)
| SetEnd (x : bytes)        (* 497-508 *)
| SetTitle (x : bytes)      (* 528-537 *)
| SetTrack (n : N)          (* 548-552 *)
| SetYear (x : bytes).      (* 569-579 *)

Definition v1_apply (t : id3v1_tag) (op : v1_setter) : id3v1_tag :=
  let '(mkV1 ext v11 alb art com gen xg st en sp tit trk yr) := t in
  let tsz := if ext then 90 else 30 in
  match op with
  | SetAlbum x    => mkV1 ext v11 (vresize tsz x) art com gen xg st en sp tit trk yr
  | SetArtist x   => mkV1 ext v11 alb (vresize tsz x) com gen xg st en sp tit trk yr
  | SetComment x  => mkV1 ext v11 alb art (vresize tsz x) gen xg st en sp tit trk yr
  | SetGenre g    => mkV1 ext v11 alb art com g xg st en sp tit trk yr
  | SetEnhGenre x => mkV1 true v11 alb art com gen (vresize 30 x) st en sp tit trk yr
  | SetSpeed s    => mkV1 true v11 alb art com gen xg st en (Some s) tit trk yr
  | SetStart x    => mkV1 true v11 alb art com gen xg (Some (vresize 6 (cstr x))) en sp tit trk yr
  | SetEnd x      => mkV1 true v11 alb art com gen xg st (Some (vresize 6 (cstr x))) sp tit trk yr
  | SetTitle x    => mkV1 ext v11 alb art com gen xg st en sp (vresize tsz x) trk yr
  | SetTrack n    => mkV1 ext true alb art com gen xg st en sp tit (Some n) yr
  | SetYear x     => mkV1 ext v11 alb art com gen xg st en sp tit trk (vresize 4 (cstr x))
  end.

(** [os.write(&v[off], n)]: undefined unless [v] has those elements. *)
Definition write_at (v : bytes) (off n : N) : outcome bytes :=
  if off + n <=? len v then Ok (slice off n v) else UB OutOfBounds.

Definition init {A} (x : option A) : outcome A :=
  match x with Some a => Ok a | None => UB Uninitialised end.

(** scribbu/id3v1.cc:304-340 [id3v1_tag::write]. *)
Definition v1_write (t : id3v1_tag) : outcome bytes :=
  let* ext :=
    (if v_extended t then
       let* a := write_at (v_title t) 30 60 in
       let* b := write_at (v_artist t) 30 60 in
       let* c := write_at (v_album t) 30 60 in
       let* sp := init (v_speed t) in
       let* g := write_at (v_ext_genre t) 0 30 in
       let* st := init (v_start t) in
       let* st := write_at st 0 6 in
       let* en := init (v_end t) in
       let* en := write_at en 0 6 in
       Ok (B "TAG+" ++ a ++ b ++ c ++ [sp] ++ g ++ st ++ en)
     else Ok []) in
  let* ti := write_at (v_title t) 0 30 in
  let* ar := write_at (v_artist t) 0 30 in
  let* al := write_at (v_album t) 0 30 in
  let* yr := write_at (v_year t) 0 4 in
  let* cm :=
    (if v_v1_1 t then
       let* c := write_at (v_comment t) 0 28 in
       let* n := init (v_track t) in
       Ok (c ++ [0; n])
     else write_at (v_comment t) 0 30) in
  Ok (ext ++ B "TAG" ++ ti ++ ar ++ al ++ yr ++ cm ++ [v_genre t]).

(** scribbu/id3v1.cc:363-381 and 431-446, the comment/track/genre block at [p]. *)
Definition v1_tail (p : bytes) : bool * bytes * option N * N :=
  if (0 =? nthN 28 p) && negb (0 =? nthN 29 p)
  then (true, slice 0 28 p, Some (nthN 29 p), nthN 30 p)
  else (false, slice 0 30 p, None, nthN 30 p).

(** scribbu/id3v1.cc:342-382 [init_standard]; [p] has 128 bytes (the callers
    read exactly that many). *)
Definition init_standard (p : bytes) : outcome id3v1_tag :=
  if bytes_eqb (slice 0 3 p) (B "TAG") then
    let p := dropN 3 p in
    let title := slice 0 30 p in
    let artist := slice 30 30 p in
    let album := slice 60 30 p in
    let year := slice 90 4 p in
    let '(v11, com, trk, gen) := v1_tail (dropN 94 p) in
    Ok (mkV1 false v11 album artist com gen [] None None None title trk year)
  else Throw InvalidTag.

(** scribbu/id3v1.cc:384-447 [init_extended]; [p] has 355 bytes. *)
Definition init_extended (p : bytes) : outcome id3v1_tag :=
  if bytes_eqb (slice 0 4 p) (B "TAG+") then
    let p := dropN 4 p in
    let title := slice 226 30 p ++ slice 0 60 p in
    let p := dropN 60 p in
    let artist := slice 196 30 p ++ slice 0 60 p in
    let p := dropN 60 p in
    let album := slice 166 30 p ++ slice 0 60 p in
    let p := dropN 60 p in
    let speed := nthN 0 p in
    let p := dropN 1 p in
    let xg := slice 0 30 p in
    let p := dropN 30 p in
    let st := slice 0 6 p in
    let p := dropN 6 p in
    let en := slice 0 6 p in
    let p := dropN 6 p in
    if bytes_eqb (slice 0 3 p) (B "TAG") then
      let p := dropN 93 p in
      let year := slice 0 4 p in
      let p := dropN 4 p in
      let '(v11, com, trk, gen) := v1_tail p in
      Ok (mkV1 true v11 album artist com gen xg (Some st) (Some en) (Some speed) title trk year)
    else Throw InvalidTag
  else Throw InvalidTag.

Definition lift {A} (x : outcome A) : ST A := fun s => (x, s).

(** scribbu/id3v1.cc:83-123, the constructor from a stream positioned at a tag
    that ends the stream.  [invalid_tag] is not caught, so the mask is then not
    restored. *)
Definition id3v1_from_stream : ST id3v1_tag :=
  do exc_mask <- get_exc;;
  do _ <- set_exc all_bits;;
  do here <- tellg;;
  scatch
    (do _ <- seekg_end 0;;
     do there <- tellg;;
     do _ <- seekg here;;
     let cb := there - here in
     do t <- (if (here <=? there) && (cb =? 128) then
                do b <- sread 128;; lift (init_standard b)
              else if (here <=? there) && (cb =? 355) then
                do b <- sread 355;; lift (init_extended b)
              else sthrow InvalidTag);;
     do _ <- set_exc exc_mask;;
     sret t)
    (do _ <- set_exc goodbit;;
     do _ <- seekg here;;
     do _ <- set_exc exc_mask;;
     sthrow InvalidTag).

(** scribbu/id3v1.hh:634-640. *)
Inductive v1_type := v1_none | v1_std | v1_ext.
Record id3v1_info := mkV1Info { v1i_type : v1_type; v1i_start : N; v1i_end : N }.

(** scribbu/id3v1.cc:454-520 [ends_in_id3v1]. *)
Definition ends_in_id3v1 : ST id3v1_info :=
  do exc_mask <- get_exc;;
  do _ <- set_exc (N.lor failbit badbit);;
  do here <- tellg;;
  do i1 <- (fun s =>
      let end0 := len (s_data s) in
      scatch
        (do _ <- seekg_end 0;;
         do e <- tellg;;
         if 355 <=? e then
           do _ <- seekg_end 355;;
           do buf <- sread 4;;
           do p <- tellg;;
           sret (if bytes_eqb buf (B "TAG+") then mkV1Info v1_ext (p - 4) e
                 else mkV1Info v1_none e e)
         else sret (mkV1Info v1_none e e))
        (do _ <- set_exc goodbit;; do _ <- sclear;;
         do _ <- set_exc (N.lor failbit badbit);; sret (mkV1Info v1_none end0 end0)) s);;
  do i2 <- (match v1i_type i1 with
            | v1_none =>
                scatch
                  (do _ <- seekg_end 128;;
                   do buf <- sread 3;;
                   do p <- tellg;;
                   sret (if bytes_eqb buf (B "TAG") then mkV1Info v1_std (p - 3) (v1i_end i1)
                         else i1))
                  (do _ <- set_exc goodbit;; do _ <- sclear;; sret i1)
            | _ => sret i1
            end);;
  do _ <- seekg here;;
  do _ <- set_exc exc_mask;;
  sret i2.

(** scribbu/id3v1.cc:522-532 [process_id3v1]. *)
Definition process_id3v1 : ST (option id3v1_tag) :=
  do i <- ends_in_id3v1;;
  match v1i_type i with
  | v1_none => sret None
  | _ => do _ <- seekg (v1i_start i);;
         do t <- id3v1_from_stream;; sret (Some t)
  end.

(** A freshly opened ifstream with the given exception mask. *)
Definition open_file (content : bytes) (exc : N) : istream := mkIs content 0 exc 0.

(** scribbu/id3v1.cc:534-559 [maybe_remove_id3v1] as a function of the file's
    content; [None] is a file that cannot be opened (nothing happens). *)
Definition maybe_remove_id3v1 (file : bytes) : outcome bytes :=
  let* t := fst (process_id3v1 (open_file file all_bits)) in
  match t with
  | None => Ok file
  | Some t => Ok (takeN (len file - v1_size t) file)
  end.

(** scribbu/id3v1.cc:561-572 [replace_id3v1]: remove, then append. *)
Definition replace_id3v1 (file : bytes) (t : id3v1_tag) : outcome bytes :=
  let* f := maybe_remove_id3v1 file in
  let* b := v1_write t in
  Ok (f ++ b).
