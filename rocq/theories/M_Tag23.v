(** * Model: ID3v2.3 tags (scribbu/id3v23.hh, id3v23.cc, framesv23.cc). *)
From Verif Require Import Base M_Ints M_Unsync M_Stream M_Payload M_Cloud M_Frame.

(** ** Frame headers *)

(** The four bytes of a [size_t] written through a [char] pointer: host byte order, little-endian assumed. *)
Definition le32 (x : N) : bytes :=
  [N.land x 255; N.land (N.shiftr x 8) 255; N.land (N.shiftr x 16) 255; N.land (N.shiftr x 24) 255].

Definition bit_if (c : bool) (b : N) : N := if c then b else 0.
Definition opt_bytes (o : option N) : bytes := match o with Some b => [b] | None => [] end.
Definition is_some {A} (o : option A) : bool := match o with Some _ => true | None => false end.

(** scribbu/framesv23.cc:352-420 [id3v2_3_frame::write_header]. *)
Definition header23 (f : frame) (cb_payload dlind : N) : outcome bytes :=
  let fl := f_flags f in
  let sz := cb_payload + bit_if (fl_cmp fl) 4 + bit_if (is_some (fl_enc fl)) 1
            + bit_if (is_some (fl_gid fl)) 1 in
  if 4294967295 <? cb_payload then Throw RuntimeError
  else Ok (f_id f ++ be32 sz
           ++ [ bit_if (fl_tap fl) 64 + bit_if (fl_fap fl) 32 + bit_if (fl_ro fl) 16;
                bit_if (fl_cmp fl) 64 + bit_if (is_some (fl_enc fl)) 32
                + bit_if (is_some (fl_gid fl)) 16 ]
           ++ (if fl_cmp fl then le32 dlind else [])
           ++ opt_bytes (fl_enc fl) ++ opt_bytes (fl_gid fl)).

(** scribbu/framesv23.cc:160-226, the serialized frame: contents, compressed if
    asked for (encryption is refused), after the header. *)
Definition wire23 (z : zlib) (f : frame) : outcome bytes :=
  let* buf := write_body (f_body f) in
  if is_some (fl_enc (f_flags f)) then Throw LogicError
  else
    let* payload := (if fl_cmp (f_flags f)
                     then match z_compress z buf with Some p => Ok p | None => Throw ZlibError end
                     else Ok buf) in
    let* h := header23 f (len payload) (len buf) in
    Ok (h ++ payload).

(** ** The extended header *)

(** scribbu/id3v23.hh:185-189. *)
Record ext23 := mkExt { x_pad : N; x_crc : option N;
                        x_dirty : bool; x_plain : bytes; x_unsync : bytes; x_syncs : N }.

(** scribbu/id3v23.cc:185-205, the constructor from bytes [p]: no check against
    the end of the tag; [p] is all that is left of the buffer. *)
Definition parse_ext23 (p : bytes) : outcome ext23 :=
  match p with
  | a0 :: a1 :: a2 :: a3 :: f :: _ =>
      let cb := uint32_from_non_sync_safe4 a0 a1 a2 a3 in
      let fcrc := negb (N.land f 128 =? 0) in
      if (fcrc && negb (cb =? 10)) || (negb fcrc && negb (cb =? 6)) then Throw BadExtHeader
      else match dropN 6 p with
           | b0 :: b1 :: b2 :: b3 :: r =>
               let pad := uint32_from_non_sync_safe4 b0 b1 b2 b3 in
               if fcrc then
                 match r with
                 | c0 :: c1 :: c2 :: c3 :: _ =>
                     Ok (mkExt pad (Some (uint32_from_non_sync_safe4 c0 c1 c2 c3)) true [] [] 0)
                 | _ => UB OutOfBounds
                 end
               else Ok (mkExt pad None true [] [] 0)
           | _ => UB OutOfBounds
           end
  | _ => UB OutOfBounds
  end.

(** scribbu/id3v23.hh:160-161 [size]. *)
Definition ext_size23 (x : ext23) : N := if is_some (x_crc x) then 10 else 6.

(** scribbu/id3v23.cc:270-299, what [ensure_cached_data_is_fresh] serializes. *)
Definition ext_wire23 (x : ext23) : bytes :=
  be32 (ext_size23 x) ++ [bit_if (is_some (x_crc x)) 128; 0] ++ be32 (x_pad x)
  ++ match x_crc x with Some c => be32 c | None => [] end.

(** scribbu/id3v23.cc:258-310 [ensure_cached_data_is_fresh]. *)
Definition ext_refresh (x : ext23) : ext23 :=
  if x_dirty x then
    let s := ext_wire23 x in
    mkExt (x_pad x) (x_crc x) false s (unsynchronise s false) (count_syncs s true)
  else x.

(** scribbu/id3v23.cc:219-224 [serialized_size]. *)
Definition ext_serialized23 (unsync : bool) (x : ext23) : bytes :=
  if unsync then x_unsync x else x_plain x.
(** scribbu/id3v23.cc:248-256 [write]: picks the other cache. *)
Definition ext_written23 (unsync : bool) (x : ext23) : bytes :=
  if unsync then x_plain x else x_unsync x.

(** ** Tags *)

(** scribbu/id3v23.hh [id3v2_3_tag] and scribbu/id3v2.hh [id3v2_tag::unsync_];
    the lookup tables are modelled in M_Lookup. *)
Record tag23 := mkTag23 { t3_unsync : option bool; t3_exp : bool;
                          t3_ext : option ext23; t3_pad : N; t3_frames : list cframe }.

(** scribbu/id3v23.cc:411-427 [flags]. *)
Definition flags23 (t : tag23) : N :=
  bit_if (match t3_unsync t with Some true => true | _ => false end) 128
  + bit_if (is_some (t3_ext t)) 64 + bit_if (t3_exp t) 32.

Fixpoint map_refresh (wire : frame -> outcome bytes) (l : list cframe) : outcome (list cframe) :=
  match l with
  | [] => Ok []
  | c :: r => let* c' := refresh wire false c in
              let* r' := map_refresh wire r in Ok (c' :: r')
  end.

(** scribbu/id3v23.cc:235-247 [ext_header::crc], with framesv23.cc:56-61: the
    checksum is over the cached serialized frames. *)
Definition ext_crc (z : zlib) (x : ext23) (fs : list cframe) : ext23 :=
  let crc := fold_left (fun n c => z_crc z n (c_plain c)) fs (z_crc z 0 []) in
  match x_crc x with
  | Some c => if c =? crc then x
              else mkExt (x_pad x) (Some crc) true (x_plain x) (x_unsync x) (x_syncs x)
  | None => mkExt (x_pad x) (Some crc) true (x_plain x) (x_unsync x) (x_syncs x)
  end.

(** The first lines of [size], [needs_unsynchronisation] and [write]: with a
    checksum, bring it up to date; then serialize the extended header. *)
Definition prep_ext (z : zlib) (t : tag23) : outcome tag23 :=
  match t3_ext t with
  | None => Ok t
  | Some x =>
      if is_some (x_crc x) then
        let* fs := map_refresh (wire23 z) (t3_frames t) in
        Ok (mkTag23 (t3_unsync t) (t3_exp t) (Some (ext_refresh (ext_crc z x fs))) (t3_pad t) fs)
      else Ok (mkTag23 (t3_unsync t) (t3_exp t) (Some (ext_refresh x)) (t3_pad t) (t3_frames t))
  end.

(** Refresh all frames, the last one with [last_no_pad]. *)
Fixpoint refresh_all (wire : frame -> outcome bytes) (last_no_pad : bool) (l : list cframe)
  : outcome (list cframe) :=
  match l with
  | [] => Ok []
  | [c] => let* c' := refresh wire last_no_pad c in Ok [c']
  | c :: r => let* c' := refresh wire false c in
              let* r' := refresh_all wire last_no_pad r in Ok (c' :: r')
  end.

Definition sum_len (l : list bytes) : N := fold_right (fun b n => len b + n) 0 l.

(** scribbu/id3v23.cc:492-529 [size]; also returns the tag with its caches as
    the call leaves them. *)
Definition size23 (z : zlib) (t : tag23) (unsync : bool) : outcome (N * tag23) :=
  let* t1 := prep_ext z t in
  let* fs := refresh_all (wire23 z) (t3_pad t1 =? 0) (t3_frames t1) in
  let t2 := mkTag23 (t3_unsync t1) (t3_exp t1) (t3_ext t1) (t3_pad t1) fs in
  Ok (match t3_ext t1 with Some x => len (ext_serialized23 unsync x) | None => 0 end
      + sum_len (map (cached unsync) fs) + t3_pad t1, t2).

(** scribbu/id3v23.cc:560-593 [needs_unsynchronisation]: stops at the first
    part that needs it. *)
Fixpoint frames_need (wire : frame -> outcome bytes) (last_no_pad : bool) (l : list cframe)
  : outcome bool :=
  match l with
  | [] => Ok false
  | [c] => let* c' := refresh wire last_no_pad c in Ok (negb (c_syncs c' =? 0))
  | c :: r => let* c' := refresh wire false c in
              if negb (c_syncs c' =? 0) then Ok true else frames_need wire last_no_pad r
  end.
Definition needs_unsync23 (z : zlib) (t : tag23) : outcome bool :=
  let* t1 := prep_ext z t in
  if match t3_ext t1 with Some x => negb (x_syncs x =? 0) | None => false end then Ok true
  else frames_need (wire23 z) (t3_pad t1 =? 0) (t3_frames t1).

(** scribbu/id3v23.cc:1052-1062 [write_header]. *)
Definition tag_header (version revision flags cb : N) : outcome bytes :=
  let* s := sync_safe_from_unsigned cb in
  Ok ([73; 68; 51; version; revision; flags] ++ s).

(** scribbu/id3v23.cc:636-667 [write]. *)
Definition write23 (z : zlib) (t : tag23) (unsync : bool) : outcome (bytes * tag23) :=
  let f := N.lor (flags23 t) (bit_if unsync 128) in
  let* (cb, t1) := size23 z t unsync in
  let* h := tag_header 3 0 f cb in
  let* t2 := prep_ext z t1 in
  let* fs := map_refresh (wire23 z) (t3_frames t2) in
  Ok (h ++ match t3_ext t2 with Some x => ext_written23 unsync x | None => [] end
        ++ concat (map (cached unsync) fs) ++ repeatN 0 (t3_pad t2),
      mkTag23 (t3_unsync t2) (t3_exp t2) (t3_ext t2) (t3_pad t2) fs).

(** ** Parsing *)

(** What follows, in the buffer, the bytes that [resynchronise] keeps
    (scribbu/id3v2.cc:221-292): nothing is cleared, so later over-reads see it. *)
Definition resync_rest (p : bytes) : bytes :=
  let cb := length p in
  if Nat.eqb cb 0 then []
  else
    let i0 := S (rs_search cb p cb 0) in
    if Nat.eqb i0 cb then []
    else let (p', sync_no) := rs_loop cb p cb i0 1 in
         skipn (cb - sync_no) p'.

Definition all_zero (l : bytes) : bool := forallb (fun b => b =? 0) l.

(** scribbu/id3v23.cc:1266-1284 and 1373-1393: padding, or the header of the next
    frame.  [l] is what is left of the tag, not empty; [after] the rest of the
    buffer.  [None]: padding from here on.  Otherwise identifier, size, flags. *)
Definition frame_head23 (l after : bytes) : outcome (option (bytes * N * N * N)) :=
  if (len l <=? 3) && all_zero l then Ok None
  else match l ++ after with
       | i0 :: i1 :: i2 :: i3 :: _ =>
           if (i0 =? 0) && (i1 =? 0) && (i2 =? 0) && (i3 =? 0) then Ok None
           else match l with
                | _ :: _ :: _ :: _ :: s0 :: s1 :: s2 :: s3 :: f0 :: f1 :: _ :: _ =>
                    Ok (Some ([i0; i1; i2; i3], uint32_from_non_sync_safe4 s0 s1 s2 s3, f0, f1))
                | _ => Throw InvalidTag
                end
       | _ => UB OutOfBounds
       end.

(** Take one byte at [pread], with [cb_read -= 1].  [cb_read] wraps around below
    zero; what the code then reads is far outside the buffer. *)
Definition take1 (pread : bytes) (cb_read : N) : outcome (N * bytes * N) :=
  match pread with
  | b :: r => if cb_read =? 0 then UB OutOfBounds else Ok (b, r, cb_read - 1)
  | [] => UB OutOfBounds
  end.

(** scribbu/id3v23.cc:1305-1324 and 1425-1444: the fields between header and
    payload.  Simplification: when [cb_read] wraps around the outcome is
    undefined behaviour at once (the code goes on with the wrapped size). *)
Definition frame_extras23 (f1 : N) (pread : bytes) (cb : N)
  : outcome (option N * option N * option N * bytes * N) :=
  let* (dcsz, pread, cb) :=
    (if negb (N.land f1 128 =? 0) then
       match pread with
       | a :: b :: c :: d :: r =>
           if cb <? 4 then UB OutOfBounds
           else Ok (Some (uint32_from_non_sync_safe4 a b c d), r, cb - 4)
       | _ => UB OutOfBounds
       end
     else Ok (None, pread, cb)) in
  let* (enc, pread, cb) :=
    (if negb (N.land f1 64 =? 0) then
       let* (b, r, cb) := take1 pread cb in Ok (Some b, r, cb)
     else Ok (None, pread, cb)) in
  let* (gid, pread, cb) :=
    (if negb (N.land f1 32 =? 0) then
       let* (b, r, cb) := take1 pread cb in Ok (Some b, r, cb)
     else Ok (None, pread, cb)) in
  Ok (dcsz, enc, gid, pread, cb).

(** scribbu/id3v23.cc:1167-1177 [decompress].  The result is in a buffer of its
    own. *)
Definition decompressed (z : zlib) (pread : bytes) (cb n : N) : outcome bytes :=
  if len pread <? cb then UB OutOfBounds
  else match z_uncompress z (takeN cb pread) n with
       | Some b => Ok b
       | None => Throw ZlibError
       end.

(** A payload of [cb] bytes at [pread]: a constructor that does not throw reads
    all of it, inside the buffer or not. *)
Definition parse_payload (v : version) (k : kind) (pread : bytes) (cb : N) : outcome body :=
  let r := parse_body v k (takeN cb pread) (dropN cb pread) in
  if len pread <? cb then
    match r with Throw e => Throw e | _ => UB OutOfBounds end
  else r.

(** scribbu/id3v23.cc:1239-1350, one pass of the loop that looks for ENCR
    frames: padding, registered methods (the symbol of each) and
    [found_encrypted].  [fuel] exceeds the number of frames. *)
Fixpoint encr_pass23 (z : zlib) (fuel : nat) (l after : bytes) (pad : N) (ms : list N) (found : bool)
  : outcome (N * list N * bool) :=
  match fuel with
  | O => NonTerm
  | S fuel =>
      match l with
      | [] => Ok (pad, ms, found)
      | _ =>
          let* h := frame_head23 l after in
          match h with
          | None => Ok (len l, ms, found)
          | Some (id, cb, _, f1) =>
              let next := encr_pass23 z fuel (dropN (cb + 10) l) after pad in
              if bytes_eqb id (B "ENCR") then
                let* (dcsz, enc, gid, pread, cbr) := frame_extras23 f1 (dropN 10 l ++ after) cb in
                match enc with
                | Some m => if existsb (N.eqb m) ms then Throw LogicError  (* decrypt *)
                            else next ms true
                | None =>
                    let* b := (match dcsz with
                               | Some n => let* d := decompressed z pread cbr n in
                                           parse_payload V23 KEncr d (len d)
                               | None => parse_payload V23 KEncr pread cbr
                               end) in
                    match b with
                    | BEncr e =>
                        match en_method e with
                        | None => UB Uninitialised
                        | Some m => if existsb (N.eqb m) ms then Throw InvalidArgument
                                    else next (m :: ms) found
                        end
                    | _ => next ms found
                    end
                end
              else next ms found
          end
      end
  end.

(** scribbu/id3v23.cc:1235-1352, the do-while around it: [found_encrypted] is
    never reset. *)
Fixpoint encr_passes23 (z : zlib) (fuel : nat) (l after : bytes) (pad : N) (ms : list N) (found : bool)
  : outcome (N * list N) :=
  match fuel with
  | O => NonTerm
  | S fuel =>
      let* (pad', ms', found') := encr_pass23 z (S (length l)) l after pad ms found in
      if found' then encr_passes23 z fuel l after pad' ms' found' else Ok (pad', ms')
  end.

(** scribbu/id3v23.cc:1354-1465, the frames; [cb_tag] is the size of the tag
    after resynchronisation. *)
Fixpoint frames23 (z : zlib) (fuel : nat) (cb_tag : N) (l after : bytes) : outcome (list frame) :=
  match fuel with
  | O => NonTerm
  | S fuel =>
      match l with
      | [] => Ok []
      | _ =>
          let* h := frame_head23 l after in
          match h with
          | None => Ok []
          | Some (id, cb, f0, f1) =>
              if cb_tag <=? cb then Throw InvalidTag
              else
                let* (dcsz, enc, gid, pread, cbr) := frame_extras23 f1 (dropN 10 l ++ after) cb in
                let* b :=
                  (match enc with
                   | Some _ => Throw LogicError                            (* decrypt *)
                   | None =>
                       match dcsz with
                       | Some n => let* d := decompressed z pread cbr n in
                                   parse_payload V23 (kind_of V23 id) d (len d)
                       | None => parse_payload V23 (kind_of V23 id) pread cbr
                       end
                   end) in
                let f := mkFrame id (mkFl (negb (N.land f0 128 =? 0)) (negb (N.land f0 64 =? 0))
                                          (negb (N.land f0 32 =? 0)) (is_some dcsz) enc gid
                                          false false) b in
                let* r := frames23 z fuel cb_tag (dropN (cb + 10) l) after in
                Ok (f :: r)
          end
      end
  end.

(** scribbu/id3v23.cc:1187-1478 [parse] on the bytes read, and the members that
    the constructors (318-346) set.  [passes] bounds the do-while; memory
    exhaustion is not modelled. *)
Definition parse_body23 (z : zlib) (passes : nat) (flags : N) (buf : bytes) : outcome tag23 :=
  let unsync := negb (N.land flags 128 =? 0) in
  let l0 := if unsync then resynchronise buf else buf in
  let after := if unsync then resync_rest buf else [] in
  let* (ext, l) :=
    (if negb (N.land flags 64 =? 0) then
       let* x := parse_ext23 (l0 ++ after) in Ok (Some x, dropN (ext_size23 x + 4) l0)
     else Ok (None, l0)) in
  let* (pad, _) := encr_passes23 z passes l after 0 [] false in
  let* fs := frames23 z (S (length l)) (len l0) l after in
  Ok (mkTag23 (Some unsync) (negb (N.land flags 32 =? 0)) ext pad (map new_frame fs)).

(** Lift an outcome into the stream monad. *)
Definition slift {A} (x : outcome A) : ST A := fun s => (x, s).

(** The handlers at scribbu/id3v23.cc:1467-1475: any exception restores the
    position and the mask -- if the stream lets it. *)
Definition restoring {A} (here mask : N) (m : ST A) : ST A :=
  fun s => match m s with
           | (Throw e, s') => (do _ <- seekg here;; do _ <- set_exc mask;; sthrow e) s'
           | r => r
           end.

(** scribbu/id3v23.cc:1187-1211 and 1467-1478: the stream side of [parse]. *)
Definition parse_stream {T} (P : bytes -> outcome T) (size : N) : ST T :=
  do exc_mask <- get_exc;;
  do _ <- set_exc all_bits;;
  do here <- tellg;;
  do t <- restoring here exc_mask (do buf <- sread size;; slift (P buf));;
  do _ <- set_exc exc_mask;;
  sret t.

(** scribbu/id3v23.cc:334-346, the constructor from a stream and an [id3v2_info]. *)
Definition read23 (z : zlib) (passes : nat) (H : id3v2_info) : ST tag23 :=
  parse_stream (parse_body23 z passes (i_flags H)) (i_size H).
