(** * Model: ID3v2.4 tags (scribbu/id3v24.hh, id3v24.cc, framesv24.cc). *)
From Verif Require Import Base M_Ints M_Unsync M_Stream M_Payload M_Cloud M_Frame M_Tag23.

(** ** Frame headers *)

(** scribbu/framesv24.cc:86-151 [id3v2_4_frame::write_header]: the size field is
    [size()], not the length of what follows. *)
Definition header24 (f : frame) (dlind : N) : outcome bytes :=
  let fl := f_flags f in
  let* s := sync_safe_from_unsigned (size_body (f_body f)) in
  Ok (f_id f ++ s
      ++ [ bit_if (fl_tap fl) 32 + bit_if (fl_fap fl) 16 + bit_if (fl_ro fl) 8;
           bit_if (is_some (fl_gid fl)) 32 + bit_if (fl_cmp fl) 8 + bit_if (is_some (fl_enc fl)) 4
           + bit_if (fl_unsync fl) 2 + bit_if (fl_dli fl) 1 ]
      ++ opt_bytes (fl_enc fl) ++ opt_bytes (fl_gid fl)
      ++ (if fl_dli fl then le32 dlind else [])).

(** scribbu/framesv23.cc:160-226, which ID3v2.4 frames inherit, with their own
    header. *)
Definition wire24 (z : zlib) (f : frame) : outcome bytes :=
  let* buf := write_body (f_body f) in
  if is_some (fl_enc (f_flags f)) then Throw LogicError
  else
    let* payload := (if fl_cmp (f_flags f)
                     then match z_compress z buf with Some p => Ok p | None => Throw ZlibError end
                     else Ok buf) in
    let* h := header24 f (len buf) in
    Ok (h ++ payload).

(** ** The extended header *)

(** scribbu/id3v24.hh:181-225; the five restrictions are kept as the byte they
    are read from and written to. *)
Record ext24 := mkExt24 { y_size : N; y_update : bool; y_crc : option N; y_restr : option N }.

(** The part of [ext_header::ext_header] that reads the data of one flag:
    [k] bytes after their length byte. *)
Definition flag_data (k : N) (p : bytes) : outcome (bytes * bytes) :=
  match p with
  | n :: r => if (len p <? k + 1) || negb (n =? k) then Throw BadExtHeader else Ok (takeN k r, dropN k r)
  | [] => Throw BadExtHeader
  end.

(** scribbu/id3v24.cc:184-286, the constructor from bytes. *)
Definition parse_ext24 (p : bytes) : outcome ext24 :=
  match p with
  | a0 :: a1 :: a2 :: a3 :: nf :: f :: _ =>
      if nf =? 0 then Throw BadExtHeader
      else
        let p1 := dropN (5 + nf) p in
        let* p2 := (if negb (N.land f 64 =? 0)
                    then let* (_, r) := flag_data 0 p1 in Ok r else Ok p1) in
        let* (crc, p3) :=
          (if negb (N.land f 32 =? 0) then
             let* (d, r) := flag_data 5 p2 in
             match d with
             | [c0; c1; c2; c3; c4] =>
                 if (15 <? c0) || (127 <? c1) || (127 <? c2) || (127 <? c3) || (127 <? c4)
                 then Throw BadExtHeader
                 else Ok (Some (uint32_from_sync_safe5 c0 c1 c2 c3 c4), r)
             | _ => Throw BadExtHeader
             end
           else Ok (None, p2)) in
        let* restr :=
          (if negb (N.land f 16 =? 0) then
             let* (d, r) := flag_data 1 p3 in
             match d with [b] => Ok (Some b) | _ => Throw BadExtHeader end
           else Ok None) in
        Ok (mkExt24 (uint32_from_sync_safe4 a0 a1 a2 a3) (negb (N.land f 64 =? 0)) crc restr)
  | _ => Throw BadExtHeader
  end.

(** scribbu/id3v24.cc:336-449 [ext_header::write] and 288-323 [size], [crc]: the data of each flag without
    its length byte; of the five bytes for the checksum four are its sync-safe
    form (an exception if it does not fit 28 bits), the fifth is left over from
    before.  The checksum is the one read (nothing ever sets [crc_dirty_]). *)
Definition ext_wire24 (x : ext24) : outcome bytes :=
  let* s := sync_safe_from_unsigned (y_size x) in
  let* c := (match y_crc x with
             | Some crc => let* c := sync_safe_from_unsigned crc in Ok (c ++ [1])
             | None => Ok []
             end) in
  Ok (s ++ [1; bit_if (y_update x) 64 + bit_if (is_some (y_crc x)) 32 + bit_if (is_some (y_restr x)) 16]
      ++ (if y_update x then [0] else []) ++ c ++ opt_bytes (y_restr x)).

(** ** Tags *)

(** scribbu/id3v24.hh [id3v2_4_tag]; the lookup tables are modelled in M_Lookup. *)
Record tag24 := mkTag24 { t4_unsync : option bool; t4_exp : bool; t4_foot : bool;
                          t4_ext : option ext24; t4_pad : N; t4_frames : list cframe }.

(** scribbu/id3v24.cc:547-566 [flags]. *)
Definition flags24 (t : tag24) : N :=
  bit_if (match t4_unsync t with Some true => true | _ => false end) 128
  + bit_if (is_some (t4_ext t)) 64 + bit_if (t4_exp t) 32 + bit_if (t4_foot t) 16.

(** scribbu/id3v24.cc:607-640 [size]: the padding is added at the beginning and
    at the end. *)
Definition size24 (z : zlib) (t : tag24) (unsync : bool) : outcome (N * tag24) :=
  let* fs := refresh_all (wire24 z) (t4_pad t =? 0) (t4_frames t) in
  Ok (t4_pad t + bit_if (t4_foot t) 10
      + match t4_ext t with Some x => y_size x | None => 0 end
      + sum_len (map (cached unsync) fs) + t4_pad t,
      mkTag24 (t4_unsync t) (t4_exp t) (t4_foot t) (t4_ext t) (t4_pad t) fs).

(** scribbu/id3v24.cc:655-662 [needs_unsynchronisation]: whether every frame
    does; stops at the first that does not. *)
Fixpoint all_need (wire : frame -> outcome bytes) (l : list cframe) : outcome bool :=
  match l with
  | [] => Ok true
  | c :: r => let* c' := refresh wire false c in
              if c_syncs c' =? 0 then Ok false else all_need wire r
  end.
Definition needs_unsync24 (z : zlib) (t : tag24) : outcome bool := all_need (wire24 z) (t4_frames t).

(** scribbu/id3v24.cc:1138-1148 [write_footer]. *)
Definition tag_footer (flags cb : N) : outcome bytes :=
  let* s := sync_safe_from_unsigned cb in
  Ok ([51; 68; 73; 4; 0; flags] ++ s).

(** scribbu/id3v24.cc:712-744 [write]: the flags do not depend on [unsync]. *)
Definition write24 (z : zlib) (t : tag24) (unsync : bool) : outcome (bytes * tag24) :=
  let* (cb, t1) := size24 z t unsync in
  let* h := tag_header 4 0 (flags24 t) cb in
  let* x := (match t4_ext t1 with Some x => ext_wire24 x | None => Ok [] end) in
  let* fs := map_refresh (wire24 z) (t4_frames t1) in
  let* ft := (if t4_foot t1 then tag_footer (flags24 t) cb else Ok []) in
  Ok (h ++ x ++ concat (map (cached unsync) fs) ++ repeatN 0 (t4_pad t1) ++ ft,
      mkTag24 (t4_unsync t1) (t4_exp t1) (t4_foot t1) (t4_ext t1) (t4_pad t1) fs).

(** ** Parsing *)

(** scribbu/id3v24.cc:1313-1330 and 1405-1419: padding ([None]) or the identifier
    of the next frame.  [l] is what is left of the tag, which is all that is left
    of the buffer. *)
Definition frame_id24 (l : bytes) : outcome (option bytes) :=
  if (len l <=? 3) && all_zero l then Ok None
  else match l with
       | i0 :: i1 :: i2 :: i3 :: _ =>
           if (i0 =? 0) && (i1 =? 0) && (i2 =? 0) && (i3 =? 0) then Ok None
           else Ok (Some [i0; i1; i2; i3])
       | _ => UB OutOfBounds
       end.

(** scribbu/id3v24.cc:1332-1333 and 1425: the size field. *)
Definition frame_size24 (l : bytes) : outcome N :=
  match dropN 4 l with
  | s0 :: s1 :: s2 :: s3 :: _ => Ok (uint32_from_sync_safe4 s0 s1 s2 s3)
  | _ => UB OutOfBounds
  end.

(** scribbu/id3v24.cc:1364-1384 and 1461-1481: the fields between header and
    payload; group, encryption method and data length indicator.  Simplification
    as in [frame_extras23]. *)
Definition frame_extras24 (f1 : N) (pread : bytes) (cb : N)
  : outcome (option N * option N * option N * bytes * N) :=
  let* (gid, pread, cb) :=
    (if negb (N.land f1 64 =? 0) then
       let* (b, r, cb) := take1 pread cb in Ok (Some b, r, cb)
     else Ok (None, pread, cb)) in
  let* (enc, pread, cb) :=
    (if negb (N.land f1 4 =? 0) then
       let* (b, r, cb) := take1 pread cb in Ok (Some b, r, cb)
     else Ok (None, pread, cb)) in
  let* (dli, pread, cb) :=
    (if negb (N.land f1 1 =? 0) then
       match pread with
       | a :: b :: c :: d :: r =>
           if cb <? 4 then UB OutOfBounds
           else Ok (Some (uint32_from_sync_safe4 a b c d), r, cb - 4)
       | _ => UB OutOfBounds
       end
     else Ok (None, pread, cb)) in
  Ok (gid, enc, dli, pread, cb).

(** scribbu/id3v24.cc:1305-1397, one pass of the loop that looks for ENCR frames;
    register_encryption_method is 1627-1635. *)
Fixpoint encr_pass24 (z : zlib) (fuel : nat) (l : bytes) (pad : N) (ms : list N) (found : bool)
  : outcome (N * list N * bool) :=
  match fuel with
  | O => NonTerm
  | S fuel =>
      match l with
      | [] => Ok (pad, ms, found)
      | _ =>
          let* h := frame_id24 l in
          match h with
          | None => Ok (len l, ms, found)
          | Some id =>
              let* cb := frame_size24 l in
              let next := encr_pass24 z fuel (dropN (cb + 10) l) pad in
              if bytes_eqb id (B "ENCR") then
                if len l <? 11 then Throw InvalidTag
                else
                  let f1 := nth 9 l 0 in
                  let* (gid, enc, dli, pread, cbr) := frame_extras24 f1 (dropN 10 l) cb in
                  match enc with
                  | Some m => if existsb (N.eqb m) ms then Throw LogicError  (* decrypt *)
                              else next ms true
                  | None =>
                      let* b := (if negb (N.land f1 128 =? 0) then
                                   match dli with
                                   | Some n => let* d := decompressed z pread cbr n in
                                               parse_payload V24 KEncr d (len d)
                                   | None => UB Uninitialised
                                   end
                                 else parse_payload V24 KEncr pread cbr) in
                      match b with
                      | BEncr e =>
                          match en_method e with
                          | None => UB Uninitialised
                          | Some m => if existsb (N.eqb m) ms then Throw RuntimeError
                                      else next (m :: ms) found
                          end
                      | _ => next ms found
                      end
                  end
              else next ms found
          end
      end
  end.

(** scribbu/id3v24.cc:1301-1399, the do-while around it: [found_encrypted] is
    never reset. *)
Fixpoint encr_passes24 (z : zlib) (fuel : nat) (l : bytes) (pad : N) (ms : list N) (found : bool)
  : outcome (N * list N) :=
  match fuel with
  | O => NonTerm
  | S fuel =>
      let* (pad', ms', found') := encr_pass24 z (S (length l)) l pad ms found in
      if found' then encr_passes24 z fuel l pad' ms' found' else Ok (pad', ms')
  end.

(** scribbu/id3v24.cc:1403-1502, the frames; [ms] the registered methods. *)
Fixpoint frames24 (z : zlib) (fuel : nat) (cb_tag : N) (ms : list N) (l : bytes) : outcome (list frame) :=
  match fuel with
  | O => NonTerm
  | S fuel =>
      match l with
      | [] => Ok []
      | _ =>
          let* h := frame_id24 l in
          match h with
          | None => Ok []
          | Some id =>
              if len l <? 11 then Throw InvalidTag
              else
                let* cb := frame_size24 l in
                if cb_tag <=? cb then Throw InvalidTag
                else
                  let f0 := nth 8 l 0 in
                  let f1 := nth 9 l 0 in
                  let* (gid, enc, dli, pread, cbr) := frame_extras24 f1 (dropN 10 l) cb in
                  let* b :=
                    (match enc with
                     | Some m => if existsb (N.eqb m) ms then Throw LogicError      (* decrypt *)
                                 else Throw InvalidArgument
                     | None =>
                         match dli with
                         | Some n => let* d := decompressed z pread cbr n in
                                     parse_payload V24 (kind_of V24 id) d (len d)
                         | None => parse_payload V24 (kind_of V24 id) pread cbr
                         end
                     end) in
                  let f := mkFrame id (mkFl (negb (N.land f0 64 =? 0)) (negb (N.land f0 32 =? 0))
                                            (negb (N.land f0 16 =? 0)) (negb (N.land f1 128 =? 0))
                                            enc gid (negb (N.land f1 2 =? 0)) (is_some dli)) b in
                  let* r := frames24 z fuel cb_tag ms (dropN (cb + 10) l) in
                  Ok (f :: r)
          end
      end
  end.

(** scribbu/id3v24.cc:1252-1515 [parse] on the bytes read, and the members that
    the constructor (471-484) sets.  Nothing is resynchronised and the footer is
    not looked for.  [passes] bounds the do-while. *)
Definition parse_body24 (z : zlib) (passes : nat) (flags : N) (buf : bytes) : outcome tag24 :=
  let* (ext, l) :=
    (if negb (N.land flags 64 =? 0) then
       let* x := parse_ext24 buf in Ok (Some x, dropN (y_size x) buf)
     else Ok (None, buf)) in
  let* (pad, ms) := encr_passes24 z passes l 0 [] false in
  let* fs := frames24 z (S (length l)) (len buf) ms l in
  Ok (mkTag24 (Some (negb (N.land flags 128 =? 0))) (negb (N.land flags 32 =? 0))
              (negb (N.land flags 16 =? 0)) ext pad (map new_frame fs)).

(** scribbu/id3v24.cc:471-484, the constructor from a stream and an [id3v2_info]. *)
Definition read24 (z : zlib) (passes : nat) (H : id3v2_info) : ST tag24 :=
  parse_stream (parse_body24 z passes (i_flags H)) (i_size H).
