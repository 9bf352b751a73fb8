(** * Model: the dump command in its standard format.

    scribbu/pprinter.cc:45-108 and 415-1069 [standard_pprinter], src/dump.cc.  What
    is printed goes to the stream piece by piece, as in M_Report, so that an
    exception leaves behind what has been written. *)
From Verif Require Import Base M_Ints M_Stream M_Id3v1 M_Payload M_Cloud M_Frame M_Tag22 M_Tag23 M_Tag24 M_Charset M_Lookup M_Mp3 M_Track M_Read
  M_Tagset M_Process M_Cmds M_Csv M_Genres M_Lang M_M3u M_Report.
#[local] Open Scope N_scope.

(** The printer's settings: indentation, whether to expand genres, and the
    encoding of ID3v1 tags.  (The encoding of ID3v2 frames is never forced: pprinter.hh:592,
    src/dump.cc:141; the stream's encoding is the default, UTF-8, ostream.cc:58-73.) *)
Record dstyle := mkDs { ds_indent : nat; ds_expand : bool; ds_v1enc : enc }.
Definition spaces (n : nat) : bytes := repeat 32 n.
Definition sin (d : dstyle) : bytes := spaces (ds_indent d).
Definition line_end : bytes := [10].

(** [hex << setfill('0')], then [setw(2)] for each byte. *)
Definition hex_bytes (l : bytes) : bytes := flat_map (fun x => width2 (number 16 x)) l.

(** scribbu/pprinter.cc:49-57 [asciify]. *)
Definition asciify (x : N) : N := if (31 <? x) && (x <? 127) then x else 46.

(** scribbu/pprinter.cc:60-77 [pprint_binary]: the first element is read before the
    range is looked at. *)
Definition pprint_binary (indent l : bytes) : outcome bytes :=
  match l with
  | [] => UB OutOfBounds
  | x :: r => Ok (indent ++ width2 (number 16 x) ++ flat_map (fun y => 32 :: width2 (number 16 y)) r ++ B "  >" ++ map asciify l ++ B "<")
  end.

(** scribbu/pprinter.cc:79-108 [comment_lang].  [char] is signed. *)
Definition signed_hex (x : N) : bytes := B "0x" ++ width2 (number 16 (if x <? 128 then x else x + (2 ^ 32 - 256))).
Definition comment_lang (c : comm) : outcome bytes :=
  let* l := M_Id3v1.init (co_lang c) in
  match l with
  | [a; b; d] =>
      match read_language (cstr l) with
      | Ok x => write_language x
      | Throw _ => Ok (signed_hex a ++ B "," ++ signed_hex b ++ B "," ++ signed_hex d)
      | UB u => UB u
      | NonTerm => NonTerm
      end
  | _ => UB OutOfBounds
  end.

(** [owner<string>()], [email<string>()]: framesv22.hh:268-279, 694-705, framesv23.hh:558-569,
    614-625, 1155-1166, 1317-1327, framesv24.hh:281-292, 344-355, 905-916. *)
Definition from_ascii (w : world) (b : bytes) : outcome bytes :=
  match b with [] => Ok [] | _ => to_string (w_ic w) b E_ASCII E_UTF_8 NoFail end.
(** [description], [text] of user-defined texts and comments: framesv22.hh:528-553,
    595-620, framesv23.hh:927-955, 1009-1034, framesv24.hh:655-684, 749-774. *)
Definition part_text (w : world) (v : version) (u : N) (b : bytes) : outcome bytes :=
  text_as_str v (w_ic w) (mkText u b) E_UTF_8 NoFail None.
Definition comm_text (w : world) (v : version) (c : comm) (b : bytes) : outcome bytes :=
  match b with
  | [] => Ok []
  | _ => let* u := M_Id3v1.init (co_unicode c) in part_text w v u b
  end.
Definition or_else (s d : bytes) : bytes := match s with [] => d | _ => s end.

(** scribbu/pprinter.cc:666-677, 814-825: the lines for a tag cloud. *)
Definition cloud_values (vs : list bytes) : bytes :=
  match vs with [] => [] | v :: r => v ++ flat_map (fun x => B ", " ++ x) r end.
Definition cloud_line (d : dstyle) (kv : bytes * list bytes) : bytes :=
  sin d ++ fst kv ++ B ": " ++ cloud_values (snd kv) ++ line_end.

(** The functions for the frames: scribbu/pprinter.cc:555-680 (ID3v2.2), 683-849
    (ID3v2.3), 852-1019 (ID3v2.4). *)
Definition dump_frame (d : dstyle) (w : world) (v : version) (f : frame) : pr :=
  let head := sin d ++ f_id f ++ B ": " in
  match f_body f with
  | BUnknown b =>
      put (match v with
           | V22 => head ++ B "UNKNOWN" ++ line_end
           | _ => B "frame " ++ f_id f ++ B " (" ++ number 10 (len b) ++ B " bytes)" ++ line_end
           end)
  | BText t => pthen (put head) (pthen (pput (text_as_str v (w_ic w) t E_UTF_8 NoFail None)) (put line_end))
  | BUfid u =>
      pthen (put head) (pthen (pput (from_ascii w (uf_owner u)))
        (put (line_end ++ sin d ++ (match v with V22 => spaces 5 | _ => spaces 6 end) ++ hex_bytes (uf_id u) ++ line_end)))
  | BTxxx t =>
      pthen (put head) (pthen (pput (part_text w v (ud_unicode t) (ud_desc t))) (pthen (put (line_end ++ sin d))
        (pthen (pput (part_text w v (ud_unicode t) (ud_text t))) (put line_end))))
  | BComm c =>
      pput (let* lang := comment_lang c in
            let* dsc := comm_text w v c (co_desc c) in
            let* text := comm_text w v c (co_text c) in
            Ok (f_id f ++ B " (" ++ lang ++ B ", " ++ or_else dsc (B "<no description>") ++ B "):" ++ line_end ++
                or_else text (B "<no text>") ++ line_end))
  | BCount c => pthen (put head) (pthen (pput (let* n := counter_value c in Ok (number 10 (n mod 2 ^ 32)))) (put line_end))
  | BPopm p =>
      pthen (put head) (pthen (pput (from_ascii w (po_email p)))
        (put (line_end ++ sin d ++ B "rating: " ++ number 10 (po_rating p) ++ line_end ++
              sin d ++ B "counter: " ++ hex_bytes (po_counter p) ++ line_end)))
  | BCloud c =>
      put (head ++ tc_owner c ++ line_end ++ sin d ++ B "tags:" ++ line_end ++ flat_map (cloud_line d) (tc_tags c))
  | BEncr e =>
      pthen (put head) (pthen (pput (from_ascii w (en_email e))) (pthen (put (line_end ++ sin d ++ B "Method symbol: "))
        (pthen (pput (let* m := M_Id3v1.init (en_method e) in Ok [m]))
          (put (line_end ++ sin d ++ B "Encryption data: " ++ flat_map (fun x => [48; x]) (en_data e) ++ line_end)))))
  | BPriv p =>
      pthen (pput (let* o := from_ascii w (pr_email p) in
                   Ok (sin d ++ f_id f ++ B " (" ++ o ++ B "): " ++ number 10 (len (pr_contents p)) ++ B " bytes beginning with:" ++ line_end)))
        (pthen (pput (pprint_binary (sin d) (takeN 16 (pr_contents p)))) (put line_end))
  end.

(** scribbu/pprinter.cc:257-296 and 1085-1104: looking up the function.  Those for
    the ID3v2.4 tag cloud and private frame are with the ID3v2.3 frames. *)
Definition print_any_frame (d : dstyle) (w : world) (v : version) (f : frame) : pr :=
  match v, f_body f with
  | V24, BCloud _ | V24, BPriv _ => ([], Throw OutOfRange)
  | _, _ => dump_frame d w v f
  end.

(** The frames asked for by name: id3v22.hh:147-208, id3v23.hh:252-311,
    id3v24.hh:285-344. *)
Definition album_id (v : version) : bytes := match v with V22 => B "TAL" | _ => B "TALB" end.
Definition year_id (v : version) : bytes := match v with V22 => B "TYE" | _ => B "TYER" end.
Definition track_id (v : version) : bytes := match v with V22 => B "TRK" | _ => B "TRCK" end.
Definition content_id (v : version) : bytes := match v with V22 => B "TCO" | _ => B "TCON" end.
Definition encoder_id (v : version) : bytes := match v with V22 => B "TEN" | _ => B "TENC" end.
Definition has_id (t : anytag) (id : bytes) : bool := negb (has_frame (tables t) id =? 0).
Definition tag_text (w : world) (t : anytag) (id : bytes) : outcome bytes := v2_text w (mkM3u None E_UTF_8 NoFail) t id.
Definition text_or (w : world) (t : anytag) (id no : bytes) : outcome bytes :=
  if has_id t id then tag_text w t id else Ok no.

(** scribbu/pprinter.cc:1021-1069 [print_id3v2_tag]; [rev] is the revision in the
    header that has been read. *)
Definition print_id3v2_tag (d : dstyle) (z : zlib) (w : world) (rev : N) (t : anytag) : pr :=
  let v := any_version t in
  match (let* a := text_or w t (artist_id v) (B "<no artist>") in
         let* b := text_or w t (title_id v) (B "<no title>") in
         let* c := text_or w t (album_id v) (B "<no album>") in
         let* y := text_or w t (year_id v) (B "<no year>") in Ok (a, b, c, y)) with
  | Ok (a, b, c, y) =>
      pthen (put (sin d ++ B "ID3v2." ++ number 10 (version_number v) ++ B "(." ++ number 10 rev ++ B ") Tag:" ++ line_end ++ sin d))
      (pthen (pput (let* (n, _) := any_size z t false in Ok (number 10 (wrap64 n))))
      (pthen (put (B " bytes, " ++ (match any_unsync t with Some true => B "unsynchronised" | _ => B "synchronised" end) ++ line_end ++
                   sin d ++ B "flags: 0x" ++ width2 (number 16 (any_flags t)) ++ line_end ++
                   sin d ++ a ++ B " - " ++ b ++ line_end ++ sin d ++ c))
      (pthen (if has_id t (track_id v) then pthen (put (B " (track ")) (pthen (pput (tag_text w t (track_id v))) (put (B ")"))) else put [])
      (pthen (put (B ", " ++ y ++ line_end))
      (pthen (if has_id t (content_id v)
              then pthen (put (sin d ++ B "Content-type ")) (pthen (pput (tag_text w t (content_id v))) (put line_end)) else put [])
             (if has_id t (encoder_id v)
              then pthen (put (sin d ++ B "Encoded by ")) (pthen (pput (tag_text w t (encoder_id v))) (put line_end)) else put []))))))
  | Throw e => ([], Throw e) | UB u => ([], UB u) | NonTerm => ([], NonTerm)
  end.

Definition any_padding (t : anytag) : N := match t with A22 t => t2_pad t | A23 t => t3_pad t | A24 t => t4_pad t end.
(** scribbu/pprinter.cc:426-466 [pprint_v2_x_tag]. *)
Definition dump_tag (d : dstyle) (z : zlib) (w : world) (rt : N * anytag) : pr :=
  let t := snd rt in
  pthen (print_id3v2_tag d z w (fst rt) t)
    (pthen (pall (map (fun c => print_any_frame d w (any_version t) (c_frame c)) (any_frames t)))
           (put (sin d ++ number 10 (any_padding t) ++ B " bytes of padding" ++ line_end))).

(** scribbu/pprinter.cc:468-485 [pprint_track_data]. *)
Definition dump_track (d : dstyle) (tr : track) : bytes :=
  sin d ++ number 10 (tr_size tr) ++ B " bytes of track data:" ++ line_end ++
  sin d ++ B "MD5: " ++ hex_bytes (tr_md5 tr) ++ line_end.

(** scribbu/pprinter.cc:487-553 [pprint_v1_tag]. *)
Definition v1_text (d : dstyle) (w : world) (field : bytes) : pr := pput (to_string (w_ic w) field (ds_v1enc d) E_UTF_8 NoFail).
Definition genre_number (g : N) : bytes := B "genre " ++ number 10 g.
Definition dump_v1 (d : dstyle) (w : world) (t : id3v1_tag) : pr :=
  pthen (put (sin d ++ B "ID3v1" ++ (if v_v1_1 t then B ".1" else []) ++ (if v_extended t then B " (enhanced)" else []) ++ B ": "))
  (pthen (v1_text d w (v_artist t)) (pthen (put (B " - ")) (pthen (v1_text d w (v_title t)) (pthen (put (line_end ++ sin d))
  (pthen (v1_text d w (v_album t))
  (pthen (if v_v1_1 t then pput (let* n := M_Id3v1.init (v_track t) in Ok (B " (track " ++ number 10 n ++ B ")")) else put [])
  (pthen (put (B ", ")) (pthen (v1_text d w (v_year t)) (pthen (put (line_end ++ sin d)) (pthen (v1_text d w (v_comment t)) (pthen (put (line_end ++ sin d))
  (pthen
    (if v_extended t then
       pthen (v1_text d w (v_ext_genre t))
       (pthen (put (B "/" ++ (if ds_expand d then match text_for_genre (v_genre t) with Some s => s | None => B "unrecognized genre" end
                              else genre_number (v_genre t)) ++ line_end ++ sin d))
       (pthen (match v_start t with Some s => v1_text d w s | None => ([], UB Uninitialised) end) (pthen (put (B "-"))
       (pthen (match v_end t with Some s => v1_text d w s | None => ([], UB Uninitialised) end)
              (pput (let* n := M_Id3v1.init (v_speed t) in Ok (B ": speed " ++ number 10 n ++ line_end)))))))
     else put (if ds_expand d then match text_for_genre (v_genre t) with Some s => s | None => B "unknown genre " ++ number 10 (v_genre t) end
               else genre_number (v_genre t)))
    (put line_end))))))))))))).

(** scribbu/id3v2-utils.hh:101-113 [read_all_id3v2], with the revision of each
    header (kept with the tag, id3v2.cc). *)
Definition maybe_read_rev (z : zlib) (passes : nat) : ST (option (N * anytag)) :=
  do h <- looking_at_id3v2 false;;
  match h with
  | None => sret None
  | Some H => do t <- read_version z passes H;; sret (Some (i_revision H, t))
  end.
Fixpoint read_revs_loop (z : zlib) (passes : nat) (fuel : nat) : ST (list (N * anytag)) :=
  match fuel with
  | O => fun s => (NonTerm, s)
  | S fuel =>
      do p <- maybe_read_rev z passes;;
      match p with
      | None => sret []
      | Some t => do r <- read_revs_loop z passes fuel;; sret (t :: r)
      end
  end.
Definition read_revs (z : zlib) (passes : nat) : ST (list (N * anytag)) :=
  fun s => read_revs_loop z passes (S (length (s_data s))) s.

(** src/dump.cc:233-241: what is read. *)
Definition dump_read (z : zlib) (passes : nat) (md5 : bytes -> bytes) (data : bytes)
  : outcome (list (N * anytag) * track * option id3v1_tag) :=
  fst ((do v2 <- read_revs z passes;;
        do tr <- track_data md5;;
        do v1 <- process_id3v1;;
        sret (v2, tr, v1)) (open_file data goodbit)).

(** A file that is there: its path, the time it was last changed as
    [put_time] prints it, and its contents. *)
Record dfile := mkDf { df_path : bytes; df_time : bytes; df_data : bytes }.
(** The parts asked for; src/dump.cc:137-139: none is all. *)
Record parts := mkParts { p_v2 : bool; p_track : bool; p_v1 : bool }.
Definition all_parts (p : parts) : parts :=
  if negb (p_v2 p) && negb (p_track p) && negb (p_v1 p) then mkParts true true true else p.

(** src/dump.cc:243-262: what is printed. *)
Definition dump_parts (d : dstyle) (z : zlib) (w : world) (p : parts) (f : dfile)
    (v2 : list (N * anytag)) (tr : track) (v1 : option id3v1_tag) : pr :=
  pthen (put (quoted_path (df_path f) ++ B ":" ++ line_end ++ B "Last Modified: " ++ df_time f ++ line_end))
  (pthen (if p_v2 p then pall (map (dump_tag d z w) v2) else put [])
  (pthen (if p_track p then put (dump_track d tr) else put [])
  (pthen (match v1 with Some t => if p_v1 p then dump_v1 d w t else put [] | None => put [] end)
         (put line_end)))).

(** src/dump.cc:231-268: one file; [false] is a failure reported on the standard
    error. *)
Definition dump_file (d : dstyle) (z : zlib) (passes : nat) (md5 : bytes -> bytes) (w : world) (p : parts) (f : dfile) : bytes * outcome bool :=
  match dump_read z passes md5 (df_data f) with
  | Ok (v2, tr, v1) =>
      match dump_parts d z w (all_parts p) f v2 tr v1 with
      | (s, Ok _) => (s, Ok true)
      | (s, Throw _) => (s, Ok false)
      | (s, UB u) => (s, UB u)
      | (s, NonTerm) => (s, NonTerm)
      end
  | Throw _ => ([], Ok false)
  | UB u => ([], UB u)
  | NonTerm => ([], NonTerm)
  end.

(** An argument: no file, a file, or a directory with what is below it as
    the iterator yields it; [None] is something other than a file. *)
Inductive darg := DMissing | DFile (f : dfile) | DDir (fs : list (option dfile)).
(** src/dump.cc:216-229; [matches] is the regular expression, or always true. *)
Fixpoint dump_files (one : dfile -> bytes * outcome bool) (matches : bytes -> bool) (fs : list (option dfile)) : pr :=
  match fs with
  | [] => put []
  | None :: r => dump_files one matches r
  | Some f :: r =>
      if matches (df_path f) then
        match one f with
        | (s, Ok _) => pthen (put s) (dump_files one matches r)
        | (s, Throw e) => (s, Throw e)
        | (s, UB u) => (s, UB u)
        | (s, NonTerm) => (s, NonTerm)
        end
      else dump_files one matches r
  end.
(** src/dump.cc:465-474: the loop over the arguments. *)
Fixpoint dump_args (one : dfile -> bytes * outcome bool) (matches : bytes -> bool) (args : list darg) : pr :=
  match args with
  | [] => put []
  | DMissing :: _ => ([], Throw RuntimeError)
  | DFile f :: r => pthen (dump_files one matches [Some f]) (dump_args one matches r)
  | DDir fs :: r => pthen (dump_files one matches fs) (dump_args one matches r)
  end.
(** src/dump.cc:476-488: the exit status. *)
Definition dump_status (o : outcome unit) : N := match o with Ok _ => 0 | _ => 1 end.
