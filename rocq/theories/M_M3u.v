(** * Model: the m3u command (src/m3u.cc). *)
From Verif Require Import Base M_Ints M_Stream M_Id3v1 M_Payload M_Frame M_Charset M_TextId M_Lookup M_Mp3 M_Read M_Fs M_Tagset M_Process M_Cmds M_Split M_Rename M_Dirent.
#[local] Open Scope N_scope.

(** src/m3u.cc:134-139: the members.  ([verbose_] and what is printed for it are
    left out.) *)
Record m3u_opts := mkM3u { m3_src : option enc; m3_dst : enc; m3_rsp : noenc }.

(** [has_artist], [has_title]: scribbu/id3v22.hh:193-204, id3v23.hh:296-307,
    id3v24.hh:329-340, and the frames they are about. *)
Definition artist_id (v : version) : bytes := match v with V22 => B "TP1" | _ => B "TPE1" end.
Definition title_id (v : version) : bytes := match v with V22 => B "TT2" | _ => B "TIT2" end.
Definition has_both (t : anytag) : bool :=
  negb (has_frame (tables t) (artist_id (any_version t)) =? 0) && negb (has_frame (tables t) (title_id (any_version t)) =? 0).

(** [artist], [title]: scribbu/id3v22.hh:147-177 and 22.cc:1014-1028, id3v23.hh:257-282
    and 23.cc:1592-1604, id3v24.hh:290-315 and 24.cc:1639-1651. *)
Definition v2_text (w : world) (o : m3u_opts) (t : anytag) (id : bytes) : outcome bytes :=
  let* x := find_text (w_texts w (l_texts (tables t)) id) (tables t) id in
  text_as_str (any_version t) (w_ic w) x (m3_dst o) (m3_rsp o) (m3_src o).

(** [artist], [title]: scribbu/id3v1.cc:160-300.  [loc] is what
    [encoding_from_system_locale] answers. *)
Definition v1_field_text (w : world) (loc : outcome enc) (o : m3u_opts) (field : bytes) : outcome bytes :=
  if negb (char_unit (m3_dst o)) then Throw BadCodeUnit
  else let* src := match m3_src o with Some e => Ok e | None => loc end in
       to_string (w_ic w) field src (m3_dst o) (m3_rsp o).

Definition both (a t : bytes) : option bytes :=
  match a, t with [], _ => None | _, [] => None | _, _ => Some (a ++ B " - " ++ t) end.

(** src/m3u.cc:144-188 [guess_display_title]. *)
Definition try_title (w : world) (loc : outcome enc) (o : m3u_opts) (v2 : list anytag) (v1 : option id3v1_tag) : outcome (option bytes) :=
  let* x := match find has_both v2 with
            | Some t => let* a := v2_text w o t (artist_id (any_version t)) in
                        let* b := v2_text w o t (title_id (any_version t)) in Ok (both a b)
            | None => Ok None
            end in
  match x, v1 with
  | Some s, _ => Ok (Some s)
  | None, Some t => let* a := v1_field_text w loc o (v_artist t) in
                    let* b := v1_field_text w loc o (v_title t) in Ok (both a b)
  | None, None => Ok None
  end.
Definition guess_display_title (w : world) (loc : outcome enc) (o : m3u_opts) (v2 : list anytag) (v1 : option id3v1_tag) : outcome (option bytes) :=
  match try_title w loc o v2 v1 with
  | Throw IconvError => Ok None
  | r => r
  end.

(** src/m3u.cc:206-212: the entry.  [secs + 0.5] is cut down to a whole number; the
    fraction stands for the double (simplified: exact), which is taken
    to fit an int. *)
Definition whole_seconds (d : N * N) : N := (2 * fst d + snd d) / (2 * snd d).
Definition m3u_entry (d : N * N) (display path : bytes) : bytes :=
  B "#EXTINF:" ++ decimal (whole_seconds d) ++ B "," ++ display ++ [10] ++ path ++ [10].

(** src/m3u.cc:190-213 [process_file]: what it writes for a file with these
    contents. *)
Definition m3u_text (z : zlib) (passes : nat) (w : world) (loc : outcome enc) (o : m3u_opts) (path data : bytes) : outcome bytes :=
  fst ((do v2 <- read_all_id3v2 z passes;;
        do d <- get_mp3_duration;;
        do v1 <- process_id3v1;;
        do g <- lift (guess_display_title w loc o v2 v1);;
        sret (m3u_entry d (match g with Some s => s | None => stem path end) path)) (open_file data goodbit)).

(** The same, appended to the file that is written.  Each entry ends with a flush.
    (Errors in writing are left out; the code ignores them.) *)
Definition m3u_file (z : zlib) (passes : nat) (w : world) (loc : outcome enc) (o : m3u_opts) (cwd : bytes) (out : key) (path : bytes) : FS unit := fun fs =>
  match find_node (resolve cwd path) fs with
  | Some (File data) => (run s <- flift (m3u_text z passes w loc o path data);; append out s) fs
  | _ => fthrow IosFailure fs
  end.

(** src/m3u.cc:257-281: the constructor of [m3u_to_file], with the file opened for
    writing (the exception for failing to is told as [IosFailure]).  (The stream is handed to the base class before it is constructed;
    that is left out.) *)
Definition open_out (out : key) (app : bool) : FS unit := fun fs =>
  if is_dir fs out then fthrow IosFailure fs else
  match find_node out fs with
  | Some Dir => fthrow IosFailure fs
  | Some (File _) => if app then fret tt fs else change (set_node out (File [])) fs
  | None => if is_dir fs (removelast out) then change (set_node out (File [])) fs else fthrow IosFailure fs
  end.
Definition m3u_dst (loc : outcome enc) (utf8 : bool) : outcome enc := if utf8 then Ok E_UTF_8 else loc.

(** src/m3u.cc:388-429 [handle_m3u] with --output: the option looked up for the
    source encoding does not exist, there is never one. *)
Definition m3u_to_file (z : zlib) (passes : nat) (w : world) (loc : outcome enc) (rsp : noenc) (cwd : bytes) (entries : bytes -> list bytes)
  (src : option enc) (out : bytes) (app utf8 : bool) (args : list bytes) : FS unit :=
  run dst <- flift (m3u_dst loc utf8);;
  run _ <- open_out (resolve cwd out) app;;
  run _ <- append (resolve cwd out) (B "#EXTM3U" ++ [10]);;
  process_dirent_args cwd (m3u_file z passes w loc (mkM3u None dst rsp) cwd (resolve cwd out)) entries args.

(** The same without: what is written to standard output for the files visited. *)
Fixpoint m3u_lines (z : zlib) (passes : nat) (w : world) (loc : outcome enc) (o : m3u_opts) (files : list (bytes * bytes)) : bytes * outcome unit :=
  match files with
  | [] => ([], Ok tt)
  | (path, data) :: r =>
      match m3u_text z passes w loc o path data with
      | Ok s => let (t, x) := m3u_lines z passes w loc o r in (s ++ t, x)
      | Throw e => ([], Throw e)
      | UB u => ([], UB u)
      | NonTerm => ([], NonTerm)
      end
  end.
