(** * Model: tags and files in Scheme (scribbu/scheme.cc, scheme/scribbu.scm). *)
From Verif Require Import Base M_Ints M_Stream M_Id3v1 M_Charset M_Payload M_Cloud M_Frame M_Tag22 M_Tag23 M_Tag24 M_Lookup M_Read
  M_Fs M_Tagset M_Process M_Lang M_Scheme.
#[local] Open Scope N_scope.

(** ** ID3v2 tags *)

(** scheme.cc:72-157 [scm_from_id3v2_tag]: a list of the tag, its version and
    whether it is unsynchronised.  The padding is passed as an [unsigned int]; the
    experimental bit of an ID3v2.2 tag is left '(). *)
Definition low32 (n : N) : Z := Z.of_N (n mod 2 ^ 32).
Definition flagged (u : option bool) : bool := match u with Some b => b | None => false end.
Definition from_tag (G : guile) (z : zlib) (t : anytag) : gres scm :=
  match t with
  | A22 t => let! fs := gmap (de G z V22 (flagged (t2_unsync t))) (t2_frames t) in
             GOk (slist [SObj CTag [SNull; slist fs; SInt (low32 (t2_pad t))]; SInt 2; SBool (flagged (t2_unsync t))])
  | A23 t => let! fs := gmap (de G z V23 (flagged (t3_unsync t))) (t3_frames t) in
             GOk (slist [SObj CTag [SBool (t3_exp t); slist fs; SInt (low32 (t3_pad t))]; SInt 3; SBool (flagged (t3_unsync t))])
  | A24 t => let! fs := gmap (de G z V24 (flagged (t4_unsync t))) (t4_frames t) in
             GOk (slist [SObj CTag [SBool (t4_exp t); slist fs; SInt (low32 (t4_pad t))]; SInt 4; SBool (flagged (t4_unsync t))])
  end.

(** A tag made from a Scheme object.  The constructor of ID3v2.2 tags
    (id3v22.hh:98-99) does not initialise the padding and the compression bit. *)
Inductive made := Made (t : anytag) | Made22 (fs : list frame).

(** [scm_list_ref] with a number given. *)
Fixpoint list_ref (n : nat) (x : scm) : gres scm :=
  match x, n with
  | SPair a _, O => GOk a
  | SPair _ d, S n => list_ref n d
  | SNull, _ | SNil, _ => GRaise BadRange
  | _, _ => GRaise WrongType
  end.

(** scheme.cc:170-263 [scm_to_id3v2_tag]. *)
Definition to_tag (G : guile) (x : scm) : gres made :=
  let! tag := list_ref 0 x in
  let! ver := list_ref 1 x in
  match tag with
  | SObj CTag slots =>
      match ver with
      | SInt _ =>
          let! version := to_int ver in
          let! x0 := slot 0 slots in
          let! fexp := if is_null x0 then GOk false else to_bool x0 in
          let! x2 := slot 2 slots in
          let! cbpad := to_uint x2 in
          if (version =? 2)%Z then
            let! x1 := slot 1 slots in
            let! xs := to_list x1 in
            let! fs := gmap (ser G V22) xs in
            GOk (Made22 fs)
          else if (version =? 3)%Z then
            let! x1 := slot 1 slots in
            let! xs := to_list x1 in
            let! fs := gmap (ser G V23) xs in
            GOk (Made (A23 (mkTag23 None fexp None cbpad (map new_frame fs))))
          else if (version =? 4)%Z then
            let! x1 := slot 1 slots in
            let! xs := to_list x1 in
            let! fs := gmap (ser G V24) xs in
            GOk (Made (A24 (mkTag24 None fexp false None cbpad (map new_frame fs))))
          else GRaise BadTagVersion
      | _ => GRaise UnexpectedType
      end
  | _ => GRaise UnexpectedType
  end.

(** ** Files *)

(** A [catch (const std::exception&)] that raises 'scribbu. *)
Definition as_scribbu {A} (x : gres A) : gres A := gcatch x (GRaise ScribbuErr).

(** [open_ifstream].  (Simplified: a directory cannot be opened.) *)
Definition file_data (cwd : bytes) (fs : fsys) (p : bytes) : option bytes :=
  match find_node (resolve cwd p) fs with Some (File d) => Some d | _ => None end.

(** scheme.cc:397-439 [read-tagset]. *)
Definition read_tagset_scm (G : guile) (z : zlib) (passes : nat) (cwd : bytes) (fs : fsys) (pth : scm) : gres scm :=
  let! p := to_locale G pth in
  match file_data cwd fs p with
  | None => GRaise ScribbuErr
  | Some d =>
      match fst (read_all_id3v2 z passes (open_file d goodbit)) with
      | Ok ts => as_scribbu (let! xs := gmap (from_tag G z) ts in GOk (slist xs))
      | Throw _ => GRaise BadTag
      | UB u => GUB u
      | NonTerm => GNonTerm
      end
  end.

(** scheme.cc:278-383 [read-id3v1-tag]. *)
Definition latin_text (G : guile) (b : bytes) : gres scm :=
  let! s := glift (to_string (g_ic G) b E_ISO_8859_1 E_UTF_8 NoTranslit) in from_stringn G s.
Definition ascii_text (G : guile) (b : bytes) : gres scm :=
  let! s := glift (to_string (g_ic G) b E_ASCII E_UTF_8 NoFail) in from_stringn G s.
Definition from_v1 (G : guile) (t : id3v1_tag) : gres scm :=
  let! title := latin_text G (v_title t) in
  let! artist := latin_text G (v_artist t) in
  let! album := latin_text G (v_album t) in
  let! year := ascii_text G (v_year t) in
  let! comment := latin_text G (v_comment t) in
  let! track := if v_v1_1 t then let! n := glift (init (v_track t)) in GOk (SInt (Z.of_N n)) else GOk SNull in
  let head := [title; artist; album; year; comment; SInt (Z.of_N (v_genre t))] in
  if v_extended t then
    let! eg := ascii_text G (v_ext_genre t) in
    let! sp := glift (init (v_speed t)) in
    let! st := glift (init (v_start t)) in
    let! xst := ascii_text G st in
    let! en := glift (init (v_end t)) in
    let! xen := ascii_text G en in
    (* lines 361 to 377: slots 6 to 9 *)
    GOk (SObj CV1 (head ++ [eg; SInt (Z.of_N sp); xst; xen; SStr []]))
  else GOk (SObj CV1 (head ++ [track; SStr []; SNull; SStr []; SStr []])).
Definition read_v1_scm (G : guile) (cwd : bytes) (fs : fsys) (pth : scm) : gres scm :=
  let! p := to_locale G pth in
  match file_data cwd fs p with
  | None => GRaise ScribbuErr
  | Some d =>
      as_scribbu (let! v1 := glift (fst (process_id3v1 (open_file d goodbit))) in
                  match v1 with None => GOk SNil | Some t => from_v1 G t end)
  end.

(** An operation on files called from Scheme: the states it passes through, how it
    ends and what it leaves. *)
Definition GFS (A : Type) := fsys -> list fsys * (gres A * fsys).
Definition gfs_pure {A} (x : gres A) : GFS A := fun fs => ([], (x, fs)).
(** The C++ code [k], in a [try] block, after values have been taken from Scheme. *)
Definition gfs_run {A B} (x : gres A) (k : A -> FS B) : GFS scm := fun fs =>
  match x with
  | GOk a => match k a fs with
             | (l, (Ok _, fs')) => (l, (GOk SNull, fs'))
             | (l, (Throw _, fs')) => (l, (GRaise ScribbuErr, fs'))
             | (l, (UB u, fs')) => (l, (GUB u, fs'))
             | (l, (NonTerm, fs')) => (l, (GNonTerm, fs'))
             end
  | GRaise e => ([], (GRaise e, fs))
  | GThrow _ => ([], (GRaise ScribbuErr, fs))
  | GUB u => ([], (GUB u, fs))
  | GNonTerm => ([], (GNonTerm, fs))
  end.

(** scheme.cc:550-690 [write-id3v1-tag], up to the call of [replace_id3v1]. *)
Definition v1_put (G : guile) (mk : bytes -> v1_setter) (s : bytes) (t : id3v1_tag) : gres id3v1_tag :=
  match s with
  | [] => GOk t
  | _ => let! b := glift (to_bytes (g_ic G) s E_UTF_8 E_UTF_8 false NoFail) in GOk (v1_apply t (mk b))
  end.
Definition v1_fixed (n : N) (mk : bytes -> v1_setter) (s : bytes) (t : id3v1_tag) : gres id3v1_tag :=
  match s with
  | [] => GOk t
  | _ => if len s =? n then GOk (v1_apply t (mk s)) else GRaise MiscErr
  end.
Definition to_cstring (G : guile) (x : scm) : gres bytes := let! s := to_locale G x in GOk (c_str s).
Definition to_v1 (G : guile) (x : scm) : gres id3v1_tag :=
  match x with
  | SObj CV1 slots =>
      let! x0 := slot 0 slots in let! title := to_cstring G x0 in
      let! x1 := slot 1 slots in let! artist := to_cstring G x1 in
      let! x2 := slot 2 slots in let! album := to_cstring G x2 in
      let! x3 := slot 3 slots in let! year := if is_null x3 then GOk [] else to_cstring G x3 in
      let! x4 := slot 4 slots in let! comment := to_cstring G x4 in
      let! x5 := slot 5 slots in let! genre := to_uchar x5 in
      let! x6 := slot 6 slots in let! track := if is_null x6 then GOk 0 else to_uchar x6 in
      let! x7 := slot 7 slots in let! eg := to_cstring G x7 in
      let! x8 := slot 8 slots in let! speed := if is_null x8 then GOk 0 else to_uchar x8 in
      let! x9 := slot 9 slots in let! start := to_cstring G x9 in
      let! x10 := slot 10 slots in let! stop := to_cstring G x10 in
      let v11 := negb (track =? 0) in
      let enh := negb (len eg =? 0) || negb (speed =? 0) || negb (len start =? 0) || negb (len stop =? 0) in
      let t := v1_scratch v11 enh in
      let! t := v1_put G SetTitle title t in
      let! t := v1_put G SetArtist artist t in
      let! t := v1_put G SetAlbum album t in
      let! t := v1_fixed 4 SetYear year t in
      let! t := v1_put G SetComment comment t in
      let t := v1_apply t (SetGenre genre) in
      let t := if v11 then v1_apply t (SetTrack track) else t in
      if enh then
        let! b := glift (to_bytes (g_ic G) eg E_UTF_8 E_UTF_8 false NoFail) in
        let t := v1_apply (v1_apply t (SetEnhGenre b)) (SetSpeed speed) in
        let! t := v1_fixed 6 SetStart start t in
        v1_fixed 6 SetEnd stop t
      else GOk t
  | _ => GRaise UnexpectedType
  end.
Definition write_v1_scm (G : guile) (cwd : bytes) (tag pth : scm) : GFS scm :=
  gfs_run (let! t := to_v1 G tag in let! p := to_locale G pth in GOk (t, p))
          (fun tp => replace_v1_file (resolve cwd (snd tp)) (fst tp)).

(** scheme.cc:708-757 [write-tagset]; [unsync] and [copy] are the values of the
    keywords, #f if not given.  Writing a tag whose padding is not initialised is
    undefined. *)
Definition to_unsync (x : scm) : gres apply_unsync :=
  match x with
  | SBool true => GOk Always
  | SBool false => GOk Never
  | SSym s => if bytes_eqb s (B "as-needed") then GOk AsNeeded else GRaise UnexpectedUnsync
  | _ => GRaise UnexpectedUnsync
  end.
Fixpoint usable (ts : list made) : gres (list anytag) :=
  match ts with
  | [] => GOk []
  | Made t :: r => let! r' := usable r in GOk (t :: r')
  | Made22 _ :: _ => GUB Uninitialised
  end.
Definition write_tagset_scm (G : guile) (z : zlib) (e : env) (tags pth unsync copy : scm) : GFS scm :=
  gfs_run (let! m := to_unsync unsync in
           let! xs := to_list tags in
           let! ms := gmap (to_tag G) xs in
           let! p := to_locale G pth in
           let! ts := usable ms in
           GOk (m, ts, p))
          (fun '(m, ts, p) =>
             if is_t copy then replace_tagset_copy z e p ts m true
             else maybe_emplace_tagset z e p ts m OnlyWithFullPadding true).

(** ** Going through directories *)

(** scheme.cc:442-470: what the procedure is called with for a file; what has been
    read when an error is raised is kept. *)
Definition track_args (G : guile) (z : zlib) (passes : nat) (cwd : bytes) (fs : fsys) (pth : scm) : gres (scm * scm) :=
  match read_tagset_scm G z passes cwd fs pth with
  | GOk ts => match read_v1_scm G cwd fs pth with
              | GOk v1 => GOk (ts, v1)
              | GRaise _ => GOk (ts, SNil)
              | GThrow e => GThrow e
              | GUB u => GUB u
              | GNonTerm => GNonTerm
              end
  | GRaise _ => GOk (SNil, SNil)
  | GThrow e => GThrow e
  | GUB u => GUB u
  | GNonTerm => GNonTerm
  end.

(** scheme.cc:496-534 [with-track-in]: [entries] are the paths the iterator yields;
    [fcn] is the procedure, which may raise an error and change files.
    (Simplified: what the iterator yields does not depend on what the procedure
    does.) *)
Fixpoint with_track_in (G : guile) (z : zlib) (passes : nat) (cwd : bytes)
    (fcn : scm -> scm -> scm -> fsys -> gres unit * fsys) (entries : list bytes) (fs : fsys) : gres unit * fsys :=
  match entries with
  | [] => (GOk tt, fs)
  | p :: r =>
      match find_node (resolve cwd p) fs with
      | Some Dir => with_track_in G z passes cwd fcn r fs
      | _ =>
          match from_utf8 G p with
          | GOk pth =>
              match track_args G z passes cwd fs pth with
              | GOk (ts, v1) =>
                  match fcn ts pth v1 fs with
                  | (GOk _, fs') => with_track_in G z passes cwd fcn r fs'
                  | (x, fs') => (x, fs')
                  end
              | GRaise e => (GRaise e, fs)
              | GThrow _ => (GRaise ScribbuErr, fs)
              | GUB u => (GUB u, fs)
              | GNonTerm => (GNonTerm, fs)
              end
          | GRaise e => (GRaise e, fs)
          | GThrow _ => (GRaise ScribbuErr, fs)
          | GUB u => (GUB u, fs)
          | GNonTerm => (GNonTerm, fs)
          end
      end
  end.

(** ** Procedures written in Scheme (scheme/scribbu.scm) *)

(** [slot-ref x 'id] and [eq?] on symbols. *)
Definition slot_id (x : scm) : gres scm :=
  match x with
  | SObj c (s :: _) => if is_frame c then GOk s else GRaise MiscErr
  | _ => GRaise WrongType
  end.
Definition eq_symbol (f : bytes) (x : scm) : bool := match x with SSym s => bytes_eqb s f | _ => false end.
Definition tag_frames (x : scm) : gres scm :=
  match x with
  | SObj CTag (_ :: fs :: _) => GOk fs
  | _ => GRaise WrongType
  end.

(** scribbu.scm:295-302 [has-frame-internal], [has-frame?]. *)
Fixpoint has_frame_in (frms : scm) (f : bytes) : gres bool :=
  match frms with
  | SNull | SNil => GOk false
  | SPair a d => let! s := slot_id a in if eq_symbol f s then GOk true else has_frame_in d f
  | _ => GRaise WrongType
  end.
Definition has_frame_scm (tag : scm) (f : bytes) : gres bool :=
  let! frms := tag_frames tag in has_frame_in frms f.

(** scribbu.scm:304-312 [get-frames]; [ret] is the list so far. *)
Fixpoint get_frames_loop (frms : scm) (f : bytes) (ret : list scm) : gres (list scm) :=
  match frms with
  | SNull | SNil => GOk ret
  | SPair a d => let! s := slot_id a in get_frames_loop d f (if eq_symbol f s then ret ++ [a] else ret)
  | _ => GRaise WrongType
  end.
Definition get_frames_scm (tag : scm) (f : bytes) : gres scm :=
  let! frms := tag_frames tag in let! l := get_frames_loop frms f [] in GOk (slist l).

(** scribbu.scm:91-126 [fs-tree-generator].  A directory is the list of what
    [readdir] yields, which includes "." and ".."; the types are those [stat]
    gives.  (Simplified: [stat] and [opendir] do not fail, and there is no
    symbolic link to a directory above.)  The state is [dir-stack]: the
    paths of open directories, with what is still to be read of each. *)
Inductive dnode := NReg | NDir (l : list (bytes * dnode)) | NOther.
Definition dstack := list (bytes * list (bytes * dnode)).
Definition dot_name (n : bytes) : bool := bytes_eqb n (B ".") || bytes_eqb n (B "..").
(** The inner loop: reads on in a directory up to the next regular file; the
    directories met are appended to the stack. *)
Fixpoint read_on (pth : bytes) (l : list (bytes * dnode)) (opened : dstack)
  : option bytes * list (bytes * dnode) * dstack :=
  match l with
  | [] => (None, [], opened)
  | (n, x) :: r =>
      let full := pth ++ [47] ++ n in
      if dot_name n then read_on pth r opened
      else match x with
           | NDir l' => read_on pth r (opened ++ [(full, l')])
           | NReg => (Some full, r, opened)
           | NOther => read_on pth r opened
           end
  end.
(** One call.  Each turn of the outer loop closes a directory. *)
Fixpoint gen_next (fuel : nat) (st : dstack) : gres (option bytes * dstack) :=
  match st with
  | [] => GOk (None, [])
  | (pth, l) :: rest =>
      match fuel with
      | O => GNonTerm
      | S fuel =>
          match read_on pth l [] with
          | (Some f, l', opened) => GOk (Some f, ((pth, l') :: rest) ++ opened)
          | (None, _, opened) => gen_next fuel (rest ++ opened)
          end
      end
  end.

(** What the calls give: [n] of them. *)
Fixpoint gen_calls (fuel n : nat) (st : dstack) : gres (list (option bytes)) :=
  match n with
  | O => GOk []
  | S n => let! (r, st') := gen_next fuel st in let! l := gen_calls fuel n st' in GOk (r :: l)
  end.

(** scribbu.scm:57-89 [flat-file-system-tree].  What [file-system-tree] of Guile's
    ice-9 ftw gives: the base name, what [lstat] says, which is not used but for
    [is_dir], and the children.  A list of lists is an [nest]. *)
Inductive ftree := FNode (name : bytes) (is_dir : bool) (kids : list ftree).
Inductive nest := NStr (s : bytes) | NList (l : list nest).
Fixpoint flatten (x : nest) : list bytes :=
  match x with
  | NStr s => [s]
  | NList l => (fix go (l : list nest) : list bytes := match l with [] => [] | a :: d => flatten a ++ go d end) l
  end.
Fixpoint strip_stat (parent : bytes) (e : ftree) : nest :=
  match e with
  | FNode name _ [] => NStr (parent ++ [47] ++ name)
  | FNode name _ kids => NList (map (strip_stat (parent ++ [47] ++ name)) kids)
  end.
Definition flat_tree (parent : bytes) (t : ftree) : list bytes := flatten (strip_stat parent t).
