(** * Model: the genre and text commands, and copying a tag to another version
      (src/genre.cc, src/text.cc, src/command-utilities.cc, .hh). *)
From Verif Require Import Base M_Ints M_Stream M_Id3v1 M_Payload M_Frame M_Tag22 M_Tag23 M_Tag24 M_Charset M_TextId M_Lookup
  M_Genres M_Match M_Read M_Process M_Popm.
#[local] Open Scope N_scope.

(** What the commands depend on besides their arguments: iconv, the entry that
    [frame_map_] and [text_map_] happen to return for a key, given their entries,
    the conversion of a genre to wide characters in lower case, and the ISO 639-2
    code of the locale's language (scribbu/charsets.cc:1151-1175). *)
Record world := mkWorld { w_ic : iconv_t; w_ids : list (bytes * N) -> bytes -> N; w_texts : list (bytes * N) -> bytes -> N;
                          w_wide : bytes -> outcome (list N); w_lang : outcome bytes }.

(** ** Tags *)

Definition any_version (t : anytag) : version := match t with A22 _ => V22 | A23 _ => V23 | A24 _ => V24 end.
Definition any_frames (t : anytag) : list cframe :=
  match t with A22 t => t2_frames t | A23 t => t3_frames t | A24 t => t4_frames t end.
Definition any_set_frames (cs : list cframe) (t : anytag) : anytag :=
  match t with
  | A22 t => A22 (mkTag22 (t2_unsync t) (t2_comp t) (t2_pad t) cs)
  | A23 t => A23 (mkTag23 (t3_unsync t) (t3_exp t) (t3_ext t) (t3_pad t) cs)
  | A24 t => A24 (mkTag24 (t4_unsync t) (t4_exp t) (t4_foot t) (t4_ext t) (t4_pad t) cs)
  end.

(** The lookup tables of a tag as it has been read.  The frames of such a tag
    carry no caches. *)
Definition tables (t : anytag) : ltag := of_frames (map c_frame (any_frames t)).
Definition with_tables (st : ltag) (t : anytag) : anytag := any_set_frames (map snd (l_frames st)) t.

(** [text] of a tag by kind, read and set, with the default arguments but for the
    encoding of what is set: scribbu/id3v22.cc:349-371, id3v23.cc:727-749,
    id3v24.cc:802-824. *)
Definition tag_text (w : world) (v : version) (k : tframe) (st : ltag) : outcome bytes :=
  let* id := frame_id_of v k in get_text v (w_ic w) (w_texts w (l_texts st) id) st id E_UTF_8 NoFail.
Definition tag_set_text (w : world) (v : version) (k : tframe) (s : bytes) (src : enc) (st : ltag) : outcome ltag :=
  let* id := frame_id_of v k in set_text_frame v (w_ic w) (w_texts w (l_texts st) id) id s src false NoFail st.

(** ** Copying a tag to another version *)

(** scribbu/id3v1.cc:160-300: the text of a field, with the default arguments. *)
Definition v1_text (w : world) (field : bytes) : outcome bytes := to_string (w_ic w) field E_ASCII E_UTF_8 NoFail.

(** [if (text.length()) p->text(k, text)]. *)
Definition copy_text (w : world) (k : tframe) (field : bytes) (st : ltag) : outcome ltag :=
  let* s := v1_text w field in
  match s with [] => Ok st | _ => tag_set_text w V23 k s E_UTF_8 st end.

(** scribbu/id3v23.cc:685-705 [add_comment] with the default arguments, and
    framesv2.cc:893-958. *)
Definition tag_add_comment (w : world) (s : bytes) (st : ltag) : outcome ltag :=
  let* lang := w_lang w in
  let* b := to_bytes (w_ic w) s E_UTF_8 E_ISO_8859_1 false NoFail in
  add_comment V23 no_flags (make_comm V23 lang uni_no b []) st.

(** src/command-utilities.cc:428-456 [copy_id3_v1]: the frames; the tag is one
    from scratch with 1024 bytes of padding. *)
Definition copy_v1_frames (w : world) (t : id3v1_tag) : outcome ltag :=
  let* st := copy_text w tf_tpe1 (v_artist t) empty_ltag in
  let* st := copy_text w tf_tit2 (v_title t) st in
  let* st := copy_text w tf_talb (v_album t) st in
  let* s := v1_text w (v_comment t) in
  let* st := match s with [] => Ok st | _ => tag_add_comment w s st end in
  let* st := if v_genre t <? 192 then
               match text_for_genre (v_genre t) with
               | Some g => tag_set_text w V23 tf_tcon g E_UTF_8 st
               | None => UB NullDeref
               end
             else Ok st in
  let* s := v1_text w (v_year t) in
  if len s =? 4 then tag_set_text w V23 tf_tyer s E_UTF_8 st else Ok st.

(** [id3v2_3_tag(1024)]: scribbu/id3v23.cc:396-409, id3v2.hh:650-652. *)
Definition scratch23 (st : ltag) : anytag := A23 (mkTag23 None false None 1024 (map snd (l_frames st))).

(** src/command-utilities.hh:437-451 [find_frame]: a tag without such a frame makes
    it throw. *)
Fixpoint find_frame (w : world) (k : tframe) (ts : list anytag) : outcome (option bytes) :=
  match ts with
  | [] => Ok None
  | t :: r => let* s := tag_text w (any_version t) k (tables t) in
              match s with [] => find_frame w k r | _ => Ok (Some s) end
  end.
(** 453-471 [find_year]. *)
Fixpoint find_year (w : world) (ts : list anytag) : outcome (option bytes) :=
  match ts with
  | [] => Ok None
  | t :: r => let* s := tag_text w (any_version t) tf_tyer (tables t) in
              if len s =? 4 then Ok (Some s) else find_year w r
  end.
(** 473-506 [find_content_type]: the number of the closest genre of all; [best] is
    [None] where [best_dl] is [SIZE_MAX]. *)
Fixpoint find_genre (w : world) (ts : list anytag) (best : option (N * Z)) : outcome (option N) :=
  match ts with
  | [] => Ok (option_map fst best)
  | t :: r =>
      let* s := tag_text w (any_version t) tf_tcon (tables t) in
      match s with
      | [] => find_genre w r best
      | _ => let* (_, i, d) := match_genre (w_wide w) s in
             let better := match best with None => true | Some (_, e) => (d <? e)%Z end in
             find_genre w r (if better then Some (i, d) else best)
      end
  end.

(** scribbu/id3v1.hh:316-325 and the like: a field set from UTF-8 to UTF-8. *)
Definition v1_set_utf8 (w : world) (mk : bytes -> v1_setter) (s : option bytes) (t : id3v1_tag) : outcome id3v1_tag :=
  match s with
  | None => Ok t
  | Some s => let* b := to_bytes (w_ic w) s E_UTF_8 E_UTF_8 false NoFail in Ok (v1_apply t (mk b))
  end.
(** src/command-utilities.hh:509-537 [copy_id3_v2]. *)
Definition copy_id3_v2 (w : world) (ts : list anytag) : outcome id3v1_tag :=
  let t := v1_scratch false false in
  let* s := find_frame w tf_talb ts in
  let* t := v1_set_utf8 w SetAlbum s t in
  let* s := find_frame w tf_tpe1 ts in
  let* t := v1_set_utf8 w SetArtist s t in
  let* s := find_frame w tf_tit2 ts in
  let* t := v1_set_utf8 w SetTitle s t in
  let* s := find_year w ts in
  let t := match s with Some y => v1_apply t (SetYear y) | None => t end in
  let* g := find_genre w ts None in
  Ok (match g with Some i => v1_apply t (SetGenre i) | None => t end).

(** ** The genre command *)

(** [genre_] and [content_type_] of src/genre.cc:297-298. *)
Record genre_choice := mkGenre { gc_number : N; gc_text : bytes }.

(** src/genre.cc:509-555 [textual_genre_for_args]: whether the text is to be
    matched; 255 is [UNDEFINED_GENRE].  The flag is not set when only a number is
    given, and then not used. *)
Definition textual_genre (winamp : N) (close free : bytes) : outcome (bytes * bool) :=
  match negb (winamp =? 255), close, free with
  | true, [], [] => Ok ([], false)
  | false, _ :: _, [] => Ok (close, true)
  | false, [], _ :: _ => Ok (free, false)
  | _, _, _ => Throw BadOperation
  end.

(** src/genre.cc:173-272, the constructors, as called by [genre] (684-755). *)
Definition make_genre (w : world) (winamp v1 : N) (text : bytes) (best : bool) : outcome genre_choice :=
  if negb (winamp =? 255) then
    match text_for_genre winamp with
    | Some s => Ok (mkGenre winamp s)
    | None => Throw BadOperation
    end
  else
    let* (s, i, _) := match_genre (w_wide w) text in
    Ok (if best then mkGenre i s else mkGenre (if v1 =? 255 then i else v1) text).

(** src/genre.cc:922-930: the number on the command line; the text arguments are
    taken to be in UTF-8 already. *)
Definition genre_for_args (w : world) (number : option N) (close free : bytes) (v1 : option N) : outcome genre_choice :=
  let* winamp := match number with
                 | None => Ok 255
                 | Some n => if n <? 192 then Ok n else Throw BadOperation
                 end in
  let* (text, best) := textual_genre winamp close free in
  make_genre w winamp (match v1 with Some n => n | None => 255 end) text best.

(** src/genre.cc:562-610 [tag_scope_policies_for_args]. *)
Definition scope_for_args (v1_only v2_only : bool) (tags : list N) : outcome (v2_scope * bool) :=
  match v1_only, v2_only, tags with
  | false, false, [] => Ok (TagsAll, true)
  | true, false, [] => Ok (TagsNone, true)
  | false, true, [] => Ok (TagsAll, false)
  | false, false, _ => Ok (TagsSome tags, true)
  | false, true, _ => Ok (TagsSome tags, false)
  | _, _, _ => Throw BadOperation
  end.
(** src/genre.cc:612-681 [tag_creation_policies_for_args]. *)
Definition creation_for_args (v2 v2_always v1 v1_always : bool) : outcome (v2_creation * v1_creation) :=
  match v2_always, v2, v1_always, v1 with
  | false, false, false, false => Ok (V2Never, V1Never)
  | false, false, false, true => Ok (V2Never, V1WhenV2Present)
  | false, false, true, false => Ok (V2Never, V1Always)
  | false, true, false, false => Ok (V2WhenV1Present, V1Never)
  | false, true, false, true => Ok (V2WhenV1Present, V1WhenV2Present)
  | false, true, true, false => Ok (V2WhenV1Present, V1Always)
  | true, false, false, false => Ok (V2Always, V1Never)
  | true, false, false, true => Ok (V2Always, V1WhenV2Present)
  | true, false, true, false => Ok (V2Always, V1Always)
  | _, _, _, _ => Throw BadOperation
  end.

(** src/genre.cc:351-363 [process_v1]. *)
Definition genre_v1 (w : world) (g : genre_choice) (t : id3v1_tag) : outcome (bool * id3v1_tag) :=
  let t := v1_apply t (SetGenre (gc_number g)) in
  if v_extended t then
    match text_for_genre (gc_number g) with
    | Some s => let* b := to_bytes (w_ic w) s E_UTF_8 E_ASCII false NoFail in Ok (true, v1_apply t (SetEnhGenre b))
    | None => Ok (true, t)
    end
  else Ok (true, t).

(** src/genre.cc:365-396 [process_v2]. *)
Definition genre_tables (w : world) (v : version) (g : genre_choice) (st : ltag) : outcome (bool * ltag) :=
  let* s := tag_text w v tf_tcon st in
  if bytes_eqb s (gc_text g) then Ok (false, st)
  else let* st' := tag_set_text w v tf_tcon (gc_text g) E_UTF_8 st in Ok (true, st').

(** src/genre.cc:313-349: the new tags. *)
Definition genre_processor (w : world) (g : genre_choice) : processor unit :=
  mkProc unit
    (fun _ ts => let* t := copy_id3_v2 w ts in Ok (Some (v1_apply t (SetGenre (gc_number g))), tt))
    (fun _ => Ok (Some (v1_apply (v1_scratch false false) (SetGenre (gc_number g))), tt))
    (fun _ t => let* st := copy_v1_frames w t in
                let* st := tag_set_text w V23 tf_tcon (gc_text g) E_UTF_8 st in Ok (Some (scratch23 st), tt))
    (fun _ => let* st := tag_set_text w V23 tf_tcon (gc_text g) E_UTF_8 empty_ltag in Ok (Some (scratch23 st), tt))
    (fun _ t => let* (d, t') := genre_v1 w g t in Ok (d, t', tt))
    (fun _ t => let* (d, st) := genre_tables w (any_version t) g (tables t) in Ok (d, with_tables st t, tt)).

(** ** The text command *)

(** src/text.cc:181-190: the frames to delete, in order, the texts to set, in the
    order of the enumeration, and their encoding. *)
Record text_opts := mkTextOpts { to_dels : list tframe; to_sets : list (tframe * bytes); to_enc : enc }.

Fixpoint delete_all (w : world) (v : version) (ks : list tframe) (st : ltag) : outcome ltag :=
  match ks with
  | [] => Ok st
  | k :: r => let* id := frame_id_of v k in
              let* st' := delete_frame v (w_ids w (l_ids st) id) k st in delete_all w v r st'
  end.
Fixpoint set_all (w : world) (v : version) (src : enc) (xs : list (tframe * bytes)) (st : ltag) : outcome ltag :=
  match xs with
  | [] => Ok st
  | (k, s) :: r => let* st' := tag_set_text w v k s src st in set_all w v src r st'
  end.
(** src/text.cc:294-318 [process_tag]. *)
Definition text_tables (w : world) (v : version) (o : text_opts) (st : ltag) : outcome ltag :=
  let* st := delete_all w v (to_dels o) st in set_all w v (to_enc o) (to_sets o) st.

(** src/text.cc:228-271 [process_v1]; the number of changes stays nought. *)
Definition text_field (w : world) (src : enc) (k : tframe) (s : bytes) (t : id3v1_tag) : outcome id3v1_tag :=
  match match k with tf_tit2 => Some SetTitle | tf_tpe1 => Some SetArtist | tf_talb => Some SetAlbum | _ => None end with
  | None => Ok t
  | Some mk => let* b := to_bytes (w_ic w) s src E_ASCII false NoFail in Ok (v1_apply t (mk b))
  end.
Fixpoint text_fields (w : world) (src : enc) (xs : list (tframe * bytes)) (t : id3v1_tag) : outcome id3v1_tag :=
  match xs with
  | [] => Ok t
  | (k, s) :: r => let* t' := text_field w src k s t in text_fields w src r t'
  end.
Definition text_v1 (w : world) (o : text_opts) (t : id3v1_tag) : outcome (bool * id3v1_tag) :=
  let* t := text_fields w E_UTF_8 (map (fun k => (k, [])) (to_dels o)) t in
  let* t := text_fields w (to_enc o) (to_sets o) t in
  Ok (false, t).

(** src/text.cc:193-226 and 273-292. *)
Definition text_processor (w : world) (o : text_opts) : processor unit :=
  mkProc unit
    (fun _ _ => Throw BadOperation)
    (fun _ => Throw BadOperation)
    (fun _ t => let* st := copy_v1_frames w t in let* st := text_tables w V23 o st in Ok (Some (scratch23 st), tt))
    (fun _ => let* st := text_tables w V23 o empty_ltag in Ok (Some (scratch23 st), tt))
    (fun _ t => let* (d, t') := text_v1 w o t in Ok (d, t', tt))
    (fun _ t => let* st := text_tables w (any_version t) o (tables t) in Ok (true, with_tables st t, tt)).

(** src/text.cc:105-152 and 500-526: the policies. *)
Definition text_policies (tags : list N) (create_v2 always_v2 adjust backups : bool) : outcome policies :=
  let* c := match always_v2, create_v2 with
            | true, true => Throw BadOperation
            | false, true => Ok V2WhenV1Present
            | true, false => Ok V2Always
            | false, false => Ok V2Never
            end in
  Ok match tags with
     | [] => mkPol TagsAll false c V1Never false adjust backups
     | _ => mkPol (TagsSome tags) true c V1Never false adjust backups
     end.

(** ** The popm command *)

(** src/popm.cc:460-527: the virtual functions.  Those that the policies given to
    the base class (182-231) leave uncalled throw a number. *)
Definition popm_policies (tags : list N) (c : v2_creation) (dry adjust backups : bool) : policies :=
  mkPol (match tags with [] => TagsAll | _ => TagsSome tags end) false c V1Never dry adjust backups.
Definition popm_processor (w : world) (o : popm_opts) (create : bool) : processor unit :=
  mkProc unit
    (fun _ _ => Throw BadOperation)
    (fun _ => Throw BadOperation)
    (fun _ t => let* st := copy_v1_frames w t in
                let* (_, cs) := popm_tag (w_ic w) V23 o true (map snd (l_frames st)) in
                Ok (Some (A23 (mkTag23 None false None 1024 cs)), tt))
    (fun _ => let* (_, cs) := popm_tag (w_ic w) V23 o true [] in Ok (Some (A23 (mkTag23 None false None 1024 cs)), tt))
    (fun _ _ => Throw BadOperation)
    (fun _ t => let* (d, t') := popm_v2 (w_ic w) o create t in Ok (d, t', tt)).
