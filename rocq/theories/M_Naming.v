(** * Model: the rename command from its options and the files' tags to the new
      names (src/rename.cc:169-305, scribbu/id3v2-utils.cc:98-138). *)
From Verif Require Import Base M_Ints M_Stream M_Id3v1 M_Payload M_Frame M_Tag22 M_Tag23 M_Tag24 M_Charset M_TextId M_Lookup M_Mp3 M_Track M_Read
  M_Fs M_Tagset M_Process M_Cmds M_Csv M_Report M_Split M_Rename M_Dirent M_Options M_Tbt.
#[local] Open Scope N_scope.

(** The frames that templates look at: scribbu/id3v22.hh:140-208, id3v23.hh:247-311,
    id3v24.hh:280-344. *)
Definition album_id (v : version) : bytes := match v with V22 => B "TAL" | _ => B "TALB" end.
Definition performer_id (v : version) : bytes := match v with V22 => B "TP1" | _ => B "TPE1" end.
Definition content_id (v : version) : bytes := match v with V22 => B "TCO" | _ => B "TCON" end.
Definition name_id (v : version) : bytes := match v with V22 => B "TT2" | _ => B "TIT2" end.
Definition encoder_id (v : version) : bytes := match v with V22 => B "TEN" | _ => B "TENC" end.
Definition date_id (v : version) : bytes := match v with V22 => B "TYE" | _ => B "TYER" end.

(** [if (pid3v2->has_x()) v2 = pid3v2->x()]: scribbu/tbt-support.cc:446-449, and so
    on. *)
Definition text_if_any (w : world) (t : anytag) (id : bytes) : outcome (option bytes) :=
  let T := tables t in
  if has_frame T id =? 0 then Ok None
  else let* s := get_text (any_version t) (w_ic w) (w_texts w (l_texts T) id) T id E_UTF_8 NoFail in Ok (Some s).

(** Simplification: all six texts are converted before the first term is evaluated,
    where the code converts each when a term asks for it. *)
Definition texts_of (w : world) (t : anytag) : outcome v2texts :=
  let v := any_version t in
  let* al := text_if_any w t (album_id v) in
  let* ar := text_if_any w t (performer_id v) in
  let* co := text_if_any w t (content_id v) in
  let* ti := text_if_any w t (name_id v) in
  let* en := text_if_any w t (encoder_id v) in
  let* ye := text_if_any w t (date_id v) in
  Ok (mkV2 al ar co ti en ye).
Definition fields_of (t : id3v1_tag) : v1texts :=
  mkV1t (v_album t) (v_artist t) (v_title t) (v_year t) (v_genre t) (v_ext_genre t).

(** scribbu/id3v2-utils.cc:126-133: what is read of a file.  (The same as for
    reports, src/report.cc:386-396.) *)
Definition context_of (z : zlib) (passes : nat) (md5 : bytes -> bytes) (w : world) (name data : bytes) : outcome context :=
  let* (v2, tr, v1) := report_read z passes md5 data in
  let* T := match v2 with Some (_, t) => let* T := texts_of w t in Ok (Some T) | None => Ok None end in
  Ok (mkContext name (len data) (tr_md5 tr) T (option_map fields_of v1)).

(** What boost::program_options makes of the command line and the environment:
    src/rename.cc:206-224, 250-260. *)
Record rename_vm := mkRenameVm {
  nv_dry : bool; nv_output : option bytes; nv_rename : bool; nv_template : option bytes; nv_args : list bytes }.
Definition default_template : bytes := B "%A - %T.mp3".
Definition given_template (vm : rename_vm) : bytes := match nv_template vm with Some t => t | None => default_template end.
Definition given_output (vm : rename_vm) : bytes := match nv_output vm with Some d => d | None => [] end.

Section Rename.
  Context (z : zlib) (passes : nat) (md5 : bytes -> bytes) (w : world) (ct : ctype) (cwd : bytes)
          (broken : bytes -> option nat) (entries : bytes -> list bytes).

  (** scribbu/id3v2-utils.cc:122-138 [template_processor::operator()]. *)
  Definition new_name (l : list term) (fs : fsys) (p : bytes) : outcome bytes :=
    match find_node (resolve cwd p) fs with
    | Some (File data) =>
        let* c := context_of z passes md5 w (filename (absolute cwd p)) data in process ct (w_ic w) c l
    | _ => Throw IosFailure
    end.

  Definition rename_options (vm : rename_vm) : ropts := mkRopts (given_output vm) (nv_dry vm) (nv_rename vm).

  (** src/rename.cc:169-305 [handle_rename], without --help and the like.  The
      scanner is in its initial state, as the program parses one template. *)
  Definition rename_main (vm : rename_vm) : FS N :=
    conclude_run
      (let& _ := required (nv_args vm) in
       let& l := Handled (fst (template_processor Init (given_template vm))) in
       proceed (rename_args cwd (new_name l) broken (rename_options vm) entries (nv_args vm))).
End Rename.
