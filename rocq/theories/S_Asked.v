(** * Specification: what is asked for, option by option. *)
From Verif Require Import Base M_Charset M_Fs M_Tagset M_Options M_Outputs M_Naming M_Split M_Dump M_Po S_Po M_Program.
#[local] Open Scope N_scope.

(** The option of this name has this value, from the command line, the environment or
    by default. *)
Definition gives (T : tables) (cl : parsed) (vars : list (bytes * bytes)) (k : string) (v : option value) : Prop :=
  exists d, In d (t_all T) /\ d_long d = B k /\ worth T cl vars d v.

Section Asks.
  Context (cl : parsed) (vars : list (bytes * bytes)).
  Notation switched T k b := (gives T cl vars k (Some (VSwitch b))).
  Notation text_of T k o := (gives T cl vars k (option_map VText o)).
  Notation number_of T k o := (gives T cl vars k (option_map VNum o)).

  Definition popm_asks (vm : popm_vm) : Prop :=
    switched popm_tables "adjust-unsync" (pv_adjust vm) /\ switched popm_tables "always-create-v2" (pv_always vm) /\ switched popm_tables "create-backups" (pv_backups vm) /\
    switched popm_tables "create-frame" (pv_frame vm) /\ switched popm_tables "create-v2" (pv_create vm) /\ switched popm_tables "dry-run" (pv_dry vm) /\
    switched popm_tables "playcount-only" (pv_pcnt_only vm) /\ switched popm_tables "popularimeter-only" (pv_popm_only vm) /\
    number_of popm_tables "increment" (pv_increment vm) /\ number_of popm_tables "count" (pv_count vm) /\ text_of popm_tables "owner" (pv_owner vm) /\
    gives popm_tables cl vars "tag" (option_map VNums (pv_tag vm)) /\ text_of popm_tables "rating" (pv_rating vm) /\
    gives popm_tables cl vars "arguments" (Some (VTexts (pv_args vm))).
  Definition xtag_asks (vm : xtag_vm) : Prop :=
    switched xtag_tables "adjust-unsync" (xv_adjust vm) /\ switched xtag_tables "always-create-v2" (xv_always vm) /\ switched xtag_tables "create-frame" (xv_frame vm) /\
    switched xtag_tables "create-backups" (xv_backups vm) /\ switched xtag_tables "create-v2" (xv_create vm) /\ switched xtag_tables "dry-run" (xv_dry vm) /\
    switched xtag_tables "get" (xv_get vm) /\ switched xtag_tables "merge" (xv_merge vm) /\ text_of xtag_tables "owner" (xv_owner vm) /\
    gives xtag_tables cl vars "tag" (option_map VNums (xv_tag vm)) /\ text_of xtag_tables "xtags" (xv_xtags vm) /\
    gives xtag_tables cl vars "arguments" (Some (VTexts (xv_args vm))).
  Definition text_asks (vm : text_vm) : Prop :=
    switched text_tables "adjust-unsync" (tv_adjust vm) /\ switched text_tables "always-create-v2" (tv_always vm) /\ switched text_tables "create-v2" (tv_create vm) /\
    switched text_tables "create-backups" (tv_backups vm) /\ gives text_tables cl vars "encoding" (option_map VEnc (tv_encoding vm)) /\
    text_of text_tables "album" (tv_album vm) /\ text_of text_tables "artist" (tv_artist vm) /\ text_of text_tables "encoded-by" (tv_encoded_by vm) /\
    text_of text_tables "genre" (tv_genre vm) /\ text_of text_tables "title" (tv_title vm) /\ text_of text_tables "track" (tv_track vm) /\ text_of text_tables "year" (tv_year vm) /\
    gives text_tables cl vars "delete" (option_map VTexts (tv_delete vm)) /\ gives text_tables cl vars "tag" (option_map VNums (tv_tag vm)) /\
    gives text_tables cl vars "arguments" (Some (VTexts (tv_args vm))).
  Definition genre_asks (vm : genre_vm) : Prop :=
    switched genre_tables "adjust-unsync" (gv_adjust vm) /\ switched genre_tables "always-create-v2" (gv_always_v2 vm) /\ switched genre_tables "always-create-v1" (gv_always_v1 vm) /\
    switched genre_tables "create-backups" (gv_backups vm) /\ switched genre_tables "create-v2" (gv_create_v2 vm) /\ switched genre_tables "create-v1" (gv_create_v1 vm) /\
    switched genre_tables "dry-run" (gv_dry vm) /\ switched genre_tables "list-winamp-genres" (gv_list vm) /\ switched genre_tables "v1-only" (gv_v1_only vm) /\
    switched genre_tables "v2-only" (gv_v2_only vm) /\ number_of genre_tables "winamp" (gv_winamp vm) /\ text_of genre_tables "genre" (gv_genre vm) /\
    text_of genre_tables "Genre" (gv_Genre vm) /\ number_of genre_tables "v1" (gv_v1 vm) /\ gives genre_tables cl vars "tag" (option_map VNums (gv_tag vm)) /\
    gives genre_tables cl vars "arguments" (Some (VTexts (gv_args vm))).
  Definition rename_asks (vm : rename_vm) : Prop :=
    switched rename_tables "dry-run" (nv_dry vm) /\ text_of rename_tables "output" (nv_output vm) /\ switched rename_tables "rename" (nv_rename vm) /\
    text_of rename_tables "template" (nv_template vm) /\ gives rename_tables cl vars "arguments" (Some (VTexts (nv_args vm))).
  Definition report_asks (vm : report_vm) : Prop :=
    gives report_tables cl vars "num-comments" (Some (VNum (N.of_nat (rv_comments vm)))) /\ text_of report_tables "output" (rv_output vm) /\
    switched report_tables "tsv" (rv_tsv vm) /\ gives report_tables cl vars "v1-encoding" (Some (VEnc (rv_v1enc vm))) /\ switched report_tables "no-directory" (rv_no_dir vm) /\
    switched report_tables "ascii-delimited" (rv_ascii vm) /\ switched report_tables "no-summary" (rv_no_summary vm) /\
    gives report_tables cl vars "arguments" (Some (VTexts (rv_args vm))).
  (** The source encoding makes no difference (C96). *)
  Definition m3u_asks (out : option bytes) (app utf8 : bool) (rsp : noenc) (args : list bytes) : Prop :=
    text_of m3u_tables "output" out /\ switched m3u_tables "append" app /\ switched m3u_tables "use-utf8" utf8 /\
    gives m3u_tables cl vars "on-encoding-failure" (Some (VNoenc rsp)) /\ gives m3u_tables cl vars "arguments" (Some (VTexts args)).
  Definition dump_asks (vm : dump_vm) : Prop :=
    text_of dump_tables "expression" (dv_expression vm) /\ gives dump_tables cl vars "format" (Some (VFormat (dv_format vm))) /\
    switched dump_tables "id3v2-tags" (p_v2 (dv_parts vm)) /\ switched dump_tables "track-data" (p_track (dv_parts vm)) /\ switched dump_tables "id3v1-tags" (p_v1 (dv_parts vm)) /\
    gives dump_tables cl vars "indent" (Some (VNum (dv_indent vm))) /\ switched dump_tables "no-expand-genre" (dv_no_expand vm) /\
    gives dump_tables cl vars "v1-encoding" (Some (VEnc (dv_v1enc vm))) /\ gives dump_tables cl vars "num-comments" (Some (VNum (dv_comments vm))) /\
    gives dump_tables cl vars "arguments" (Some (VTexts (dv_args vm))).
End Asks.

(** What there is at a path: a file, or a directory with what is below it. *)
Definition file_there (cwd : bytes) (stamp : bytes -> bytes) (fs : fsys) (p : bytes) (o : option dfile) : Prop :=
  match find_node (resolve cwd p) fs with Some (File data) => o = Some (mkDf p (stamp p) data) | _ => o = None end.
Inductive stands_at (cwd : bytes) (stamp : bytes -> bytes) (below : bytes -> list bytes) (fs : fsys) (p : bytes) : darg -> Prop :=
| there_file f : is_dir fs (resolve cwd p) = false -> file_there cwd stamp fs p (Some f) -> stands_at cwd stamp below fs p (DFile f)
| there_dir l : is_dir fs (resolve cwd p) = true -> Forall2 (file_there cwd stamp fs) (below p) l -> stands_at cwd stamp below fs p (DDir l).
