(** * Specification: sessions, that is command lines one after the other. *)
From Verif Require Import Base M_Payload M_Cloud M_Frame M_TextId M_Genres M_Fs M_Tagset M_Process M_Charset M_Id3v1 M_Lookup M_Read M_Popm M_Cmds M_Xtag M_Options M_Split S_Read S_Effect S_Options S_Split S_Main M_Po S_Po M_Program S_Program S_Asked S_History S_Many.
#[local] Open Scope N_scope.

(** The line with these arguments, in this environment, is one for that request. *)
Definition means (argv : list bytes) (vars : list (bytes * bytes)) (r : request) : Prop :=
  match r with
  | Plays vm _ => exists rest cl, runs "popm" rest argv /\ S_Program.in_order popm_tables rest cl vars /\ popm_asks cl vars vm
  | Texts vm _ => exists rest cl, runs "text" rest argv /\ S_Program.in_order text_tables rest cl vars /\ text_asks cl vars vm
  | Genre vm _ _ => exists rest cl, runs "genre" rest argv /\ S_Program.in_order genre_tables rest cl vars /\ genre_asks cl vars vm
  | Clouds vm _ _ => exists rest cl, runs "xtag" rest argv /\ S_Program.in_order xtag_tables rest cl vars /\ xtag_asks cl vars vm
  end.

(** Sub-commands, by name. *)
Definition sub_commands : list string :=
  ["dump"; "encodings"; "genre"; "m3u"; "popm"; "rename"; "report"; "split"; "text"; "xtag"]%string.

(** Lines that are not to change the file at [path]: those that only show something, dry
    runs, those whose output goes to another file. *)
Inductive looks (cwd path : bytes) (argv : list bytes) (vars : list (bytes * bytes)) (fs : fsys) : Prop :=
| Shows name rest : In name ["dump"; "encodings"]%string -> runs name rest argv -> looks cwd path argv vars fs
| Lists rest cl : runs "m3u" rest argv -> line m3u_tables rest cl -> ~ has_option "output" cl -> looks cwd path argv vars fs
| Dry name T rest : In (name, T) [("popm", popm_tables); ("genre", genre_tables); ("rename", rename_tables)]%string ->
    runs name rest argv -> dry_asked T rest vars -> looks cwd path argv vars fs
| Elsewhere name T rest cl p : In (name, T) [("report", report_tables); ("m3u", m3u_tables)]%string -> runs name rest argv -> line T rest cl ->
    In (B "output", [p]) cl -> p <> [] -> no_blank p -> hd 0 p <> 34 -> resolve cwd path <> resolve cwd p -> looks cwd path argv vars fs
| Pieces rest cl s data : runs "split" rest argv -> S_Program.in_order split_tables rest cl vars ->
    worth split_tables cl vars (demanded KText "argument" "") (Some (VText path)) -> worth split_tables cl vars (defaulting KText (VText []) "suffix" "") (Some (VText s)) ->
    find_node (resolve cwd path) fs = Some (File data) -> len data < 2 ^ 63 -> ~ In 47 s -> no_piece cwd s (resolve cwd path) -> looks cwd path argv vars fs.

(** The lines [ls], run one after the other.  Those that are for a request, [rs] in all, are
    run successfully, on a file whose tags can take it and be saved then; they may be for
    other files as well, that do not get in the way.  The other lines, which may be for other
    files, may fail.  Between the lines the file may be copied, linked, looked at, but is not changed. *)
Inductive session (program : list bytes -> list (bytes * bytes) -> FS N) (z : zlib) (passes : nat) (e : env) (entries : bytes -> list bytes) (w : world) (loc : outcome enc) (path a : bytes)
    : list (list bytes * list (bytes * bytes)) -> list request -> fsys -> fsys -> Prop :=
| Opened fs : session program z passes e entries w loc path a [] [] fs fs
| Left_alone ls rs fs fs1 fs' : find_node (resolve (e_cwd e) path) fs1 = find_node (resolve (e_cwd e) path) fs ->
    session program z passes e entries w loc path a ls rs fs1 fs' -> session program z passes e entries w loc path a ls rs fs fs'
| Changed argv vars r ls rs fs st fs1 fs' : means argv vars r -> asks w loc path r ->
    (forall v2 v1, S_Effect.in_order z passes (resolve (e_cwd e) path) a fs v2 v1 -> fits (w_ic w) r v2 v1 /\ can_be_saved z w loc (resolve (e_cwd e) path) fs r v2 v1) ->
    program argv vars fs = (st, (Ok 0, fs1)) -> moderate (resolve (e_cwd e) path) fs1 ->
    session program z passes e entries w loc path a ls rs fs1 fs' -> session program z passes e entries w loc path a ((argv, vars) :: ls) (r :: rs) fs fs'
| Shared argv vars r ls rs fs st fs1 fs' : means argv vars r -> In path (arguments r) -> S_Many.apart e fs (arguments r) -> asks w loc path (only path r) ->
    (forall v2 v1, S_Effect.in_order z passes (resolve (e_cwd e) path) a fs v2 v1 -> fits (w_ic w) r v2 v1 /\ can_be_saved z w loc (resolve (e_cwd e) path) fs (only path r) v2 v1) ->
    program argv vars fs = (st, (Ok 0, fs1)) -> moderate (resolve (e_cwd e) path) fs1 ->
    session program z passes e entries w loc path a ls rs fs1 fs' -> session program z passes e entries w loc path a ((argv, vars) :: ls) (only path r :: rs) fs fs'
| Others argv vars r ls rs fs st o fs1 fs' : means argv vars r ->
    (forall p, files e entries (arguments r) fs p -> well_named e p /\ ~ may_touch e p (resolve (e_cwd e) path)) ->
    (forall p q, files e entries (arguments r) fs p -> dirs e entries (arguments r) fs q -> ~ may_touch e p (resolve (e_cwd e) q)) ->
    program argv vars fs = (st, (o, fs1)) ->
    session program z passes e entries w loc path a ls rs fs1 fs' -> session program z passes e entries w loc path a ((argv, vars) :: ls) rs fs fs'
| Looked argv vars ls rs fs st o fs1 fs' : looks (e_cwd e) path argv vars fs -> program argv vars fs = (st, (o, fs1)) ->
    session program z passes e entries w loc path a ls rs fs1 fs' -> session program z passes e entries w loc path a ((argv, vars) :: ls) rs fs fs'
| Refused argv vars name rest ls rs fs st fs1 fs' : In name sub_commands -> runs name rest argv -> program argv vars fs = (st, (Ok 2, fs1)) ->
    session program z passes e entries w loc path a ls rs fs1 fs' -> session program z passes e entries w loc path a ((argv, vars) :: ls) rs fs fs'.
