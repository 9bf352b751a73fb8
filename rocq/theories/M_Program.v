(** * Model: the program as a whole, from its arguments and the environment to the
    files and the exit status (src/scribbu.cc, src/rename.cc, report.cc, dump.cc, m3u.cc,
    split.cc, encodings.cc). *)
From Verif Require Import Base M_Ints M_Stream M_Id3v1 M_Payload M_Frame M_Tag22 M_Tag23 M_Tag24 M_Charset M_Encodings M_TextId M_Lookup M_Mp3 M_Track M_Read M_Fs
  M_Tagset M_Process M_Dirent M_Popm M_Cmds M_Xtag M_Options M_Split M_Csv M_Report M_Tbt M_Rename M_M3u M_Dump M_JsonDump M_CsvDump M_Outputs M_Naming M_Main M_Po.
#[local] Open Scope N_scope.

Definition as_noenc (m : varmap) (k : string) : noenc := match as_value m k with Some (VNoenc x) => x | _ => NoFail end.
Definition as_format (m : varmap) (k : string) : M_Po.format := match as_value m k with Some (VFormat f) => f | _ => FStandard end.
Definition number_or (n : N) (o : option N) : N := match o with Some x => x | None => n end.
Definition enc_or (e : enc) (o : option enc) : enc := match o with Some x => x | None => e end.

(** ** The values taken *)

(** src/rename.cc:267-287. *)
Definition rename_vars (m : varmap) : rename_vm :=
  mkRenameVm (as_switch m "dry-run") (as_text m "output") (as_switch m "rename") (as_text m "template") (given (as_texts m "arguments")).
(** src/report.cc:588-618. *)
Definition report_vars (m : varmap) : report_vm :=
  mkReportVm (N.to_nat (number_or 6 (as_num m "num-comments"))) (as_text m "output") (as_switch m "tsv") (enc_or E_CP1252 (as_enc m "v1-encoding"))
             (as_switch m "no-directory") (as_switch m "ascii-delimited") (as_switch m "no-summary") (given (as_texts m "arguments")).

(** src/m3u.cc:395-417: what is looked up for the source encoding is the option
    "encoding", and there is no such option.  The arguments may not be there. *)
Record m3u_vm := mkM3uVm { mv_source : option enc; mv_output : option bytes; mv_append : bool; mv_utf8 : bool; mv_noenc : noenc; mv_args : option (list bytes) }.
Definition m3u_vars (m : varmap) : m3u_vm :=
  mkM3uVm (as_enc m "encoding") (as_text m "output") (as_switch m "append") (as_switch m "use-utf8") (as_noenc m "on-encoding-failure") (as_texts m "arguments").

(** src/dump.cc:425-458. *)
Record dump_vm := mkDumpVm { dv_expression : option bytes; dv_format : M_Po.format; dv_parts : parts; dv_indent : N; dv_no_expand : bool; dv_v1enc : enc;
                             dv_comments : N; dv_args : list bytes }.
Definition dump_vars (m : varmap) : dump_vm :=
  mkDumpVm (as_text m "expression") (as_format m "format") (mkParts (as_switch m "id3v2-tags") (as_switch m "track-data") (as_switch m "id3v1-tags"))
           (number_or 0 (as_num m "indent")) (as_switch m "no-expand-genre") (enc_or E_CP1252 (as_enc m "v1-encoding"))
           (number_or 6 (as_num m "num-comments")) (given (as_texts m "arguments")).

Section Handlers.
  (** Besides what the other commands need: [entries] and [below] are what
      [directory_iterator] and [recursive_directory_iterator] yield, [loc] what
      [encoding_from_system_locale] answers, [stamp] the time of a file as printed,
      and [regex] the expression that [boost::regex] makes of a text. *)
  Context (z : zlib) (passes : nat) (md5 : bytes -> bytes) (e : env) (entries below : bytes -> list bytes) (w : world) (ct : ctype)
          (broken : bytes -> option nat) (blind : rfile -> outcome unit) (loc : outcome enc) (stamp : bytes -> bytes)
          (regex : bytes -> outcome (bytes -> bool)) (helped : help_level * option verbose_flavor -> N).

  Definition rename_command : list bytes -> list (bytes * bytes) -> FS N :=
    after_options rename_tables helped (fun m => rename_main z passes md5 w ct (e_cwd e) broken below (rename_vars m)).

  (** The status; the summary is left out. *)
  Definition report_command : list bytes -> list (bytes * bytes) -> FS N :=
    after_options report_tables helped (fun m => run r <- report_main z passes md5 w blind (e_cwd e) below (report_vars m);; fret (fst r)).

  (** src/m3u.cc:215-233, 418-424 without --output: the files are only read. *)
  Definition m3u_shown (dst : enc) (rsp : noenc) (path : bytes) : FS unit := fun fs =>
    match find_node (resolve (e_cwd e) path) fs with
    | Some (File data) => flift (let* _ := m3u_text z passes w loc (mkM3u None dst rsp) path data in Ok tt) fs
    | _ => fthrow IosFailure fs
    end.
  Definition m3u_to_stdout (rsp : noenc) (args : list bytes) : FS unit :=
    run dst <- flift loc;; process_dirent_args (e_cwd e) (m3u_shown dst rsp) entries args.
  (** src/m3u.cc:399-424; the path of the output is empty when there is none. *)
  Definition m3u_main (vm : m3u_vm) : FS N :=
    conclude_run
      (let out := match mv_output vm with Some p => p | None => [] end in
       let none := match out with [] => true | _ => false end in
       let& _ := (if mv_append vm && none then UsageError else proceed tt) in
       let& _ := (if mv_utf8 vm && none then UsageError else proceed tt) in
       let& args := Handled (match mv_args vm with Some l => Ok l | None => Throw BadCast end) in
       proceed (if none then m3u_to_stdout (mv_noenc vm) args
                else m3u_to_file z passes w loc (mv_noenc vm) (e_cwd e) entries (mv_source vm) out (mv_append vm) (mv_utf8 vm) args)).
  Definition m3u_command : list bytes -> list (bytes * bytes) -> FS N := after_options m3u_tables helped (fun m => m3u_main (m3u_vars m)).

  (** src/dump.cc:440-458: which printer. *)
  Definition dump_one (vm : dump_vm) : dfile -> bytes * outcome bool :=
    match dv_format vm with
    | FStandard => dump_file (mkDs (N.to_nat (dv_indent vm)) (negb (dv_no_expand vm)) (dv_v1enc vm)) z passes md5 w (dv_parts vm)
    | FCsv => dump_csv_file (dv_v1enc vm) z passes md5 w (N.to_nat (dv_comments vm)) (dv_parts vm)
    | FJson => dump_json_file (dv_v1enc vm) z passes md5 w (dv_parts vm)
    end.
  (** The files there are, as the loop (460-469) comes by them. *)
  Definition dump_file_at (fs : fsys) (p : bytes) : option dfile :=
    match find_node (resolve (e_cwd e) p) fs with Some (File data) => Some (mkDf p (stamp p) data) | _ => None end.
  Definition dump_arg_at (fs : fsys) (p : bytes) : darg :=
    if is_dir fs (resolve (e_cwd e) p) then DDir (map (dump_file_at fs) (below p))
    else match dump_file_at fs p with Some f => DFile f | None => DMissing end.
  (** What is printed, and how it ends. *)
  Definition dump_printed (vm : dump_vm) (fs : fsys) : pr :=
    match match dv_expression vm with None => Ok (fun _ => true) | Some s => regex s end with
    | Ok matches => dump_args (dump_one vm) matches (map (dump_arg_at fs) (dv_args vm))
    | Throw x => ([], Throw x)
    | UB u => ([], UB u)
    | NonTerm => ([], NonTerm)
    end.
  Definition dump_main (vm : dump_vm) : FS N := fun fs => conclude_run (proceed (flift (snd (dump_printed vm fs)))) fs.
  Definition dump_command : list bytes -> list (bytes * bytes) -> FS N := after_options dump_tables helped (fun m => dump_main (dump_vars m)).

  (** What the command prints, help and messages aside. *)
  Definition dump_says (tokens : list bytes) (vars : list (bytes * bytes)) (fs : fsys) : pr :=
    match gather dump_tables tokens vars with Handled (Ok (inr m)) => dump_printed (dump_vars m) fs | _ => ([], Ok tt) end.

  (** src/split.cc:213-216. *)
  Definition split_main (m : varmap) : FS N :=
    conclude_run (proceed (split_file (e_cwd e) (match as_text m "argument" with Some p => p | None => [] end)
                                                (match as_text m "suffix" with Some s => s | None => [] end))).
  Definition split_command : list bytes -> list (bytes * bytes) -> FS N := after_options split_tables helped split_main.

  (** src/encodings.cc:66-117: nothing is said of arguments, those there are have no
      name and are not stored.  (--help is untyped there; here it is a switch like
      the others, with no difference to what can be seen.) *)
  Definition encodings_all : list desc := [switch "help" "h"; switch "info" ""; switch "man" ""].
  Definition encodings_command (tokens : list bytes) (vars : list (bytes * bytes)) : FS N := fun fs =>
    match (let& ps := parse_tokens (List.length tokens) encodings_all tokens in
           match parsed_help (map q_tokens ps) HelpNone None with
           | (HelpNone, _) =>
               let& m := store encodings_all (filter (fun p => negb (bytes_eqb (fst p) [])) (map (fun o => (q_key o, q_words o)) ps)) nothing_stored in
               let& _ := notify encodings_all m in proceed None
           | h => proceed (Some h)
           end) with
    | Handled (Ok (Some h)) => fret (helped h) fs
    | Handled (Ok None) => fret 0 fs
    | UsageError => conclude_run UsageError fs
    | Handled (Throw x) => conclude_run (Handled (Throw x)) fs
    | Handled (UB u) => conclude_run (Handled (UB u)) fs
    | Handled NonTerm => conclude_run (Handled NonTerm) fs
    end.

  (** ** The program *)

  (** The [register_command]s: src/dump.cc:496, encodings.cc:120, genre.cc:1002, m3u.cc:431,
      popm.cc:955, rename.cc:308, report.cc:654, split.cc:233, text.cc:546 and xtag.cc:653. *)
  Definition handlers : list (bytes * (list bytes -> list (bytes * bytes) -> FS N)) :=
    [ (B "dump", dump_command); (B "encodings", encodings_command); (B "genre", genre_command z passes e entries w helped); (B "m3u", m3u_command);
      (B "popm", popm_command z passes e entries w helped); (B "rename", rename_command); (B "report", report_command); (B "split", split_command);
      (B "text", text_command z passes e entries w helped loc); (B "xtag", xtag_command z passes e entries w helped) ].

  (** src/scribbu.cc:383-481 [main]: the exit status, and what becomes of the files.
      [page] is the status of the program that shows a page, [guile] what Guile's shell
      does. *)
  Context (page : bytes -> N) (guile : list bytes -> FS N).
  Definition program (prog : bytes) (argv : list bytes) (vars : list (bytes * bytes)) : FS N := fun fs =>
    match register_all [] handlers with
    | Ok M =>
        match decide M prog argv with
        | Ok ShowVersion | Ok ShowUsage => fret 0 fs
        | Ok ShowMan => fret (page (B "man")) fs
        | Ok ShowInfo => fret (page (B "info")) fs
        | Ok (Command s rest) => match find_command M s with Some f => f rest vars fs | None => fret 1 fs end
        | Ok (Guile g) => guile g fs
        | Ok (Misused _) => fret 2 fs
        | Throw x => flift (Throw x) fs
        | UB u => flift (UB u) fs
        | NonTerm => flift NonTerm fs
        end
    | Throw x => flift (Throw x) fs
    | UB u => flift (UB u) fs
    | NonTerm => flift NonTerm fs
    end.
End Handlers.
