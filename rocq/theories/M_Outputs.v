(** * Model: the report command from its options to the output file
      (src/report.cc:470-651). *)
From Verif Require Import Base M_Ints M_Stream M_Id3v1 M_Payload M_Frame M_Tag22 M_Tag23 M_Tag24 M_Charset M_Lookup M_Mp3 M_Track M_Read
  M_Fs M_Tagset M_Process M_Cmds M_Csv M_Report M_Split M_Rename M_Dirent M_Options.
#[local] Open Scope N_scope.

(** What boost::program_options makes of the command line: src/report.cc:503-533.
    The options with defaults (--num-comments 6, --v1-encoding CP1252) always have
    a value; --output and the arguments may be missing. *)
Record report_vm := mkReportVm {
  rv_comments : nat; rv_output : option bytes; rv_tsv : bool; rv_v1enc : enc; rv_no_dir : bool;
  rv_ascii : bool; rv_no_summary : bool; rv_args : list bytes }.

(** Line 613-616: which reporter. *)
Definition report_format (vm : report_vm) : format := if rv_tsv vm then Tdf (rv_ascii vm) else Csv.

(** [file_info], scribbu.cc:65-79. *)
Definition file_of (cwd p data : bytes) : rfile :=
  mkRf (parent_path (absolute cwd p)) (filename (absolute cwd p)) data.

Section Handle.
  (** [blind] is what comes of printing tags to a stream that is not open: nothing
      is written, but the conversions are made and may throw.  (The stream then
      does not have the printer that the manipulator would give it,
      ostream.hh:293-310, so that it is not known which; left open.)  [below] is
      what [recursive_directory_iterator] yields for a directory. *)
  Context (z : zlib) (passes : nat) (md5 : bytes -> bytes) (w : world) (blind : rfile -> outcome unit)
          (cwd : bytes) (below : bytes -> list bytes).

  (** src/report.cc:379-407 [process_file], with the file that is written; none if
      it could not be opened.  Simplification: what is written to the stream is in
      the file at once (the code flushes at the end of each row and at the end of
      the run), and writing does not fail. *)
  Definition visit_file (vm : report_vm) (out : option key) (p : bytes) : FS bool := fun fs =>
    match find_node (resolve cwd p) fs with
    | Some (File data) =>
        match out with
        | Some k =>
            let '(s, o) := report_file (style_of (report_format vm)) z passes md5 w (rv_v1enc vm) (rv_no_dir vm) (rv_comments vm) (file_of cwd p data) in
            (run _ <- append k s;; flift o) fs
        | None =>
            match report_read z passes md5 data with
            | Ok (None, _, None) => fret true fs
            | Ok _ => match blind (file_of cwd p data) with
                      | Ok _ => fret true fs
                      | Throw _ => fret false fs
                      | UB u => flift (UB u) fs
                      | NonTerm => flift NonTerm fs
                      end
            | Throw _ => fret false fs
            | UB u => flift (UB u) fs
            | NonTerm => flift NonTerm fs
            end
        end
    | _ => fret false fs
    end.

  Definition count (b : bool) (c : N * N) : N * N := if b then (fst c + 1, snd c) else (fst c, snd c + 1).
  Definition add (c d : N * N) : N * N := (fst c + fst d, snd c + snd d).

  (** src/report.cc:409-431 [process_directory]. *)
  Fixpoint visit_entries (vm : report_vm) (out : option key) (l : list bytes) : FS (N * N) :=
    match l with
    | [] => fret (0, 0)
    | p :: r => fun fs =>
        if is_regular cwd fs p && ends_in_mp3 p
        then (run b <- visit_file vm out p;; run c <- visit_entries vm out r;; fret (count b c)) fs
        else visit_entries vm out r fs
    end.

  (** src/report.cc:338-364 [operator()]. *)
  Definition visit_arg (vm : report_vm) (out : option key) (p : bytes) : FS (N * N) := fun fs =>
    if is_dir fs (resolve cwd p) then visit_entries vm out (below p) fs
    else match find_node (resolve cwd p) fs with
         | None => fthrow InvalidArgument fs
         | Some _ => (run b <- visit_file vm out p;; fret (count b (0, 0))) fs
         end.

  (** src/report.cc:620-626: the loop. *)
  Fixpoint visit_args (vm : report_vm) (out : option key) (args : list bytes) : FS (N * N) :=
    match args with
    | [] => fret (0, 0)
    | p :: r => run c <- visit_arg vm out p;; run d <- visit_args vm out r;; fret (add c d)
    end.

  (** src/report.cc:103-163, 212-268: the constructors.  The stream is not checked
      after the file has been opened. *)
  Definition open_report (vm : report_vm) (out : bytes) : FS (option key) := fun fs =>
    match open_ofstream cwd out fs with
    | (l, (Ok k, fs1)) =>
        (run _ <- (fun fs => (l, (Ok tt, fs1)));;
         run _ <- append k (header_row (negb (rv_tsv vm)) (st_sep (style_of (report_format vm))) (rv_no_dir vm) (rv_comments vm));;
         fret (Some k)) fs
    | (l, (_, fs1)) => (l, (Ok None, fs1))
    end.

  (** src/report.cc:628-636: the status, and the summary. *)
  Definition summary (c : N * N) : bytes :=
    B "Processed " ++ number 10 (fst c) ++ B " files successfully; " ++ number 10 (snd c) ++ B " had errors." ++ [newline].
  Definition finish (vm : report_vm) (c : N * N) : N * bytes :=
    ((if snd c =? 0 then 0 else 1), (if rv_no_summary vm then [] else summary c)).

  (** src/report.cc:470-651 [handle_report] without --help and the like: the exit
      status and what is written to standard output. *)
  Definition report_main (vm : report_vm) : FS (N * bytes) := fun fs =>
    match rv_output vm, rv_args vm with
    | Some out, _ :: _ =>
        match (run k <- open_report vm out;; visit_args vm k (rv_args vm)) fs with
        | (l, (Ok c, fs1)) => (l, (Ok (finish vm c), fs1))
        | (l, (Throw _, fs1)) => (l, (Ok (1, []), fs1))
        | (l, (UB u, fs1)) => (l, (UB u, fs1))
        | (l, (NonTerm, fs1)) => (l, (NonTerm, fs1))
        end
    | _, _ => ([], (Ok (2, []), fs))
    end.
End Handle.
