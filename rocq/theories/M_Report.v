(** * Model: the report command on files (src/report.cc), with the rows as the
      CSV and TDF printers write them (scribbu/csv-pprinter.cc,
      scribbu/tdf-pprinter.cc).

    Rows are written to the stream piece by piece, so that an exception leaves
    behind what has been written so far. *)
From Verif Require Import Base M_Ints M_Stream M_Id3v1 M_Payload M_Frame M_Tag22 M_Tag23 M_Tag24 M_Charset M_Lookup M_Mp3 M_Track M_Read
  M_Tagset M_Process M_Cmds M_Csv.
#[local] Open Scope N_scope.

(** What has been written, and how it ended.  Operands of [<<] are evaluated from
    left to right (C++17). *)
Definition pr : Type := bytes * outcome unit.
Definition put (s : bytes) : pr := (s, Ok tt).
Definition pput (o : outcome bytes) : pr :=
  match o with Ok s => (s, Ok tt) | Throw e => ([], Throw e) | UB u => ([], UB u) | NonTerm => ([], NonTerm) end.
Definition pthen (p q : pr) : pr :=
  match snd p with Ok _ => (fst p ++ fst q, snd q) | _ => p end.
Definition pall (l : list pr) : pr := fold_right pthen (put []) l.

(** The two printers differ in the separator and in whether texts are escaped:
    scribbu/csv-pprinter.cc:50-75, tdf-pprinter.cc:38-44; src/report.cc:92-121,
    220-228. *)
Record style := mkStyle { st_sep : N; st_esc : bytes -> bytes }.
Definition csv_style : style := mkStyle comma (escape comma quote).
Definition tdf_style (ascii : bool) : style := mkStyle (if ascii then 0x1f else 0x09) (fun s => s).

(** The identifiers of the text columns: csv-pprinter.cc:109, 161, 213,
    tdf-pprinter.cc:62, 110, 158. *)
Definition column_ids (v : version) : list bytes :=
  match v with
  | V22 => [B "TP1"; B "TT2"; B "TAL"; B "TCO"; B "TEN"; B "TYR"; B "TLA"]
  | _ => [B "TPE1"; B "TIT2"; B "TALB"; B "TCON"; B "TENC"; B "TYER"; B "TLAN"]
  end.

Definition version_number (v : version) : N := match v with V22 => 2 | V23 => 3 | V24 => 4 end.
Definition any_flags (t : anytag) : N :=
  match t with A22 t => flags22 t | A23 t => flags23 t | A24 t => flags24 t end.
Definition any_unsync (t : anytag) : option bool :=
  match t with A22 t => t2_unsync t | A23 t => t3_unsync t | A24 t => t4_unsync t end.

(** The text of a frame: tdf-pprinter.cc:240-252, 366-378, 526-538 (the stream's
    encoding is the default, UTF-8, ostream.cc:58-73); csv-pprinter.cc:287-304,
    412-428, 574-591.  Of a frame that the parser knows nothing of, the identifier
    is printed.  Simplification: that is escaped too, which leaves identifiers of
    letters and digits as they are; no other kind of frame is read under the
    identifiers of the columns. *)
Definition frame_text (w : world) (v : version) (f : frame) : outcome bytes :=
  match f_body f with
  | BText x => text_as_str v (w_ic w) x E_UTF_8 NoFail None
  | BUnknown _ => Ok (f_id f)
  | _ => UB Uninitialised
  end.
(** [comments::text]: framesv22.hh:608-620, framesv23.hh:1022-1034,
    framesv24.hh:762-774.  An empty text is not converted. *)
Definition comment_text (w : world) (v : version) (b : body) : outcome bytes :=
  match b with
  | BComm c => match co_text c with
               | [] => Ok []
               | s => match co_unicode c with
                      | Some u => text_as_str v (w_ic w) (mkText u s) E_UTF_8 NoFail None
                      | None => UB Uninitialised
                      end
               end
  | _ => UB Dangling
  end.
Definition plays_text (v : version) (T : ltag) : outcome N :=
  let* b := play_count v T in
  match b with BCount c => counter_value c | _ => UB Dangling end.

(** One text column: tdf-pprinter.cc:62-67, csv-pprinter.cc:109-114. *)
Definition text_column (st : style) (w : world) (v : version) (T : ltag) (id : bytes) : pr :=
  pthen (if has_frame T id =? 0 then put []
         else pput (let* f := get_frame (w_ids w (l_ids T) id) T id in
                    let* s := frame_text w v f in Ok (st_esc st s)))
        (put [st_sep st]).

(** The counter's columns: tdf-pprinter.cc:69-80, csv-pprinter.cc:116-127.  The
    stream is still in base sixteen. *)
Definition count_columns (st : style) (v : version) (T : ltag) : pr :=
  let n := has_frame T (count_id v) in
  pthen (put (number 16 n ++ [st_sep st]))
    (pthen (if n =? 1 then pput (let* k := plays_text v T in Ok (number 16 k))
            else if 1 <? n then put [42] else put [])
           (put [st_sep st])).

(** The comments' columns: tdf-pprinter.cc:82-95, csv-pprinter.cc:129-140. *)
Definition comment_column (st : style) (w : world) (v : version) (ncomm : nat) (cs : list body) (i : nat) : pr :=
  pthen (match nth_error cs i with
         | Some b => pput (let* s := comment_text w v b in Ok (st_esc st s))
         | None => put []
         end)
        (put (if Nat.eqb i (ncomm - 1) then [] else [st_sep st])).
Definition comments_columns (st : style) (w : world) (v : version) (ncomm : nat) (T : ltag) : pr :=
  pthen (put (number 16 (has_frame T (comm_id v)) ++ [st_sep st]))
    (match get_comments T with
     | Ok cs => pall (map (comment_column st w v ncomm cs) (seq 0 ncomm))
     | Throw e => ([], Throw e) | UB u => ([], UB u) | NonTerm => ([], NonTerm)
     end).

(** scribbu/tdf-pprinter.cc:46-98, 100-152, 154-206, csv-pprinter.cc:93-247
    [pprint_v2_x_tag]; [rev] is the revision of the header that has been read. *)
Definition print_tag2 (st : style) (z : zlib) (w : world) (ncomm : nat) (rev : N) (t : anytag) : pr :=
  let v := any_version t in
  let T := tables t in
  let sep := st_sep st in
  pthen (put (number 10 (version_number v) ++ [sep] ++ number 10 rev ++ [sep]))
  (pthen (pput (let* (n, _) := any_size z t false in Ok (number 10 (wrap64 n))))
  (pthen (put ([sep] ++ B "0x" ++ width2 (number 16 (any_flags t)) ++ [sep] ++ number 16 (optional_to_uint (any_unsync t)) ++ [sep]))
  (pthen (pall (map (text_column st w v T) (column_ids v)))
  (pthen (count_columns st v T)
         (comments_columns st w v ncomm T))))).

(** scribbu/tdf-pprinter.cc:225-243, csv-pprinter.cc:267-286 [pprint_v1_tag]. *)
Definition v1_column (st : style) (w : world) (v1enc : enc) (field : bytes) : pr :=
  pthen (pput (let* s := to_string (w_ic w) field v1enc E_UTF_8 NoFail in Ok (st_esc st s))) (put [st_sep st]).
Definition flag_text (b : bool) : bytes := if b then [49] else [48].
Definition print_tag1 (st : style) (w : world) (v1enc : enc) (t : id3v1_tag) : pr :=
  pthen (put (flag_text (v_v1_1 t) ++ [st_sep st] ++ flag_text (v_extended t) ++ [st_sep st]))
  (pthen (pall (map (v1_column st w v1enc) [v_artist t; v_title t; v_album t; v_year t; v_comment t]))
         (put (number 10 (v_genre t)))).

(** src/report.cc:179-183, 284-288: the size in megabytes with three decimals.
    The division is by a power of two and exact; the stream rounds to the nearest
    thousandth, ties to even. *)
Definition thousandths (size : N) : N :=
  let q := size * 1000 / 2 ^ 20 in
  let r := size * 1000 mod 2 ^ 20 in
  if (2 ^ 19 <? r) || ((r =? 2 ^ 19) && N.odd q) then q + 1 else q.
Definition mb_text (size : N) : bytes :=
  let k := thousandths size in
  number 10 (k / 1000) ++ B "." ++ [48 + k / 100 mod 10; 48 + k / 10 mod 10; 48 + k mod 10].

(** A file: directory and name of its absolute path (scribbu.cc:65-85), and what
    is in it. *)
Record rfile := mkRf { rf_dir : bytes; rf_name : bytes; rf_data : bytes }.

(** src/report.cc:166-204 and 271-309 [make_entry]. *)
Definition make_entry (st : style) (z : zlib) (w : world) (v1enc : enc) (no_dir : bool) (ncomm : nat) (f : rfile)
    (v2 : option (N * anytag)) (tr : track) (v1 : option id3v1_tag) : pr :=
  let sep := st_sep st in
  pthen (put ((if no_dir then [] else quoted_path (rf_dir f) ++ [sep]) ++
              quoted_path (rf_name f) ++ [sep] ++ mb_text (len (rf_data f)) ++ [sep]))
  (pthen (match v2 with
          | Some (rev, t) => print_tag2 st z w ncomm rev t
          | None => put (repeat sep (14 + ncomm))
          end)
  (pthen (put ([sep] ++ pprint_track_data sep (tr_size tr) (tr_md5 tr) ++ [sep]))
  (pthen (match v1 with
          | Some t => print_tag1 st w v1enc t
          | None => put (repeat sep 7)
          end)
         (put [newline])))).

(** src/report.cc:386-396: what is read; the first tag only. *)
Definition report_read (z : zlib) (passes : nat) (md5 : bytes -> bytes) (data : bytes)
  : outcome (option (N * anytag) * track * option id3v1_tag) :=
  fst ((do h <- looking_at_id3v2 false;;
        do v2 <- (match h with
                  | None => sret None
                  | Some H => do t <- read_version z passes H;; sret (Some (i_revision H, t))
                  end);;
        do tr <- track_data md5;;
        do v1 <- process_id3v1;;
        sret (v2, tr, v1)) (open_file data goodbit)).

(** src/report.cc:379-407 [process_file]: what is written, and whether the file
    counts as processed. *)
Definition report_file (st : style) (z : zlib) (passes : nat) (md5 : bytes -> bytes) (w : world) (v1enc : enc) (no_dir : bool)
    (ncomm : nat) (f : rfile) : bytes * outcome bool :=
  match report_read z passes md5 (rf_data f) with
  | Ok (v2, tr, v1) =>
      match make_entry st z w v1enc no_dir ncomm f v2 tr v1 with
      | (s, Ok _) => (s, Ok true)
      | (s, Throw _) => (s, Ok false)
      | (s, UB u) => (s, UB u)
      | (s, NonTerm) => (s, NonTerm)
      end
  | Throw _ => ([], Ok false)
  | UB u => ([], UB u)
  | NonTerm => ([], NonTerm)
  end.

(** A run over several files: what is written, and the numbers of those processed
    and of failures. *)
Fixpoint report_files (one : rfile -> bytes * outcome bool) (fs : list rfile) : bytes * outcome (N * N) :=
  match fs with
  | [] => ([], Ok (0, 0))
  | f :: r =>
      match one f with
      | (s, Ok b) =>
          let '(s', o) := report_files one r in
          (s ++ s', let* (ok, err) := o in Ok (if b then (ok + 1, err) else (ok, err + 1)))
      | (s, Throw e) => (s, Throw e)
      | (s, UB u) => (s, UB u)
      | (s, NonTerm) => (s, NonTerm)
      end
  end.

(** src/report.cc:409-463 [process_directory]: of the regular files below a directory, those
    whose path ends in ".mp3". *)
Definition is_mp3 (f : rfile) : bool :=
  bytes_eqb (dropN (len (rf_name f) - 4) (rf_name f)) (B ".mp3").
(** An argument: not there, a file, or a directory with the files below it in the
    order in which the iterator yields them. *)
Inductive rarg := RMissing | RFile (f : rfile) | RDir (fs : list rfile).
Definition arg_files (a : rarg) : list rfile :=
  match a with RMissing => [] | RFile f => [f] | RDir fs => filter is_mp3 fs end.

(** src/report.cc:338-364 [operator()] and 618-636, the loop over the arguments. *)
Fixpoint report_args (one : rfile -> bytes * outcome bool) (args : list rarg) : bytes * outcome (N * N) :=
  match args with
  | [] => ([], Ok (0, 0))
  | RMissing :: _ => ([], Throw InvalidArgument)
  | a :: r =>
      match report_files one (arg_files a) with
      | (s, Ok (ok, err)) =>
          let '(s', o) := report_args one r in
          (s ++ s', let* (ok', err') := o in Ok (ok + ok', err + err'))
      | (s, Throw e) => (s, Throw e)
      | (s, UB u) => (s, UB u)
      | (s, NonTerm) => (s, NonTerm)
      end
  end.

(** src/report.cc:107-162 and 216-268: the header row; the reporters differ in the
    last heading. *)
Definition last_heading (csv : bool) : bytes := if csv then B "ID3v1 Genrre" else B "ID3v1 Genre".
Definition header_row (csv : bool) (sep : N) (no_dir : bool) (ncomm : nat) : bytes :=
  (if no_dir then [] else B "directory" ++ [sep]) ++
  separated sep v2_headings ++
  flat_map (fun i => [sep] ++ B "comment #" ++ number 10 (N.of_nat i) ++ B " text") (seq 0 ncomm) ++
  [sep] ++ separated sep (removelast v1_headings ++ [last_heading csv]) ++ [newline].

(** src/report.cc:600-646: the contents of the output file, and the exit status
    (0: no failure, 1: failures, or an exception). *)
Inductive format := Csv | Tdf (ascii : bool).
Definition style_of (k : format) : style := match k with Csv => csv_style | Tdf a => tdf_style a end.
Definition report (k : format) (z : zlib) (passes : nat) (md5 : bytes -> bytes) (w : world) (v1enc : enc) (no_dir : bool)
    (ncomm : nat) (args : list rarg) : bytes * outcome (N * N) :=
  let st := style_of k in
  let '(s, o) := report_args (report_file st z passes md5 w v1enc no_dir ncomm) args in
  (header_row (match k with Csv => true | Tdf _ => false end) (st_sep st) no_dir ncomm ++ s, o).
Definition report_status (o : outcome (N * N)) : N :=
  match o with Ok (_, err) => if err =? 0 then 0 else 1 | _ => 1 end.
