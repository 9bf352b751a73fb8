(** * Model: the CSV pretty-printer and the report built on it.

    scribbu/csv-pprinter.cc, scribbu/pprinter.cc, src/report.cc.

    Text columns are the strings the printer asks the tag for, already converted
    to the stream's encoding (that conversion is M_Charset's subject). *)
From Verif Require Import Base.

(** scribbu/csv-pprinter.hh:123, [ESC]. *)
Definition quote : N := 34.
Definition newline : N := 10.

(** scribbu/csv-pprinter.cc:60-71: copying [s] with each [esc] doubled.
    Simplification: byte by byte, where the code copies from one [esc] to the
    next. *)
Fixpoint doubled (esc : N) (s : bytes) : bytes :=
  match s with
  | [] => []
  | c :: r => if c =? esc then esc :: esc :: doubled esc r else c :: doubled esc r
  end.

(** scribbu/csv-pprinter.cc:50-75, [csv_pprinter::escape]. *)
Definition escape (sep esc : N) (s : bytes) : bytes :=
  if existsb (fun c => (c =? sep) || (c =? newline)) s
  then [esc] ++ doubled esc s ++ [esc]
  else s.

(** scribbu/csv-pprinter.cc:77-91, the constructor's check of the separator. *)
Definition separator_ok (sep : N) : bool :=
  negb (negb (sep =? 0x09) &&
        ((sep <? 0x21) || (0x2F <? sep)) &&
        ((sep <? 0x3A) || (0x40 <? sep)) &&
        ((sep <? 0x5B) || (0x60 <? sep)) &&
        ((sep <? 0x7B) || (0x7E <? sep))).
Definition csv_pprinter (sep : N) : outcome N :=
  if separator_ok sep then Ok sep else Throw BadOperation.

(** How a stream prints an unsigned number in the given base (lower case). *)
Definition digit (d : N) : N := if d <? 10 then 48 + d else 87 + d.
Fixpoint number_loop (base : N) (fuel : nat) (n : N) : bytes :=
  match fuel with
  | O => []
  | S f => if n <? base then [digit n] else number_loop base f (n / base) ++ [digit (n mod base)]
  end.
Definition number (base n : N) : bytes := number_loop base (S (N.to_nat (N.log2 n))) n.

(** [setw(2) << setfill('0')]. *)
Definition width2 (s : bytes) : bytes :=
  match s with [] => B "00" | [c] => [48; c] | _ => s end.

(** scribbu/pprinter.cc:1118-1127, [optional_to_uint]. *)
Definition optional_to_uint (x : option bool) : N :=
  match x with Some b => if b then 1 else 0 | None => 0xFFFFFFFF end.

(** What the printer asks an ID3v2 tag for: version, revision, size, flags,
    unsynchronisation, the seven text columns (those the tag has), the number of
    play count frames and the play count, the number of comment frames, and the
    comments' texts. *)
Record tagview := mkView {
  tv_version : N; tv_revision : N; tv_size : N; tv_flags : N; tv_unsync : option bool;
  tv_texts : list (option bytes);
  tv_pcnt : N; tv_plays : N;
  tv_ncomm : N; tv_comments : list bytes }.

(** The text columns: scribbu/csv-pprinter.cc:109-114, 161-166, 213-218, with
    294-304, 418-428, 581-591 for the frame itself. *)
Definition text_columns (sep : N) (l : list (option bytes)) : bytes :=
  flat_map (fun t => (match t with Some s => escape sep quote s | None => [] end) ++ [sep]) l.

(** The comments: scribbu/csv-pprinter.cc:131-140, 183-192, 235-244. *)
Definition comment_columns (sep : N) (ncomm : nat) (l : list bytes) : bytes :=
  flat_map (fun i => (match nth_error l i with Some s => escape sep quote s | None => [] end) ++
                     (if Nat.eqb i (ncomm - 1) then [] else [sep])) (seq 0 ncomm).

(** scribbu/csv-pprinter.cc:93-143, 145-195, 197-247, [pprint_v2_x_tag].  The
    three differ only in the frame identifiers.  The stream is switched to base
    sixteen for the flags and stays there for the numbers that follow. *)
Definition pprint_v2_tag (sep : N) (ncomm : nat) (t : tagview) : bytes :=
  number 10 (tv_version t) ++ [sep] ++
  number 10 (tv_revision t) ++ [sep] ++
  number 10 (tv_size t) ++ [sep] ++
  B "0x" ++ width2 (number 16 (tv_flags t)) ++
  [sep] ++ number 16 (optional_to_uint (tv_unsync t)) ++ [sep] ++
  text_columns sep (tv_texts t) ++
  number 16 (tv_pcnt t) ++ [sep] ++
  (if tv_pcnt t =? 1 then number 16 (tv_plays t)
   else if 1 <? tv_pcnt t then [42] else []) ++
  [sep] ++
  number 16 (tv_ncomm t) ++ [sep] ++
  comment_columns sep ncomm (tv_comments t).

(** scribbu/csv-pprinter.cc:249-265, [pprint_track_data]. *)
Definition pprint_track_data (sep : N) (size : N) (md5 : bytes) : bytes :=
  number 10 size ++ [sep] ++ flat_map (fun x => width2 (number 16 x)) md5.

(** What the printer asks an ID3v1 tag for. *)
Record v1view := mkV1 {
  w1_1 : bool; w1_ext : bool; w1_artist : bytes; w1_title : bytes; w1_album : bytes;
  w1_year : bytes; w1_comment : bytes; w1_genre : N }.

(** scribbu/csv-pprinter.cc:267-286, [pprint_v1_tag].  The stream is still in
    base sixteen for the two flags. *)
Definition pprint_v1_tag (sep : N) (t : v1view) : bytes :=
  number 16 (if w1_1 t then 1 else 0) ++ [sep] ++
  number 16 (if w1_ext t then 1 else 0) ++ [sep] ++
  escape sep quote (w1_artist t) ++ [sep] ++
  escape sep quote (w1_title t) ++ [sep] ++
  escape sep quote (w1_album t) ++ [sep] ++
  escape sep quote (w1_year t) ++ [sep] ++
  escape sep quote (w1_comment t) ++ [sep] ++
  number 10 (w1_genre t).

(** ** src/report.cc: the CSV report. *)
Definition comma : N := 44.

(** How a stream prints a path ([operator<<] of std::filesystem::path):
    std::quoted, with backslash as the escape character. *)
Definition quoted_path (p : bytes) : bytes :=
  [quote] ++ flat_map (fun c => if (c =? quote) || (c =? 92) then [92; c] else [c]) p ++ [quote].

(** src/report.cc:109-164, the header row written by csv_reporter's constructor. *)
Definition v2_headings : list bytes :=
  [B "file"; B "file size(MB)"; B "ID3v2 version"; B "ID3v2 revision"; B "ID3v2 size(bytes)";
   B "ID3v2 flags"; B "ID3v2 unsync"; B "ID3v2 Artist"; B "ID3v2 Title"; B "ID3v2 Album";
   B "ID3v2 Content Type"; B "ID3v2 Encoded By"; B "ID3v2 Year"; B "ID3v2 Langauges";
   B "# ID3v2 play count frames"; B "Play Count"; B "# ID3v2 comment frames"].
Definition v1_headings : list bytes :=
  [B "size (bytes)"; B "MD5"; B "has ID3v1.1"; B "has ID3v1 extended"; B "ID3v1 Artist";
   B "ID3v1 Title"; B "ID3v1 Album"; B "ID3v1 Year"; B "ID3v1 Comment"; B "ID3v1 Genrre"].
Fixpoint separated (sep : N) (l : list bytes) : bytes :=
  match l with
  | [] => []
  | [f] => f
  | f :: r => f ++ [sep] ++ separated sep r
  end.
Definition report_header (no_dir : bool) (ncomm : nat) : bytes :=
  (if no_dir then [] else B "directory" ++ [comma]) ++
  separated comma v2_headings ++
  flat_map (fun i => [comma] ++ B "comment #" ++ number 10 (N.of_nat i) ++ B " text") (seq 0 ncomm) ++
  [comma] ++ separated comma v1_headings ++ [newline].

(** src/report.cc:166-204, [csv_reporter::make_entry].  [mb] is the file's size
    in megabytes as printed; [path] is its directory and name. *)
Definition report_row (no_dir : bool) (ncomm : nat) (dir name mb : bytes)
    (v2 : option tagview) (size : N) (md5 : bytes) (v1 : option v1view) : bytes :=
  (if no_dir then [] else quoted_path dir ++ [comma]) ++
  quoted_path name ++ [comma] ++ mb ++ [comma] ++
  (match v2 with
   | Some t => pprint_v2_tag comma ncomm t
   | None => repeat comma 14 ++ repeat comma ncomm
   end) ++
  [comma] ++ pprint_track_data comma size md5 ++ [comma] ++
  (match v1 with
   | Some t => pprint_v1_tag comma t
   | None => repeat comma 7
   end) ++
  [newline].
