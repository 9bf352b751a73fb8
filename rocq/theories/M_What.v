(** * Model: what the exceptions of the library and of the program say. *)
From Verif Require Import Base M_Tagset M_Csv.
#[local] Open Scope N_scope.

(** scribbu/framesv2.hh:262-286, 308-340 [frame_id3], [frame_id4]. *)
Inductive fid := F3 (a0 a1 a2 : N) | F4 (a0 a1 a2 a3 : N).
(** scribbu/mp3.hh:725-732, scribbu/tagset.hh:167-170, src/command-utilities.hh:231-240,
    scribbu/tbt-support.hh:48-53. *)
Inductive mp3_cause := BadMpegVersion | BadLayer | NoSync | FreeBitrate | BadBitrate | BadSamplingRate.
Inductive tagset_cause := EmplaceMismatch | NotEnoughPadding.
Inductive operation := CreateV1FromV2 | CreateV1 | CreateV2FromV1 | CreateV2 | ProcessV1 | ProcessV22 | ProcessV23 | ProcessV24.
Inductive preference := PreferV2 | PreferV1 | OnlyV2 | OnlyV1.

(** The exceptions with what they hold.  Not here: [unknown_text_frame] and
    [bad_code_unit], which hold members of large enumerations, and [openssl_error]. *)
Inductive problem :=
| WDuplicateFrame (i : fid) (n : N) | WUnknownFrame (i : fid) | WReservedFrame (i : fid)
| WInvalidTag | WNoTag | WUnknownVersion (v : N) | WInvalidV1 | WInvalidExt
| WMp3 (c : mp3_cause) | WTagset (c : tagset_cause) | WOperation (o : operation) | WV2Version (v : N)
| WGenre (g : N) | WSeparator (c : N) | WUnicode (c : N) | WMissing (p : preference) (tag : option bytes)
| WNotFound (p : bytes) | WOpen (name : bytes) (err : N) | WIconv (err : N).

(** scribbu/id3v2.cc:310-364: a three-character identifier that is all zero is how the
    exception knows that it holds one of four characters. *)
Definition fid_shown (i : fid) : bytes :=
  match i with
  | F3 a0 a1 a2 => if (a0 =? 0) && (a1 =? 0) && (a2 =? 0) then [0; 0; 0; 0] else [a0; a1; a2]
  | F4 a0 a1 a2 a3 => [a0; a1; a2; a3]
  end.

(** scribbu/mp3.cc:224-255. *)
Definition mp3_text (c : mp3_cause) : bytes :=
  match c with
  | BadMpegVersion => B "bad MPEG spec version" | BadLayer => B "bad MPEG audio layer" | NoSync => B "no sync found"
  | FreeBitrate => B "free bitrates not supported" | BadBitrate => B "unsupported (or unknown) bitrate"
  | BadSamplingRate => B "unsupported (or unknown) sampling rate"
  end.
(** scribbu/tagset.cc:30-54. *)
Definition tagset_text (c : tagset_cause) : bytes :=
  match c with
  | EmplaceMismatch => B "replace_tagset_emplace called with a new tagset whose size does not match the existing tagset"
  | NotEnoughPadding => B "adjust_padding_to called to reduce tagset size, but there's not enough padding to satisfy the requested size"
  end.
(** src/command-utilities.cc:194-233. *)
Definition operation_text (o : operation) : bytes :=
  B "A tagset_processor virtual was invoked on a subclass for which it makes no sense: " ++
  match o with
  | CreateV1FromV2 => B "creating an ID3v1 tag from one or more ID3v2" | CreateV1 => B "creating an ID3v1 tag from scratch"
  | CreateV2FromV1 => B "creating an ID3v2 tag from an ID3v1" | CreateV2 => B "creating an ID3v2 tag from scratch"
  | ProcessV1 => B "processing an ID3v1 tag" | ProcessV22 => B "processing an ID3v2.2 tag"
  | ProcessV23 => B "processing an ID3v2.3 tag" | ProcessV24 => B "processing an ID3v2.4 tag"
  end ++
  B ", This is almost certainly a bug; please consider reporting it to sp1ff@pobox.com".
(** scribbu/tbt-support.cc:36-58. *)
Definition preference_text (p : preference) : bytes :=
  match p with
  | PreferV2 => B "prefer ID3v2, fall back to ID3v1" | PreferV1 => B "prefer ID3v1, fall back to ID3v2"
  | OnlyV2 => B "accept ID3v2 only" | OnlyV1 => B "accept ID3v1 only"
  end.
(** [(int) c] of a [char], which is signed. *)
Definition char_text (c : N) : bytes := if c <? 128 then decimal c else B "-" ++ decimal (256 - c).

Section What.
  (** [strerror]. *)
  Context (strerr : N -> bytes).

  (** What is put together: scribbu/id3v2.cc:310-402, scribbu/id3v1.cc:38-41,
      scribbu/id3v23.cc:180-183 and scribbu/id3v24.cc:179-182 (the same text),
      src/command-utilities.cc:52-61 and 236-245, src/genre.cc:301-311,
      scribbu/csv-pprinter.cc:33-41, scribbu/framesv2.cc:321-331,
      scribbu/tbt-support.cc:60-74, scribbu/scribbu.cc:96-107,
      scribbu/charsets.cc:473-481. *)
  Definition problem_text (x : problem) : bytes :=
    match x with
    | WDuplicateFrame i n => B "Frame " ++ fid_shown i ++ B " was defined " ++ decimal n ++ B " times"
    | WUnknownFrame i => B "Unknown frame " ++ fid_shown i
    | WReservedFrame i => B "frame " ++ fid_shown i ++ B " is reserved; it's parser may not be replaced"
    | WInvalidTag => B "invalid tag"
    | WNoTag => B "no tag"
    | WUnknownVersion v => B "Unknown version " ++ decimal v
    | WInvalidV1 => B "invalid ID3v1 tag"
    | WInvalidExt => B "invalid extended header"
    | WMp3 c => mp3_text c
    | WTagset c => tagset_text c
    | WOperation o => operation_text o
    | WV2Version v => B "unknown ID3v2 version " ++ decimal v
    | WGenre g => B "invalid ID3v1 numeric genre " ++ decimal g
    | WSeparator c => char_text c ++ B " is not a valid separater"
    | WUnicode c => B "Unknown value for the Unicode byte: " ++ [c]
    | WMissing p tag =>
        B "Missing tag source (" ++ preference_text p ++ B ")" ++
        match tag with Some t => B " while evaluating tag '" ++ t ++ B "'" | None => [] end
    | WNotFound p => B "``" ++ quoted_path p ++ B "'' not found"
    | WOpen name e => B "Failed to open `" ++ name ++ B "': " ++ strerr e
    | WIconv e => B "iconv failure: " ++ strerr e
    end.

  (** [what()] answers [c_str()]: its caller sees the text up to the first zero. *)
  Fixpoint c_string (l : bytes) : bytes :=
    match l with [] => [] | c :: r => if c =? 0 then [] else c :: c_string r end.
  Definition what (x : problem) : bytes := c_string (problem_text x).
End What.
