(** * Model: the JSON pretty-printer and the dump command in JSON format.

    scribbu/json-pprinter.cc, scribbu/pprinter.cc, src/dump.cc.

    Texts are the strings the printer asks a frame or tag for, already converted
    to the stream's encoding (that conversion is M_Charset's subject). *)
From Verif Require Import Base M_Charset M_Payload M_Cloud M_Csv.

(** scribbu/json-pprinter.cc:46-77 [escape]. *)
Definition jescape_char (c : N) : bytes :=
  if c =? 8 then B "\b"
  else if c =? 12 then B "\f"
  else if c =? 10 then B "\n"
  else if c =? 13 then B "\r"
  else if c =? 9 then B "\t"
  else if (c =? 34) || (c =? 92) then [92; c]
  else [c].
Definition jescape (s : bytes) : bytes := flat_map jescape_char s.

(** [(int)] of a [size_t], printed in base ten. *)
Definition int_text (n : N) : bytes :=
  let m := n mod 2 ^ 32 in
  if m <? 2 ^ 31 then number 10 m else 45 :: number 10 (2 ^ 32 - m).

(** What the printer asks a frame for.  [FEmail] is ENCR and PRIV, [FDesc] TXX,
    TXXX, COM and COMM. *)
Inductive fview :=
| FUnknown (id : bytes) (size : N)
| FText (id : bytes) (size : N) (text : bytes)
| FUfid (id : bytes) (size : N) (owner : bytes)
| FDesc (id : bytes) (size : N) (desc text : bytes)
| FCount (size count : N)
| FPopm (id : bytes) (size : N) (email : bytes) (rating count : N)
| FCloud (id : bytes) (size : N) (owner : bytes) (tags : cmap)
| FEncr (id : bytes) (size : N) (email : bytes)
| FPriv (id : bytes) (size : N) (email : bytes).

(** The start every frame but counters and clouds has. *)
Definition frame_start (id : bytes) (size : N) : bytes :=
  B "{""id"":""" ++ id ++ B """,""size"":" ++ int_text size.

(** scribbu/json-pprinter.cc:340-353, 511-524 and 702-715: one key of a cloud. *)
Definition cloud_entry (kv : bytes * list bytes) : bytes :=
  let first := jescape (fst kv) in
  match snd kv with
  | [] => B """" ++ first ++ B """"
  | [v] => B "{""" ++ first ++ B """:""" ++ jescape v ++ B """}"
  | vs => B "{""" ++ first ++ B """:[" ++ join 44 vs ++ B "]}"
  end.

(** The functions for the frames: scribbu/json-pprinter.cc:216-359 (ID3v2.2),
    361-552 (ID3v2.3), 554-743 (ID3v2.4). *)
Definition json_frame (v : version) (f : fview) : bytes :=
  match f with
  | FUnknown id size => frame_start id size ++ B "}"
  | FText id size text => frame_start id size ++ B ",""text"":""" ++ jescape text ++ B """}"
  | FUfid id size owner => frame_start id size ++ B ",""owner"":" ++ jescape owner ++ B """}"
  | FDesc id size desc text =>
      frame_start id size ++ B ",""description"":""" ++ jescape desc ++ B """,""text"":""" ++ jescape text ++ B """}"
  | FCount size count =>
      B "{""id"":""" ++ (match v with V22 => B "CNT" | _ => B "PCNT" end) ++ B ",""size"":" ++ number 10 size ++
      B ",""count"":" ++ number 10 count ++ B "}"
  | FPopm id size email rating count =>
      frame_start id size ++ B ",""email"":""" ++ jescape email ++ B """,""rating"":" ++ number 10 rating ++
      B ",""count"":" ++ number 10 count ++ B "}"
  | FCloud id size owner tags =>
      B "{""id"":""" ++ id ++ B """,size"":" ++ int_text size ++ B ",""owner"":""" ++ jescape owner ++
      B """,""cloud"":""[" ++ join 44 (map cloud_entry tags) ++ B "]}"
  | FEncr id size email | FPriv id size email =>
      frame_start id size ++ B ",""email"":""" ++ jescape email ++ B """}"
  end.

(** scribbu/pprinter.cc:266-293 and 1088-1104: finding the function for a frame.
    Those for the ID3v2.4 tag cloud and private frame are registered with the
    ID3v2.3 frames, so that looking them up fails. *)
Definition print_frame (v : version) (f : fview) : outcome bytes :=
  match v, f with
  | V24, FCloud _ _ _ _ | V24, FPriv _ _ _ => Throw OutOfRange
  | _, _ => Ok (json_frame v f)
  end.

(** What it asks a tag for. *)
Record jtag := mkJtag { j_unsync : option bool; j_flags : N; j_size : N; j_padding : N; j_frames : list fview }.

(** [tag.unsynchronised() ? "true" : "false"] on an optional: whether there is a
    value. *)
Definition unsync_text (u : option bool) : bytes :=
  match u with Some _ => B "true" | None => B "false" end.

(** scribbu/json-pprinter.cc:104-128 [pprint_v2_3_tag].  A frame is printed to an
    [ostrstream] and taken from there as a C string. *)
Definition json_tag23 (t : jtag) : bytes :=
  B "{""version"":""2.3"",""unsynchronised"":" ++ unsync_text (j_unsync t) ++
  B ",""flags"":" ++ number 10 (j_flags t) ++ B ",""size"":" ++ number 10 (j_size t) ++
  B ",""padding"":" ++ number 10 (j_padding t) ++ B ",""frames"":[" ++
  join 44 (map (fun f => c_str (json_frame V23 f)) (j_frames t)) ++ B "]}".

(** scribbu/json-pprinter.cc:91-97 and 144-150: the frames of the other versions.
    The [ostrstream] is not terminated, so that making a string of it reads
    beyond what has been written. *)
Definition json_frames_open (v : version) (l : list fview) : outcome bytes :=
  match l with
  | [] => Ok []
  | f :: _ => let* _ := print_frame v f in UB OutOfBounds
  end.

(** scribbu/json-pprinter.cc:78-102 [pprint_v2_2_tag]; the flags are printed as
    a character. *)
Definition json_tag22 (t : jtag) : outcome bytes :=
  let* fs := json_frames_open V22 (j_frames t) in
  Ok (B "{""version"":""2.2"",""unsynchronised"":" ++ unsync_text (j_unsync t) ++
      B ",""flags"":" ++ [j_flags t] ++ B ",""size"":" ++ number 10 (j_size t) ++
      B ",""padding"":" ++ number 10 (j_padding t) ++ B """,frames:[""" ++ fs ++ B "]}").

(** scribbu/json-pprinter.cc:130-155 [pprint_v2_4_tag]; id3v24.hh:247-248. *)
Definition json_tag24 (t : jtag) : outcome bytes :=
  let* fs := json_frames_open V24 (j_frames t) in
  Ok (B "{""version"":""2.4"",""unsynchronised"":" ++ unsync_text (j_unsync t) ++
      B ",""flags"":" ++ [j_flags t] ++ B ",""size"":" ++ number 10 (j_size t) ++
      B ",""experimental"":" ++ (if negb (N.land (j_flags t) 32 =? 0) then B "true" else B "false") ++
      B ",""padding"":" ++ number 10 (j_padding t) ++ B """,frames:[""" ++ fs ++ B "]}").

(** scribbu/json-pprinter.cc:157-172 [pprint_track_data]. *)
Definition json_track (md5 : bytes) : bytes :=
  B "{""md5"":""" ++ flat_map (fun x => width2 (number 16 x)) md5 ++ B """}".

(** What it asks an ID3v1 tag for; the enhanced genre of a tag without one is
    not asked for. *)
Record j1tag := mkJ1 { j1_1 : bool; j1_enh : option bytes; j1_album : bytes; j1_artist : bytes; j1_comment : bytes;
                       j1_genre : N; j1_title : bytes; j1_year : bytes; j1_track : option N }.

(** scribbu/json-pprinter.cc:174-214 [pprint_v1_tag].  The album is printed as
    it is. *)
Definition json_v1 (t : j1tag) : bytes :=
  B "{""version"":""1" ++ (if j1_1 t then B ".1" else []) ++ (match j1_enh t with Some _ => B "-enh" | None => [] end) ++
  B """,""album"":""" ++ j1_album t ++
  B """,""artist"":""" ++ jescape (j1_artist t) ++
  B """,""comment"":""" ++ jescape (j1_comment t) ++
  B """,""genre"":" ++ number 10 (j1_genre t) ++
  B ",""title"":""" ++ jescape (j1_title t) ++
  B """,""year"":""" ++ jescape (j1_year t) ++ B """" ++
  (match j1_track t with Some n => B ",""track"":" ++ number 10 n | None => [] end) ++
  (match j1_enh t with Some g => B ",""enhanced-genre"":""" ++ jescape g ++ B """" | None => [] end) ++
  B "}".

(** src/dump.cc:248-262: what is printed for a file, all parts selected; the
    version with each tag. *)
Definition json_tag (v : version) (t : jtag) : outcome bytes :=
  match v with
  | V22 => json_tag22 t
  | V23 => Ok (json_tag23 t)
  | V24 => json_tag24 t
  end.
Fixpoint json_tags (l : list (version * jtag)) : outcome bytes :=
  match l with
  | [] => Ok []
  | (v, t) :: r => let* a := json_tag v t in let* b := json_tags r in Ok (a ++ b)
  end.
Definition json_dump (v2 : list (version * jtag)) (md5 : bytes) (v1 : option j1tag) : outcome bytes :=
  let* a := json_tags v2 in
  Ok (a ++ json_track md5 ++ (match v1 with Some t => json_v1 t | None => [] end) ++ [10]).
