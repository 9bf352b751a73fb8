(** * Model: frames as tags hold them -- kinds, contents, headers, caches
      (scribbu/framesv2.hh, framesv22.*, framesv23.*, framesv24.*; the parser
      tables of id3v22.cc, id3v23.cc and id3v24.cc). *)
From Verif Require Import Base M_Ints M_Unsync M_Payload M_Cloud.

(** zlib, which is not modelled: every theorem quantifies over it.
    [z_compress b] is [compress] with a buffer of [compressBound] bytes;
    [z_uncompress b n] is [uncompress] into a buffer of [n] bytes; [z_crc] is
    [crc32]. [None] is a status other than [Z_OK]. *)
Record zlib := mkZlib {
  z_compress : bytes -> option bytes;
  z_uncompress : bytes -> N -> option bytes;
  z_crc : N -> bytes -> N
}.

(** ** Kinds of frames *)
Inductive kind :=
| KUnknown | KUfid | KEncr | KText | KTxxx | KComm | KCount | KPopm | KCloud | KPriv.

Definition mem_id (id : bytes) (l : list bytes) : bool := existsb (bytes_eqb id) l.

(** scribbu/id3v22.cc:109-142, the default text parsers of ID3v2.2. *)
Definition text_ids22 : list bytes := map B
  ["TT1"; "TT2"; "TT3"; "TP1"; "TP2"; "TP3"; "TP4"; "TCM"; "TXT"; "TLA"; "TCO"; "TAL";
   "TPA"; "TRK"; "TRC"; "TYE"; "TDA"; "TIM"; "TRD"; "TMT"; "TFT"; "TBP"; "TCR"; "TPB";
   "TEN"; "TSS"; "TOF"; "TLE"; "TSI"; "TDY"; "TKE"; "TOT"; "TOA"; "TOL"; "TOR"]%string.

(** scribbu/id3v23.cc:116-153 and id3v24.cc:116-153, the default text parsers of
    ID3v2.3 and ID3v2.4. *)
Definition text_ids4 : list bytes := map B
  ["TALB"; "TBPM"; "TCOM"; "TCON"; "TCOP"; "TDAT"; "TDLY"; "TENC"; "TEXT"; "TFLT"; "TIME";
   "TIT1"; "TIT2"; "TIT3"; "TKEY"; "TLAN"; "TLEN"; "TMED"; "TOAL"; "TOFN"; "TOLY"; "TOPE";
   "TORY"; "TOWN"; "TPE1"; "TPE2"; "TPE3"; "TPE4"; "TPOS"; "TPUB"; "TRCK"; "TRDA"; "TRSN";
   "TRSO"; "TSIZ"; "TSRC"; "TSSE"; "TYER"]%string.

(** What [parse_frame] makes of an identifier: scribbu/id3v22.cc:951-1012,
    id3v23.cc:1480-1568, id3v24.cc:1518-1615, with the default parsers
    (id3v22.cc:108-148, id3v23.cc:114-158, id3v24.cc:114-158).  Parsers that an
    application registers itself are in M_Register. *)
Definition kind_of (v : version) (id : bytes) : kind :=
  match v with
  | V22 =>
      if bytes_eqb id (B "COM") then KComm
      else if bytes_eqb id (B "CNT") then KCount
      else if bytes_eqb id (B "POP") then KPopm
      else if mem_id id text_ids22 then KText
      else if bytes_eqb id (B "UFI") then KUfid
      else if bytes_eqb id (B "TXX") then KTxxx
      else if bytes_eqb id (B "XTG") then KCloud
      else KUnknown
  | _ =>
      if bytes_eqb id (B "COMM") then KComm
      else if bytes_eqb id (B "PCNT") then KCount
      else if bytes_eqb id (B "POPM") then KPopm
      else if bytes_eqb id (B "PRIV") then KPriv
      else if mem_id id text_ids4 then KText
      else if bytes_eqb id (B "UFID") then KUfid
      else if bytes_eqb id (B "ENCR") then KEncr
      else if bytes_eqb id (B "TXXX") then KTxxx
      else if bytes_eqb id (B "XTAG") then KCloud
      else KUnknown
  end.

(** ** Contents *)
Inductive body :=
| BUnknown (b : bytes)
| BUfid (u : ufid)
| BEncr (e : encr)
| BText (t : text)
| BTxxx (t : txxx)
| BComm (c : comm)
| BCount (c : bytes)
| BPopm (p : popm)
| BCloud (c : cloud)
| BPriv (p : priv).

Definition kind_of_body (b : body) : kind :=
  match b with
  | BUnknown _ => KUnknown | BUfid _ => KUfid | BEncr _ => KEncr | BText _ => KText
  | BTxxx _ => KTxxx | BComm _ => KComm | BCount _ => KCount | BPopm _ => KPopm
  | BCloud _ => KCloud | BPriv _ => KPriv
  end.

(** The constructors that [parse_frame] runs on a payload [l] followed in memory
    by [after]; unknown frames and counters copy it
    (scribbu/framesv23.hh [unknown_id3v2_3_frame], framesv2.hh:787-794). *)
Definition parse_body (v : version) (k : kind) (l after : bytes) : outcome body :=
  match k with
  | KUnknown => Ok (BUnknown l)
  | KUfid => Ok (BUfid (parse_ufid l))
  | KEncr => Ok (BEncr (parse_encr l))
  | KText => let* t := parse_text l after in Ok (BText t)
  | KTxxx => let* t := parse_txxx v l after in Ok (BTxxx t)
  | KComm => let* c := parse_comm v l after in Ok (BComm c)
  | KCount => Ok (BCount l)
  | KPopm => let* p := parse_popm l after in Ok (BPopm p)
  | KCloud => let* c := parse_cloud l in Ok (BCloud c)
  | KPriv => let* p := parse_priv l in Ok (BPriv p)
  end.

(** [size()] of each kind: scribbu/framesv22.cc, framesv23.cc, framesv24.cc,
    forwarding to the mix-ins. *)
Definition size_body (b : body) : N :=
  match b with
  | BUnknown l => len l
  | BUfid u => size_ufid u
  | BEncr e => size_encr e
  | BText t => size_text t
  | BTxxx t => size_txxx t
  | BComm c => size_comm c
  | BCount c => len c
  | BPopm p => size_popm p
  | BCloud c => size_cloud c
  | BPriv p => size_priv p
  end.

(** [serialize(os)] of each kind: what is put on the stream. *)
Definition write_body (b : body) : outcome bytes :=
  match b with
  | BUnknown l => Ok l
  | BUfid u => Ok (write_ufid u)
  | BEncr e => write_encr e
  | BText t => Ok (write_text t)
  | BTxxx t => Ok (write_txxx t)
  | BComm c => write_comm c
  | BCount c => Ok c
  | BPopm p => Ok (write_popm p)
  | BCloud c => Ok (write_cloud c)
  | BPriv p => Ok (write_priv p)
  end.

(** ** Frames *)

(** scribbu/framesv23.hh:300-310 (status and format attributes), with
    framesv24.hh's two more; ID3v2.2 frames have none. *)
Record fflags := mkFl {
  fl_tap : bool; fl_fap : bool; fl_ro : bool;
  fl_cmp : bool; fl_enc : option N; fl_gid : option N;
  fl_unsync : bool; fl_dli : bool }.
Definition no_flags : fflags := mkFl false false false false None None false false.

Record frame := mkFrame { f_id : bytes; f_flags : fflags; f_body : body }.

(** A frame with the mutable members of scribbu/framesv22.hh and framesv23.hh:
    [dirty_], [cache_[0]], [cache_[1]] and [num_false_syncs_].  [c_plain] is the
    serialized frame, [c_unsync] the same after unsynchronisation. *)
Record cframe := mkC { c_frame : frame; c_dirty : bool;
                       c_plain : bytes; c_unsync : bytes; c_syncs : N }.

(** A frame just made: scribbu/framesv2.hh:401 sets [dirty_]. *)
Definition new_frame (f : frame) : cframe := mkC f true [] [] 0.

(** scribbu/framesv23.cc:149-250 [ensure_cached_data_is_fresh]; [wire] is what
    it assembles in [cache_[SERIALIZED_WITH_CE]].  The argument is ignored when
    the frame is not dirty. *)
Definition refresh (wire : frame -> outcome bytes) (last_no_pad : bool) (c : cframe) : outcome cframe :=
  if c_dirty c then
    let* ce := wire (c_frame c) in
    Ok (mkC (c_frame c) false ce (unsynchronise ce last_no_pad)
            (count_syncs ce true +
             (if last_no_pad && (last ce 0 =? 255) then 1 else 0)))
  else Ok c.

(** scribbu/framesv23.cc:78-85 [serialized_size] and 121-129 [write], on a frame
    that has just been refreshed. *)
Definition cached (unsync : bool) (c : cframe) : bytes :=
  if unsync then c_unsync c else c_plain c.
