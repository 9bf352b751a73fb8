(** * Model: the dump command in JSON, from the bytes of files to its output.

    scribbu/json-pprinter.cc, src/dump.cc:170-268.  M_Json has what the printer makes
    of the texts it is given; here are the texts that it is given, and what stands
    on the standard output when one of them cannot be had. *)
From Verif Require Import Base M_Ints M_Stream M_Id3v1 M_Payload M_Cloud M_Frame M_Tag22 M_Tag23 M_Tag24 M_Charset M_Lookup M_Mp3 M_Track M_Read
  M_Tagset M_Process M_Cmds M_Csv M_Report M_Dump M_Row M_Json.
#[local] Open Scope N_scope.

(** What the functions for the frames ask for: scribbu/json-pprinter.cc:216-743.  A
    frame goes to a stream of its own, whose encoding is the default, UTF-8
    (ostream.cc:58-73), and the encoding of ID3v2 frames is never forced
    (src/dump.cc:187, json-pprinter.hh).  Simplification: the ID3v2.2 file identifier,
    whose owner is asked for with no encoding at all, is taken to be like the others;
    printing an ID3v2.2 frame is undefined in any case. *)
Definition view_of (w : world) (v : version) (f : frame) : outcome fview :=
  let id := f_id f in
  let size := size_body (f_body f) in
  let latin b := converted (w_ic w) b E_ISO_8859_1 E_UTF_8 NoFail in
  match f_body f with
  | BUnknown _ => Ok (FUnknown id size)
  | BText t => let* s := text_as_str v (w_ic w) t E_UTF_8 NoFail None in Ok (FText id size s)
  | BUfid u => let* s := latin (uf_owner u) in Ok (FUfid id size s)
  | BEncr e => let* s := latin (en_email e) in Ok (FEncr id size s)
  | BTxxx t =>
      let* d := part_text w v (ud_unicode t) (ud_desc t) in
      let* s := part_text w v (ud_unicode t) (ud_text t) in Ok (FDesc id size d s)
  | BComm c =>
      let* d := comm_text w v c (co_desc c) in
      let* s := comm_text w v c (co_text c) in Ok (FDesc id size d s)
  | BCount c => let* n := counter_value c in Ok (FCount size n)
  | BPopm p =>
      let* s := converted (w_ic w) (po_email p) (match v with V22 => E_UTF_8 | _ => E_ISO_8859_1 end) E_UTF_8 NoFail in
      let* n := counter_value (po_counter p) in Ok (FPopm id size s (po_rating p) n)
  | BCloud c => Ok (FCloud id size (tc_owner c) (tc_tags c))
  | BPriv p => let* s := latin (pr_email p) in Ok (FPriv id size s)
  end.

(** [stm << print_as_json(v1enc_, v2enc_) << frm]: looking up the function comes first
    (scribbu/pprinter.cc:257-296, 1085-1104). *)
Definition frame_out (w : world) (v : version) (f : frame) : outcome bytes :=
  match v, f_body f with
  | V24, BCloud _ | V24, BPriv _ => Throw OutOfRange
  | _, _ => let* x := view_of w v f in Ok (json_frame v x)
  end.

(** scribbu/json-pprinter.cc:91-97, 116-122, 144-150: the frames, each from the
    buffer it was printed to; only the ID3v2.3 ones are terminated there. *)
Fixpoint frames_out (w : world) (v : version) (l : list frame) : outcome (list bytes) :=
  match l with
  | [] => Ok []
  | f :: r =>
      let* s := frame_out w v f in
      let* t := match v with V23 => Ok (c_str s) | _ => UB OutOfBounds end in
      let* ts := frames_out w v r in Ok (t :: ts)
  end.

(** scribbu/json-pprinter.cc:78-155 [pprint_v2_x_tag].  The beginning of the object has
    been written when the frames are asked for.  The flags of ID3v2.2 and ID3v2.4
    tags are printed as a character. *)
Definition json_start (v : version) : bytes :=
  B "{""version"":""2." ++ (match v with V22 => B "2" | V23 => B "3" | V24 => B "4" end) ++ B """,""unsynchronised"":".
Definition dump_json_tag (z : zlib) (w : world) (rt : N * anytag) : pr :=
  let t := snd rt in
  let v := any_version t in
  pthen (put (json_start v ++ unsync_text (any_unsync t) ++ B ",""flags"":" ++
              (match v with V23 => number 10 (any_flags t) | _ => [any_flags t] end) ++ B ",""size"":"))
  (pthen (pput (let* (n, _) := any_size z t false in Ok (number 10 (wrap64 n))))
  (pthen (put ((match v with
                | V24 => B ",""experimental"":" ++ (if negb (N.land (any_flags t) 32 =? 0) then B "true" else B "false")
                | _ => []
                end) ++
               B ",""padding"":" ++ number 10 (any_padding t) ++
               (match v with V23 => B ",""frames"":[" | _ => B """,frames:[""" end)))
  (pthen (pput (let* l := frames_out w v (map c_frame (any_frames t)) in Ok (join 44 l)))
         (put (B "]}"))))).

(** scribbu/json-pprinter.cc:174-214 [pprint_v1_tag]: to the standard output, text by
    text. *)
Definition dump_json_v1 (e : enc) (w : world) (t : id3v1_tag) : pr :=
  let text b := to_string (w_ic w) b e E_UTF_8 NoFail in
  let escaped b := pput (let* s := text b in Ok (jescape s)) in
  pall [put (B "{""version"":""1" ++ (if v_v1_1 t then B ".1" else []) ++ (if v_extended t then B "-enh" else []) ++ B """,""album"":""");
        pput (text (v_album t)); put (B """,""artist"":""");
        escaped (v_artist t); put (B """,""comment"":""");
        escaped (v_comment t); put (B """,""genre"":" ++ number 10 (v_genre t) ++ B ",""title"":""");
        escaped (v_title t); put (B """,""year"":""");
        escaped (v_year t); put (B """");
        (if v_v1_1 t then pput (let* n := M_Id3v1.init (v_track t) in Ok (B ",""track"":" ++ number 10 n)) else put []);
        (if v_extended t then pall [put (B ",""enhanced-genre"":"""); escaped (v_ext_genre t); put (B """")] else put []);
        put (B "}")].

(** src/dump.cc:248-262: what is printed; there are no lines with the path and the
    time in this format. *)
Definition dump_json_parts (e : enc) (z : zlib) (w : world) (p : parts) (v2 : list (N * anytag)) (tr : track) (v1 : option id3v1_tag) : pr :=
  pthen (if p_v2 p then pall (map (dump_json_tag z w) v2) else put [])
  (pthen (if p_track p then put (json_track (tr_md5 tr)) else put [])
  (pthen (match v1 with Some t => if p_v1 p then dump_json_v1 e w t else put [] | None => put [] end)
         (put line_end))).

(** src/dump.cc:231-268: one file; [false] is a failure reported on the standard
    error. *)
Definition dump_json_file (e : enc) (z : zlib) (passes : nat) (md5 : bytes -> bytes) (w : world) (p : parts) (f : dfile) : bytes * outcome bool :=
  match dump_read z passes md5 (df_data f) with
  | Ok (v2, tr, v1) =>
      match dump_json_parts e z w (all_parts p) v2 tr v1 with
      | (s, Ok _) => (s, Ok true)
      | (s, Throw _) => (s, Ok false)
      | (s, UB u) => (s, UB u)
      | (s, NonTerm) => (s, NonTerm)
      end
  | Throw _ => ([], Ok false)
  | UB u => ([], UB u)
  | NonTerm => ([], NonTerm)
  end.
