(** * Model: frames printed one at a time as comma- or tab-delimited fields.

    scribbu/csv-pprinter.cc:287-736, scribbu/tdf-pprinter.cc:240-690, reached by
    [os << print_as_csv(...)] or [os << print_as_tdf(...)] and then [os << frame]
    (scribbu/pprinter.cc:141-296, 1085-1104).  The number base is the stream's and
    outlives each frame; the fill character is set wherever a width is. *)
From Verif Require Import Base M_Ints M_Id3v1 M_Payload M_Cloud M_Frame M_Charset M_Lookup M_Cmds M_Csv M_Report M_Dump.
#[local] Open Scope N_scope.

(** What the printers differ in, their encoding for ID3v2 frames, and the encoding
    the stream is imbued with.  For the ID3v2.2 popularimeter, the CSV printer takes
    UTF-8 where it takes ISO-8859-1 everywhere else: csv-pprinter.cc:375, 480, 638,
    tdf-pprinter.cc:325, 431, 585. *)
Record rowstyle := mkRs {
  rs_st : style; rs_pop22 : enc; rs_v2enc : option enc; rs_dst : enc; rs_rsp : noenc }.
(** scribbu/csv-pprinter.hh:242-243, tdf-pprinter.cc:38-44. *)
Definition csv_rows (sep : N) (v2enc : option enc) (dst : enc) (rsp : noenc) : rowstyle :=
  mkRs (mkStyle sep (escape sep quote)) E_UTF_8 v2enc dst rsp.
Definition tdf_rows (ascii : bool) (v2enc : option enc) (dst : enc) (rsp : noenc) : rowstyle :=
  mkRs (tdf_style ascii) E_ISO_8859_1 v2enc dst rsp.

(** [owner<string>(dst, rsp, src)], [email<string>(dst, rsp, src)]: framesv22.hh:268-279,
    694-705, framesv23.hh:558-569, 614-625, 1155-1166, 1317-1327, framesv24.hh:281-292,
    344-355, 905-916, 1070-1081.  Nothing is not converted. *)
Definition converted (ic : iconv_t) (b : bytes) (src dst : enc) (rsp : noenc) : outcome bytes :=
  match b with [] => Ok [] | _ => to_string ic b src dst rsp end.

(** [setw(2) << setfill('0') << x] with [x] an unsigned char: a character, not a
    number. *)
Definition raw_bytes (l : bytes) : bytes := flat_map (fun x => [48; x]) l.

(** Comments: framesv22.hh:594-620, framesv23.hh:1008-1034, framesv24.hh:748-774. *)
Definition comment_part (s : rowstyle) (ic : iconv_t) (v : version) (c : comm) (b : bytes) : outcome bytes :=
  match b with
  | [] => Ok []
  | _ => let* u := M_Id3v1.init (co_unicode c) in text_as_str v ic (mkText u b) (rs_dst s) (rs_rsp s) (rs_v2enc s)
  end.
(** User-defined texts, with the default arguments: framesv22.hh:527-553,
    framesv23.hh:926-955, framesv24.hh:654-684. *)
Definition user_part (ic : iconv_t) (v : version) (u : N) (b : bytes) : outcome bytes :=
  text_as_str v ic (mkText u b) E_UTF_8 NoFail None.

(** The functions for the frames: csv-pprinter.cc:287-409 (ID3v2.2), 411-571
    (ID3v2.3), 573-736 (ID3v2.4); tdf-pprinter.cc:240-363, 365-523, 525-690.
    [base] is the stream's number base. *)
Definition frame_row (s : rowstyle) (ic : iconv_t) (base : N) (v : version) (f : frame) : pr :=
  let sep := [st_sep (rs_st s)] in
  let esc := st_esc (rs_st s) in
  let src d := match rs_v2enc s with Some e => e | None => d end in
  let text o := pput (let* x := o in Ok (esc x)) in
  match f_body f with
  | BUnknown _ => put (f_id f)
  | BText t => text (text_as_str v ic t (rs_dst s) (rs_rsp s) (rs_v2enc s))
  | BUfid u =>
      pthen (text (converted ic (uf_owner u) (src E_ISO_8859_1) (rs_dst s) (rs_rsp s)))
            (put (sep ++ B "0x" ++ raw_bytes (uf_id u)))
  | BEncr e =>
      pthen (text (converted ic (en_email e) (src E_ISO_8859_1) (rs_dst s) (rs_rsp s)))
        (pthen (put sep)
          (pthen (pput (let* m := M_Id3v1.init (en_method e) in Ok (number base m)))
            (put (sep ++ B "0x" ++ raw_bytes (en_data e)))))
  | BTxxx t =>
      pput (let* d := user_part ic v (ud_unicode t) (ud_desc t) in
            let* x := user_part ic v (ud_unicode t) (ud_text t) in
            Ok (number base (ud_unicode t) ++ sep ++ esc d ++ sep ++ esc x))
  | BComm c =>
      pthen (pput (let* l := M_Id3v1.init (co_lang c) in Ok (takeN 3 l)))
        (pthen (put sep)
          (pthen (text (comment_part s ic v c (co_desc c)))
            (pthen (put sep) (text (comment_part s ic v c (co_text c))))))
  | BCount c => pput (let* n := counter_value c in Ok (number base (n mod 2 ^ 32)))
  | BPopm p =>
      pthen (text (converted ic (po_email p) (src (match v with V22 => rs_pop22 s | _ => E_ISO_8859_1 end)) (rs_dst s) (rs_rsp s)))
            (put (sep ++ number 10 (po_rating p) ++ sep ++ hex_bytes (po_counter p)))
  | BCloud c =>
      pthen (text (to_string ic (tc_owner c) E_UTF_8 (rs_dst s) (rs_rsp s)))
        (pthen (put sep) (text (to_string ic (urlencoded (tc_tags c)) E_UTF_8 (rs_dst s) (rs_rsp s))))
  | BPriv p => pput (converted ic (pr_email p) E_ASCII E_UTF_8 NoFail)
  end.

(** scribbu/pprinter.cc:257-296 and 1085-1104: looking up the function, as in
    M_Dump. *)
Definition print_row (s : rowstyle) (ic : iconv_t) (base : N) (v : version) (f : frame) : pr :=
  match v, f_body f with
  | V24, BCloud _ | V24, BPriv _ => ([], Throw OutOfRange)
  | _, _ => frame_row s ic base v f
  end.

(** What a frame leaves the stream's base at: only popularimeters set it
    (csv-pprinter.cc:380, 385, 485, 490, 643, 648, tdf-pprinter.cc:330, 335, 436, 441,
    590, 595), once their e-mail address is printed. *)
Definition base_after (base : N) (f : frame) : N :=
  match f_body f with BPopm _ => 16 | _ => base end.

(** What is put on the stream: frames, the caller's own text, the manipulators
    [std::dec] and [std::hex], and track data (csv-pprinter.cc:249-265,
    tdf-pprinter.cc:204-220). *)
Inductive item := IFrame (v : version) (f : frame) | ILit (b : bytes) | IDec | IHex | ITrack (size : N) (md5 : bytes).
Definition print_item (s : rowstyle) (ic : iconv_t) (base : N) (i : item) : pr * N :=
  match i with
  | IFrame v f => let r := print_row s ic base v f in
                  (r, match snd r with Ok _ => base_after base f | _ => base end)
  | ILit b => (put b, base)
  | IDec => (put [], 10)
  | IHex => (put [], 16)
  | ITrack n md5 => (put (pprint_track_data (st_sep (rs_st s)) n md5), 16)
  end.
Fixpoint print_items (s : rowstyle) (ic : iconv_t) (base : N) (l : list item) : pr * N :=
  match l with
  | [] => (put [], base)
  | i :: r =>
      match print_item s ic base i with
      | (p, b) => match snd p with
                  | Ok _ => match print_items s ic b r with (q, b') => (pthen p q, b') end
                  | _ => (p, b)
                  end
      end
  end.
