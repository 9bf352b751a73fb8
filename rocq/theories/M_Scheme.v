(** * Model: frames as Scheme objects (scribbu/scheme-serde.cc).

    Guile itself is not modelled.  What it does with text is a parameter (the
    record [guile]); what it does with numbers, lists, symbols and slots is
    written out below.  The three functions that the code has for the three
    versions of each frame are one here, with the version as an argument. *)
From Verif Require Import Base M_Ints M_Charset M_Payload M_Cloud M_Frame M_Tag22 M_Tag23 M_Tag24 M_Lookup M_Popm M_Lang.

(** ** Values *)

(** The classes of scheme/scribbu.scm:128-139 and 194-281.  (Simplified: scripts
    do not derive classes from them.) *)
Inductive cls := CFrame | CUnk | CText | CComment | CUdt | CCount | CPopm | CCloud | CPriv | CTag | CV1 | COther.
Definition cls_eqb (a b : cls) : bool :=
  match a, b with
  | CFrame, CFrame | CUnk, CUnk | CText, CText | CComment, CComment | CUdt, CUdt | CCount, CCount | CPopm, CPopm
  | CCloud, CCloud | CPriv, CPriv | CTag, CTag | CV1, CV1 | COther, COther => true
  | _, _ => false
  end.

(** A Scheme value.  A string is its UTF-8 encoding; an object has a class and
    the values of its slots; [SNil] is #nil, [SOther] anything else. *)
Inductive scm :=
| SNull | SNil | SBool (b : bool) | SInt (n : Z) | SStr (s : bytes) | SSym (s : bytes) | SBytes (b : bytes)
| SPair (a d : scm) | SObj (c : cls) (slots : list scm) | SOther.

Fixpoint slist (l : list scm) : scm := match l with [] => SNull | x :: r => SPair x (slist r) end.

(** ** How a C++ function called from Scheme ends: [GRaise] is an error raised in
    Scheme, which leaves the C++ code without running its handlers; [GThrow] a C++
    exception. *)
Inductive gerr :=
| WrongType | BadRange | Decoding | MiscErr | UnexpectedType | UnexpectedUnsync | BadTagVersion | BadTag | ScribbuErr.
Inductive gres (A : Type) := GOk (a : A) | GRaise (e : gerr) | GThrow (e : exn) | GUB (u : ubkind) | GNonTerm.
Arguments GOk {A}. Arguments GRaise {A}. Arguments GThrow {A}. Arguments GUB {A}. Arguments GNonTerm {A}.

Definition gbind {A B} (x : gres A) (k : A -> gres B) : gres B :=
  match x with GOk a => k a | GRaise e => GRaise e | GThrow e => GThrow e | GUB u => GUB u | GNonTerm => GNonTerm end.
Notation "'let!' p ':=' x 'in' k" := (gbind x (fun p => k)) (at level 200, p pattern, x at level 100, k at level 200).
Definition glift {A} (x : outcome A) : gres A :=
  match x with Ok a => GOk a | Throw e => GThrow e | UB u => GUB u | NonTerm => GNonTerm end.
(** [try { x } catch (const std::exception&) { h }]. *)
Definition gcatch {A} (x h : gres A) : gres A := match x with GThrow _ => h | _ => x end.
Fixpoint gmap {A B} (f : A -> gres B) (l : list A) : gres (list B) :=
  match l with
  | [] => GOk []
  | a :: r => let! b := f a in let! bs := gmap f r in GOk (b :: bs)
  end.

(** ** What is used of Guile *)

(** What every theorem quantifies over: iconv, whether bytes are UTF-8, what a
    decoder makes of bytes that are not, conversion to and from the encoding of
    the locale, and the environment. *)
Record guile := mkGuile {
  g_ic : iconv_t; g_utf8 : bytes -> bool; g_escape : bytes -> option bytes;
  g_to_locale : bytes -> option bytes; g_from_locale : bytes -> option bytes; g_lenv : locale_env }.

Definition has_nul (s : bytes) : bool := existsb (N.eqb 0) s.
(** [scm_from_utf8_string]. *)
Definition from_utf8 (G : guile) (s : bytes) : gres scm :=
  let c := c_str s in if g_utf8 G c then GOk (SStr c) else GRaise Decoding.
(** [scm_from_stringn], with [SCM_FAILED_CONVERSION_ESCAPE_SEQUENCE]. *)
Definition from_stringn (G : guile) (s : bytes) : gres scm :=
  if g_utf8 G s then GOk (SStr s)
  else match g_escape G s with Some r => GOk (SStr r) | None => GRaise Decoding end.
(** [scm_from_locale_string]. *)
Definition from_locale (G : guile) (s : bytes) : gres scm :=
  match g_from_locale G (c_str s) with Some r => GOk (SStr r) | None => GRaise Decoding end.
(** scribbu/dynwind-context.cc: [scm_to_utf8_string] and [scm_to_locale_string], which refuse
    texts with NULs. *)
Definition to_utf8 (x : scm) : gres bytes :=
  match x with
  | SStr s => if has_nul s then GRaise MiscErr else GOk s
  | _ => GRaise WrongType
  end.
Definition to_locale (G : guile) (x : scm) : gres bytes :=
  let! s := to_utf8 x in
  match g_to_locale G s with Some r => GOk r | None => GRaise Decoding end.
(** [scm_symbol_to_string], then [scm_to_utf8_string]. *)
Definition symbol_text (x : scm) : gres bytes :=
  match x with
  | SSym s => if has_nul s then GRaise MiscErr else GOk s
  | _ => GRaise WrongType
  end.
(** [scm_to_uchar], [scm_to_uint], [scm_to_size_t], [scm_to_int]. *)
Definition to_unsigned (limit : Z) (x : scm) : gres N :=
  match x with
  | SInt n => if ((0 <=? n) && (n <? limit))%Z then GOk (Z.to_N n) else GRaise BadRange
  | _ => GRaise WrongType
  end.
Definition to_uchar : scm -> gres N := to_unsigned 256.
Definition to_uint : scm -> gres N := to_unsigned (2 ^ 32).
Definition to_size_t : scm -> gres N := to_unsigned (2 ^ 64).
Definition to_int (x : scm) : gres Z :=
  match x with
  | SInt n => if ((- 2 ^ 31 <=? n) && (n <? 2 ^ 31))%Z then GOk n else GRaise BadRange
  | _ => GRaise WrongType
  end.
(** [scm_to_bool]. *)
Definition to_bool (x : scm) : gres bool := match x with SBool b => GOk b | _ => GRaise WrongType end.
(** [scm_null_p]. *)
Definition is_null (x : scm) : bool := match x with SNull | SNil => true | _ => false end.
(** [scm_length], and [scm_list_ref] for each index below it.  (Simplified: no
    list is so long that its length is not an [int].) *)
Fixpoint to_list (x : scm) : gres (list scm) :=
  match x with
  | SNull | SNil => GOk []
  | SPair a d => let! r := to_list d in GOk (a :: r)
  | _ => GRaise WrongType
  end.
(** [scm_list_p]. *)
Fixpoint is_list (x : scm) : bool := match x with SNull | SNil => true | SPair _ d => is_list d | _ => false end.
(** [SCM_SLOT]: not checked. *)
Definition slot (n : nat) (slots : list scm) : gres scm :=
  match nth_error slots n with Some v => GOk v | None => GUB OutOfBounds end.
(** [SCM_BYTEVECTOR_LENGTH] and [SCM_BYTEVECTOR_CONTENTS]: not checked. *)
Definition bytevector (x : scm) : gres bytes := match x with SBytes b => GOk b | _ => GUB OutOfBounds end.

(** ** Symbols and identifiers *)

(** scheme-serde.cc:173-243 [init_symbols]: the symbols with their identifiers in
    [id3lu] and [id3rlu], and in [id4lu] and [id4rlu]. *)
Definition symbols3 : list (bytes * bytes) :=
  [(B "album-frame", B "TAL"); (B "artist-frame", B "TP1"); (B "band-frame", B "TP2"); (B "bpm-frame", B "TBP");
   (B "composer-frame", B "TCM"); (B "conductor-frame", B "TP3"); (B "content-group-frame", B "TT1");
   (B "copyright-frame", B "TCR"); (B "date-frame", B "TDA"); (B "encoded-by-frame", B "TEN");
   (B "file-type-frame", B "TFT"); (B "genre-frame", B "TCO"); (B "initial-key-frame", B "TKE");
   (B "interpreted-by-frame", B "TP4"); (B "isrc-frame", B "TRC"); (B "langs-frame", B "TLA");
   (B "length-frame", B "TLE"); (B "lyricist-frame", B "TXT"); (B "media-type-frame", B "TMT");
   (B "original-album-frame", B "TOT"); (B "original-artist-frame", B "TOA"); (B "original-filename-frame", B "TOF");
   (B "original-lyricist-frame", B "TOL"); (B "original-release-year-frame", B "TOR");
   (B "part-of-a-set-frame", B "TPA"); (B "playlist-delay-frame", B "TDY"); (B "publisher-frame", B "TPB");
   (B "recording-dates-frame", B "TRD"); (B "settings-frame", B "TSS"); (B "size-frame", B "TSI");
   (B "subtitle-frame", B "TT3"); (B "time-frame", B "TIM"); (B "title-frame", B "TT2"); (B "track-frame", B "TRK");
   (B "year-frame", B "TYE"); (B "comment-frame", B "COM"); (B "udt-frame", B "TXX");
   (B "play-count-frame", B "CNT"); (B "popm-frame", B "POP"); (B "tag-cloud-frame", B "XTG")].
Definition symbols4 : list (bytes * bytes) :=
  [(B "file-owner-frame", B "TOWN"); (B "station-name-frame", B "TRSN"); (B "station-owner-frame", B "TRSO");
   (B "album-frame", B "TALB"); (B "artist-frame", B "TPE1"); (B "band-frame", B "TPE2"); (B "bpm-frame", B "TBPM");
   (B "composer-frame", B "TCOM"); (B "conductor-frame", B "TPE3"); (B "content-group-frame", B "TIT1");
   (B "copyright-frame", B "TCOP"); (B "date-frame", B "TDAT"); (B "encoded-by-frame", B "TENC");
   (B "file-type-frame", B "TFLT"); (B "genre-frame", B "TCON"); (B "initial-key-frame", B "TKEY");
   (B "interpreted-by-frame", B "TPE4"); (B "isrc-frame", B "TSRC"); (B "langs-frame", B "TLAN");
   (B "length-frame", B "TLEN"); (B "lyricist-frame", B "TEXT"); (B "media-type-frame", B "TMED");
   (B "original-album-frame", B "TOAL"); (B "original-artist-frame", B "TOPE");
   (B "original-filename-frame", B "TOFN"); (B "original-lyricist-frame", B "TOLY");
   (B "original-release-year-frame", B "TORY"); (B "part-of-a-set-frame", B "TPOS");
   (B "playlist-delay-frame", B "TDLY"); (B "publisher-frame", B "TPUB"); (B "recording-dates-frame", B "TRDA");
   (B "settings-frame", B "TSSE"); (B "size-frame", B "TSIZ"); (B "subtitle-frame", B "TIT3");
   (B "time-frame", B "TIME"); (B "title-frame", B "TIT2"); (B "track-frame", B "TRCK"); (B "year-frame", B "TYER");
   (B "comment-frame", B "COMM"); (B "udt-frame", B "TXXX"); (B "play-count-frame", B "PCNT");
   (B "popm-frame", B "POPM"); (B "tag-cloud-frame", B "XTAG"); (B "priv-frame", B "PRIV")].
Definition symbols (v : version) : list (bytes * bytes) := match v with V22 => symbols3 | _ => symbols4 end.

Fixpoint assoc_b {A} (k : bytes) (t : list (bytes * A)) : option A :=
  match t with [] => None | (k', a) :: r => if bytes_eqb k k' then Some a else assoc_b k r end.
Fixpoint rassoc_b {A} (k : bytes) (t : list (A * bytes)) : option A :=
  match t with [] => None | (a, k') :: r => if bytes_eqb k k' then Some a else rassoc_b k r end.
(** [id3rlu.find], [id4rlu.find]; [id3lu.find], [id4lu.find]. *)
Definition id_of_symbol (v : version) (s : bytes) : option bytes := assoc_b s (symbols v).
Definition symbol_of_id (v : version) (id : bytes) : option bytes := rassoc_b id (symbols v).

(** scheme-serde.cc:1466-1734: the functions registered for the identifiers of
    frames, and for the symbols of objects (the same for ID3v2.3 and 2.4). *)
Inductive serde := FText | FComment | FUdt | FCount | FPopm | FCloud.
Definition de_table3 : list (bytes * serde) :=
  [(B "TAL", FText); (B "TBP", FText); (B "TCM", FText); (B "TCO", FText); (B "TCR", FText); (B "TDA", FText);
   (B "TDY", FText); (B "TEN", FText); (B "TFT", FText); (B "TIM", FText); (B "TKE", FText); (B "TLA", FText);
   (B "TLE", FText); (B "TMT", FText); (B "TOA", FText); (B "TOF", FText); (B "TOL", FText); (B "TOR", FText);
   (B "TOT", FText); (B "TP1", FText); (B "TP2", FText); (B "TP3", FText); (B "TP4", FText); (B "TPA", FText);
   (B "TPB", FText); (B "TRC", FText); (B "TRD", FText); (B "TRK", FText); (B "TSI", FText); (B "TSS", FText);
   (B "TT1", FText); (B "TT2", FText); (B "TT3", FText); (B "TXT", FText); (B "TYE", FText); (B "COM", FComment);
   (B "TXX", FUdt); (B "CNT", FCount); (B "POP", FPopm); (B "XTG", FCloud)].
Definition de_table4 : list (bytes * serde) :=
  [(B "TALB", FText); (B "TBPM", FText); (B "TCOM", FText); (B "TCON", FText); (B "TCOP", FText); (B "TDAT", FText);
   (B "TDLY", FText); (B "TENC", FText); (B "TEXT", FText); (B "TFLT", FText); (B "TIME", FText); (B "TIT1", FText);
   (B "TIT2", FText); (B "TIT3", FText); (B "TKEY", FText); (B "TLAN", FText); (B "TLEN", FText); (B "TMED", FText);
   (B "TOAL", FText); (B "TOFN", FText); (B "TOLY", FText); (B "TOPE", FText); (B "TORY", FText); (B "TOWN", FText);
   (B "TPE1", FText); (B "TPE2", FText); (B "TPE3", FText); (B "TPE4", FText); (B "TPOS", FText); (B "TPUB", FText);
   (B "TRCK", FText); (B "TRDA", FText); (B "TRSN", FText); (B "TRSO", FText); (B "TSIZ", FText); (B "TSRC", FText);
   (B "TSSE", FText); (B "TYER", FText); (B "COMM", FComment); (B "TXXX", FUdt); (B "PCNT", FCount);
   (B "POPM", FPopm); (B "XTAG", FCloud)].
Definition ser_table3 : list (bytes * serde) :=
  [(B "album-frame", FText); (B "artist-frame", FText); (B "band-frame", FText); (B "bpm-frame", FText);
   (B "composer-frame", FText); (B "conductor-frame", FText); (B "content-group-frame", FText);
   (B "copyright-frame", FText); (B "date-frame", FText); (B "encoded-by-frame", FText);
   (B "file-type-frame", FText); (B "genre-frame", FText); (B "initial-key-frame", FText);
   (B "interpreted-by-frame", FText); (B "isrc-frame", FText); (B "langs-frame", FText); (B "length-frame", FText);
   (B "lyricist-frame", FText); (B "media-type-frame", FText); (B "original-album-frame", FText);
   (B "original-artist-frame", FText); (B "original-filename-frame", FText); (B "original-lyricist-frame", FText);
   (B "original-release-year-frame", FText); (B "part-of-a-set-frame", FText); (B "playlist-delay-frame", FText);
   (B "publisher-frame", FText); (B "recording-dates-frame", FText); (B "settings-frame", FText);
   (B "size-frame", FText); (B "subtitle-frame", FText); (B "time-frame", FText); (B "title-frame", FText);
   (B "track-frame", FText); (B "year-frame", FText); (B "comment-frame", FComment); (B "udt-frame", FUdt);
   (B "play-count-frame", FCount); (B "popm-frame", FPopm); (B "tag-cloud-frame", FCloud)].
Definition ser_table4 : list (bytes * serde) :=
  [(B "album-frame", FText); (B "artist-frame", FText); (B "band-frame", FText); (B "bpm-frame", FText);
   (B "composer-frame", FText); (B "conductor-frame", FText); (B "content-group-frame", FText);
   (B "copyright-frame", FText); (B "date-frame", FText); (B "encoded-by-frame", FText);
   (B "file-owner-frame", FText); (B "file-type-frame", FText); (B "genre-frame", FText);
   (B "initial-key-frame", FText); (B "interpreted-by-frame", FText); (B "isrc-frame", FText);
   (B "langs-frame", FText); (B "length-frame", FText); (B "lyricist-frame", FText); (B "media-type-frame", FText);
   (B "original-album-frame", FText); (B "original-artist-frame", FText); (B "original-filename-frame", FText);
   (B "original-lyricist-frame", FText); (B "original-release-year-frame", FText); (B "part-of-a-set-frame", FText);
   (B "playlist-delay-frame", FText); (B "publisher-frame", FText); (B "recording-dates-frame", FText);
   (B "settings-frame", FText); (B "size-frame", FText); (B "station-name-frame", FText);
   (B "station-owner-frame", FText); (B "subtitle-frame", FText); (B "time-frame", FText); (B "title-frame", FText);
   (B "track-frame", FText); (B "year-frame", FText); (B "comment-frame", FComment); (B "udt-frame", FUdt);
   (B "play-count-frame", FCount); (B "popm-frame", FPopm); (B "tag-cloud-frame", FCloud)].
Definition de_table (v : version) : list (bytes * serde) := match v with V22 => de_table3 | _ => de_table4 end.
Definition ser_table (v : version) : list (bytes * serde) := match v with V22 => ser_table3 | _ => ser_table4 end.

(** ** From frames to objects *)

(** scheme-serde.cc:251-291 [init_frame]: slots 0 to 4; those left alone are '()
    (scheme/scribbu.scm:194-199). *)
Definition flag_slots (v : version) (fl : fflags) : list scm :=
  match v with
  | V22 => [SNull; SNull; SNull; SNull]
  | V23 => [SBool (negb (fl_tap fl)); SBool (negb (fl_fap fl)); SBool (fl_ro fl); SNull]
  | V24 => [SBool (negb (fl_tap fl)); SBool (negb (fl_fap fl)); SBool (fl_ro fl); SBool (fl_unsync fl)]
  end.
Definition init_frame (v : version) (c : cls) (sym : bytes) (fl : fflags) (rest : list scm) : scm :=
  SObj c ([SSym sym] ++ flag_slots v fl ++ rest).

(** [as_str], [text] and [description] of a frame with the encoding byte [u]. *)
Definition frame_text (G : guile) (v : version) (u : option N) (b : bytes) : gres bytes :=
  match b with
  | [] => GOk []
  | _ => match u with
         | Some u => glift (text_as_str v (g_ic G) (mkText u b) E_UTF_8 NoFail None)
         | None => GUB Uninitialised
         end
  end.

(** scheme-serde.cc:379-424. *)
Definition de_text (G : guile) (v : version) (f : frame) (t : text) : gres scm :=
  match symbol_of_id v (f_id f) with
  | None => GThrow LogicError
  | Some s =>
      let! txt := frame_text G v (Some (tx_unicode t)) (tx_text t) in
      let! x := from_utf8 G txt in
      GOk (init_frame v CText s (f_flags f) [x])
  end.

(** scheme-serde.cc:426-500: letters that are not ASCII become NULs. *)
Definition de_lang (l : bytes) : bytes := map (fun c => if 128 <=? c then 0 else c) l.
Definition de_comment (G : guile) (v : version) (f : frame) (c : comm) : gres scm :=
  match co_lang c with
  | None => GUB Uninitialised
  | Some l =>
      let! x5 := from_utf8 G (de_lang l) in
      let! dsc := frame_text G v (co_unicode c) (co_desc c) in
      let! x6 := from_utf8 G dsc in
      let! txt := frame_text G v (co_unicode c) (co_text c) in
      let! x7 := from_utf8 G txt in
      GOk (init_frame v CComment (B "comment-frame") (f_flags f) [x5; x6; x7])
  end.

(** scheme-serde.cc:502-558. *)
Definition de_udt (G : guile) (v : version) (f : frame) (t : txxx) : gres scm :=
  let! dsc := frame_text G v (Some (ud_unicode t)) (ud_desc t) in
  let! x5 := from_utf8 G dsc in
  let! txt := frame_text G v (Some (ud_unicode t)) (ud_text t) in
  let! x6 := from_utf8 G txt in
  GOk (init_frame v CUdt (B "udt-frame") (f_flags f) [x5; x6]).

(** scheme-serde.cc:560-586. *)
Definition de_count (v : version) (f : frame) (c : bytes) : gres scm :=
  let! n := glift (counter_value c) in
  GOk (init_frame v CCount (B "play-count-frame") (f_flags f) [SInt (Z.of_N n)]).

(** scheme-serde.cc:588-647. *)
Definition de_popm (G : guile) (v : version) (f : frame) (p : popm) : gres scm :=
  let! own := glift (email_text (g_ic G) p) in
  let! x5 := from_utf8 G own in
  let! n := glift (counter_value (po_counter p)) in
  GOk (init_frame v CPopm (B "popm-frame") (f_flags f) [x5; SInt (Z.of_N (po_rating p)); SInt (Z.of_N n)]).

(** scheme-serde.cc:649-732. *)
Fixpoint de_entries (G : guile) (m : cmap) (lst : scm) : gres scm :=
  match m with
  | [] => GOk lst
  | (k, vs) :: r =>
      let! vals := gmap (from_stringn G) vs in
      let! key := from_utf8 G k in
      de_entries G r (SPair (SPair key (slist vals)) lst)
  end.
Definition de_cloud (G : guile) (v : version) (f : frame) (c : cloud) : gres scm :=
  let! x5 := from_utf8 G (tc_owner c) in
  let! x6 := de_entries G (tc_tags c) SNull in
  GOk (init_frame v CCloud (B "tag-cloud-frame") (f_flags f) [x5; x6]).

(** scheme-serde.cc:1882-1977 [de_unknown_frame_2_2], [_2_3], [_2_4]. *)
Definition wire_of (z : zlib) (v : version) : frame -> outcome bytes :=
  match v with V22 => wire22 | V23 => wire23 z | V24 => wire24 z end.
Definition frame_bytes (z : zlib) (v : version) (unsync : bool) (c : cframe) : outcome bytes :=
  let* c1 := refresh (wire_of z v) false c in
  Ok (match v with V22 => cached22 unsync c1 | _ => cached unsync c1 end).
Definition de_unknown (G : guile) (z : zlib) (v : version) (unsync : bool) (c : cframe) : gres scm :=
  let! x5 := from_locale G (f_id (c_frame c)) in
  let! b := glift (frame_bytes z v unsync c) in
  GOk (init_frame v CUnk (B "unknown-frame") (f_flags (c_frame c)) [x5; SBytes b]).

(** scheme-serde.hh:100-129 and the functions registered: the cast to the class
    of the frame may fail. *)
Definition de_known (G : guile) (v : version) (k : serde) (f : frame) : gres scm :=
  match k, f_body f with
  | FText, BText t => de_text G v f t
  | FComment, BComm c => de_comment G v f c
  | FUdt, BTxxx t => de_udt G v f t
  | FCount, BCount c => de_count v f c
  | FPopm, BPopm p => de_popm G v f p
  | FCloud, BCloud c => de_cloud G v f c
  | _, _ => GThrow BadCast
  end.

(** scheme-serde.cc:1736-1791 [de_2_2], [de_2_3], [de_2_4]. *)
Definition de (G : guile) (z : zlib) (v : version) (unsync : bool) (c : cframe) : gres scm :=
  match assoc_b (f_id (c_frame c)) (de_table v) with
  | None => de_unknown G z v unsync c
  | Some k => gcatch (de_known G v k (c_frame c)) (de_unknown G z v unsync c)
  end.

(** ** From objects to frames *)

(** scheme-serde.cc:293-369 [ser_frame_2_2], [_2_3], [_2_4], and the same tests in
    [ser_unknown_frame_2_3].  A slot is compared with #t or #f. *)
Definition is_f (x : scm) : bool := match x with SBool false => true | _ => false end.
Definition is_t (x : scm) : bool := match x with SBool true => true | _ => false end.
Definition ser_flags (v : version) (slots : list scm) : gres fflags :=
  match v with
  | V22 => GOk no_flags
  | V23 =>
      let! a := slot 1 slots in let! b := slot 2 slots in let! c := slot 3 slots in
      GOk (mkFl (is_f a) (is_f b) (is_t c) false None None false false)
  | V24 =>
      let! a := slot 1 slots in let! b := slot 2 slots in let! c := slot 3 slots in let! d := slot 4 slots in
      GOk (mkFl (is_f a) (is_f b) (is_t c) false None None (is_t d) false)
  end.
Definition ser_frame (v : version) (want c : cls) (slots : list scm) : gres (bytes * fflags) :=
  if negb (cls_eqb c want) then GThrow LogicError
  else
    let! s := slot 0 slots in
    let! sym := symbol_text s in
    let! fl := ser_flags v slots in
    GOk (sym, fl).

(** The identifiers of the frames that are not text frames. *)
Definition comment_id (v : version) : bytes := match v with V22 => B "COM" | _ => B "COMM" end.
Definition udt_id (v : version) : bytes := match v with V22 => B "TXX" | _ => B "TXXX" end.
Definition pcnt_id (v : version) : bytes := match v with V22 => B "CNT" | _ => B "PCNT" end.
Definition pop_id (v : version) : bytes := match v with V22 => B "POP" | _ => B "POPM" end.
Definition cloud_id (v : version) : bytes := match v with V22 => B "XTG" | _ => B "XTAG" end.

(** scheme-serde.cc:790-891. *)
Definition ser_text (G : guile) (v : version) (c : cls) (slots : list scm) : gres frame :=
  let! (sym, fl) := ser_frame v CText c slots in
  match id_of_symbol v sym with
  | None => GThrow LogicError
  | Some id =>
      let! x := slot 5 slots in
      let! txt := to_utf8 x in
      let! t := glift (text_new v (g_ic G) txt E_UTF_8 false NoFail) in
      GOk (mkFrame id fl (BText t))
  end.

(** scribbu/framesv2.cc:754-812 and 893-958 with [use_unicode::yes]. *)
Definition uni_enc (v : version) : enc := match v with V24 => E_UTF_8 | _ => E_UCS_2 end.
Definition to_uni (G : guile) (v : version) (s : bytes) : gres bytes :=
  glift (to_bytes (g_ic G) s E_UTF_8 (uni_enc v) false NoFail).

(** scheme-serde.cc:893-995. *)
Definition ser_comment (G : guile) (v : version) (c : cls) (slots : list scm) : gres frame :=
  let! (sym, fl) := ser_frame v CComment c slots in
  let! x5 := slot 5 slots in
  let! lt := to_utf8 x5 in
  let! l := match lt with [] => GOk (Lang (B "eng")) | _ => glift (read_language lt) end in
  let! x6 := slot 6 slots in
  let! dsc := to_utf8 x6 in
  let! x7 := slot 7 slots in
  let! txt := to_utf8 x7 in
  let! code := glift (comment_language (g_lenv G) l) in
  let! bt := to_uni G v txt in
  let! bd := to_uni G v dsc in
  GOk (mkFrame (comment_id v) fl (BComm (make_comm v code uni_yes bt bd))).

(** scheme-serde.cc:997-1078. *)
Definition ser_udt (G : guile) (v : version) (c : cls) (slots : list scm) : gres frame :=
  let! (sym, fl) := ser_frame v CUdt c slots in
  let! x5 := slot 5 slots in
  let! dsc := to_utf8 x5 in
  let! x6 := slot 6 slots in
  let! txt := to_utf8 x6 in
  let! bt := to_uni G v txt in
  let! bd := to_uni G v dsc in
  GOk (mkFrame (udt_id v) fl (BTxxx (make_txxx v uni_yes bt bd))).

(** scheme-serde.cc:1080-1152. *)
Definition ser_count (v : version) (c : cls) (slots : list scm) : gres frame :=
  let! (sym, fl) := ser_frame v CCount c slots in
  let! x5 := slot 5 slots in
  let! n := to_size_t x5 in
  GOk (mkFrame (pcnt_id v) fl (BCount (reset_counter n))).

(** scheme-serde.cc:1154-1230. *)
Definition ser_popm (v : version) (c : cls) (slots : list scm) : gres frame :=
  let! (sym, fl) := ser_frame v CPopm c slots in
  let! x5 := slot 5 slots in
  let! own := to_utf8 x5 in
  let! x6 := slot 6 slots in
  let! rating := to_uchar x6 in
  let! x7 := slot 7 slots in
  let! n := to_size_t x7 in
  GOk (mkFrame (pop_id v) fl (BPopm (make_popm own rating n))).

(** scheme-serde.cc:1232-1390.  For ID3v2.2 and 2.4 the first element of a tag is
    asked for with [scm_list_ref(scm, 0)], where 0 is no Scheme number but a null
    pointer. *)
Definition ser_values (second : scm) : gres (list bytes) :=
  match second with
  | SStr _ => let! v := to_utf8 second in GOk (sinsert v [])
  | _ => if is_list second then
           let! xs := to_list second in
           let! vs := gmap to_utf8 xs in
           GOk (fold_left (fun s v => sinsert v s) vs [])
         else GThrow RuntimeError
  end.
Fixpoint ser_entries (xs : list scm) (m : cmap) : gres cmap :=
  match xs with
  | [] => GOk m
  | SPair first second :: r =>
      let! key := to_utf8 first in
      let! vals := ser_values second in
      ser_entries r (mset key vals m)
  | _ :: r => GRaise WrongType
  end.
Definition ser_cloud (v : version) (c : cls) (slots : list scm) : gres frame :=
  let! (sym, fl) := ser_frame v CCloud c slots in
  let! x5 := slot 5 slots in
  let! own := to_utf8 x5 in
  let! x6 := slot 6 slots in
  let! xs := to_list x6 in
  let! m := match v, xs with
            | _, [] => GOk []
            | V23, _ => ser_entries xs []
            | _, _ => GUB NullDeref
            end in
  GOk (mkFrame (cloud_id v) fl (BCloud (mkCloud own m))).

(** scheme-serde.cc:1979-2089 [ser_unknown_frame_2_2], [_2_3], [_2_4]: the
    identifier is the first three or four characters of a C string
    (framesv2.cc:347-349, 464-466), the contents what follows the header. *)
Definition id_size (v : version) : N := match v with V22 => 3 | _ => 4 end.
Definition header_size (v : version) : N := match v with V22 => 6 | _ => 10 end.
Definition ser_unknown (G : guile) (v : version) (slots : list scm) : gres frame :=
  let! x5 := slot 5 slots in
  let! idt := to_locale G x5 in
  let! id := if len (c_str idt) + 1 <? id_size v then GUB OutOfBounds else GOk (takeN (id_size v) (c_str idt ++ [0])) in
  let! fl := match v with
             | V24 =>
                 let! a := slot 1 slots in let! b := slot 2 slots in let! c := slot 3 slots in
                 GOk (mkFl (is_f a) (is_f b) (is_t c) false None None (is_t c) false)
             | _ => ser_flags v slots
             end in
  let! x6 := slot 6 slots in
  let! b := bytevector x6 in
  if len b <? header_size v then GUB BadIterator
  else GOk (mkFrame id fl (BUnknown (dropN (header_size v) b))).

(** The functions registered. *)
Definition ser_known (G : guile) (v : version) (k : serde) (c : cls) (slots : list scm) : gres frame :=
  match k with
  | FText => ser_text G v c slots
  | FComment => ser_comment G v c slots
  | FUdt => ser_udt G v c slots
  | FCount => ser_count v c slots
  | FPopm => ser_popm v c slots
  | FCloud => ser_cloud v c slots
  end.

(** [SCM_IS_A_P (scm, <id3v2-frame>)]. *)
Definition is_frame (c : cls) : bool :=
  match c with CTag | CV1 | COther => false | _ => true end.

(** scheme-serde.cc:1793-1880 [ser_2_2], [ser_2_3], [ser_2_4]. *)
Definition ser (G : guile) (v : version) (x : scm) : gres frame :=
  match x with
  | SObj c slots =>
      if is_frame c then
        let! s := slot 0 slots in
        let! sym := symbol_text s in
        match assoc_b sym (ser_table v) with
        | None => ser_unknown G v slots
        | Some k => gcatch (ser_known G v k c slots) (ser_unknown G v slots)
        end
      else GRaise UnexpectedType
  | _ => GRaise UnexpectedType
  end.
