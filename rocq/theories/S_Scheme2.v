(** * Specification: frame objects that come back when they are written and read. *)
From Verif Require Import Base M_Charset M_Payload M_Cloud M_Frame M_Scheme S_Ints S_Charset S_Payload S_Cloud S_Lang S_Tag.
#[local] Open Scope N_scope.

(** doc/scribbu.texi, "Frame Identifiers": symbols, identifiers of three characters
    (ID3v2.2) and of four (2.3 and 2.4).  (The manual has 'pop-frame for 'popm-frame,
    which is what scheme/scribbu.scm defines.) *)
Definition documented : list (bytes * option bytes * bytes) :=
  [(B "album-frame", Some (B "TAL"), B "TALB"); (B "artist-frame", Some (B "TP1"), B "TPE1");
   (B "band-frame", Some (B "TP2"), B "TPE2"); (B "bpm-frame", Some (B "TBP"), B "TBPM");
   (B "comment-frame", Some (B "COM"), B "COMM"); (B "composer-frame", Some (B "TCM"), B "TCOM");
   (B "conductor-frame", Some (B "TP3"), B "TPE3"); (B "content-group-frame", Some (B "TT1"), B "TIT1");
   (B "copyright-frame", Some (B "TCR"), B "TCOP"); (B "date-frame", Some (B "TDA"), B "TDAT");
   (B "encoded-by-frame", Some (B "TEN"), B "TENC"); (B "file-owner-frame", None, B "TOWN");
   (B "file-type-frame", Some (B "TFT"), B "TFLT"); (B "genre-frame", Some (B "TCO"), B "TCON");
   (B "initial-key-frame", Some (B "TKE"), B "TKEY"); (B "interpreted-by-frame", Some (B "TP4"), B "TPE4");
   (B "isrc-frame", Some (B "TRC"), B "TSRC"); (B "langs-frame", Some (B "TLA"), B "TLAN");
   (B "length-frame", Some (B "TLE"), B "TLEN"); (B "lyricist-frame", Some (B "TXT"), B "TEXT");
   (B "media-type-frame", Some (B "TMT"), B "TMED"); (B "original-album-frame", Some (B "TOT"), B "TOAL");
   (B "original-artist-frame", Some (B "TOA"), B "TOPE"); (B "original-filename-frame", Some (B "TOF"), B "TOFN");
   (B "original-lyricist-frame", Some (B "TOL"), B "TOLY");
   (B "original-release-year-frame", Some (B "TOR"), B "TORY");
   (B "part-of-a-set-frame", Some (B "TPA"), B "TPOS"); (B "play-count-frame", Some (B "CNT"), B "PCNT");
   (B "playlist-delay-frame", Some (B "TDY"), B "TDLY"); (B "popm-frame", Some (B "POP"), B "POPM");
   (B "publisher-frame", Some (B "TPB"), B "TPUB"); (B "recording-dates-frame", Some (B "TRD"), B "TRDA");
   (B "settings-frame", Some (B "TSS"), B "TSSE"); (B "size-frame", Some (B "TSI"), B "TSIZ");
   (B "station-name-frame", None, B "TRSN"); (B "station-owner-frame", None, B "TRSO");
   (B "subtitle-frame", Some (B "TT3"), B "TIT3"); (B "tag-cloud-frame", Some (B "XTG"), B "XTAG");
   (B "time-frame", Some (B "TIM"), B "TIME"); (B "title-frame", Some (B "TT2"), B "TIT2");
   (B "track-frame", Some (B "TRK"), B "TRCK"); (B "udt-frame", Some (B "TXX"), B "TXXX");
   (B "year-frame", Some (B "TYE"), B "TYER")].
Definition documented_id (v : version) (sym id : bytes) : Prop :=
  exists i3 i4, In (sym, i3, i4) documented /\ match v with V22 => i3 = Some id | _ => i4 = id end.
(** The symbols of frames that hold more than a text. *)
Definition special : list bytes :=
  [B "comment-frame"; B "udt-frame"; B "play-count-frame"; B "popm-frame"; B "tag-cloud-frame"].
Definition text_symbol (v : version) (sym id : bytes) : Prop := documented_id v sym id /\ ~ In sym special.

(** ** Slots that all frames have *)

(** The values of 'tap, 'fap, 'ro and 'unsync of a frame without marks: not #f for
    the first two ("preserve"), not #t for the others; '() is what they are unless
    set.  And what they are in an object made from such a frame. *)
Definition unmarked (v : version) (tap fap ro unsync : scm) : Prop :=
  match v with
  | V22 => True
  | V23 => tap <> SBool false /\ fap <> SBool false /\ ro <> SBool true
  | V24 => tap <> SBool false /\ fap <> SBool false /\ ro <> SBool true /\ unsync <> SBool true
  end.
Definition marks_read (v : version) : list scm :=
  match v with
  | V22 => [SNull; SNull; SNull; SNull]
  | V23 => [SBool true; SBool true; SBool false; SNull]
  | V24 => [SBool true; SBool true; SBool false; SBool false]
  end.

(** ** Text *)

(** The encoding texts are stored in; that of descriptions and of the texts that go
    with them; and the one in which the latter are read. *)
Definition text_encoding (v : version) : enc := match v with V24 => E_UTF_8 | _ => E_ISO_8859_1 end.
Definition unicode_encoding (v : version) : enc := match v with V24 => E_UTF_8 | _ => E_UCS_2 end.
Definition unicode_read (v : version) (b : bytes) : enc :=
  match v with
  | V24 => E_UTF_8
  | _ => match b with
         | 254 :: 255 :: _ => E_UCS_2BE
         | 255 :: 254 :: _ => E_UCS_2LE
         | _ => E_UCS_2
         end
  end.

(** [s] can be converted to [b] in the encoding [there], and [b], taken to be in
    [back], gives [s] again; [s] has nothing that is cut off in reading. *)
Definition converts (G : guile) (there back : enc) (s b : bytes) : Prop :=
  g_utf8 G s = true /\ no_nul s /\
  (s = [] /\ b = [] \/
   s <> [] /\ no_bom s /\ no_trailing s /\ b <> [] /\ len b <= 4 * len s /\
   g_ic G E_UTF_8 there NoFail s = Some b /\ g_ic G back E_UTF_8 NoFail b = Some s).
Definition text_kept (G : guile) (v : version) (s : bytes) : Prop :=
  exists b, converts G (text_encoding v) (text_encoding v) s b.
Definition unicode_kept (G : guile) (v : version) (s : bytes) : Prop :=
  exists b, converts G (unicode_encoding v) (unicode_read v b) s b.
(** A description is followed by a terminator in the file. *)
Definition description_kept (G : guile) (v : version) (s : bytes) : Prop :=
  exists b, converts G (unicode_encoding v) (unicode_read v b) s b /\
    match v with V24 => ~ In 0 b | _ => units2 b end.

(** A language is the code of the standard, as scribbu spells it (C73); none is
    English. *)
Definition language_kept (given read : bytes) : Prop :=
  given = [] /\ read = B "eng" \/ given = read /\ exists c, standard_code c /\ read = spelling c.

(** E-mail addresses are stored as they are and read as ASCII. *)
Definition email_kept (G : guile) (s : bytes) : Prop :=
  g_utf8 G s = true /\ no_nul s /\
  (s = [] \/ no_bom s /\ no_trailing s /\ g_ic G E_ASCII E_UTF_8 NoFail s = Some s).

(** ** Tag clouds: an association list of keys with a value or a list of values;
    what is read is in the order of the keys, last first, each with the list of its
    values in order. *)
Inductive vals := One (v : bytes) | Many (vs : list bytes).
Definition vals_list (x : vals) : list bytes := match x with One v => [v] | Many vs => vs end.
Definition vals_scm (x : vals) : scm := match x with One v => SStr v | Many vs => slist (map SStr vs) end.
Definition alist (l : list (bytes * vals)) : scm := slist (map (fun kv => SPair (SStr (fst kv)) (vals_scm (snd kv))) l).
Definition cloud_read (given : list (bytes * vals)) (m : list (bytes * list bytes)) : Prop :=
  NoDup (map fst given) /\ is_map m /\
  (forall k, keyed m k <-> In k (map fst given)) /\
  (forall k v, paired m k v <-> exists x, In (k, x) given /\ In v (vals_list x)).
Definition cloud_scm (m : list (bytes * list bytes)) : scm :=
  slist (map (fun kv => SPair (SStr (fst kv)) (slist (map SStr (snd kv)))) (rev m)).

(** ** Frames scribbu has no class for *)
Definition header_width (v : version) : N := match v with V22 => 6 | _ => 10 end.
(** The header of a frame without flags: its identifier and the size of what
    follows, in ID3v2.4 with seven bits to a byte. *)
Definition plain_header (v : version) (id : bytes) (n : N) (h : bytes) : Prop :=
  exists ds, match v with
             | V22 => h = id ++ ds /\ len ds = 3 /\ Forall (fun d => d < 256) ds /\ positional 256 ds = n
             | V23 => h = id ++ ds ++ [0; 0] /\ len ds = 4 /\ Forall (fun d => d < 256) ds /\ positional 256 ds = n
             | V24 => h = id ++ ds ++ [0; 0] /\ len ds = 4 /\ Forall (fun d => d < 128) ds /\ positional 128 ds = n
             end.

(** ** The object [x], written to a tag of version [v], comes back as [y].  [u] says
    whether that tag is read as an unsynchronised one. *)
Inductive comes_back (G : guile) (v : version) (u : bool) : scm -> scm -> Prop :=
| cb_text sym id a b c d s : text_symbol v sym id -> unmarked v a b c d -> text_kept G v s ->
    comes_back G v u (SObj CText [SSym sym; a; b; c; d; SStr s]) (SObj CText (SSym sym :: marks_read v ++ [SStr s]))
| cb_comment a b c d l l' dsc s : unmarked v a b c d -> language_kept l l' -> g_utf8 G l' = true ->
    description_kept G v dsc -> unicode_kept G v s ->
    comes_back G v u (SObj CComment [SSym (B "comment-frame"); a; b; c; d; SStr l; SStr dsc; SStr s])
                     (SObj CComment (SSym (B "comment-frame") :: marks_read v ++ [SStr l'; SStr dsc; SStr s]))
| cb_udt a b c d dsc s : v <> V24 -> unmarked v a b c d -> description_kept G v dsc -> unicode_kept G v s ->
    comes_back G v u (SObj CUdt [SSym (B "udt-frame"); a; b; c; d; SStr dsc; SStr s])
                     (SObj CUdt (SSym (B "udt-frame") :: marks_read v ++ [SStr dsc; SStr s]))
| cb_count a b c d n : unmarked v a b c d -> (0 <= n < 2 ^ 32)%Z ->
    comes_back G v u (SObj CCount [SSym (B "play-count-frame"); a; b; c; d; SInt n])
                     (SObj CCount (SSym (B "play-count-frame") :: marks_read v ++ [SInt n]))
| cb_popm a b c d own r n : unmarked v a b c d -> email_kept G own -> (0 <= r < 256)%Z -> (0 <= n < 2 ^ 32)%Z ->
    comes_back G v u (SObj CPopm [SSym (B "popm-frame"); a; b; c; d; SStr own; SInt r; SInt n])
                     (SObj CPopm (SSym (B "popm-frame") :: marks_read v ++ [SStr own; SInt r; SInt n]))
| cb_cloud a b c d own given m : v = V23 \/ given = [] -> unmarked v a b c d -> g_utf8 G own = true -> no_nul own ->
    cloud_read given m -> plain_map m -> fits_map m ->
    Forall (fun kv => g_utf8 G (fst kv) = true /\ Forall (fun w => g_utf8 G w = true) (snd kv)) m ->
    comes_back G v u (SObj CCloud [SSym (B "tag-cloud-frame"); a; b; c; d; SStr own; alist given])
                     (SObj CCloud (SSym (B "tag-cloud-frame") :: marks_read v ++ [SStr own; cloud_scm m]))
| cb_unknown sym a b c d idt id h h' data : v <> V22 -> u = false -> (forall i, ~ documented_id v sym i) -> no_nul sym ->
    unmarked v a b c d -> no_nul idt -> g_to_locale G idt = Some id -> g_from_locale G id = Some idt ->
    no_nul id -> len id = id_width v -> kind_of v id = KUnknown ->
    len h = header_width v -> plain_header v id (len data) h' -> data <> [] ->
    comes_back G v u (SObj CUnk [SSym sym; a; b; c; d; SStr idt; SBytes (h ++ data)])
                     (SObj CUnk (SSym (B "unknown-frame") :: marks_read v ++ [SStr idt; SBytes (h' ++ data)])).

(** ** Tags *)

(** A tag as a script passes it to write-tagset: the 'experimental slot is '() or a
    truth value.  A tag of ID3v2.4 is without padding and not unsynchronised (C19). *)
Definition truth (x : scm) (b : bool) : Prop := x = SBool b \/ b = false /\ (x = SNull \/ x = SNil).
(** The padding is that of the tag written, or one less in an unsynchronised one,
    if the file is copied; else it is adjusted. *)
Definition any_mark (unsync : scm) : bool := match unsync with SBool false => false | _ => true end.
Inductive tag_back (G : guile) (unsync : scm) (copied : bool) : scm -> scm -> Prop :=
| tag_back3 e e' xs ys (pad pad' : Z) u rest : truth e e' ->
    (unsync = SBool false -> u = false) -> (unsync = SBool true -> u = true) ->
    Forall2 (comes_back G V23 (any_mark unsync)) xs ys -> (0 <= pad < 2 ^ 32)%Z ->
    (copied = true -> pad' = pad \/ u = true /\ pad' = pad - 1)%Z ->
    tag_back G unsync copied (slist (SObj CTag [e; slist xs; SInt pad] :: SInt 3 :: rest))
                             (slist [SObj CTag [SBool e'; slist ys; SInt pad']; SInt 3; SBool u])
| tag_back4 e e' xs ys rest : truth e e' -> unsync = SBool false -> Forall2 (comes_back G V24 false) xs ys ->
    tag_back G unsync copied (slist (SObj CTag [e; slist xs; SInt 0] :: SInt 4 :: rest))
                             (slist [SObj CTag [SBool e'; slist ys; SInt 0]; SInt 4; SBool false]).
