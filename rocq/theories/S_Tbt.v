(** * Specification: what a template means.

    After doc/scribbu.texi and doc/scribbu-rename.1: literal text, replacement
    parameters in a short and a long form, options after a colon, and optional
    parts in parentheses followed by a question mark.  A relation between the text
    of a template and its parts; nothing here is computed by the parser's code. *)
From Verif Require Import Base M_Charset M_Genres M_Tbt.

(** ** Literal text.  Special characters are written with a backslash. *)
Definition special_chars : bytes := B "?%:&)(=\".
Definition is_special (c : N) : bool := existsb (N.eqb c) special_chars.
Definition escape_literal (t : bytes) : bytes :=
  flat_map (fun c => if is_special c then [92; c] else [c]) t.

(** Text a template can hold: something, without NUL.  [no_equals]: and without an
    equals sign, which cannot be written (see C39). *)
Definition literal_ok (t : bytes) : Prop := t <> [] /\ ~ In 0 t.
Definition no_equals (t : bytes) : Prop := ~ In 61 t.

(** ** Replacement parameters. *)
Definition long_forms : list (bytes * term) :=
  [(B "album", TAacet Album aacet_default); (B "artist", TAacet Artist aacet_default);
   (B "content-type", TAacet ContentType aacet_default); (B "genre", TAacet ContentType aacet_default);
   (B "title", TAacet Title aacet_default); (B "encoded-by", TEncodedBy); (B "year", TYear FourDigits);
   (B "basename", TFile Basename fileopt_default); (B "file-basename", TFile Basename fileopt_default);
   (B "extension", TFile Extension fileopt_default); (B "file-extension", TFile Extension fileopt_default);
   (B "md5", TMd5 (Some Decimal) (Some LowerCase)); (B "size", TSize (Some Decimal) (Some LowerCase))].
Definition short_forms : list (bytes * term) :=
  [(B "L", TAacet Album aacet_default); (B "A", TAacet Artist aacet_default);
   (B "G", TAacet ContentType aacet_default); (B "T", TAacet Title aacet_default);
   (B "e", TEncodedBy); (B "Y", TYear FourDigits);
   (B "b", TFile Basename fileopt_default); (B "E", TFile Extension fileopt_default);
   (B "5", TMd5 (Some Decimal) (Some LowerCase)); (B "S", TSize (Some Decimal) (Some LowerCase))].

(** The words that could be read in place of a short form and what follows it. *)
Definition longer_words : list bytes :=
  [B "album"; B "artist"; B "base"; B "basename"; B "file-basename"; B "content-type"; B "genre";
   B "encoded-by"; B "extension"; B "file-extension"; B "md5"; B "size"; B "the"; B "title"; B "year";
   B "capitalization"; B "output"; B "compress"; B "prefer-v1"; B "prefer-v2"; B "v1-encoding"; B "ws"].
Definition starts_with (w s : bytes) : Prop := exists r, s = w ++ r.

(** ** Options: how each is written, and what it sets. *)
Definition the_cap_options : list (bytes * opt) :=
  [(B "the", OThe MakeSuffix); (B "the=suffix", OThe MakeSuffix); (B "the=prefix", OThe MakePrefix);
   (B "capitalization", OCap Capitalize); (B "capitalization=capitalize", OCap Capitalize);
   (B "capitalization=all-upper", OCap AllUpper); (B "capitalization=all-lower", OCap AllLower);
   (B "compress", OWs true None)].
Definition tag_options : list (bytes * opt) :=
  [(B "prefer-v2", OSource PreferV2); (B "prefer-v1", OSource PreferV1);
   (B "v1-encoding=auto", OV1enc V1Auto); (B "v1-encoding=iso-8859-1", OV1enc V1Iso);
   (B "v1-encoding=ascii", OV1enc V1Ascii); (B "v1-encoding=cp1252", OV1enc V1Cp1252);
   (B "v1-encoding=utf-8", OV1enc V1Utf8);
   (B "output=utf-8", OOut OutUtf8); (B "output=ascii", OOut OutAscii);
   (B "output=cp1252", OOut OutCp1252); (B "output=iso-8859-1", OOut OutIso)].
Definition number_options : list (bytes * opt) :=
  [(B "base=decimal", OBase Decimal); (B "base=hex", OBase Hex)].
(** Words that cannot stand for themselves as the text that replaces white space. *)
Definition reserved_values : list bytes :=
  [B "yy"; B "yyyy"; B "ascii"; B "auto"; B "all-lower"; B "all-upper"; B "capitalize"; B "cp1252";
   B "decimal"; B "hex"; B "hex-case"; B "iso-8859-1"; B "L"; B "prefix"; B "suffix"; B "U"; B "utf-8";
   B "utf-16-be"; B "utf-16-le"; B "utf-32"; B "v1-only"; B "v2-only"].

Inductive option_text : optclass -> bytes -> opt -> Prop :=
| option_tag s o : In (s, o) tag_options -> option_text ForAacet s o
| option_tag_cap s o : In (s, o) the_cap_options -> option_text ForAacet s o
| option_file_cap s o : In (s, o) the_cap_options -> option_text ForFile s o
| option_number s o : In (s, o) number_options -> option_text ForNumber s o
| option_ws k t : k <> ForNumber -> literal_ok t -> no_equals t -> ~ In t reserved_values ->
    option_text k (B "ws=" ++ escape_literal t) (OWs false (Some t))
| option_compress_ws k t : k <> ForNumber -> literal_ok t -> no_equals t -> ~ In t reserved_values ->
    option_text k (B "compressws=" ++ escape_literal t) (OWs true (Some t)).

(** Options are joined by ampersands; none is given twice. *)
Inductive options_text (k : optclass) : bytes -> list opt -> Prop :=
| options_one s o : option_text k s o -> options_text k s [o]
| options_more s o s' os : option_text k s o -> options_text k s' os ->
    (forall o', In o' os -> same_key o o' = false) ->
    options_text k (s ++ B "&" ++ s') (o :: os).

(** The value of a setting: the one given, or else the default. *)
Definition setting {A} (sel : opt -> option A) (d : A) (os : list opt) : A :=
  match flat_map (fun o => match sel o with Some x => [x] | None => [] end) os with
  | x :: _ => x
  | [] => d
  end.
Definition aacet_with (os : list opt) : aacet :=
  mkAacet
    (setting (fun o => match o with OSource p => Some p | _ => None end) PreferV2 os)
    (setting (fun o => match o with OV1enc e => Some e | _ => None end) V1Auto os)
    (setting (fun o => match o with OThe t => Some t | _ => None end) MakeSuffix os)
    (setting (fun o => match o with OCap c => Some c | _ => None end) Capitalize os)
    (setting (fun o => match o with OWs c _ => Some c | _ => None end) false os)
    (setting (fun o => match o with OWs _ r => r | _ => None end) [] os)
    (setting (fun o => match o with OOut e => Some e | _ => None end) OutUtf8 os).
Definition file_with (os : list opt) : fileopt :=
  mkFileopt
    (setting (fun o => match o with OThe t => Some t | _ => None end) TheNil os)
    (setting (fun o => match o with OCap c => Some c | _ => None end) CapNil os)
    (setting (fun o => match o with OWs c _ => Some c | _ => None end) false os)
    (setting (fun o => match o with OWs _ r => r | _ => None end) [] os).
Definition base_with (os : list opt) : option num_base :=
  setting (fun o => match o with OBase b => Some (Some b) | _ => None end) None os.

Definition tag_names : list (bytes * aacet_kind) :=
  [(B "album", Album); (B "artist", Artist); (B "content-type", ContentType); (B "genre", ContentType); (B "title", Title)].
Definition file_names : list (bytes * file_kind) :=
  [(B "basename", Basename); (B "file-basename", Basename); (B "extension", Extension); (B "file-extension", Extension)].

(** ** Templates. *)
(** After the short form [w] comes [rest], and no longer word can be read there. *)
Definition short_ok (w rest : bytes) : Prop := forall l, In l longer_words -> ~ starts_with l (w ++ rest).
(** Not literal text. *)
Definition begins_part (s : bytes) : Prop := exists r, s = 37 :: r \/ s = 40 :: r.

Inductive part_text : bytes -> term -> Prop :=
| part_long s x : In (s, x) long_forms -> part_text (B "%(" ++ s ++ B ")") x
| part_tag s k so os : In (s, k) tag_names -> options_text ForAacet so os ->
    part_text (B "%(" ++ s ++ B ":" ++ so ++ B ")") (TAacet k (aacet_with os))
| part_file s k so os : In (s, k) file_names -> options_text ForFile so os ->
    part_text (B "%(" ++ s ++ B ":" ++ so ++ B ")") (TFile k (file_with os))
| part_md5 so os : options_text ForNumber so os ->
    part_text (B "%(md5:" ++ so ++ B ")") (TMd5 (base_with os) None)
| part_size so os : options_text ForNumber so os ->
    part_text (B "%(size:" ++ so ++ B ")") (TSize (base_with os) None)
| part_optional s l : template_text s l -> part_text (B "(" ++ s ++ B ")?") (TSub l)
with template_text : bytes -> list term -> Prop :=
| template_literal t : literal_ok t -> no_equals t -> template_text (escape_literal t) [TText t]
| template_literal_more t s l : literal_ok t -> no_equals t -> template_text s l -> begins_part s ->
    template_text (escape_literal t ++ s) (TText t :: l)
| template_part s x : part_text s x -> template_text s [x]
| template_part_more s x s' l : part_text s x -> template_text s' l -> template_text (s ++ s') (x :: l)
| template_short w x : In (w, x) short_forms -> template_text (B "%" ++ w) [x]
| template_short_more w x s l : In (w, x) short_forms -> template_text s l -> short_ok w s ->
    template_text (B "%" ++ w ++ s) (x :: l).

(** ** Documented options that set what no template can (see C57). *)
Inductive unreachable_setting : term -> Prop :=
| un_v1 k o : a_sp o = V1Only -> unreachable_setting (TAacet k o)
| un_v2 k o : a_sp o = V2Only -> unreachable_setting (TAacet k o)
| un_yy : unreachable_setting (TYear TwoDigits)
| un_size b : unreachable_setting (TSize b (Some UpperCase))
| un_md5 b : unreachable_setting (TMd5 b (Some UpperCase))
| un_utf16be k o : a_v1 o = V1Utf16be -> unreachable_setting (TAacet k o)
| un_utf16le k o : a_v1 o = V1Utf16le -> unreachable_setting (TAacet k o)
| un_utf32 k o : a_v1 o = V1Utf32 -> unreachable_setting (TAacet k o)
| un_sub x l : In x l -> unreachable_setting x -> unreachable_setting (TSub l).

(** ** History: compiling several templates in a row, each from the state the one
    before left the scanner in. *)
Fixpoint compile_all (st : lexstate) (ts : list bytes) : list (outcome (list term)) :=
  match ts with
  | [] => []
  | t :: r => let '(o, st') := template_processor st t in o :: compile_all st' r
  end.
Definition compile_alone (t : bytes) : outcome (list term) := fst (template_processor Init t).
Definition compiles (t : bytes) : Prop := exists l, compile_alone t = Ok l.

(** ** Sources (C46). *)
(** A field of the ID3v1 tag, as stored; nothing if there is no tag. *)
Definition v1_value (c : context) (k : aacet_kind) : bytes :=
  match c_v1 c with
  | None => []
  | Some t =>
      match k with
      | Album => o_album t
      | Artist => o_artist t
      | Title => o_title t
      | ContentType =>
          if len (o_enh_genre t) =? 0
          then match text_for_genre (o_genre t) with Some g => g | None => [] end
          else o_enh_genre t
      end
  end.
(** A field of the ID3v2 tag; nothing if there is no tag or no such frame. *)
Definition v2_value (c : context) (k : aacet_kind) : bytes :=
  match c_v2 c with
  | None => []
  | Some t =>
      match match k with Album => t_album t | Artist => t_artist t | Title => t_title t | ContentType => t_content t end with
      | Some s => s
      | None => []
      end
  end.
(** The encoding an option names; none for the automatic choice. *)
Definition named_encoding (e : v1encoding) : option enc :=
  match e with
  | V1Auto => None
  | V1Iso => Some E_ISO_8859_1
  | V1Ascii => Some E_ASCII
  | V1Cp1252 => Some E_CP1252
  | V1Utf8 => Some E_UTF_8
  | V1Utf16be => Some E_UTF_16BE
  | V1Utf16le => Some E_UTF_16LE
  | V1Utf32 => Some E_UTF_32
  end.
(** The text of the ID3v1 field: converted from the named encoding. *)
Definition v1_reads (ic : iconv_t) (e : v1encoding) (raw text : bytes) : Prop :=
  (raw = [] /\ text = []) \/
  (raw <> [] /\ exists x, named_encoding e = Some x /\ to_string ic raw x E_UTF_8 NoFail = Ok text).
(** The preferred text if there is any, else the other if there is any, else an error. *)
Definition choose (preferred other : bytes) : outcome bytes :=
  match preferred, other with
  | _ :: _, _ => Ok preferred
  | [], _ :: _ => Ok other
  | [], [] => Throw TemplateError
  end.
(** No byte order mark. *)
Definition no_bom (s : bytes) : Prop :=
  (forall r, s <> 0xef :: 0xbb :: 0xbf :: r) /\ (forall r, s <> 0xfe :: 0xff :: r) /\ (forall r, s <> 0xff :: 0xfe :: r).

(** ** Articles (C48). *)
(** [a] spells [w] up to case. *)
Definition spells (ct : ctype) (w a : bytes) : Prop :=
  Forall2 (fun x y => ct_upper ct x = ct_upper ct y) w a.

(** ** White space (C58). *)
Definition blank (c : N) : bool := (c =? 32) || (c =? 9).
(** Every blank replaced on its own. *)
Definition replace_each (w text : bytes) : bytes := flat_map (fun c => if blank c then w else [c]) text.
(** Every run of blanks replaced once. *)
Fixpoint replace_runs (w : bytes) (inside : bool) (text : bytes) : bytes :=
  match text with
  | [] => []
  | c :: r => if blank c then (if inside then [] else w) ++ replace_runs w true r else c :: replace_runs w false r
  end.
