(** * Model: tag-based templates.

    scribbu/tbt-lexer.ll, scribbu/tbt-parser.yy, scribbu/tbt-support.{hh,cc},
    scribbu/id3v2-utils.cc (template_processor). *)
From Verif Require Import Base M_Charset M_Fs M_Csv M_Genres.

(** ** The lexer: scribbu/tbt-lexer.ll. *)

(** The scanner's start conditions (tbt-lexer.ll:96-97). *)
Inductive lexstate := Init | Repl | Param.

(** scribbu/tbt-parser.yy:86-151, the tokens. *)
Inductive token :=
| ALBUM | ALBUM_ABBREV | ALL_LOWER | ALL_UPPER | AMP | ARTIST | ARTIST_ABBREV | ASCII | AUTO
| BASE | BASENAME | BASENAME_ABBREV | CAP | CAPITALIZE | COLON | COMPRESS_WS | CONTENT_TYPE
| CONTENT_TYPE_ABBREV | CP1252 | DECIMAL | ENCODED_BY | ENCODED_BY_ABBREV | EQUAL | EXTENSION
| EXTENSION_ABBREV | FOUR_DIGITS | HEX | HEX_CASE | ISO8859_1 | LOWER | LPAREN | MD5 | MD5_ABBREV
| OUTPUT | PCT | PREFIX | PREF_V1 | PREF_V2 | QUESTION | RPAREN | SIZE | SIZE_ABBREV | SUFFIX
| THE | TITLE | TITLE_ABBREV | TWO_DIGITS | UNKNOWN | UPPER | UTF16_LE | UTF16_BE | UTF32 | UTF8
| V1ENCODING | V1_ONLY | V2_ONLY | WS | YEAR | YEAR_ABBREV
| PARAM_TEXT (t : bytes) | TEXT (t : bytes).

(** tbt-lexer.ll:38: the characters that [text] may hold only after a backslash:
    ? percent : ampersand ) ( = and the backslash. *)
Definition special (c : N) : bool :=
  (c =? 63) || (c =? 37) || (c =? 58) || (c =? 38) || (c =? 41) || (c =? 40) || (c =? 61) || (c =? 92).

(** The longest match of [text] (tbt-lexer.ll:38), and what follows it. *)
Fixpoint match_text (l : bytes) : bytes * bytes :=
  match l with
  | [] => ([], [])
  | c :: r =>
      if negb (special c) then let '(t, rest) := match_text r in (c :: t, rest)
      else if c =? 92 then
        match r with
        | d :: r' =>
            if special d then let '(t, rest) := match_text r' in (c :: d :: t, rest) else ([], l)
        | [] => ([], l)
        end
      else ([], l)
  end.

(** tbt-lexer.ll:180-217, [unescape_and_copy]: the characters before which a
    backslash is dropped, and the loop. *)
Definition unescaped (c : N) : bool :=
  (c =? 37) || (c =? 40) || (c =? 41) || (c =? 58) || (c =? 63) || (c =? 38) || (c =? 92).
Fixpoint unescape_loop (saw_backslash : bool) (l : bytes) : bytes :=
  match l with
  | [] => if saw_backslash then [92] else []
  | c :: r =>
      if saw_backslash then
        (if unescaped c then [] else [92]) ++ c :: unescape_loop false r
      else if c =? 92 then unescape_loop true r
      else c :: unescape_loop false r
  end.
Definition unescape_and_copy (l : bytes) : bytes := unescape_loop false l.

(** tbt-lexer.ll:103-130 and 163-172, the words and signs of the REPLACEMENT
    state, with the state each leads to; in the order of the rules. *)
Definition replacement_words : list (bytes * (token * lexstate)) :=
  [(B "(", (LPAREN, Repl)); (B ")", (RPAREN, Init)); (B ":", (COLON, Repl));
   (B "&", (AMP, Repl)); (B "?", (QUESTION, Repl)); (B "=", (EQUAL, Param));
   (B "album", (ALBUM, Repl)); (B "artist", (ARTIST, Repl));
   (B "basename", (BASENAME, Repl)); (B "file-basename", (BASENAME, Repl));
   (B "content-type", (CONTENT_TYPE, Repl)); (B "genre", (CONTENT_TYPE, Repl));
   (B "encoded-by", (ENCODED_BY, Repl));
   (B "extension", (EXTENSION, Repl)); (B "file-extension", (EXTENSION, Repl));
   (B "md5", (MD5, Repl)); (B "size", (SIZE, Repl)); (B "the", (THE, Repl));
   (B "title", (TITLE, Repl)); (B "year", (YEAR, Repl));
   (B "base", (BASE, Repl)); (B "capitalization", (CAP, Repl));
   (B "output", (OUTPUT, Repl)); (B "compress", (COMPRESS_WS, Repl));
   (B "prefer-v1", (PREF_V1, Repl)); (B "prefer-v2", (PREF_V2, Repl));
   (B "v1-encoding", (V1ENCODING, Repl)); (B "ws", (WS, Repl));
   (B "L", (ALBUM_ABBREV, Init)); (B "A", (ARTIST_ABBREV, Init)); (B "b", (BASENAME_ABBREV, Init));
   (B "G", (CONTENT_TYPE_ABBREV, Init)); (B "e", (ENCODED_BY_ABBREV, Init));
   (B "E", (EXTENSION_ABBREV, Init)); (B "5", (MD5_ABBREV, Init)); (B "S", (SIZE_ABBREV, Init));
   (B "T", (TITLE_ABBREV, Init)); (B "Y", (YEAR_ABBREV, Init))].

(** tbt-lexer.ll:132-153, the words of the PARAMETER state; all lead back. *)
Definition parameter_words : list (bytes * token) :=
  [(B "yy", TWO_DIGITS); (B "yyyy", FOUR_DIGITS); (B "ascii", ASCII); (B "auto", AUTO);
   (B "all-lower", ALL_LOWER); (B "all-upper", ALL_UPPER); (B "capitalize", CAPITALIZE);
   (B "cp1252", CP1252); (B "decimal", DECIMAL); (B "hex", HEX); (B "hex-case", HEX_CASE);
   (B "iso-8859-1", ISO8859_1); (B "L", LOWER); (B "prefix", PREFIX); (B "suffix", SUFFIX);
   (B "U", UPPER); (B "utf-8", UTF8); (B "utf-16-be", UTF16_BE); (B "utf-16-le", UTF16_LE);
   (B "utf-32", UTF32); (B "v1-only", V1_ONLY); (B "v2-only", V2_ONLY)].

(** What follows the prefix [p] of [l]. *)
Fixpoint after_prefix (p l : bytes) : option bytes :=
  match p, l with
  | [], _ => Some l
  | a :: p', b :: l' => if a =? b then after_prefix p' l' else None
  | _ :: _, [] => None
  end.

(** Flex takes the longest match, and the first rule among the longest. *)
Fixpoint longest (ws : list (bytes * (token * lexstate))) (l : bytes) : option (bytes * (token * lexstate) * bytes) :=
  match ws with
  | [] => None
  | (w, x) :: ws' =>
      match after_prefix w l, longest ws' l with
      | Some rest, Some (w', x', rest') => if (List.length w <? List.length w')%nat then Some (w', x', rest') else Some (w, x, rest)
      | Some rest, None => Some (w, x, rest)
      | None, r => r
      end
  end.

Fixpoint find_word (ws : list (bytes * token)) (t : bytes) : option token :=
  match ws with
  | [] => None
  | (w, x) :: ws' => if bytes_eqb w t then Some x else find_word ws' t
  end.

(** One token: the token, the state after it, and the rest of the input.  [None]:
    no token starts here and the first character is only echoed (a line feed in
    the REPLACEMENT state, which no rule matches).  In the PARAMETER state a word
    is matched only if the text that [text] would match is no longer. *)
Definition lex1 (st : lexstate) (l : bytes) : option (token * lexstate * bytes) :=
  match l with
  | [] => None
  | c :: r =>
      match st with
      | Init =>
          match match_text l with
          | ((_ :: _) as t, rest) => Some (TEXT (unescape_and_copy t), Init, rest)
          | ([], _) =>
              if c =? 37 then Some (PCT, Repl, r)
              else if c =? 40 then Some (LPAREN, Init, r)
              else if c =? 41 then Some (RPAREN, Init, r)
              else if c =? 63 then Some (QUESTION, Init, r)
              else Some (UNKNOWN, Init, r)
          end
      | Repl =>
          match longest replacement_words l with
          | Some (_, (t, st'), rest) => Some (t, st', rest)
          | None => if c =? 10 then None else Some (UNKNOWN, Repl, r)
          end
      | Param =>
          match match_text l with
          | ((_ :: _) as t, rest) =>
              match find_word parameter_words t with
              | Some w => Some (w, Repl, rest)
              | None => Some (PARAM_TEXT (unescape_and_copy t), Repl, rest)
              end
          | ([], _) => Some (UNKNOWN, Param, r)
          end
      end
  end.

(** All tokens, each with the state before and after it, and the state at the end.
    The input is shorter by at least one character after each step. *)
Definition lexed := (lexstate * token * lexstate)%type.
Fixpoint lex (fuel : nat) (st : lexstate) (l : bytes) : list lexed * lexstate :=
  match fuel, l with
  | O, _ | _, [] => ([], st)
  | S f, c :: r =>
      match lex1 st l with
      | Some (t, st', rest) => let '(ts, e) := lex f st' rest in ((st, t, st') :: ts, e)
      | None => lex f st r
      end
  end.

(** ** Terms: scribbu/tbt-support.hh. *)
Inductive preference := PreferV2 | PreferV1 | V2Only | V1Only.
Inductive v1encoding := V1Auto | V1Iso | V1Ascii | V1Cp1252 | V1Utf8 | V1Utf16be | V1Utf16le | V1Utf32.
Inductive the_xform := TheNil | MakePrefix | MakeSuffix.
Inductive cap_xform := CapNil | Capitalize | AllUpper | AllLower.
Inductive out_encoding := OutUtf8 | OutAscii | OutCp1252 | OutIso.
Inductive num_base := Decimal | Hex.
Inductive hex_case := LowerCase | UpperCase.
Inductive year_format := TwoDigits | FourDigits.

(** tbt-support.hh:239-258, [aacet_term]; the defaults of every constructor. *)
Record aacet := mkAacet {
  a_sp : preference; a_v1 : v1encoding; a_the : the_xform; a_cap : cap_xform;
  a_compress : bool; a_replace : bytes; a_out : out_encoding }.
Definition aacet_default : aacet := mkAacet PreferV2 V1Auto MakeSuffix Capitalize false [] OutUtf8.

(** tbt-support.hh:325-337, [file_term]. *)
Record fileopt := mkFileopt { f_the : the_xform; f_cap : cap_xform; f_compress : bool; f_replace : bytes }.
Definition fileopt_default : fileopt := mkFileopt TheNil CapNil false [].

Inductive aacet_kind := Album | Artist | ContentType | Title.
Inductive file_kind := Basename | Extension.

(** The members of [size] and [md5] that options do not set stay uninitialised
    (tbt-support.hh:575-590, 611-626): [None]. *)
Inductive term :=
| TText (t : bytes)
| TAacet (k : aacet_kind) (o : aacet)
| TEncodedBy
| TYear (f : year_format)
| TFile (k : file_kind) (o : fileopt)
| TSize (b : option num_base) (c : option hex_case)
| TMd5 (b : option num_base) (c : option hex_case)
| TSub (l : list term).

(** ** The parser: scribbu/tbt-parser.yy:183-618.

    A predictive parser for the grammar, in place of bison's LALR automaton.  With
    [parse.lac full] bison reports the first token that cannot follow what came
    before, as this parser does.  [PErr rest] is a syntax error at the head of
    [rest]; [PDup peek rest] is the exception duplicate_option, thrown with [rest]
    still to be parsed, of which the first token has been read if [peek]. *)
Inductive presult (A : Type) :=
| PRes (a : A) (rest : list lexed)
| PErr (rest : list lexed)
| PDup (peek : bool) (rest : list lexed).
Arguments PRes {A} a rest.
Arguments PErr {A} rest.
Arguments PDup {A} peek rest.

Definition pbind {A C} (x : presult A) (f : A -> list lexed -> presult C) : presult C :=
  match x with
  | PRes a rest => f a rest
  | PErr rest => PErr rest
  | PDup p rest => PDup p rest
  end.

(** The options, as the grammar's semantic values (tbt-parser.yy:357-381, 405-417, 441-449, 473-481). *)
Inductive opt :=
| OSource (p : preference)
| OV1enc (e : v1encoding)
| OThe (x : the_xform)
| OCap (x : cap_xform)
| OWs (compress : bool) (replace : option bytes)
| OOut (e : out_encoding)
| OBase (b : num_base)
| OCase (c : hex_case).

(** tbt-parser.yy:570-586, one [ws_xform]. *)
Definition parse_ws1 (l : list lexed) : presult (option bytes) :=
  match l with
  | (_, COMPRESS_WS, _) :: r => PRes None r
  | (_, WS, _) :: (_, EQUAL, _) :: (_, PARAM_TEXT t, _) :: r => PRes (Some t) r
  | (_, WS, _) :: (_, EQUAL, _) :: r => PErr r
  | (_, WS, _) :: r => PErr r
  | r => PErr r
  end.
(** tbt-parser.yy:548-568, [ws_xforms]: one or more; twice the same is an error. *)
Fixpoint parse_ws (fuel : nat) (compress : bool) (replace : option bytes) (l : list lexed) : presult opt :=
  match fuel with
  | O => PErr l
  | S f =>
      match l with
      | (_, COMPRESS_WS, _) :: _ | (_, WS, _) :: _ =>
          pbind (parse_ws1 l) (fun w rest =>
            match w with
            | None => if compress then PDup false rest else parse_ws f true replace rest
            | Some t => match replace with Some _ => PDup false rest | None => parse_ws f compress (Some t) rest end
            end)
      | _ => PRes (OWs compress replace) l
      end
  end.

(** tbt-parser.yy:492-546 and 588-616, the options other than [ws_xforms].  The
    flag says whether the next token has been looked at to end the option. *)
Definition parse_opt1 (l : list lexed) : presult (opt * bool) :=
  match l with
  | (_, PREF_V2, _) :: r => PRes (OSource PreferV2, false) r
  | (_, PREF_V1, _) :: r => PRes (OSource PreferV1, false) r
  | (_, V2_ONLY, _) :: r => PRes (OSource V2Only, false) r
  | (_, V1_ONLY, _) :: r => PRes (OSource V1Only, false) r
  | (_, V1ENCODING, _) :: (_, EQUAL, _) :: r =>
      match r with
      | (_, AUTO, _) :: r' => PRes (OV1enc V1Auto, false) r'
      | (_, ISO8859_1, _) :: r' => PRes (OV1enc V1Iso, false) r'
      | (_, ASCII, _) :: r' => PRes (OV1enc V1Ascii, false) r'
      | (_, CP1252, _) :: r' => PRes (OV1enc V1Cp1252, false) r'
      | (_, UTF8, _) :: r' => PRes (OV1enc V1Utf8, false) r'
      | _ => PErr r
      end
  | (_, THE, _) :: (_, EQUAL, _) :: r =>
      match r with
      | (_, PREFIX, _) :: r' => PRes (OThe MakePrefix, false) r'
      | (_, SUFFIX, _) :: r' => PRes (OThe MakeSuffix, false) r'
      | _ => PErr r
      end
  | (_, THE, _) :: r => PRes (OThe MakeSuffix, true) r
  | (_, CAP, _) :: (_, EQUAL, _) :: r =>
      match r with
      | (_, ALL_UPPER, _) :: r' => PRes (OCap AllUpper, false) r'
      | (_, ALL_LOWER, _) :: r' => PRes (OCap AllLower, false) r'
      | (_, CAPITALIZE, _) :: r' => PRes (OCap Capitalize, false) r'
      | _ => PErr r
      end
  | (_, CAP, _) :: r => PRes (OCap Capitalize, true) r
  | (_, OUTPUT, _) :: (_, EQUAL, _) :: r =>
      match r with
      | (_, UTF8, _) :: r' => PRes (OOut OutUtf8, false) r'
      | (_, ASCII, _) :: r' => PRes (OOut OutAscii, false) r'
      | (_, CP1252, _) :: r' => PRes (OOut OutCp1252, false) r'
      | (_, ISO8859_1, _) :: r' => PRes (OOut OutIso, false) r'
      | _ => PErr r
      end
  | (_, BASE, _) :: (_, EQUAL, _) :: r =>
      match r with
      | (_, DECIMAL, _) :: r' => PRes (OBase Decimal, false) r'
      | (_, HEX, _) :: r' => PRes (OBase Hex, false) r'
      | _ => PErr r
      end
  | (_, HEX_CASE, _) :: (_, EQUAL, _) :: r =>
      match r with
      | (_, LOWER, _) :: r' => PRes (OCase LowerCase, false) r'
      | (_, UPPER, _) :: r' => PRes (OCase UpperCase, false) r'
      | _ => PErr r
      end
  | (_, V1ENCODING, _) :: r | (_, OUTPUT, _) :: r | (_, BASE, _) :: r | (_, HEX_CASE, _) :: r => PErr r
  | r => PErr r
  end.

(** Which options a replacement takes (aacet_opt, file_opt, md5_opt, size_opt), by
    the token they start with. *)
Inductive optclass := ForAacet | ForFile | ForNumber.
Definition opt_starts (k : optclass) (t : token) : bool :=
  match k, t with
  | ForAacet, (PREF_V2 | PREF_V1 | V2_ONLY | V1_ONLY | V1ENCODING | OUTPUT) => true
  | (ForAacet | ForFile), (THE | CAP | COMPRESS_WS | WS) => true
  | ForNumber, (BASE | HEX_CASE) => true
  | _, _ => false
  end.
Definition parse_opt (k : optclass) (l : list lexed) : presult (opt * bool) :=
  match l with
  | (_, t, _) :: _ =>
      if opt_starts k t then
        match t with
        | COMPRESS_WS | WS => pbind (parse_ws (S (List.length l)) false None l) (fun o rest => PRes (o, true) rest)
        | _ => parse_opt1 l
        end
      else PErr l
  | [] => PErr l
  end.

(** Same key of the option map. *)
Definition same_key (x y : opt) : bool :=
  match x, y with
  | OSource _, OSource _ | OV1enc _, OV1enc _ | OThe _, OThe _ | OCap _, OCap _ | OWs _ _, OWs _ _
  | OOut _, OOut _ | OBase _, OBase _ | OCase _, OCase _ => true
  | _, _ => false
  end.

(** tbt-parser.yy:335-355, 383-403, 419-439, 451-471: options separated by
    ampersands, up to the closing parenthesis; a second one of the same key is an
    exception. *)
Fixpoint parse_opts (fuel : nat) (k : optclass) (acc : list opt) (l : list lexed) : presult (list opt) :=
  match fuel with
  | O => PErr l
  | S f =>
      pbind (parse_opt k l) (fun p rest =>
        let '(o, peek) := p in
        if existsb (same_key o) acc then
          (match peek, rest with
           | true, (_, (AMP | RPAREN), _) :: _ => PDup true rest
           | true, _ => PErr rest
           | false, _ => PDup false rest
           end)
        else match rest with
             | (_, AMP, _) :: r => parse_opts f k (acc ++ [o]) r
             | (_, RPAREN, _) :: r => PRes (acc ++ [o]) r
             | _ => PErr rest
             end)
  end.

(** tbt-support.hh:260-305 and 339-375, [set_options]. *)
Definition set_aacet (o : aacet) (x : opt) : aacet :=
  match x with
  | OSource p => mkAacet p (a_v1 o) (a_the o) (a_cap o) (a_compress o) (a_replace o) (a_out o)
  | OV1enc e => mkAacet (a_sp o) e (a_the o) (a_cap o) (a_compress o) (a_replace o) (a_out o)
  | OThe t => mkAacet (a_sp o) (a_v1 o) t (a_cap o) (a_compress o) (a_replace o) (a_out o)
  | OCap c => mkAacet (a_sp o) (a_v1 o) (a_the o) c (a_compress o) (a_replace o) (a_out o)
  | OWs c r => mkAacet (a_sp o) (a_v1 o) (a_the o) (a_cap o) (c || a_compress o)
                       (match r with Some t => t | None => a_replace o end) (a_out o)
  | OOut e => mkAacet (a_sp o) (a_v1 o) (a_the o) (a_cap o) (a_compress o) (a_replace o) e
  | _ => o
  end.
Definition set_file (o : fileopt) (x : opt) : fileopt :=
  match x with
  | OThe t => mkFileopt t (f_cap o) (f_compress o) (f_replace o)
  | OCap c => mkFileopt (f_the o) c (f_compress o) (f_replace o)
  | OWs c r => mkFileopt (f_the o) (f_cap o) (c || f_compress o) (match r with Some t => t | None => f_replace o end)
  | _ => o
  end.
Definition set_number (bc : option num_base * option hex_case) (x : opt) : option num_base * option hex_case :=
  match x with
  | OBase b => (Some b, snd bc)
  | OCase c => (fst bc, Some c)
  | _ => bc
  end.

(** tbt-parser.yy:207-331, what stands between percent, parenthesis and
    parenthesis. *)
Definition aacet_name (t : token) : option aacet_kind :=
  match t with ALBUM => Some Album | ARTIST => Some Artist | CONTENT_TYPE => Some ContentType | TITLE => Some Title | _ => None end.
Definition file_name (t : token) : option file_kind :=
  match t with BASENAME => Some Basename | EXTENSION => Some Extension | _ => None end.
Definition plain_term (t : token) : option term :=
  match t with
  | ALBUM | ALBUM_ABBREV => Some (TAacet Album aacet_default)
  | ARTIST | ARTIST_ABBREV => Some (TAacet Artist aacet_default)
  | CONTENT_TYPE | CONTENT_TYPE_ABBREV => Some (TAacet ContentType aacet_default)
  | TITLE | TITLE_ABBREV => Some (TAacet Title aacet_default)
  | BASENAME | BASENAME_ABBREV => Some (TFile Basename fileopt_default)
  | EXTENSION | EXTENSION_ABBREV => Some (TFile Extension fileopt_default)
  | ENCODED_BY | ENCODED_BY_ABBREV => Some TEncodedBy
  | MD5 | MD5_ABBREV => Some (TMd5 (Some Decimal) (Some LowerCase))
  | SIZE | SIZE_ABBREV => Some (TSize (Some Decimal) (Some LowerCase))
  | YEAR | YEAR_ABBREV => Some (TYear FourDigits)
  | _ => None
  end.
Definition is_name (t : token) : bool :=
  match t with
  | ALBUM | ARTIST | BASENAME | CONTENT_TYPE | ENCODED_BY | EXTENSION | MD5 | SIZE | TITLE | YEAR => true
  | _ => false
  end.
Definition is_abbrev (t : token) : bool :=
  match t with
  | ALBUM_ABBREV | ARTIST_ABBREV | BASENAME_ABBREV | CONTENT_TYPE_ABBREV | ENCODED_BY_ABBREV
  | EXTENSION_ABBREV | MD5_ABBREV | SIZE_ABBREV | TITLE_ABBREV | YEAR_ABBREV => true
  | _ => false
  end.

Definition parse_named (l : list lexed) : presult term :=
  match l with
  | (_, t, _) :: r =>
      if is_name t then
        match r with
        | (_, RPAREN, _) :: r' => match plain_term t with Some x => PRes x r' | None => PErr l end
        | (_, COLON, _) :: r' =>
            match aacet_name t, file_name t, t with
            | Some k, _, _ =>
                pbind (parse_opts (S (List.length r')) ForAacet [] r')
                      (fun os rest => PRes (TAacet k (fold_left set_aacet os aacet_default)) rest)
            | None, Some k, _ =>
                pbind (parse_opts (S (List.length r')) ForFile [] r')
                      (fun os rest => PRes (TFile k (fold_left set_file os fileopt_default)) rest)
            | None, None, MD5 =>
                pbind (parse_opts (S (List.length r')) ForNumber [] r')
                      (fun os rest => let '(b, c) := fold_left set_number os (None, None) in PRes (TMd5 b c) rest)
            | None, None, SIZE =>
                pbind (parse_opts (S (List.length r')) ForNumber [] r')
                      (fun os rest => let '(b, c) := fold_left set_number os (None, None) in PRes (TSize b c) rest)
            | None, None, YEAR =>
                match r' with
                | (_, TWO_DIGITS, _) :: (_, RPAREN, _) :: r'' => PRes (TYear TwoDigits) r''
                | (_, FOUR_DIGITS, _) :: (_, RPAREN, _) :: r'' => PRes (TYear FourDigits) r''
                | (_, (TWO_DIGITS | FOUR_DIGITS), _) :: r'' => PErr r''
                | _ => PErr r'
                end
            | None, None, _ => PErr r
            end
        | _ => PErr r
        end
      else PErr l
  | [] => PErr l
  end.

(** tbt-parser.yy:185-238, [start], [term_list] and [term].  The terms up to the end of the input, or up to the parenthesis
    that closes the subclause. *)
Fixpoint parse_terms (fuel : nat) (l : list lexed) : presult (list term) :=
  match fuel with
  | O => PErr l
  | S f =>
      let more (x : term) (rest : list lexed) :=
        match rest with
        | (_, (TEXT _ | PCT | LPAREN), _) :: _ => pbind (parse_terms f rest) (fun xs rest' => PRes (x :: xs) rest')
        | _ => PRes [x] rest
        end in
      match l with
      | (_, TEXT t, _) :: r => more (TText t) r
      | (_, PCT, _) :: (_, LPAREN, _) :: r => pbind (parse_named r) more
      | (_, PCT, _) :: (_, t, st) :: r =>
          if is_abbrev t then match plain_term t with Some x => more x r | None => PErr r end
          else PErr ((Repl, t, st) :: r)
      | (_, PCT, _) :: [] => PErr []
      | (_, LPAREN, _) :: r =>
          pbind (parse_terms f r) (fun xs rest =>
            match rest with
            | (_, RPAREN, _) :: (_, QUESTION, _) :: rest' => more (TSub xs) rest'
            | (_, RPAREN, _) :: rest' => PErr rest'
            | _ => PErr rest
            end)
      | _ => PErr l
      end
  end.

(** The state in which the scanner is left, given what is left of the tokens. *)
Definition state_at (peek : bool) (rest : list lexed) (e : lexstate) : lexstate :=
  match rest with
  | [] => e
  | (before, _, after) :: _ => if peek then after else before
  end.

(** scribbu/id3v2-utils.cc:98-119, [template_processor]'s constructor.  The
    scanner's start condition is a static variable of the scanner: [st] is what an
    earlier template left, and the result includes what this one leaves. *)
Definition template_processor (st : lexstate) (templat : bytes) : outcome (list term) * lexstate :=
  let s := c_str templat in
  let '(ts, e) := lex (List.length s) st s in
  match parse_terms (S (List.length ts)) ts with
  | PRes l [] => (Ok l, e)
  | PRes _ rest => (Throw TemplateError, state_at true rest e)
  | PErr rest => (Throw TemplateError, state_at true rest e)
  | PDup peek rest => (Throw TemplateError, state_at peek rest e)
  end.

(** ** Evaluation: scribbu/tbt-support.cc. *)

(** The C++ locale's character mappings, not modelled: every theorem quantifies
    over them. *)
Record ctype := mkCtype { ct_upper : N -> N; ct_lower : N -> N }.

(** [boost::iequals]. *)
Fixpoint iequals (ct : ctype) (x y : bytes) : bool :=
  match x, y with
  | [], [] => true
  | a :: x', b :: y' => (ct_upper ct a =? ct_upper ct b) && iequals ct x' y'
  | _, _ => false
  end.

(** tbt-support.cc:178-194, [do_the_xform]. *)
Definition do_the_xform (ct : ctype) (text : bytes) (x : the_xform) : bytes :=
  let n := len text in
  match x with
  | MakePrefix =>
      if (5 <=? n) && iequals ct (B ", The") (dropN (n - 5) text) then B "The " ++ takeN (n - 5) text else text
  | MakeSuffix =>
      if (5 <=? n) && iequals ct (B "The ") (takeN 4 text) then dropN 4 text ++ B ", The" else text
  | TheNil => text
  end.

(** tbt-support.cc:196-222, [do_cap_xform].  [substr(1)] of an empty string throws. *)
Definition do_cap_xform (ct : ctype) (text : bytes) (x : cap_xform) : outcome bytes :=
  match x with
  | Capitalize => match text with [] => Throw OutOfRange | c :: r => Ok (ct_upper ct c :: r) end
  | AllUpper => Ok (map (ct_upper ct) text)
  | AllLower => Ok (map (ct_lower ct) text)
  | CapNil => Ok text
  end.

(** tbt-support.cc:224-245, [do_ws_xform]: [split] at each space and tab, and
    [join] with the replacement: each of them is replaced. *)
Definition do_ws_xform (text : bytes) (compress : bool) (replace : bytes) : bytes :=
  if negb compress && (len replace =? 0) then text
  else flat_map (fun c => if (c =? 32) || (c =? 9) then (if len replace =? 0 then [32] else replace) else [c]) text.

(** tbt-support.cc:247-269, [encode]. *)
Definition encode (ic : iconv_t) (text : bytes) (out : out_encoding) : outcome bytes :=
  match out with
  | OutUtf8 => Ok text
  | OutAscii => to_string ic text E_UTF_8 E_ASCII NoFail
  | OutCp1252 => to_string ic text E_UTF_8 E_CP1252 NoFail
  | OutIso => to_string ic text E_UTF_8 E_ISO_8859_1 NoFail
  end.

(** tbt-support.cc:311-383, [v1_text_to_utf8].  Without a byte order mark the
    automatic choice tries encodings until one works, and then throws
    invalid_argument all the same. *)
Definition v1_detect (buf : bytes) (e : v1encoding) : v1encoding :=
  match e with
  | V1Auto =>
      match buf with
      | 0xef :: 0xbb :: 0xbf :: _ => V1Utf8
      | 0xfe :: 0xff :: _ => V1Utf16be
      | 0xff :: 0xfe :: _ => V1Utf16be
      | _ => V1Auto
      end
  | _ => e
  end.
Definition v1_text_to_utf8 (ic : iconv_t) (buf : bytes) (e : v1encoding) : outcome bytes :=
  match buf with
  | [] => Ok []
  | _ =>
      match v1_detect buf e with
      | V1Auto => Throw InvalidArgument
      | V1Iso => to_string ic buf E_ISO_8859_1 E_UTF_8 NoFail
      | V1Ascii => to_string ic buf E_ASCII E_UTF_8 NoFail
      | V1Cp1252 => to_string ic buf E_CP1252 E_UTF_8 NoFail
      | V1Utf8 => to_string ic buf E_UTF_8 E_UTF_8 NoFail
      | V1Utf16be => to_string ic buf E_UTF_16BE E_UTF_8 NoFail
      | V1Utf16le => to_string ic buf E_UTF_16LE E_UTF_8 NoFail
      | V1Utf32 => to_string ic buf E_UTF_32 E_UTF_8 NoFail
      end
  end.

(** tbt-support.hh:182-223, [source_text].  [v1] is the ID3v1 field (empty if there
    is no tag), [v2] the ID3v2 text if the tag has it. *)
Definition nonempty (v2 : option bytes) : option bytes :=
  match v2 with Some ((_ :: _) as s) => Some s | _ => None end.
Definition source_text (ic : iconv_t) (v1 : bytes) (v2 : option bytes) (p : preference) (e : v1encoding) : outcome bytes :=
  let v1_text :=
    let* s := v1_text_to_utf8 ic v1 e in
    match s with [] => Throw TemplateError | _ => Ok s end in
  match p with
  | PreferV2 => match nonempty v2 with
                | Some s => Ok s
                | None => match v1 with [] => Throw TemplateError | _ => v1_text end
                end
  | V2Only => match nonempty v2 with Some s => Ok s | None => Throw TemplateError end
  | PreferV1 => match v1 with
                | [] => match nonempty v2 with Some s => Ok s | None => Throw TemplateError end
                | _ => v1_text
                end
  | V1Only => match v1 with [] => Throw TemplateError | _ => v1_text end
  end.

(** What terms look at: the file's name and size, the audio's MD5 digest, the
    ID3v2 texts the tag has, and the ID3v1 fields.  Simplification: texts of the
    ID3v2 tag are given as converted (M_Charset), ID3v1 fields as their bytes
    (M_Id3v1). *)
Record v2texts := mkV2 { t_album : option bytes; t_artist : option bytes; t_content : option bytes;
                         t_title : option bytes; t_encoded : option bytes; t_year : option bytes }.
Record v1texts := mkV1t { o_album : bytes; o_artist : bytes; o_title : bytes; o_year : bytes;
                          o_genre : N; o_enh_genre : bytes }.
Record context := mkContext { c_name : bytes; c_size : N; c_md5 : bytes; c_v2 : option v2texts; c_v1 : option v1texts }.

Definition v2_field (c : context) (g : v2texts -> option bytes) : option bytes :=
  match c_v2 c with Some t => g t | None => None end.
Definition v1_field (c : context) (g : v1texts -> bytes) : bytes :=
  match c_v1 c with Some t => g t | None => [] end.

(** tbt-support.cc:493-508: the genre, in words if the tag has them. *)
Definition v1_genre (t : v1texts) : bytes :=
  match o_enh_genre t with
  | [] => match text_for_genre (o_genre t) with Some s => s | None => [] end
  | s => s
  end.

(** tbt-support.cc:418-425, [xform_and_encode]. *)
Definition xform_and_encode (ct : ctype) (ic : iconv_t) (o : aacet) (text : bytes) : outcome bytes :=
  let* out := do_cap_xform ct (do_the_xform ct text (a_the o)) (a_cap o) in
  encode ic (do_ws_xform out (a_compress o) (a_replace o)) (a_out o).

(** tbt-support.cc:435-560, [evaluate] of album, artist, content_type and title. *)
Definition eval_aacet (ct : ctype) (ic : iconv_t) (c : context) (k : aacet_kind) (o : aacet) : outcome bytes :=
  let '(v1, v2) := match k with
                   | Album => (v1_field c o_album, v2_field c t_album)
                   | Artist => (v1_field c o_artist, v2_field c t_artist)
                   | ContentType => (v1_field c v1_genre, v2_field c t_content)
                   | Title => (v1_field c o_title, v2_field c t_title)
                   end in
  let* s := source_text ic v1 v2 (a_sp o) (a_v1 o) in
  xform_and_encode ct ic o s.

(** tbt-support.cc:562-579, [encoded_by::evaluate]: a text that is there but empty
    makes [do_cap_xform] throw. *)
Definition eval_encoded_by (ct : ctype) (c : context) : outcome bytes :=
  match v2_field c t_encoded with
  | None => Throw TemplateError
  | Some s => do_cap_xform ct (do_the_xform ct s MakeSuffix) Capitalize
  end.

(** tbt-support.cc:581-611, [year::evaluate].  [substr(2)] of a shorter text throws. *)
Definition eval_year (ic : iconv_t) (c : context) (f : year_format) : outcome bytes :=
  let* y := source_text ic (v1_field c o_year) (v2_field c t_year) PreferV2 V1Auto in
  match f with
  | TwoDigits => if len y <? 2 then Throw OutOfRange else Ok (dropN 2 y)
  | FourDigits => Ok y
  end.

(** tbt-support.cc:618-640, [file_term::transform], [basename], [extension]. *)
Definition eval_file (ct : ctype) (c : context) (k : file_kind) (o : fileopt) : outcome bytes :=
  let p := match k with Basename => stem (c_name c) | Extension => extension (c_name c) end in
  let* out := do_cap_xform ct (do_the_xform ct p (f_the o)) (f_cap o) in
  Ok (do_ws_xform out (f_compress o) (f_replace o)).

(** tbt-support.cc:642-665, [size::evaluate]: in base sixteen the number itself is
    not inserted into the stream. *)
Definition eval_size (c : context) (b : option num_base) (h : option hex_case) : outcome bytes :=
  match b with
  | None => UB Uninitialised
  | Some Decimal => Ok (number 10 (c_size c))
  | Some Hex => match h with None => UB Uninitialised | Some _ => Ok [] end
  end.

(** tbt-support.cc:667-690, [md5::evaluate]: the digest's bytes are inserted as
    characters, whatever the base. *)
Definition eval_md5 (c : context) (b : option num_base) (h : option hex_case) : outcome bytes :=
  match b with
  | None => UB Uninitialised
  | Some Decimal => Ok (c_md5 c)
  | Some Hex => match h with None => UB Uninitialised | Some _ => Ok (c_md5 c) end
  end.

(** tbt-support.hh:156-175, [process_and_concatenate], folded over the terms;
    tbt-support.cc:398-415, [subclause::evaluate], which gives nothing where a
    template error arises inside it. *)
Fixpoint eval_term (ct : ctype) (ic : iconv_t) (c : context) (t : term) : outcome bytes :=
  match t with
  | TText s => Ok s
  | TAacet k o => eval_aacet ct ic c k o
  | TEncodedBy => eval_encoded_by ct c
  | TYear f => eval_year ic c f
  | TFile k o => eval_file ct c k o
  | TSize b h => eval_size c b h
  | TMd5 b h => eval_md5 c b h
  | TSub l =>
      match (fix go (acc : bytes) (l : list term) : outcome bytes :=
               match l with
               | [] => Ok acc
               | x :: r => let* s := eval_term ct ic c x in go (acc ++ s) r
               end) [] l with
      | Throw TemplateError => Ok []
      | r => r
      end
  end.
Fixpoint eval_terms (ct : ctype) (ic : iconv_t) (c : context) (acc : bytes) (l : list term) : outcome bytes :=
  match l with
  | [] => Ok acc
  | x :: r => let* s := eval_term ct ic c x in eval_terms ct ic c (acc ++ s) r
  end.

(** scribbu/id3v2-utils.cc:122-139, [template_processor::operator()], given what
    reading the file yields. *)
Definition process (ct : ctype) (ic : iconv_t) (c : context) (l : list term) : outcome bytes :=
  eval_terms ct ic c [] l.
