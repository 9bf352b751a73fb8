(** * Model: character encodings (scribbu/charsets.hh, charsets.cc). *)
From Verif Require Import Base.

(** scribbu/charsets.hh:53-110 [encoding]. *)
Inductive enc :=
| E_ASCII  | E_ISO_8859_1  | E_ISO_8859_2  | E_ISO_8859_3  | E_ISO_8859_4  | E_ISO_8859_5
| E_ISO_8859_7  | E_ISO_8859_9  | E_ISO_8859_10  | E_ISO_8859_13  | E_ISO_8859_14
| E_ISO_8859_15  | E_ISO_8859_16  | E_KOI8_R  | E_KOI8_U  | E_KOI8_RU  | E_CP1250
| E_CP1251  | E_CP1252  | E_CP1253  | E_CP1254  | E_CP1257  | E_CP850  | E_CP866
| E_CP1131  | E_MacRoman  | E_MacCentralEurope  | E_MacIceland  | E_MacCroatian
| E_MacRomania  | E_MacCyrillic  | E_MacUkraine  | E_MacGreek  | E_MacTurkish
| E_Macintosh  | E_ISO_8859_6  | E_ISO_8859_8  | E_CP1255  | E_CP1256  | E_CP862
| E_MacHebrew  | E_MacArabic  | E_EUC_JP  | E_SHIFT_JIS  | E_CP932  | E_ISO_2022_JP
| E_ISO_2022_JP_2  | E_ISO_2022_JP_1  | E_ISO_2022_JP_MS  | E_EUC_CN  | E_HZ  | E_GBK
| E_CP936  | E_GB18030  | E_EUC_TW  | E_BIG5  | E_CP950  | E_BIG5_HKSCS
| E_BIG5_HKSCS_2004  | E_BIG5_HKSCS_2001  | E_BIG5_HKSCS_1999  | E_ISO_2022_CN
| E_ISO_2022_CN_EXT  | E_EUC_KR  | E_CP949  | E_ISO_2022_KR  | E_JOHAB  | E_ARMSCII_8
| E_Georgian_Academy  | E_Georgian_PS  | E_KOI8_T  | E_PT154  | E_RK1048  | E_TIS_620
| E_CP874  | E_MacThai  | E_MuleLao_1  | E_CP1133  | E_VISCII  | E_TCVN  | E_CP1258
| E_HP_ROMAN8  | E_NEXTSTEP  | E_UTF_8  | E_UCS_2  | E_UCS_2BE  | E_UCS_2LE  | E_UCS_4
| E_UCS_4BE  | E_UCS_4LE  | E_UTF_16  | E_UTF_16BE  | E_UTF_16LE  | E_UTF_32  | E_UTF_32BE
| E_UTF_32LE  | E_UTF_7  | E_C99  | E_JAVA.

(** scribbu/charsets.cc:100-213, the names accepted by [operator>>]. *)
Definition enc_names : list (bytes * enc) := map (fun x => (B (fst x), snd x)) [
  ("ASCII", E_ASCII); ("ISO-8859-1", E_ISO_8859_1); ("ISO-8859-2", E_ISO_8859_2);
  ("ISO-8859-3", E_ISO_8859_3); ("ISO-8859-4", E_ISO_8859_4); ("ISO-8859-5", E_ISO_8859_5);
  ("ISO-8859-7", E_ISO_8859_7); ("ISO-8859-9", E_ISO_8859_9);
  ("ISO-8859-10", E_ISO_8859_10); ("ISO-8859-13", E_ISO_8859_13);
  ("ISO-8859-14", E_ISO_8859_14); ("ISO-8859-15", E_ISO_8859_15);
  ("ISO-8859-16", E_ISO_8859_16); ("KOI8-R", E_KOI8_R); ("KOI8-U", E_KOI8_U);
  ("KOI8-RU", E_KOI8_RU); ("CP1250", E_CP1250); ("CP1251", E_CP1251); ("CP1252", E_CP1252);
  ("CP1253", E_CP1253); ("CP1254", E_CP1254); ("CP1257", E_CP1257); ("CP850", E_CP850);
  ("CP866", E_CP866); ("CP1131", E_CP1131); ("MacRoman", E_MacRoman);
  ("MacCentralEurope", E_MacCentralEurope); ("MacIceland", E_MacIceland);
  ("MacCroatian", E_MacCroatian); ("MacRomania", E_MacRomania);
  ("MacCyrillic", E_MacCyrillic); ("MacUkraine", E_MacUkraine); ("MacGreek", E_MacGreek);
  ("MacTurkish", E_MacTurkish); ("Macintosh", E_Macintosh); ("ISO-8859-6", E_ISO_8859_6);
  ("ISO-8859-8", E_ISO_8859_8); ("CP1255", E_CP1255); ("CP1256", E_CP1256);
  ("CP862", E_CP862); ("MacHebrew", E_MacHebrew); ("MacArabic", E_MacArabic);
  ("EUC-JP", E_EUC_JP); ("SHIFT-JIS", E_SHIFT_JIS); ("CP932", E_CP932);
  ("ISO-2022-JP", E_ISO_2022_JP); ("ISO-2022-JP-2", E_ISO_2022_JP_2);
  ("ISO-2022-JP-1", E_ISO_2022_JP_1); ("ISO-2022-JP-MS", E_ISO_2022_JP_MS);
  ("EUC-CN", E_EUC_CN); ("HZ", E_HZ); ("GBK", E_GBK); ("CP936", E_CP936);
  ("GB18030", E_GB18030); ("EUC-TW", E_EUC_TW); ("BIG5", E_BIG5); ("CP950", E_CP950);
  ("BIG5-HKSCS", E_BIG5_HKSCS); ("BIG5-HKSCS:2004", E_BIG5_HKSCS_2004);
  ("BIG5-HKSCS:2001", E_BIG5_HKSCS_2001); ("BIG5-HKSCS:1999", E_BIG5_HKSCS_1999);
  ("ISO-2022-CN", E_ISO_2022_CN); ("ISO-2022-CN-EXT", E_ISO_2022_CN_EXT);
  ("EUC-KR", E_EUC_KR); ("CP949", E_CP949); ("ISO-2022-KR", E_ISO_2022_KR);
  ("JOHAB", E_JOHAB); ("ARMSCII-8", E_ARMSCII_8); ("Georgian-Academy", E_Georgian_Academy);
  ("Georgian-PS", E_Georgian_PS); ("KOI8-T", E_KOI8_T); ("PT154", E_PT154);
  ("RK1048", E_RK1048); ("TIS-620", E_TIS_620); ("CP874", E_CP874); ("MacThai", E_MacThai);
  ("MuleLao-1", E_MuleLao_1); ("CP1133", E_CP1133); ("VISCII", E_VISCII); ("TCVN", E_TCVN);
  ("CP1258", E_CP1258); ("HP-ROMAN8", E_HP_ROMAN8); ("NEXTSTEP", E_NEXTSTEP);
  ("UTF-8", E_UTF_8); ("UCS-2", E_UCS_2); ("UCS-2BE", E_UCS_2BE); ("UCS-2LE", E_UCS_2LE);
  ("UCS-4", E_UCS_4); ("UCS-4BE", E_UCS_4BE); ("UCS-4LE", E_UCS_4LE); ("UTF-16", E_UTF_16);
  ("UTF-16BE", E_UTF_16BE); ("UTF-16LE", E_UTF_16LE); ("UTF-32", E_UTF_32);
  ("UTF-32BE", E_UTF_32BE); ("UTF-32LE", E_UTF_32LE); ("UTF-7", E_UTF_7); ("C99", E_C99);
  ("JAVA", E_JAVA)]%string.

(** [unordered_map::at]. *)
Fixpoint enc_at (t : list (bytes * enc)) (k : bytes) : outcome enc :=
  match t with
  | [] => Throw OutOfRange
  | (n, x) :: r => if bytes_eqb n k then Ok x else enc_at r k
  end.

(** scribbu/charsets.cc:97-222 [operator>>] on the word it extracts. *)
Definition enc_of_name (word : bytes) : outcome enc := enc_at enc_names word.

(** scribbu/charsets.cc:224-342 [operator<<]. *)
Definition enc_name (e : enc) : bytes :=
  match e with
  | E_ASCII => B "ASCII"
  | E_ISO_8859_1 => B "ISO-8859-1"
  | E_ISO_8859_2 => B "ISO-8859-2"
  | E_ISO_8859_3 => B "ISO-8859-3"
  | E_ISO_8859_4 => B "ISO-8859-4"
  | E_ISO_8859_5 => B "ISO-8859-5"
  | E_ISO_8859_7 => B "ISO-8859-7"
  | E_ISO_8859_9 => B "ISO-8859-9"
  | E_ISO_8859_10 => B "ISO-8859-10"
  | E_ISO_8859_13 => B "ISO-8859-13"
  | E_ISO_8859_14 => B "ISO-8859-14"
  | E_ISO_8859_15 => B "ISO-8859-15"
  | E_ISO_8859_16 => B "ISO-8859-16"
  | E_KOI8_R => B "KOI8-R"
  | E_KOI8_U => B "KOI8-U"
  | E_KOI8_RU => B "KOI8-RU"
  | E_CP1250 => B "CP1250"
  | E_CP1251 => B "CP1251"
  | E_CP1252 => B "CP1252"
  | E_CP1253 => B "CP1253"
  | E_CP1254 => B "CP1254"
  | E_CP1257 => B "CP1257"
  | E_CP850 => B "CP850"
  | E_CP866 => B "CP866"
  | E_CP1131 => B "CP1131"
  | E_MacRoman => B "MacRoman"
  | E_MacCentralEurope => B "MacCentralEurope"
  | E_MacIceland => B "MacIceland"
  | E_MacCroatian => B "MacCroatian"
  | E_MacRomania => B "MacRomania"
  | E_MacCyrillic => B "MacCyrillic"
  | E_MacUkraine => B "MacUkraine"
  | E_MacGreek => B "MacGreek"
  | E_MacTurkish => B "MacTurkish"
  | E_Macintosh => B "Macintosh"
  | E_ISO_8859_6 => B "ISO-8859-6"
  | E_ISO_8859_8 => B "ISO-8859-8"
  | E_CP1255 => B "CP1255"
  | E_CP1256 => B "CP1256"
  | E_CP862 => B "CP862"
  | E_MacHebrew => B "MacHebrew"
  | E_MacArabic => B "MacArabic"
  | E_EUC_JP => B "EUC-JP"
  | E_SHIFT_JIS => B "SHIFT-JIS"
  | E_CP932 => B "CP932"
  | E_ISO_2022_JP => B "ISO-2022-JP"
  | E_ISO_2022_JP_2 => B "ISO-2022-JP-2"
  | E_ISO_2022_JP_1 => B "ISO-2022-JP-1"
  | E_ISO_2022_JP_MS => B "ISO-2022-JP-MS"
  | E_EUC_CN => B "EUC-CN"
  | E_HZ => B "HZ"
  | E_GBK => B "GBK"
  | E_CP936 => B "CP936"
  | E_GB18030 => B "GB18030"
  | E_EUC_TW => B "EUC-TW"
  | E_BIG5 => B "BIG5"
  | E_CP950 => B "CP950"
  | E_BIG5_HKSCS => B "BIG5-HKSCS"
  | E_BIG5_HKSCS_2004 => B "BIG5-HKSCS:2004"
  | E_BIG5_HKSCS_2001 => B "BIG5-HKSCS:2001"
  | E_BIG5_HKSCS_1999 => B "BIG5-HKSCS:1999"
  | E_ISO_2022_CN => B "ISO-2022-CN"
  | E_ISO_2022_CN_EXT => B "ISO-2022-CN-EXT"
  | E_EUC_KR => B "EUC-KR"
  | E_CP949 => B "CP949"
  | E_ISO_2022_KR => B "ISO-2022-KR"
  | E_JOHAB => B "JOHAB"
  | E_ARMSCII_8 => B "ARMSCII-8"
  | E_Georgian_Academy => B "Georgian-Academy"
  | E_Georgian_PS => B "Georgian-PS"
  | E_KOI8_T => B "KOI8-T"
  | E_PT154 => B "PT154"
  | E_RK1048 => B "RK1048"
  | E_TIS_620 => B "TIS-620"
  | E_CP874 => B "CP874"
  | E_MacThai => B "MacThai"
  | E_MuleLao_1 => B "MuleLao-1"
  | E_CP1133 => B "CP1133"
  | E_VISCII => B "VISCII"
  | E_TCVN => B "TCVN"
  | E_CP1258 => B "CP1258"
  | E_HP_ROMAN8 => B "HP-ROMAN8"
  | E_NEXTSTEP => B "NEXTSTEP"
  | E_UTF_8 => B "UTF-8"
  | E_UCS_2 => B "UCS-2"
  | E_UCS_2BE => B "UCS-2BE"
  | E_UCS_2LE => B "UCS-2LE"
  | E_UCS_4 => B "UCS-4"
  | E_UCS_4BE => B "UCS-4BE"
  | E_UCS_4LE => B "UCS-4LE"
  | E_UTF_16 => B "UTF-16"
  | E_UTF_16BE => B "UTF-16BE"
  | E_UTF_16LE => B "UTF-16LE"
  | E_UTF_32 => B "UTF-32"
  | E_UTF_32BE => B "UTF-32BE"
  | E_UTF_32LE => B "UTF-32LE"
  | E_UTF_7 => B "UTF-7"
  | E_C99 => B "C99"
  | E_JAVA => B "JAVA"
  end.

(** scribbu/charsets.cc:483-616 [string_for_encoding], without the suffix. *)
Definition iconv_name (e : enc) : bytes :=
  match e with
  | E_ASCII => B "ASCII"
  | E_ISO_8859_1 => B "ISO-8859-1"
  | E_ISO_8859_2 => B "ISO-8859-2"
  | E_ISO_8859_3 => B "ISO-8859-3"
  | E_ISO_8859_4 => B "ISO-8859-4"
  | E_ISO_8859_5 => B "ISO-8859-5"
  | E_ISO_8859_7 => B "ISO-8859-7"
  | E_ISO_8859_9 => B "ISO-8859-9"
  | E_ISO_8859_10 => B "ISO-8859-10"
  | E_ISO_8859_13 => B "ISO-8859-13"
  | E_ISO_8859_14 => B "ISO-8859-14"
  | E_ISO_8859_15 => B "ISO-8859-15"
  | E_ISO_8859_16 => B "ISO-8859-16"
  | E_KOI8_R => B "KOI8-R"
  | E_KOI8_U => B "KOI8-U"
  | E_KOI8_RU => B "KOI8-RU"
  | E_CP1250 => B "CP1250"
  | E_CP1251 => B "CP1251"
  | E_CP1252 => B "CP1252"
  | E_CP1253 => B "CP1253"
  | E_CP1254 => B "CP1254"
  | E_CP1257 => B "CP1257"
  | E_CP850 => B "CP850"
  | E_CP866 => B "CP866"
  | E_CP1131 => B "CP1131"
  | E_MacRoman => B "MacRoman"
  | E_MacCentralEurope => B "MacCentralEurope"
  | E_MacIceland => B "MacIceland"
  | E_MacCroatian => B "MacCroatian"
  | E_MacRomania => B "MacRomania"
  | E_MacCyrillic => B "MacCyrillic"
  | E_MacUkraine => B "MacUkraine"
  | E_MacGreek => B "MacGreek"
  | E_MacTurkish => B "MacTurkish"
  | E_Macintosh => B "Macintosh"
  | E_ISO_8859_6 => B "ISO-8859-6"
  | E_ISO_8859_8 => B "ISO-8859-8"
  | E_CP1255 => B "CP1255"
  | E_CP1256 => B "CP1256"
  | E_CP862 => B "CP862"
  | E_MacHebrew => B "MacHebrew"
  | E_MacArabic => B "MacArabic"
  | E_EUC_JP => B "EUC-JP"
  | E_SHIFT_JIS => B "SHIFT-JIS"
  | E_CP932 => B "CP932"
  | E_ISO_2022_JP => B "ISO-2022-JP"
  | E_ISO_2022_JP_2 => B "ISO-2022-JP-2"
  | E_ISO_2022_JP_1 => B "ISO-2022-JP-1"
  | E_ISO_2022_JP_MS => B "ISO-2022-JP-MS"
  | E_EUC_CN => B "EUC-CN"
  | E_HZ => B "HZ"
  | E_GBK => B "GBK"
  | E_CP936 => B "CP936"
  | E_GB18030 => B "GB18030"
  | E_EUC_TW => B "EUC-TW"
  | E_BIG5 => B "BIG5"
  | E_CP950 => B "CP950"
  | E_BIG5_HKSCS => B "BIG5-HKSCS"
  | E_BIG5_HKSCS_2004 => B "BIG5-HKSCS:2004"
  | E_BIG5_HKSCS_2001 => B "BIG5-HKSCS:2001"
  | E_BIG5_HKSCS_1999 => B "BIG5-HKSCS:1999"
  | E_ISO_2022_CN => B "ISO-2022-CN"
  | E_ISO_2022_CN_EXT => B "ISO-2022-CN-EXT"
  | E_EUC_KR => B "EUC-KR"
  | E_CP949 => B "CP949"
  | E_ISO_2022_KR => B "ISO-2022-KR"
  | E_JOHAB => B "JOHAB"
  | E_ARMSCII_8 => B "ARMSCII-8"
  | E_Georgian_Academy => B "Georgian-Academy"
  | E_Georgian_PS => B "Georgian-PS"
  | E_KOI8_T => B "KOI8-T"
  | E_PT154 => B "PT154"
  | E_RK1048 => B "RK1048"
  | E_TIS_620 => B "TIS-620"
  | E_CP874 => B "CP874"
  | E_MacThai => B "MacThai"
  | E_MuleLao_1 => B "MuleLao-1"
  | E_CP1133 => B "CP1133"
  | E_VISCII => B "VISCII"
  | E_TCVN => B "TCVN"
  | E_CP1258 => B "CP1258"
  | E_HP_ROMAN8 => B "HP-ROMAN8"
  | E_NEXTSTEP => B "NEXTSTEP"
  | E_UTF_8 => B "UTF-8"
  | E_UCS_2 => B "UCS-2"
  | E_UCS_2BE => B "UCS-2BE"
  | E_UCS_2LE => B "UCS-2LE"
  | E_UCS_4 => B "UCS-4"
  | E_UCS_4BE => B "UCS-4BE"
  | E_UCS_4LE => B "UCS-4LE"
  | E_UTF_16 => B "UTF-16"
  | E_UTF_16BE => B "UTF-16BE"
  | E_UTF_16LE => B "UTF-16LE"
  | E_UTF_32 => B "UTF-32"
  | E_UTF_32BE => B "UTF-32BE"
  | E_UTF_32LE => B "UTF-32LE"
  | E_UTF_7 => B "UTF-7"
  | E_C99 => B "C99"
  | E_JAVA => B "JAVA"
  end.

(** scribbu/charsets.cc:376-399 [char_traits<char>::is_code_unit]. *)
Definition char_unit (e : enc) : bool :=
  match e with
  | E_UCS_2 | E_UCS_2BE | E_UCS_2LE | E_UCS_4 | E_UCS_4BE | E_UCS_4LE | E_UTF_16 | E_UTF_16BE | E_UTF_16LE | E_UTF_32 | E_UTF_32BE | E_UTF_32LE | E_UTF_7 | E_C99 | E_JAVA => false
  | _ => true
  end.

(** scribbu/charsets.cc:38-74, encodings named in locales.  (The trailing commas
    are in the source.) *)
Definition locale_encs : list (bytes * enc) := map (fun x => (B (fst x), snd x)) [
  ("ASCII", E_ASCII); ("US-ASCII", E_ASCII); ("UTF-8", E_UTF_8); ("utf8", E_UTF_8);
  ("ISO8859-1", E_ISO_8859_1); ("ISO8859-2", E_ISO_8859_2); ("ISO8859-3", E_ISO_8859_3);
  ("ISO8859-4", E_ISO_8859_4); ("ISO8859-5", E_ISO_8859_5); ("ISO8859-7", E_ISO_8859_7);
  ("ISO8859-9", E_ISO_8859_9); ("ISO8859-10", E_ISO_8859_10);
  ("ISO8859-13", E_ISO_8859_13); ("ISO8859-14", E_ISO_8859_14);
  ("ISO8859-15", E_ISO_8859_15); ("ISO8859-16", E_ISO_8859_16); ("CP1131", E_CP1131);
  ("CP1133", E_CP1133); ("CP1250,", E_CP1250); ("CP1251", E_CP1251); ("CP1252,", E_CP1252);
  ("CP1253,", E_CP1253); ("CP1254,", E_CP1254); ("CP1255,", E_CP1255);
  ("CP1256,", E_CP1256); ("CP1257,", E_CP1257); ("CP1258", E_CP1258); ("CP850,", E_CP850);
  ("CP862,", E_CP862); ("CP866,", E_CP866); ("CP874", E_CP874); ("CP932", E_CP932);
  ("CP936", E_CP936); ("CP949", E_CP949); ("CP950", E_CP950)]%string.

(** scribbu/charsets.cc:76-86.  [rfind] of '.'; the key starts with the dot. *)
Fixpoint rfind_dot (l : bytes) : option bytes :=
  match l with
  | [] => None
  | c :: r => match rfind_dot r with
              | Some s => Some s
              | None => if c =? 46 then Some l else None
              end
  end.
Definition enc_of_locale_name (name : bytes) : option enc :=
  match rfind_dot name with
  | None => Some E_UTF_8
  | Some key => match enc_at locale_encs key with Ok e => Some e | _ => None end
  end.

(** scribbu/charsets.cc:643-665 [encoding_from_system_locale], given the names of
    the global and of the system locale. *)
Definition enc_of_locale (global system : bytes) : outcome enc :=
  match enc_of_locale_name global with
  | Some e => Ok e
  | None => match enc_of_locale_name system with
            | Some e => Ok e
            | None => Throw RangeError
            end
  end.

(** scribbu/charsets.hh:138-142 [on_no_encoding]. *)
Inductive noenc := NoFail | NoTranslit | NoIgnore.

(** The C library's iconv, which is not modelled: every theorem quantifies over
    it.  [ic from to rsp b] is the whole conversion of [b], given room for it, or
    [None] where iconv_open or iconv report an error other than E2BIG. *)
Definition iconv_t := enc -> enc -> noenc -> bytes -> option bytes.

(** scribbu/charsets.cc:714-738: a byte order mark at the front is dropped. *)
Definition drop_bom (l : bytes) : bytes :=
  match l with
  | 0 :: 0 :: 254 :: 255 :: r => r
  | 254 :: 255 :: 0 :: 0 :: r => r
  | 239 :: 187 :: 191 :: r => r
  | 254 :: 255 :: r => r
  | 255 :: 254 :: r => r
  | _ => l
  end.

(** scribbu/charsets.cc:740-743: trailing NULs and spaces are dropped. *)
Fixpoint rtrim (l : bytes) : bytes :=
  match l with
  | [] => []
  | c :: r => match rtrim r with
              | [] => if (c =? 0) || (c =? 32) then [] else [c]
              | r' => c :: r'
              end
  end.

(** scribbu/charsets.cc:667-747, from a buffer to a string.  The loop on E2BIG
    starts over with four times the room until the conversion fits. *)
Definition to_string (ic : iconv_t) (buf : bytes) (src dst : enc) (rsp : noenc) : outcome bytes :=
  if negb (char_unit dst) then Throw BadCodeUnit
  else match buf with
       | [] => Ok []
       | _ => match ic src dst rsp buf with
              | None => Throw IconvError
              | Some out => Ok (rtrim (drop_bom out))
              end
       end.

(** [strlen]: the text up to the first NUL of [c_str()]. *)
Fixpoint c_str (l : bytes) : bytes :=
  match l with
  | [] => []
  | c :: r => if c =? 0 then [] else c :: c_str r
  end.

(** scribbu/charsets.cc:784-788 and 800-847: the byte order mark to add, on a
    little-endian machine. *)
Definition bom_for (dst : enc) : bytes :=
  match dst with
  | E_UCS_2 => [255; 254]
  | E_UCS_4 => [255; 254; 0; 0]
  | E_UCS_2BE | E_UTF_16BE => [254; 255]
  | E_UCS_2LE | E_UTF_16LE => [255; 254]
  | E_UTF_8 => [239; 187; 191]
  | E_UCS_4BE | E_UTF_32BE => [0; 0; 255; 254]
  | E_UCS_4LE | E_UTF_32LE => [255; 254; 0; 0]
  | _ => []
  end.

(** scribbu/charsets.cc:862-876, the loop on E2BIG: [room] is the size of the
    vector.  iconv is told that it has [room] bytes from offset [bom] on; the
    [outbytesleft] it updates shadows the one that is subtracted afterwards
    (line 891), which has been set to the size of the vector.  A conversion that
    fills less than the room it is told about, but more than there is, runs over
    the end of the vector. *)
Fixpoint grow (fuel : nat) (bom need room : N) : outcome bytes :=
  match fuel with
  | O => NonTerm
  | S f =>
      let room' := room * 4 in
      if need <=? room' then
        if bom + need <=? room' then Ok [] else UB OutOfBounds
      else grow f bom need room'
  end.

(** scribbu/charsets.cc:776-927, from a string to a buffer. *)
Definition to_bytes (ic : iconv_t) (text : bytes) (src dst : enc) (add_bom : bool) (rsp : noenc) : outcome bytes :=
  if negb (char_unit src) then Throw BadCodeUnit
  else match c_str text with
       | [] => Ok []
       | s => let bom := if add_bom then bom_for dst else [] in
              match ic src dst rsp s with
              | None => Throw IconvError
              | Some out =>
                  if len out <=? 4 * len s then Ok (bom ++ out)
                  else grow (length out) (len bom) (len out) (len bom + 4 * len s)
              end
       end.
