(** * Model: the command that lists the encodings (src/encodings.cc), and the names
      of what to do about text that cannot be converted (scribbu/charsets.cc). *)
From Verif Require Import Base M_Charset.
#[local] Open Scope N_scope.

(** scribbu/charsets.hh:53-110: the values from [ASCII] up to [MAX_ENCODING], by
    their numbers. *)
Definition enc_values : list enc := [
  E_ASCII; E_ISO_8859_1; E_ISO_8859_2; E_ISO_8859_3; E_ISO_8859_4; E_ISO_8859_5;
  E_ISO_8859_7; E_ISO_8859_9; E_ISO_8859_10; E_ISO_8859_13; E_ISO_8859_14; E_ISO_8859_15;
  E_ISO_8859_16; E_KOI8_R; E_KOI8_U; E_KOI8_RU; E_CP1250; E_CP1251; E_CP1252; E_CP1253;
  E_CP1254; E_CP1257; E_CP850; E_CP866; E_CP1131; E_MacRoman; E_MacCentralEurope;
  E_MacIceland; E_MacCroatian; E_MacRomania; E_MacCyrillic; E_MacUkraine; E_MacGreek;
  E_MacTurkish; E_Macintosh; E_ISO_8859_6; E_ISO_8859_8; E_CP1255; E_CP1256; E_CP862;
  E_MacHebrew; E_MacArabic; E_EUC_JP; E_SHIFT_JIS; E_CP932; E_ISO_2022_JP;
  E_ISO_2022_JP_2; E_ISO_2022_JP_1; E_ISO_2022_JP_MS; E_EUC_CN; E_HZ; E_GBK; E_CP936;
  E_GB18030; E_EUC_TW; E_BIG5; E_CP950; E_BIG5_HKSCS; E_BIG5_HKSCS_2004;
  E_BIG5_HKSCS_2001; E_BIG5_HKSCS_1999; E_ISO_2022_CN; E_ISO_2022_CN_EXT; E_EUC_KR;
  E_CP949; E_ISO_2022_KR; E_JOHAB; E_ARMSCII_8; E_Georgian_Academy; E_Georgian_PS;
  E_KOI8_T; E_PT154; E_RK1048; E_TIS_620; E_CP874; E_MacThai; E_MuleLao_1; E_CP1133;
  E_VISCII; E_TCVN; E_CP1258; E_HP_ROMAN8; E_NEXTSTEP; E_UTF_8; E_UCS_2; E_UCS_2BE;
  E_UCS_2LE; E_UCS_4; E_UCS_4BE; E_UCS_4LE; E_UTF_16; E_UTF_16BE; E_UTF_16LE; E_UTF_32;
  E_UTF_32BE; E_UTF_32LE; E_UTF_7; E_C99; E_JAVA].

(** src/encodings.cc:98-102: for each value its name (charsets.cc:224-342) and a
    newline.  Option parsing is not modelled. *)
Definition list_encodings : bytes := flat_map (fun e => enc_name e ++ [10]) enc_values.

(** scribbu/charsets.cc:349-364 [operator>>] on the word it extracts: [at] throws. *)
Definition noenc_of_name (word : bytes) : outcome noenc :=
  if bytes_eqb word (B "fail") then Ok NoFail
  else if bytes_eqb word (B "ignore") then Ok NoIgnore
  else if bytes_eqb word (B "transliterate") then Ok NoTranslit
  else Throw OutOfRange.

(** scribbu/charsets.cc:366-376 [operator<<]. *)
Definition noenc_name (x : noenc) : bytes :=
  match x with NoFail => B "fail" | NoIgnore => B "ignore" | NoTranslit => B "transliterate" end.
