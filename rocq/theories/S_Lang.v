(** * Specification: languages.

    The ISO 639-2 codes, each with its ISO 639-1 code, as the comments in
    scribbu/charsets.hh:277-783 list them (the three comments that do not hold a
    code, for [lao], [lim] and [wol], are completed from the standard).  Codes are
    lower case, as the standard has them. *)
From Verif Require Import Base M_Charset.

Definition iso_639 : list (bytes * bytes) :=
  [
   (B "aar", B "aa"); (B "abk", B "ab"); (B "ace", []); (B "ach", []); (B "ada", []); (B "ady", []);
   (B "afa", []); (B "afh", []); (B "afr", B "af"); (B "ain", []); (B "aka", B "ak"); (B "akk", []);
   (B "alb", B "sq"); (B "ale", []); (B "alg", []); (B "alt", []); (B "amh", B "am"); (B "ang", []);
   (B "anp", []); (B "apa", []); (B "ara", B "ar"); (B "arc", []); (B "arg", B "an"); (B "arm", B "hy");
   (B "arn", []); (B "arp", []); (B "art", []); (B "arw", []); (B "asm", B "as"); (B "ast", []);
   (B "ath", []); (B "aus", []); (B "ava", B "av"); (B "ave", B "ae"); (B "awa", []); (B "aym", B "ay");
   (B "aze", B "az"); (B "bad", []); (B "bai", []); (B "bak", B "ba"); (B "bal", []); (B "bam", B "bm");
   (B "ban", []); (B "baq", B "eu"); (B "bas", []); (B "bat", []); (B "bej", []); (B "bel", B "be");
   (B "bem", []); (B "ben", B "bn"); (B "ber", []); (B "bho", []); (B "bih", B "bh"); (B "bik", []);
   (B "bin", []); (B "bis", B "bi"); (B "bla", []); (B "bnt", []); (B "bod", B "bo"); (B "bos", B "bs");
   (B "bra", []); (B "bre", B "br"); (B "btk", []); (B "bua", []); (B "bug", []); (B "bul", B "bg");
   (B "bur", B "my"); (B "byn", []); (B "cad", []); (B "cai", []); (B "car", []); (B "cat", B "ca");
   (B "cau", []); (B "ceb", []); (B "cel", []); (B "ces", B "cs"); (B "cha", B "ch"); (B "chb", []);
   (B "che", B "ce"); (B "chg", []); (B "chi", B "zh"); (B "chk", []); (B "chm", []); (B "chn", []);
   (B "cho", []); (B "chp", []); (B "chr", []); (B "chu", B "cu"); (B "chv", B "cv"); (B "chy", []);
   (B "cmc", []); (B "cnr", []); (B "cop", []); (B "cor", B "kw"); (B "cos", B "co"); (B "cpe", []);
   (B "cpf", []); (B "cpp", []); (B "cre", B "cr"); (B "crh", []); (B "crp", []); (B "csb", []);
   (B "cus", []); (B "cym", B "cy"); (B "cze", B "cs"); (B "dak", []); (B "dan", B "da"); (B "dar", []);
   (B "day", []); (B "del", []); (B "den", []); (B "deu", B "de"); (B "dgr", []); (B "din", []);
   (B "div", B "dv"); (B "doi", []); (B "dra", []); (B "dsb", []); (B "dua", []); (B "dum", []);
   (B "dut", B "nl"); (B "dyu", []); (B "dzo", B "dz"); (B "efi", []); (B "egy", []); (B "eka", []);
   (B "ell", B "el"); (B "elx", []); (B "eng", B "en"); (B "enm", []); (B "epo", B "eo"); (B "est", B "et");
   (B "eus", B "eu"); (B "ewe", B "ee"); (B "ewo", []); (B "fan", []); (B "fao", B "fo"); (B "fas", B "fa");
   (B "fat", []); (B "fij", B "fj"); (B "fil", []); (B "fin", B "fi"); (B "fiu", []); (B "fon", []);
   (B "fra", B "fr"); (B "fre", B "fr"); (B "frm", []); (B "fro", []); (B "frr", []); (B "frs", []);
   (B "fry", B "fy"); (B "ful", B "ff"); (B "fur", []); (B "gaa", []); (B "gay", []); (B "gba", []);
   (B "gem", []); (B "geo", B "ka"); (B "ger", B "de"); (B "gez", []); (B "gil", []); (B "gla", B "gd");
   (B "gle", B "ga"); (B "glg", B "gl"); (B "glv", B "gv"); (B "gmh", []); (B "goh", []); (B "gon", []);
   (B "gor", []); (B "got", []); (B "grb", []); (B "grc", []); (B "gre", B "el"); (B "grn", B "gn");
   (B "gsw", []); (B "guj", B "gu"); (B "gwi", []); (B "hai", []); (B "hat", B "ht"); (B "hau", B "ha");
   (B "haw", []); (B "heb", B "he"); (B "her", B "hz"); (B "hil", []); (B "him", []); (B "hin", B "hi");
   (B "hit", []); (B "hmn", []); (B "hmo", B "ho"); (B "hrv", B "hr"); (B "hsb", []); (B "hun", B "hu");
   (B "hup", []); (B "hye", B "hy"); (B "iba", []); (B "ibo", B "ig"); (B "ice", B "is"); (B "ido", B "io");
   (B "iii", B "ii"); (B "ijo", []); (B "iku", B "iu"); (B "ile", B "ie"); (B "ilo", []); (B "ina", B "ia");
   (B "inc", []); (B "ind", B "id"); (B "ine", []); (B "inh", []); (B "ipk", B "ik"); (B "ira", []);
   (B "iro", []); (B "isl", B "is"); (B "ita", B "it"); (B "jav", B "jv"); (B "jbo", []); (B "jpn", B "ja");
   (B "jpr", []); (B "jrb", []); (B "kaa", []); (B "kab", []); (B "kac", []); (B "kal", B "kl");
   (B "kam", []); (B "kan", B "kn"); (B "kar", []); (B "kas", B "ks"); (B "kat", B "ka"); (B "kau", B "kr");
   (B "kaw", []); (B "kaz", B "kk"); (B "kbd", []); (B "kha", []); (B "khi", []); (B "khm", B "km");
   (B "kho", []); (B "kik", B "ki"); (B "kin", B "rw"); (B "kir", B "ky"); (B "kmb", []); (B "kok", []);
   (B "kom", B "kv"); (B "kon", B "kg"); (B "kor", B "ko"); (B "kos", []); (B "kpe", []); (B "krc", []);
   (B "krl", []); (B "kro", []); (B "kru", []); (B "kua", B "kj"); (B "kum", []); (B "kur", B "ku");
   (B "kut", []); (B "lad", []); (B "lah", []); (B "lam", []); (B "lao", B "lo"); (B "lat", B "la");
   (B "lav", B "lv"); (B "lez", []); (B "lim", B "li"); (B "lin", B "ln"); (B "lit", B "lt"); (B "lol", []);
   (B "loz", []); (B "ltz", B "lb"); (B "lua", []); (B "lub", B "lu"); (B "lug", B "lg"); (B "lui", []);
   (B "lun", []); (B "luo", []); (B "lus", []); (B "mac", B "mk"); (B "mad", []); (B "mag", []);
   (B "mah", B "mh"); (B "mai", []); (B "mak", []); (B "mal", B "ml"); (B "man", []); (B "mao", B "mi");
   (B "map", []); (B "mar", B "mr"); (B "mas", []); (B "may", B "ms"); (B "mdf", []); (B "mdr", []);
   (B "men", []); (B "mga", []); (B "mic", []); (B "min", []); (B "mis", []); (B "mkd", B "mk");
   (B "mkh", []); (B "mlg", B "mg"); (B "mlt", B "mt"); (B "mnc", []); (B "mni", []); (B "mno", []);
   (B "moh", []); (B "mon", B "mn"); (B "mos", []); (B "mri", B "mi"); (B "msa", B "ms"); (B "mul", []);
   (B "mun", []); (B "mus", []); (B "mwl", []); (B "mwr", []); (B "mya", B "my"); (B "myn", []);
   (B "myv", []); (B "nah", []); (B "nai", []); (B "nap", []); (B "nau", B "na"); (B "nav", B "nv");
   (B "nbl", B "nr"); (B "nde", B "nd"); (B "ndo", B "ng"); (B "nds", []); (B "nep", B "ne"); (B "new", []);
   (B "nia", []); (B "nic", []); (B "niu", []); (B "nld", B "nl"); (B "nno", B "nn"); (B "nob", B "nb");
   (B "nog", []); (B "non", []); (B "nor", B "no"); (B "nqo", []); (B "nso", []); (B "nub", []);
   (B "nwc", []); (B "nya", B "ny"); (B "nym", []); (B "nyn", []); (B "nyo", []); (B "nzi", []);
   (B "oci", B "oc"); (B "oji", B "oj"); (B "ori", B "or"); (B "orm", B "om"); (B "osa", []);
   (B "oss", B "os"); (B "ota", []); (B "oto", []); (B "paa", []); (B "pag", []); (B "pal", []);
   (B "pam", []); (B "pan", B "pa"); (B "pap", []); (B "pau", []); (B "peo", []); (B "per", B "fa");
   (B "phi", []); (B "phn", []); (B "pli", B "pi"); (B "pol", B "pl"); (B "pon", []); (B "por", B "pt");
   (B "pra", []); (B "pro", []); (B "pus", B "ps"); (B "qaa", []); (B "que", B "qu"); (B "raj", []);
   (B "rap", []); (B "rar", []); (B "roa", []); (B "roh", B "rm"); (B "rom", []); (B "ron", B "ro");
   (B "rum", B "ro"); (B "run", B "rn"); (B "rup", []); (B "rus", B "ru"); (B "sad", []); (B "sag", B "sg");
   (B "sah", []); (B "sai", []); (B "sal", []); (B "sam", []); (B "san", B "sa"); (B "sas", []);
   (B "sat", []); (B "scn", []); (B "sco", []); (B "sel", []); (B "sem", []); (B "sga", []); (B "sgn", []);
   (B "shn", []); (B "sid", []); (B "sin", B "si"); (B "sio", []); (B "sit", []); (B "sla", []);
   (B "slo", B "sk"); (B "slk", B "sk"); (B "slv", B "sl"); (B "sma", []); (B "sme", B "se"); (B "smi", []);
   (B "smj", []); (B "smn", []); (B "smo", B "sm"); (B "sms", []); (B "sna", B "sn"); (B "snd", B "sd");
   (B "snk", []); (B "sog", []); (B "som", B "so"); (B "son", []); (B "sot", B "st"); (B "spa", B "es");
   (B "sqi", B "sq"); (B "srd", B "sc"); (B "srn", []); (B "srp", B "sr"); (B "srr", []); (B "ssa", []);
   (B "ssw", B "ss"); (B "suk", []); (B "sun", B "su"); (B "sus", []); (B "sux", []); (B "swa", B "sw");
   (B "swe", B "sv"); (B "syc", []); (B "syr", []); (B "tah", B "ty"); (B "tai", []); (B "tam", B "ta");
   (B "tat", B "tt"); (B "tel", B "te"); (B "tem", []); (B "ter", []); (B "tet", []); (B "tgk", B "tg");
   (B "tgl", B "tl"); (B "tha", B "th"); (B "tib", B "bo"); (B "tig", []); (B "tir", B "ti"); (B "tiv", []);
   (B "tkl", []); (B "tlh", []); (B "tli", []); (B "tmh", []); (B "tog", []); (B "ton", B "to");
   (B "tpi", []); (B "tsi", []); (B "tsn", B "tn"); (B "tso", B "ts"); (B "tuk", B "tk"); (B "tum", []);
   (B "tup", []); (B "tur", B "tr"); (B "tut", []); (B "tvl", []); (B "twi", B "tw"); (B "tyv", []);
   (B "udm", []); (B "uga", []); (B "uig", B "ug"); (B "ukr", B "uk"); (B "umb", []); (B "und", []);
   (B "urd", B "ur"); (B "uzb", B "uz"); (B "vai", []); (B "ven", B "ve"); (B "vie", B "vi");
   (B "vol", B "vo"); (B "vot", []); (B "wak", []); (B "wal", []); (B "war", []); (B "was", []);
   (B "wel", B "cy"); (B "wen", []); (B "wln", B "wa"); (B "wol", B "wo"); (B "xal", []); (B "xho", B "xh");
   (B "yao", []); (B "yap", []); (B "yid", B "yi"); (B "yor", B "yo"); (B "ypk", []); (B "zap", []);
   (B "zbl", []); (B "zen", []); (B "zgh", []); (B "zha", B "za"); (B "zho", B "zh"); (B "znd", []);
   (B "zul", B "zu"); (B "zun", []); (B "zxx", []); (B "zza", [])
  ].

(** [code2] is the two-letter code of the language whose three-letter code is
    [code3]. *)
Definition same_language (code2 code3 : bytes) : Prop := In (code3, code2) iso_639 /\ code2 <> [].

(** The codes of the standard. *)
Definition standard_code (c : bytes) : Prop := In c (map fst iso_639).

(** The five codes the program spells in capitals. *)
Definition capitalised : list bytes := [B "asm"; B "div"; B "map"; B "min"; B "new"].
Definition capitals (c : bytes) : bytes := map (fun x => if (97 <=? x) && (x <=? 122) then x - 32 else x) c.
Definition spelling (c : bytes) : bytes :=
  if existsb (bytes_eqb c) capitalised then capitals c else c.

(** The first word of a text: what is between the blanks at its start and the
    next blank or the end. *)
Definition blank (c : N) : Prop := c = 32 \/ (9 <= c /\ c <= 13).
Definition first_word (text w : bytes) : Prop :=
  exists pre post, text = pre ++ w ++ post /\ Forall blank pre /\ Forall (fun c => ~ blank c) w /\
    (post = [] \/ exists c r, post = c :: r /\ blank c) /\ (w = [] -> post = []).

(** [s] is the value of the first of the variables that has two characters. *)
Definition too_short (v : option bytes) : Prop := forall s, v = Some s -> len s < 2.
Definition locale_is (vars : list (option bytes)) (s : bytes) : Prop :=
  exists pre post, vars = pre ++ Some s :: post /\ Forall too_short pre /\ 2 <= len s.
(** Values of environment variables hold no zero byte. *)
Definition env_value (v : option bytes) : Prop := forall s, v = Some s -> ~ In 0 s.
