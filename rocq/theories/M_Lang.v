(** * Model: languages.

    scribbu/charsets.hh:271-792 and scribbu/charsets.cc:932-2760.  An enumerator of
    [language] is represented by its name, so that the tables below say what the
    code's tables say; [FromLocale] is the enumerator [from_locale]. *)
From Verif Require Import Base M_Charset.

Inductive language := FromLocale | Lang (name : bytes).

(** scribbu/charsets.hh:274-784 [enum class language], after [from_locale]. *)
Definition enumerators : list bytes :=
  [
   B "aar"; B "abk"; B "ace"; B "ach"; B "ada"; B "ady"; B "afa"; B "afh"; B "afr"; B "ain"; B "aka";
   B "akk"; B "alb"; B "ale"; B "alg"; B "alt"; B "amh"; B "ang"; B "anp"; B "apa"; B "ara"; B "arc";
   B "arg"; B "arm"; B "arn"; B "arp"; B "art"; B "arw"; B "ASM"; B "ast"; B "ath"; B "aus"; B "ava";
   B "ave"; B "awa"; B "aym"; B "aze"; B "bad"; B "bai"; B "bak"; B "bal"; B "bam"; B "ban"; B "baq";
   B "bas"; B "bat"; B "bej"; B "bel"; B "bem"; B "ben"; B "ber"; B "bho"; B "bih"; B "bik"; B "bin";
   B "bis"; B "bla"; B "bnt"; B "bod"; B "bos"; B "bra"; B "bre"; B "btk"; B "bua"; B "bug"; B "bul";
   B "bur"; B "byn"; B "cad"; B "cai"; B "car"; B "cat"; B "cau"; B "ceb"; B "cel"; B "ces"; B "cha";
   B "chb"; B "che"; B "chg"; B "chi"; B "chk"; B "chm"; B "chn"; B "cho"; B "chp"; B "chr"; B "chu";
   B "chv"; B "chy"; B "cmc"; B "cnr"; B "cop"; B "cor"; B "cos"; B "cpe"; B "cpf"; B "cpp"; B "cre";
   B "crh"; B "crp"; B "csb"; B "cus"; B "cym"; B "cze"; B "dak"; B "dan"; B "dar"; B "day"; B "del";
   B "den"; B "deu"; B "dgr"; B "din"; B "DIV"; B "doi"; B "dra"; B "dsb"; B "dua"; B "dum"; B "dut";
   B "dyu"; B "dzo"; B "efi"; B "egy"; B "eka"; B "ell"; B "elx"; B "eng"; B "enm"; B "epo"; B "est";
   B "eus"; B "ewe"; B "ewo"; B "fan"; B "fao"; B "fas"; B "fat"; B "fij"; B "fil"; B "fin"; B "fiu";
   B "fon"; B "fra"; B "fre"; B "frm"; B "fro"; B "frr"; B "frs"; B "fry"; B "ful"; B "fur"; B "gaa";
   B "gay"; B "gba"; B "gem"; B "geo"; B "ger"; B "gez"; B "gil"; B "gla"; B "gle"; B "glg"; B "glv";
   B "gmh"; B "goh"; B "gon"; B "gor"; B "got"; B "grb"; B "grc"; B "gre"; B "grn"; B "gsw"; B "guj";
   B "gwi"; B "hai"; B "hat"; B "hau"; B "haw"; B "heb"; B "her"; B "hil"; B "him"; B "hin"; B "hit";
   B "hmn"; B "hmo"; B "hrv"; B "hsb"; B "hun"; B "hup"; B "hye"; B "iba"; B "ibo"; B "ice"; B "ido";
   B "iii"; B "ijo"; B "iku"; B "ile"; B "ilo"; B "ina"; B "inc"; B "ind"; B "ine"; B "inh"; B "ipk";
   B "ira"; B "iro"; B "isl"; B "ita"; B "jav"; B "jbo"; B "jpn"; B "jpr"; B "jrb"; B "kaa"; B "kab";
   B "kac"; B "kal"; B "kam"; B "kan"; B "kar"; B "kas"; B "kat"; B "kau"; B "kaw"; B "kaz"; B "kbd";
   B "kha"; B "khi"; B "khm"; B "kho"; B "kik"; B "kin"; B "kir"; B "kmb"; B "kok"; B "kom"; B "kon";
   B "kor"; B "kos"; B "kpe"; B "krc"; B "krl"; B "kro"; B "kru"; B "kua"; B "kum"; B "kur"; B "kut";
   B "lad"; B "lah"; B "lam"; B "lao"; B "lat"; B "lav"; B "lez"; B "lim"; B "lin"; B "lit"; B "lol";
   B "loz"; B "ltz"; B "lua"; B "lub"; B "lug"; B "lui"; B "lun"; B "luo"; B "lus"; B "mac"; B "mad";
   B "mag"; B "mah"; B "mai"; B "mak"; B "mal"; B "man"; B "mao"; B "MAP"; B "mar"; B "mas"; B "may";
   B "mdf"; B "mdr"; B "men"; B "mga"; B "mic"; B "MIN"; B "mis"; B "mkd"; B "mkh"; B "mlg"; B "mlt";
   B "mnc"; B "mni"; B "mno"; B "moh"; B "mon"; B "mos"; B "mri"; B "msa"; B "mul"; B "mun"; B "mus";
   B "mwl"; B "mwr"; B "mya"; B "myn"; B "myv"; B "nah"; B "nai"; B "nap"; B "nau"; B "nav"; B "nbl";
   B "nde"; B "ndo"; B "nds"; B "nep"; B "NEW"; B "nia"; B "nic"; B "niu"; B "nld"; B "nno"; B "nob";
   B "nog"; B "non"; B "nor"; B "nqo"; B "nso"; B "nub"; B "nwc"; B "nya"; B "nym"; B "nyn"; B "nyo";
   B "nzi"; B "oci"; B "oji"; B "ori"; B "orm"; B "osa"; B "oss"; B "ota"; B "oto"; B "paa"; B "pag";
   B "pal"; B "pam"; B "pan"; B "pap"; B "pau"; B "peo"; B "per"; B "phi"; B "phn"; B "pli"; B "pol";
   B "pon"; B "por"; B "pra"; B "pro"; B "pus"; B "qaa"; B "que"; B "raj"; B "rap"; B "rar"; B "roa";
   B "roh"; B "rom"; B "ron"; B "rum"; B "run"; B "rup"; B "rus"; B "sad"; B "sag"; B "sah"; B "sai";
   B "sal"; B "sam"; B "san"; B "sas"; B "sat"; B "scn"; B "sco"; B "sel"; B "sem"; B "sga"; B "sgn";
   B "shn"; B "sid"; B "sin"; B "sio"; B "sit"; B "sla"; B "slo"; B "slk"; B "slv"; B "sma"; B "sme";
   B "smi"; B "smj"; B "smn"; B "smo"; B "sms"; B "sna"; B "snd"; B "snk"; B "sog"; B "som"; B "son";
   B "sot"; B "spa"; B "sqi"; B "srd"; B "srn"; B "srp"; B "srr"; B "ssa"; B "ssw"; B "suk"; B "sun";
   B "sus"; B "sux"; B "swa"; B "swe"; B "syc"; B "syr"; B "tah"; B "tai"; B "tam"; B "tat"; B "tel";
   B "tem"; B "ter"; B "tet"; B "tgk"; B "tgl"; B "tha"; B "tib"; B "tig"; B "tir"; B "tiv"; B "tkl";
   B "tlh"; B "tli"; B "tmh"; B "tog"; B "ton"; B "tpi"; B "tsi"; B "tsn"; B "tso"; B "tuk"; B "tum";
   B "tup"; B "tur"; B "tut"; B "tvl"; B "twi"; B "tyv"; B "udm"; B "uga"; B "uig"; B "ukr"; B "umb";
   B "und"; B "urd"; B "uzb"; B "vai"; B "ven"; B "vie"; B "vol"; B "vot"; B "wak"; B "wal"; B "war";
   B "was"; B "wel"; B "wen"; B "wln"; B "wol"; B "xal"; B "xho"; B "yao"; B "yap"; B "yid"; B "yor";
   B "ypk"; B "zap"; B "zbl"; B "zen"; B "zgh"; B "zha"; B "zho"; B "znd"; B "zul"; B "zun"; B "zxx"; B "zza"
  ].

(** scribbu/charsets.cc:940-1143: the pairs inserted in the table of
    [language_from_iso_639_1], in order.  Where a code is inserted twice, the
    first insertion stays. *)
Definition iso_639_1_table : list (bytes * bytes) :=
  [
   (B "aa", B "aar"); (B "ab", B "abk"); (B "af", B "afr"); (B "ak", B "aka"); (B "sq", B "alb");
   (B "am", B "amh"); (B "ar", B "ara"); (B "an", B "arg"); (B "hy", B "arm"); (B "as", B "ASM");
   (B "av", B "ava"); (B "ae", B "ave"); (B "ay", B "aym"); (B "az", B "aze"); (B "ba", B "bak");
   (B "bm", B "bam"); (B "eu", B "baq"); (B "be", B "bel"); (B "bn", B "ben"); (B "bh", B "bih");
   (B "bi", B "bis"); (B "bo", B "bod"); (B "bs", B "bos"); (B "br", B "bre"); (B "bg", B "bul");
   (B "my", B "bur"); (B "ca", B "cat"); (B "cs", B "ces"); (B "ch", B "cha"); (B "ce", B "che");
   (B "zh", B "chi"); (B "cu", B "chu"); (B "cv", B "chv"); (B "kw", B "cor"); (B "co", B "cos");
   (B "cr", B "cre"); (B "cy", B "cym"); (B "cs", B "cze"); (B "da", B "dan"); (B "de", B "deu");
   (B "dv", B "DIV"); (B "nl", B "dut"); (B "dz", B "dzo"); (B "el", B "ell"); (B "en", B "eng");
   (B "eo", B "epo"); (B "et", B "est"); (B "eu", B "eus"); (B "ee", B "ewe"); (B "fo", B "fao");
   (B "fa", B "fas"); (B "fj", B "fij"); (B "fi", B "fin"); (B "fr", B "fra"); (B "fr", B "fre");
   (B "fy", B "fry"); (B "ff", B "ful"); (B "ka", B "geo"); (B "de", B "ger"); (B "gd", B "gla");
   (B "ga", B "gle"); (B "gl", B "glg"); (B "gv", B "glv"); (B "el", B "gre"); (B "gn", B "grn");
   (B "gu", B "guj"); (B "ht", B "hat"); (B "ha", B "hau"); (B "he", B "heb"); (B "hz", B "her");
   (B "hi", B "hin"); (B "ho", B "hmo"); (B "hr", B "hrv"); (B "hu", B "hun"); (B "hy", B "hye");
   (B "ig", B "ibo"); (B "is", B "ice"); (B "io", B "ido"); (B "ii", B "iii"); (B "iu", B "iku");
   (B "ie", B "ile"); (B "ia", B "ina"); (B "id", B "ind"); (B "ik", B "ipk"); (B "is", B "isl");
   (B "it", B "ita"); (B "jv", B "jav"); (B "ja", B "jpn"); (B "kl", B "kal"); (B "kn", B "kan");
   (B "ks", B "kas"); (B "ka", B "kat"); (B "kr", B "kau"); (B "kk", B "kaz"); (B "km", B "khm");
   (B "ki", B "kik"); (B "rw", B "kin"); (B "ky", B "kir"); (B "kv", B "kom"); (B "kg", B "kon");
   (B "ko", B "kor"); (B "kj", B "kua"); (B "ku", B "kur"); (B "lo", B "lao"); (B "la", B "lat");
   (B "lv", B "lav"); (B "li", B "lim"); (B "ln", B "lin"); (B "lt", B "lit"); (B "lb", B "ltz");
   (B "lu", B "lub"); (B "lg", B "lug"); (B "mk", B "mac"); (B "mh", B "mah"); (B "ml", B "mal");
   (B "mi", B "mao"); (B "mr", B "mar"); (B "ms", B "may"); (B "mk", B "mkd"); (B "mg", B "mlg");
   (B "mt", B "mlt"); (B "mn", B "mon"); (B "mi", B "mri"); (B "ms", B "msa"); (B "my", B "mya");
   (B "na", B "nau"); (B "nv", B "nav"); (B "nr", B "nbl"); (B "nd", B "nde"); (B "ng", B "ndo");
   (B "ne", B "nep"); (B "nl", B "nld"); (B "nn", B "nno"); (B "nb", B "nob"); (B "no", B "nor");
   (B "ny", B "nya"); (B "oc", B "oci"); (B "oj", B "oji"); (B "or", B "ori"); (B "om", B "orm");
   (B "os", B "oss"); (B "pa", B "pan"); (B "fa", B "per"); (B "pi", B "pli"); (B "pl", B "pol");
   (B "pt", B "por"); (B "ps", B "pus"); (B "qu", B "que"); (B "rm", B "roh"); (B "ro", B "ron");
   (B "ro", B "rum"); (B "rn", B "run"); (B "ru", B "rus"); (B "sg", B "sag"); (B "sa", B "san");
   (B "si", B "sin"); (B "sk", B "slo"); (B "sk", B "slk"); (B "sl", B "slv"); (B "se", B "sme");
   (B "sm", B "smo"); (B "sn", B "sna"); (B "sd", B "snd"); (B "so", B "som"); (B "st", B "sot");
   (B "es", B "spa"); (B "sq", B "sqi"); (B "sc", B "srd"); (B "sr", B "srp"); (B "ss", B "ssw");
   (B "su", B "sun"); (B "sw", B "swa"); (B "sv", B "swe"); (B "ty", B "tah"); (B "ta", B "tam");
   (B "tt", B "tat"); (B "te", B "tel"); (B "tg", B "tgk"); (B "tl", B "tgl"); (B "th", B "tha");
   (B "bo", B "tib"); (B "ti", B "tir"); (B "to", B "ton"); (B "tn", B "tsn"); (B "ts", B "tso");
   (B "tk", B "tuk"); (B "tr", B "tur"); (B "tw", B "twi"); (B "ug", B "uig"); (B "uk", B "ukr");
   (B "ur", B "urd"); (B "uz", B "uzb"); (B "ve", B "ven"); (B "vi", B "vie"); (B "vo", B "vol");
   (B "cy", B "wel"); (B "wa", B "wln"); (B "wo", B "wol"); (B "xh", B "xho"); (B "yi", B "yid");
   (B "yo", B "yor"); (B "za", B "zha"); (B "zh", B "zho"); (B "zu", B "zul")
  ].

(** scribbu/charsets.cc:1191-1697: the cases of [language_to_iso_639_2]. *)
Definition iso_639_2_cases : list bytes :=
  [
   B "aar"; B "abk"; B "ace"; B "ach"; B "ada"; B "ady"; B "afa"; B "afh"; B "afr"; B "ain"; B "aka";
   B "akk"; B "alb"; B "ale"; B "alg"; B "alt"; B "amh"; B "ang"; B "anp"; B "apa"; B "ara"; B "arc";
   B "arg"; B "arm"; B "arn"; B "arp"; B "art"; B "arw"; B "ASM"; B "ast"; B "ath"; B "aus"; B "ava";
   B "ave"; B "awa"; B "aym"; B "aze"; B "bad"; B "bai"; B "bak"; B "bal"; B "bam"; B "ban"; B "baq";
   B "bas"; B "bat"; B "bej"; B "bel"; B "bem"; B "ben"; B "ber"; B "bho"; B "bih"; B "bik"; B "bin";
   B "bis"; B "bla"; B "bnt"; B "bod"; B "bos"; B "bra"; B "bre"; B "btk"; B "bua"; B "bug"; B "bul";
   B "bur"; B "byn"; B "cad"; B "cai"; B "car"; B "cat"; B "cau"; B "ceb"; B "cel"; B "ces"; B "cha";
   B "chb"; B "che"; B "chg"; B "chi"; B "chk"; B "chm"; B "chn"; B "cho"; B "chp"; B "chr"; B "chu";
   B "chv"; B "chy"; B "cmc"; B "cnr"; B "cop"; B "cor"; B "cos"; B "cpe"; B "cpf"; B "cpp"; B "cre";
   B "crh"; B "crp"; B "csb"; B "cus"; B "cym"; B "cze"; B "dak"; B "dan"; B "dar"; B "day"; B "del";
   B "den"; B "deu"; B "dgr"; B "din"; B "DIV"; B "doi"; B "dra"; B "dsb"; B "dua"; B "dum"; B "dut";
   B "dyu"; B "dzo"; B "efi"; B "egy"; B "eka"; B "ell"; B "elx"; B "eng"; B "enm"; B "epo"; B "est";
   B "eus"; B "ewe"; B "ewo"; B "fan"; B "fao"; B "fas"; B "fat"; B "fij"; B "fil"; B "fin"; B "fiu";
   B "fon"; B "fra"; B "fre"; B "frm"; B "fro"; B "frr"; B "frs"; B "fry"; B "ful"; B "fur"; B "gaa";
   B "gay"; B "gba"; B "gem"; B "geo"; B "ger"; B "gez"; B "gil"; B "gla"; B "gle"; B "glg"; B "glv";
   B "gmh"; B "goh"; B "gon"; B "gor"; B "got"; B "grb"; B "grc"; B "gre"; B "grn"; B "gsw"; B "guj";
   B "gwi"; B "hai"; B "hat"; B "hau"; B "haw"; B "heb"; B "her"; B "hil"; B "him"; B "hin"; B "hit";
   B "hmn"; B "hmo"; B "hrv"; B "hsb"; B "hun"; B "hup"; B "hye"; B "iba"; B "ibo"; B "ice"; B "ido";
   B "iii"; B "ijo"; B "iku"; B "ile"; B "ilo"; B "ina"; B "inc"; B "ind"; B "ine"; B "inh"; B "ipk";
   B "ira"; B "iro"; B "isl"; B "ita"; B "jav"; B "jbo"; B "jpn"; B "jpr"; B "jrb"; B "kaa"; B "kab";
   B "kac"; B "kal"; B "kam"; B "kan"; B "kar"; B "kas"; B "kat"; B "kau"; B "kaw"; B "kaz"; B "kbd";
   B "kha"; B "khi"; B "khm"; B "kho"; B "kik"; B "kin"; B "kir"; B "kmb"; B "kok"; B "kom"; B "kon";
   B "kor"; B "kos"; B "kpe"; B "krc"; B "krl"; B "kro"; B "kru"; B "kua"; B "kum"; B "kur"; B "kut";
   B "lad"; B "lah"; B "lam"; B "lao"; B "lat"; B "lav"; B "lez"; B "lim"; B "lin"; B "lit"; B "lol";
   B "loz"; B "ltz"; B "lua"; B "lub"; B "lug"; B "lui"; B "lun"; B "luo"; B "lus"; B "mac"; B "mad";
   B "mag"; B "mah"; B "mai"; B "mak"; B "mal"; B "man"; B "mao"; B "MAP"; B "mar"; B "mas"; B "may";
   B "mdf"; B "mdr"; B "men"; B "mga"; B "mic"; B "MIN"; B "mis"; B "mkd"; B "mkh"; B "mlg"; B "mlt";
   B "mnc"; B "mni"; B "mno"; B "moh"; B "mon"; B "mos"; B "mri"; B "msa"; B "mul"; B "mun"; B "mus";
   B "mwl"; B "mwr"; B "mya"; B "myn"; B "myv"; B "nah"; B "nai"; B "nap"; B "nau"; B "nav"; B "nbl";
   B "nde"; B "ndo"; B "nds"; B "nep"; B "NEW"; B "nia"; B "nic"; B "niu"; B "nld"; B "nno"; B "nob";
   B "nog"; B "non"; B "nor"; B "nqo"; B "nso"; B "nub"; B "nwc"; B "nya"; B "nym"; B "nyn"; B "nyo";
   B "nzi"; B "oci"; B "oji"; B "ori"; B "orm"; B "osa"; B "oss"; B "ota"; B "oto"; B "paa"; B "pag";
   B "pal"; B "pam"; B "pan"; B "pap"; B "pau"; B "peo"; B "per"; B "phi"; B "phn"; B "pli"; B "pol";
   B "pon"; B "por"; B "pra"; B "pro"; B "pus"; B "qaa"; B "que"; B "raj"; B "rap"; B "rar"; B "roa";
   B "roh"; B "rom"; B "ron"; B "rum"; B "run"; B "rup"; B "rus"; B "sad"; B "sag"; B "sah"; B "sai";
   B "sal"; B "sam"; B "san"; B "sas"; B "sat"; B "scn"; B "sco"; B "sel"; B "sem"; B "sga"; B "sgn";
   B "shn"; B "sid"; B "sin"; B "sio"; B "sit"; B "sla"; B "slo"; B "slk"; B "slv"; B "sma"; B "sme";
   B "smi"; B "smj"; B "smn"; B "smo"; B "sms"; B "sna"; B "snd"; B "snk"; B "sog"; B "som"; B "son";
   B "sot"; B "spa"; B "sqi"; B "srd"; B "srn"; B "srp"; B "srr"; B "ssa"; B "ssw"; B "suk"; B "sun";
   B "sus"; B "sux"; B "swa"; B "swe"; B "syc"; B "syr"; B "tah"; B "tai"; B "tam"; B "tat"; B "tel";
   B "tem"; B "ter"; B "tet"; B "tgk"; B "tgl"; B "tha"; B "tib"; B "tig"; B "tir"; B "tiv"; B "tkl";
   B "tlh"; B "tli"; B "tmh"; B "tog"; B "ton"; B "tpi"; B "tsi"; B "tsn"; B "tso"; B "tuk"; B "tum";
   B "tup"; B "tur"; B "tut"; B "tvl"; B "twi"; B "tyv"; B "udm"; B "uga"; B "uig"; B "ukr"; B "umb";
   B "und"; B "urd"; B "uzb"; B "vai"; B "ven"; B "vie"; B "vol"; B "vot"; B "wak"; B "wal"; B "war";
   B "was"; B "wel"; B "wen"; B "wln"; B "wol"; B "xal"; B "xho"; B "yao"; B "yap"; B "yid"; B "yor";
   B "ypk"; B "zap"; B "zbl"; B "zen"; B "zgh"; B "zha"; B "zho"; B "znd"; B "zul"; B "zun"; B "zxx"; B "zza"
  ].

(** scribbu/charsets.cc:1713-2219: the table of [operator>>]. *)
Definition read_table : list (bytes * bytes) :=
  [
   (B "aar", B "aar"); (B "abk", B "abk"); (B "ace", B "ace"); (B "ach", B "ach"); (B "ada", B "ada");
   (B "ady", B "ady"); (B "afa", B "afa"); (B "afh", B "afh"); (B "afr", B "afr"); (B "ain", B "ain");
   (B "aka", B "aka"); (B "akk", B "akk"); (B "alb", B "alb"); (B "ale", B "ale"); (B "alg", B "alg");
   (B "alt", B "alt"); (B "amh", B "amh"); (B "ang", B "ang"); (B "anp", B "anp"); (B "apa", B "apa");
   (B "ara", B "ara"); (B "arc", B "arc"); (B "arg", B "arg"); (B "arm", B "arm"); (B "arn", B "arn");
   (B "arp", B "arp"); (B "art", B "art"); (B "arw", B "arw"); (B "ASM", B "ASM"); (B "ast", B "ast");
   (B "ath", B "ath"); (B "aus", B "aus"); (B "ava", B "ava"); (B "ave", B "ave"); (B "awa", B "awa");
   (B "aym", B "aym"); (B "aze", B "aze"); (B "bad", B "bad"); (B "bai", B "bai"); (B "bak", B "bak");
   (B "bal", B "bal"); (B "bam", B "bam"); (B "ban", B "ban"); (B "baq", B "baq"); (B "bas", B "bas");
   (B "bat", B "bat"); (B "bej", B "bej"); (B "bel", B "bel"); (B "bem", B "bem"); (B "ben", B "ben");
   (B "ber", B "ber"); (B "bho", B "bho"); (B "bih", B "bih"); (B "bik", B "bik"); (B "bin", B "bin");
   (B "bis", B "bis"); (B "bla", B "bla"); (B "bnt", B "bnt"); (B "bod", B "bod"); (B "bos", B "bos");
   (B "bra", B "bra"); (B "bre", B "bre"); (B "btk", B "btk"); (B "bua", B "bua"); (B "bug", B "bug");
   (B "bul", B "bul"); (B "bur", B "bur"); (B "byn", B "byn"); (B "cad", B "cad"); (B "cai", B "cai");
   (B "car", B "car"); (B "cat", B "cat"); (B "cau", B "cau"); (B "ceb", B "ceb"); (B "cel", B "cel");
   (B "ces", B "ces"); (B "cha", B "cha"); (B "chb", B "chb"); (B "che", B "che"); (B "chg", B "chg");
   (B "chi", B "chi"); (B "chk", B "chk"); (B "chm", B "chm"); (B "chn", B "chn"); (B "cho", B "cho");
   (B "chp", B "chp"); (B "chr", B "chr"); (B "chu", B "chu"); (B "chv", B "chv"); (B "chy", B "chy");
   (B "cmc", B "cmc"); (B "cnr", B "cnr"); (B "cop", B "cop"); (B "cor", B "cor"); (B "cos", B "cos");
   (B "cpe", B "cpe"); (B "cpf", B "cpf"); (B "cpp", B "cpp"); (B "cre", B "cre"); (B "crh", B "crh");
   (B "crp", B "crp"); (B "csb", B "csb"); (B "cus", B "cus"); (B "cym", B "cym"); (B "cze", B "cze");
   (B "dak", B "dak"); (B "dan", B "dan"); (B "dar", B "dar"); (B "day", B "day"); (B "del", B "del");
   (B "den", B "den"); (B "deu", B "deu"); (B "dgr", B "dgr"); (B "din", B "din"); (B "DIV", B "DIV");
   (B "doi", B "doi"); (B "dra", B "dra"); (B "dsb", B "dsb"); (B "dua", B "dua"); (B "dum", B "dum");
   (B "dut", B "dut"); (B "dyu", B "dyu"); (B "dzo", B "dzo"); (B "efi", B "efi"); (B "egy", B "egy");
   (B "eka", B "eka"); (B "ell", B "ell"); (B "elx", B "elx"); (B "eng", B "eng"); (B "enm", B "enm");
   (B "epo", B "epo"); (B "est", B "est"); (B "eus", B "eus"); (B "ewe", B "ewe"); (B "ewo", B "ewo");
   (B "fan", B "fan"); (B "fao", B "fao"); (B "fas", B "fas"); (B "fat", B "fat"); (B "fij", B "fij");
   (B "fil", B "fil"); (B "fin", B "fin"); (B "fiu", B "fiu"); (B "fon", B "fon"); (B "fra", B "fra");
   (B "fre", B "fre"); (B "frm", B "frm"); (B "fro", B "fro"); (B "frr", B "frr"); (B "frs", B "frs");
   (B "fry", B "fry"); (B "ful", B "ful"); (B "fur", B "fur"); (B "gaa", B "gaa"); (B "gay", B "gay");
   (B "gba", B "gba"); (B "gem", B "gem"); (B "geo", B "geo"); (B "ger", B "ger"); (B "gez", B "gez");
   (B "gil", B "gil"); (B "gla", B "gla"); (B "gle", B "gle"); (B "glg", B "glg"); (B "glv", B "glv");
   (B "gmh", B "gmh"); (B "goh", B "goh"); (B "gon", B "gon"); (B "gor", B "gor"); (B "got", B "got");
   (B "grb", B "grb"); (B "grc", B "grc"); (B "gre", B "gre"); (B "grn", B "grn"); (B "gsw", B "gsw");
   (B "guj", B "guj"); (B "gwi", B "gwi"); (B "hai", B "hai"); (B "hat", B "hat"); (B "hau", B "hau");
   (B "haw", B "haw"); (B "heb", B "heb"); (B "her", B "her"); (B "hil", B "hil"); (B "him", B "him");
   (B "hin", B "hin"); (B "hit", B "hit"); (B "hmn", B "hmn"); (B "hmo", B "hmo"); (B "hrv", B "hrv");
   (B "hsb", B "hsb"); (B "hun", B "hun"); (B "hup", B "hup"); (B "hye", B "hye"); (B "iba", B "iba");
   (B "ibo", B "ibo"); (B "ice", B "ice"); (B "ido", B "ido"); (B "iii", B "iii"); (B "ijo", B "ijo");
   (B "iku", B "iku"); (B "ile", B "ile"); (B "ilo", B "ilo"); (B "ina", B "ina"); (B "inc", B "inc");
   (B "ind", B "ind"); (B "ine", B "ine"); (B "inh", B "inh"); (B "ipk", B "ipk"); (B "ira", B "ira");
   (B "iro", B "iro"); (B "isl", B "isl"); (B "ita", B "ita"); (B "jav", B "jav"); (B "jbo", B "jbo");
   (B "jpn", B "jpn"); (B "jpr", B "jpr"); (B "jrb", B "jrb"); (B "kaa", B "kaa"); (B "kab", B "kab");
   (B "kac", B "kac"); (B "kal", B "kal"); (B "kam", B "kam"); (B "kan", B "kan"); (B "kar", B "kar");
   (B "kas", B "kas"); (B "kat", B "kat"); (B "kau", B "kau"); (B "kaw", B "kaw"); (B "kaz", B "kaz");
   (B "kbd", B "kbd"); (B "kha", B "kha"); (B "khi", B "khi"); (B "khm", B "khm"); (B "kho", B "kho");
   (B "kik", B "kik"); (B "kin", B "kin"); (B "kir", B "kir"); (B "kmb", B "kmb"); (B "kok", B "kok");
   (B "kom", B "kom"); (B "kon", B "kon"); (B "kor", B "kor"); (B "kos", B "kos"); (B "kpe", B "kpe");
   (B "krc", B "krc"); (B "krl", B "krl"); (B "kro", B "kro"); (B "kru", B "kru"); (B "kua", B "kua");
   (B "kum", B "kum"); (B "kur", B "kur"); (B "kut", B "kut"); (B "lad", B "lad"); (B "lah", B "lah");
   (B "lam", B "lam"); (B "lao", B "lao"); (B "lat", B "lat"); (B "lav", B "lav"); (B "lez", B "lez");
   (B "lim", B "lim"); (B "lin", B "lin"); (B "lit", B "lit"); (B "lol", B "lol"); (B "loz", B "loz");
   (B "ltz", B "ltz"); (B "lua", B "lua"); (B "lub", B "lub"); (B "lug", B "lug"); (B "lui", B "lui");
   (B "lun", B "lun"); (B "luo", B "luo"); (B "lus", B "lus"); (B "mac", B "mac"); (B "mad", B "mad");
   (B "mag", B "mag"); (B "mah", B "mah"); (B "mai", B "mai"); (B "mak", B "mak"); (B "mal", B "mal");
   (B "man", B "man"); (B "mao", B "mao"); (B "MAP", B "MAP"); (B "mar", B "mar"); (B "mas", B "mas");
   (B "may", B "may"); (B "mdf", B "mdf"); (B "mdr", B "mdr"); (B "men", B "men"); (B "mga", B "mga");
   (B "mic", B "mic"); (B "MIN", B "MIN"); (B "mis", B "mis"); (B "mkd", B "mkd"); (B "mkh", B "mkh");
   (B "mlg", B "mlg"); (B "mlt", B "mlt"); (B "mnc", B "mnc"); (B "mni", B "mni"); (B "mno", B "mno");
   (B "moh", B "moh"); (B "mon", B "mon"); (B "mos", B "mos"); (B "mri", B "mri"); (B "msa", B "msa");
   (B "mul", B "mul"); (B "mun", B "mun"); (B "mus", B "mus"); (B "mwl", B "mwl"); (B "mwr", B "mwr");
   (B "mya", B "mya"); (B "myn", B "myn"); (B "myv", B "myv"); (B "nah", B "nah"); (B "nai", B "nai");
   (B "nap", B "nap"); (B "nau", B "nau"); (B "nav", B "nav"); (B "nbl", B "nbl"); (B "nde", B "nde");
   (B "ndo", B "ndo"); (B "nds", B "nds"); (B "nep", B "nep"); (B "NEW", B "NEW"); (B "nia", B "nia");
   (B "nic", B "nic"); (B "niu", B "niu"); (B "nld", B "nld"); (B "nno", B "nno"); (B "nob", B "nob");
   (B "nog", B "nog"); (B "non", B "non"); (B "nor", B "nor"); (B "nqo", B "nqo"); (B "nso", B "nso");
   (B "nub", B "nub"); (B "nwc", B "nwc"); (B "nya", B "nya"); (B "nym", B "nym"); (B "nyn", B "nyn");
   (B "nyo", B "nyo"); (B "nzi", B "nzi"); (B "oci", B "oci"); (B "oji", B "oji"); (B "ori", B "ori");
   (B "orm", B "orm"); (B "osa", B "osa"); (B "oss", B "oss"); (B "ota", B "ota"); (B "oto", B "oto");
   (B "paa", B "paa"); (B "pag", B "pag"); (B "pal", B "pal"); (B "pam", B "pam"); (B "pan", B "pan");
   (B "pap", B "pap"); (B "pau", B "pau"); (B "peo", B "peo"); (B "per", B "per"); (B "phi", B "phi");
   (B "phn", B "phn"); (B "pli", B "pli"); (B "pol", B "pol"); (B "pon", B "pon"); (B "por", B "por");
   (B "pra", B "pra"); (B "pro", B "pro"); (B "pus", B "pus"); (B "qaa", B "qaa"); (B "que", B "que");
   (B "raj", B "raj"); (B "rap", B "rap"); (B "rar", B "rar"); (B "roa", B "roa"); (B "roh", B "roh");
   (B "rom", B "rom"); (B "ron", B "ron"); (B "rum", B "rum"); (B "run", B "run"); (B "rup", B "rup");
   (B "rus", B "rus"); (B "sad", B "sad"); (B "sag", B "sag"); (B "sah", B "sah"); (B "sai", B "sai");
   (B "sal", B "sal"); (B "sam", B "sam"); (B "san", B "san"); (B "sas", B "sas"); (B "sat", B "sat");
   (B "scn", B "scn"); (B "sco", B "sco"); (B "sel", B "sel"); (B "sem", B "sem"); (B "sga", B "sga");
   (B "sgn", B "sgn"); (B "shn", B "shn"); (B "sid", B "sid"); (B "sin", B "sin"); (B "sio", B "sio");
   (B "sit", B "sit"); (B "sla", B "sla"); (B "slo", B "slo"); (B "slk", B "slk"); (B "slv", B "slv");
   (B "sma", B "sma"); (B "sme", B "sme"); (B "smi", B "smi"); (B "smj", B "smj"); (B "smn", B "smn");
   (B "smo", B "smo"); (B "sms", B "sms"); (B "sna", B "sna"); (B "snd", B "snd"); (B "snk", B "snk");
   (B "sog", B "sog"); (B "som", B "som"); (B "son", B "son"); (B "sot", B "sot"); (B "spa", B "spa");
   (B "sqi", B "sqi"); (B "srd", B "srd"); (B "srn", B "srn"); (B "srp", B "srp"); (B "srr", B "srr");
   (B "ssa", B "ssa"); (B "ssw", B "ssw"); (B "suk", B "suk"); (B "sun", B "sun"); (B "sus", B "sus");
   (B "sux", B "sux"); (B "swa", B "swa"); (B "swe", B "swe"); (B "syc", B "syc"); (B "syr", B "syr");
   (B "tah", B "tah"); (B "tai", B "tai"); (B "tam", B "tam"); (B "tat", B "tat"); (B "tel", B "tel");
   (B "tem", B "tem"); (B "ter", B "ter"); (B "tet", B "tet"); (B "tgk", B "tgk"); (B "tgl", B "tgl");
   (B "tha", B "tha"); (B "tib", B "tib"); (B "tig", B "tig"); (B "tir", B "tir"); (B "tiv", B "tiv");
   (B "tkl", B "tkl"); (B "tlh", B "tlh"); (B "tli", B "tli"); (B "tmh", B "tmh"); (B "tog", B "tog");
   (B "ton", B "ton"); (B "tpi", B "tpi"); (B "tsi", B "tsi"); (B "tsn", B "tsn"); (B "tso", B "tso");
   (B "tuk", B "tuk"); (B "tum", B "tum"); (B "tup", B "tup"); (B "tur", B "tur"); (B "tut", B "tut");
   (B "tvl", B "tvl"); (B "twi", B "twi"); (B "tyv", B "tyv"); (B "udm", B "udm"); (B "uga", B "uga");
   (B "uig", B "uig"); (B "ukr", B "ukr"); (B "umb", B "umb"); (B "und", B "und"); (B "urd", B "urd");
   (B "uzb", B "uzb"); (B "vai", B "vai"); (B "ven", B "ven"); (B "vie", B "vie"); (B "vol", B "vol");
   (B "vot", B "vot"); (B "wak", B "wak"); (B "wal", B "wal"); (B "war", B "war"); (B "was", B "was");
   (B "wel", B "wel"); (B "wen", B "wen"); (B "wln", B "wln"); (B "wol", B "wol"); (B "xal", B "xal");
   (B "xho", B "xho"); (B "yao", B "yao"); (B "yap", B "yap"); (B "yid", B "yid"); (B "yor", B "yor");
   (B "ypk", B "ypk"); (B "zap", B "zap"); (B "zbl", B "zbl"); (B "zen", B "zen"); (B "zgh", B "zgh");
   (B "zha", B "zha"); (B "zho", B "zho"); (B "znd", B "znd"); (B "zul", B "zul"); (B "zun", B "zun");
   (B "zxx", B "zxx"); (B "zza", B "zza")
  ].

(** scribbu/charsets.cc:2235-2741: the table of [operator<<], each enumerator
    with its text. *)
Definition write_table : list (bytes * bytes) :=
  [
   (B "aar", B "aar"); (B "abk", B "abk"); (B "ace", B "ace"); (B "ach", B "ach"); (B "ada", B "ada");
   (B "ady", B "ady"); (B "afa", B "afa"); (B "afh", B "afh"); (B "afr", B "afr"); (B "ain", B "ain");
   (B "aka", B "aka"); (B "akk", B "akk"); (B "alb", B "alb"); (B "ale", B "ale"); (B "alg", B "alg");
   (B "alt", B "alt"); (B "amh", B "amh"); (B "ang", B "ang"); (B "anp", B "anp"); (B "apa", B "apa");
   (B "ara", B "ara"); (B "arc", B "arc"); (B "arg", B "arg"); (B "arm", B "arm"); (B "arn", B "arn");
   (B "arp", B "arp"); (B "art", B "art"); (B "arw", B "arw"); (B "ASM", B "ASM"); (B "ast", B "ast");
   (B "ath", B "ath"); (B "aus", B "aus"); (B "ava", B "ava"); (B "ave", B "ave"); (B "awa", B "awa");
   (B "aym", B "aym"); (B "aze", B "aze"); (B "bad", B "bad"); (B "bai", B "bai"); (B "bak", B "bak");
   (B "bal", B "bal"); (B "bam", B "bam"); (B "ban", B "ban"); (B "baq", B "baq"); (B "bas", B "bas");
   (B "bat", B "bat"); (B "bej", B "bej"); (B "bel", B "bel"); (B "bem", B "bem"); (B "ben", B "ben");
   (B "ber", B "ber"); (B "bho", B "bho"); (B "bih", B "bih"); (B "bik", B "bik"); (B "bin", B "bin");
   (B "bis", B "bis"); (B "bla", B "bla"); (B "bnt", B "bnt"); (B "bod", B "bod"); (B "bos", B "bos");
   (B "bra", B "bra"); (B "bre", B "bre"); (B "btk", B "btk"); (B "bua", B "bua"); (B "bug", B "bug");
   (B "bul", B "bul"); (B "bur", B "bur"); (B "byn", B "byn"); (B "cad", B "cad"); (B "cai", B "cai");
   (B "car", B "car"); (B "cat", B "cat"); (B "cau", B "cau"); (B "ceb", B "ceb"); (B "cel", B "cel");
   (B "ces", B "ces"); (B "cha", B "cha"); (B "chb", B "chb"); (B "che", B "che"); (B "chg", B "chg");
   (B "chi", B "chi"); (B "chk", B "chk"); (B "chm", B "chm"); (B "chn", B "chn"); (B "cho", B "cho");
   (B "chp", B "chp"); (B "chr", B "chr"); (B "chu", B "chu"); (B "chv", B "chv"); (B "chy", B "chy");
   (B "cmc", B "cmc"); (B "cnr", B "cnr"); (B "cop", B "cop"); (B "cor", B "cor"); (B "cos", B "cos");
   (B "cpe", B "cpe"); (B "cpf", B "cpf"); (B "cpp", B "cpp"); (B "cre", B "cre"); (B "crh", B "crh");
   (B "crp", B "crp"); (B "csb", B "csb"); (B "cus", B "cus"); (B "cym", B "cym"); (B "cze", B "cze");
   (B "dak", B "dak"); (B "dan", B "dan"); (B "dar", B "dar"); (B "day", B "day"); (B "del", B "del");
   (B "den", B "den"); (B "deu", B "deu"); (B "dgr", B "dgr"); (B "din", B "din"); (B "DIV", B "DIV");
   (B "doi", B "doi"); (B "dra", B "dra"); (B "dsb", B "dsb"); (B "dua", B "dua"); (B "dum", B "dum");
   (B "dut", B "dut"); (B "dyu", B "dyu"); (B "dzo", B "dzo"); (B "efi", B "efi"); (B "egy", B "egy");
   (B "eka", B "eka"); (B "ell", B "ell"); (B "elx", B "elx"); (B "eng", B "eng"); (B "enm", B "enm");
   (B "epo", B "epo"); (B "est", B "est"); (B "eus", B "eus"); (B "ewe", B "ewe"); (B "ewo", B "ewo");
   (B "fan", B "fan"); (B "fao", B "fao"); (B "fas", B "fas"); (B "fat", B "fat"); (B "fij", B "fij");
   (B "fil", B "fil"); (B "fin", B "fin"); (B "fiu", B "fiu"); (B "fon", B "fon"); (B "fra", B "fra");
   (B "fre", B "fre"); (B "frm", B "frm"); (B "fro", B "fro"); (B "frr", B "frr"); (B "frs", B "frs");
   (B "fry", B "fry"); (B "ful", B "ful"); (B "fur", B "fur"); (B "gaa", B "gaa"); (B "gay", B "gay");
   (B "gba", B "gba"); (B "gem", B "gem"); (B "geo", B "geo"); (B "ger", B "ger"); (B "gez", B "gez");
   (B "gil", B "gil"); (B "gla", B "gla"); (B "gle", B "gle"); (B "glg", B "glg"); (B "glv", B "glv");
   (B "gmh", B "gmh"); (B "goh", B "goh"); (B "gon", B "gon"); (B "gor", B "gor"); (B "got", B "got");
   (B "grb", B "grb"); (B "grc", B "grc"); (B "gre", B "gre"); (B "grn", B "grn"); (B "gsw", B "gsw");
   (B "guj", B "guj"); (B "gwi", B "gwi"); (B "hai", B "hai"); (B "hat", B "hat"); (B "hau", B "hau");
   (B "haw", B "haw"); (B "heb", B "heb"); (B "her", B "her"); (B "hil", B "hil"); (B "him", B "him");
   (B "hin", B "hin"); (B "hit", B "hit"); (B "hmn", B "hmn"); (B "hmo", B "hmo"); (B "hrv", B "hrv");
   (B "hsb", B "hsb"); (B "hun", B "hun"); (B "hup", B "hup"); (B "hye", B "hye"); (B "iba", B "iba");
   (B "ibo", B "ibo"); (B "ice", B "ice"); (B "ido", B "ido"); (B "iii", B "iii"); (B "ijo", B "ijo");
   (B "iku", B "iku"); (B "ile", B "ile"); (B "ilo", B "ilo"); (B "ina", B "ina"); (B "inc", B "inc");
   (B "ind", B "ind"); (B "ine", B "ine"); (B "inh", B "inh"); (B "ipk", B "ipk"); (B "ira", B "ira");
   (B "iro", B "iro"); (B "isl", B "isl"); (B "ita", B "ita"); (B "jav", B "jav"); (B "jbo", B "jbo");
   (B "jpn", B "jpn"); (B "jpr", B "jpr"); (B "jrb", B "jrb"); (B "kaa", B "kaa"); (B "kab", B "kab");
   (B "kac", B "kac"); (B "kal", B "kal"); (B "kam", B "kam"); (B "kan", B "kan"); (B "kar", B "kar");
   (B "kas", B "kas"); (B "kat", B "kat"); (B "kau", B "kau"); (B "kaw", B "kaw"); (B "kaz", B "kaz");
   (B "kbd", B "kbd"); (B "kha", B "kha"); (B "khi", B "khi"); (B "khm", B "khm"); (B "kho", B "kho");
   (B "kik", B "kik"); (B "kin", B "kin"); (B "kir", B "kir"); (B "kmb", B "kmb"); (B "kok", B "kok");
   (B "kom", B "kom"); (B "kon", B "kon"); (B "kor", B "kor"); (B "kos", B "kos"); (B "kpe", B "kpe");
   (B "krc", B "krc"); (B "krl", B "krl"); (B "kro", B "kro"); (B "kru", B "kru"); (B "kua", B "kua");
   (B "kum", B "kum"); (B "kur", B "kur"); (B "kut", B "kut"); (B "lad", B "lad"); (B "lah", B "lah");
   (B "lam", B "lam"); (B "lao", B "lao"); (B "lat", B "lat"); (B "lav", B "lav"); (B "lez", B "lez");
   (B "lim", B "lim"); (B "lin", B "lin"); (B "lit", B "lit"); (B "lol", B "lol"); (B "loz", B "loz");
   (B "ltz", B "ltz"); (B "lua", B "lua"); (B "lub", B "lub"); (B "lug", B "lug"); (B "lui", B "lui");
   (B "lun", B "lun"); (B "luo", B "luo"); (B "lus", B "lus"); (B "mac", B "mac"); (B "mad", B "mad");
   (B "mag", B "mag"); (B "mah", B "mah"); (B "mai", B "mai"); (B "mak", B "mak"); (B "mal", B "mal");
   (B "man", B "man"); (B "mao", B "mao"); (B "MAP", B "MAP"); (B "mar", B "mar"); (B "mas", B "mas");
   (B "may", B "may"); (B "mdf", B "mdf"); (B "mdr", B "mdr"); (B "men", B "men"); (B "mga", B "mga");
   (B "mic", B "mic"); (B "MIN", B "MIN"); (B "mis", B "mis"); (B "mkd", B "mkd"); (B "mkh", B "mkh");
   (B "mlg", B "mlg"); (B "mlt", B "mlt"); (B "mnc", B "mnc"); (B "mni", B "mni"); (B "mno", B "mno");
   (B "moh", B "moh"); (B "mon", B "mon"); (B "mos", B "mos"); (B "mri", B "mri"); (B "msa", B "msa");
   (B "mul", B "mul"); (B "mun", B "mun"); (B "mus", B "mus"); (B "mwl", B "mwl"); (B "mwr", B "mwr");
   (B "mya", B "mya"); (B "myn", B "myn"); (B "myv", B "myv"); (B "nah", B "nah"); (B "nai", B "nai");
   (B "nap", B "nap"); (B "nau", B "nau"); (B "nav", B "nav"); (B "nbl", B "nbl"); (B "nde", B "nde");
   (B "ndo", B "ndo"); (B "nds", B "nds"); (B "nep", B "nep"); (B "NEW", B "NEW"); (B "nia", B "nia");
   (B "nic", B "nic"); (B "niu", B "niu"); (B "nld", B "nld"); (B "nno", B "nno"); (B "nob", B "nob");
   (B "nog", B "nog"); (B "non", B "non"); (B "nor", B "nor"); (B "nqo", B "nqo"); (B "nso", B "nso");
   (B "nub", B "nub"); (B "nwc", B "nwc"); (B "nya", B "nya"); (B "nym", B "nym"); (B "nyn", B "nyn");
   (B "nyo", B "nyo"); (B "nzi", B "nzi"); (B "oci", B "oci"); (B "oji", B "oji"); (B "ori", B "ori");
   (B "orm", B "orm"); (B "osa", B "osa"); (B "oss", B "oss"); (B "ota", B "ota"); (B "oto", B "oto");
   (B "paa", B "paa"); (B "pag", B "pag"); (B "pal", B "pal"); (B "pam", B "pam"); (B "pan", B "pan");
   (B "pap", B "pap"); (B "pau", B "pau"); (B "peo", B "peo"); (B "per", B "per"); (B "phi", B "phi");
   (B "phn", B "phn"); (B "pli", B "pli"); (B "pol", B "pol"); (B "pon", B "pon"); (B "por", B "por");
   (B "pra", B "pra"); (B "pro", B "pro"); (B "pus", B "pus"); (B "qaa", B "qaa"); (B "que", B "que");
   (B "raj", B "raj"); (B "rap", B "rap"); (B "rar", B "rar"); (B "roa", B "roa"); (B "roh", B "roh");
   (B "rom", B "rom"); (B "ron", B "ron"); (B "rum", B "rum"); (B "run", B "run"); (B "rup", B "rup");
   (B "rus", B "rus"); (B "sad", B "sad"); (B "sag", B "sag"); (B "sah", B "sah"); (B "sai", B "sai");
   (B "sal", B "sal"); (B "sam", B "sam"); (B "san", B "san"); (B "sas", B "sas"); (B "sat", B "sat");
   (B "scn", B "scn"); (B "sco", B "sco"); (B "sel", B "sel"); (B "sem", B "sem"); (B "sga", B "sga");
   (B "sgn", B "sgn"); (B "shn", B "shn"); (B "sid", B "sid"); (B "sin", B "sin"); (B "sio", B "sio");
   (B "sit", B "sit"); (B "sla", B "sla"); (B "slo", B "slo"); (B "slk", B "slk"); (B "slv", B "slv");
   (B "sma", B "sma"); (B "sme", B "sme"); (B "smi", B "smi"); (B "smj", B "smj"); (B "smn", B "smn");
   (B "smo", B "smo"); (B "sms", B "sms"); (B "sna", B "sna"); (B "snd", B "snd"); (B "snk", B "snk");
   (B "sog", B "sog"); (B "som", B "som"); (B "son", B "son"); (B "sot", B "sot"); (B "spa", B "spa");
   (B "sqi", B "sqi"); (B "srd", B "srd"); (B "srn", B "srn"); (B "srp", B "srp"); (B "srr", B "srr");
   (B "ssa", B "ssa"); (B "ssw", B "ssw"); (B "suk", B "suk"); (B "sun", B "sun"); (B "sus", B "sus");
   (B "sux", B "sux"); (B "swa", B "swa"); (B "swe", B "swe"); (B "syc", B "syc"); (B "syr", B "syr");
   (B "tah", B "tah"); (B "tai", B "tai"); (B "tam", B "tam"); (B "tat", B "tat"); (B "tel", B "tel");
   (B "tem", B "tem"); (B "ter", B "ter"); (B "tet", B "tet"); (B "tgk", B "tgk"); (B "tgl", B "tgl");
   (B "tha", B "tha"); (B "tib", B "tib"); (B "tig", B "tig"); (B "tir", B "tir"); (B "tiv", B "tiv");
   (B "tkl", B "tkl"); (B "tlh", B "tlh"); (B "tli", B "tli"); (B "tmh", B "tmh"); (B "tog", B "tog");
   (B "ton", B "ton"); (B "tpi", B "tpi"); (B "tsi", B "tsi"); (B "tsn", B "tsn"); (B "tso", B "tso");
   (B "tuk", B "tuk"); (B "tum", B "tum"); (B "tup", B "tup"); (B "tur", B "tur"); (B "tut", B "tut");
   (B "tvl", B "tvl"); (B "twi", B "twi"); (B "tyv", B "tyv"); (B "udm", B "udm"); (B "uga", B "uga");
   (B "uig", B "uig"); (B "ukr", B "ukr"); (B "umb", B "umb"); (B "und", B "und"); (B "urd", B "urd");
   (B "uzb", B "uzb"); (B "vai", B "vai"); (B "ven", B "ven"); (B "vie", B "vie"); (B "vol", B "vol");
   (B "vot", B "vot"); (B "wak", B "wak"); (B "wal", B "wal"); (B "war", B "war"); (B "was", B "was");
   (B "wel", B "wel"); (B "wen", B "wen"); (B "wln", B "wln"); (B "wol", B "wol"); (B "xal", B "xal");
   (B "xho", B "xho"); (B "yao", B "yao"); (B "yap", B "yap"); (B "yid", B "yid"); (B "yor", B "yor");
   (B "ypk", B "ypk"); (B "zap", B "zap"); (B "zbl", B "zbl"); (B "zen", B "zen"); (B "zgh", B "zgh");
   (B "zha", B "zha"); (B "zho", B "zho"); (B "znd", B "znd"); (B "zul", B "zul"); (B "zun", B "zun");
   (B "zxx", B "zxx"); (B "zza", B "zza")
  ].

(** Looking up a table: the first entry for a key. *)
Fixpoint lookup_bytes {A} (t : list (bytes * A)) (k : bytes) : option A :=
  match t with
  | [] => None
  | (k', v) :: r => if bytes_eqb k k' then Some v else lookup_bytes r k
  end.

(** scribbu/charsets.cc:933-1149 [language_from_iso_639_1].  [operator[]] of the
    table makes a value for a code that is not there: the enumerator 0. *)
Definition language_from_iso_639_1 (code : bytes) : language :=
  match lookup_bytes iso_639_1_table code with
  | Some n => Lang n
  | None => FromLocale
  end.

(** The environment variables LANGUAGE, LC_ALL and LANG. *)
Record locale_env := mkLenv { env_language : option bytes; env_lc_all : option bytes; env_lang : option bytes }.

(** scribbu/charsets.cc:1160-1167: the first two characters of the first variable
    that has two; no variable is [None]. *)
Definition two_letters (v : option bytes) : option bytes :=
  match v with
  | Some s => if 1 <? len (c_str s) then Some (takeN 2 (c_str s)) else None
  | None => None
  end.
Definition locale_code (e : locale_env) : option bytes :=
  match two_letters (env_language e) with
  | Some c => Some c
  | None =>
      match two_letters (env_lc_all e) with
      | Some c => Some c
      | None => two_letters (env_lang e)
      end
  end.

(** scribbu/charsets.cc:1151-1175 [language_from_locale]. *)
Definition language_from_locale (e : locale_env) : outcome language :=
  match locale_code e with
  | Some c => Ok (language_from_iso_639_1 c)
  | None => Throw RuntimeError
  end.

(** scribbu/charsets.cc:1177-1706 [language_to_iso_639_2].  A value with no case
    (there is none among the enumerators) would leave the caller's array alone. *)
Definition language_to_iso_639_2 (e : locale_env) (l : language) : outcome bytes :=
  let* l := (match l with FromLocale => language_from_locale e | _ => Ok l end) in
  match l with
  | FromLocale => Throw LogicError
  | Lang n => if existsb (bytes_eqb n) iso_639_2_cases then Ok n else UB Uninitialised
  end.

(** scribbu/framesv2.cc:900-904: the language of a comment made by a program. *)
Definition comment_language (e : locale_env) (l : language) : outcome bytes :=
  let* l := (match l with FromLocale => language_from_locale e | _ => Ok l end) in
  language_to_iso_639_2 e l.

(** [is >> text] for a string: blanks (in the classic locale) are skipped, then
    all characters up to the next blank taken. *)
Definition is_blank (c : N) : bool := (c =? 32) || ((9 <=? c) && (c <=? 13)).
Fixpoint skip_blanks (s : bytes) : bytes :=
  match s with
  | c :: r => if is_blank c then skip_blanks r else s
  | [] => []
  end.
Fixpoint take_word (s : bytes) : bytes :=
  match s with
  | c :: r => if is_blank c then [] else c :: take_word r
  | [] => []
  end.

(** scribbu/charsets.cc:1708-2228 [operator>>] on a stream holding [text]. *)
Definition read_language (text : bytes) : outcome language :=
  match lookup_bytes read_table (take_word (skip_blanks text)) with
  | Some n => Ok (Lang n)
  | None => Throw OutOfRange
  end.

(** scribbu/charsets.cc:2230-2760 [operator<<]. *)
Definition write_language (l : language) : outcome bytes :=
  match l with
  | FromLocale => Throw OutOfRange
  | Lang n =>
      match lookup_bytes write_table n with
      | Some s => Ok s
      | None => Throw OutOfRange
      end
  end.
