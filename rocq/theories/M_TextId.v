(** * Model: names and identifiers of the text frames (scribbu/framesv2.hh:188-228,
      framesv2.cc:70-298, 351-419 and 468-590). *)
From Verif Require Import Base M_Payload M_Frame.

(** scribbu/framesv2.hh:189-228 [id3v2_text_frames]. *)
Inductive tframe :=
| tf_talb  | tf_tbpm  | tf_tcom  | tf_tcon  | tf_tcop  | tf_tdat  | tf_tdly  | tf_tenc
| tf_text  | tf_tflt  | tf_time  | tf_tit1  | tf_tit2  | tf_tit3  | tf_tkey  | tf_tlan
| tf_tlen  | tf_tmed  | tf_toal  | tf_tofn  | tf_toly  | tf_tope  | tf_tory  | tf_town
| tf_tpe1  | tf_tpe2  | tf_tpe3  | tf_tpe4  | tf_tpos  | tf_tpub  | tf_trck  | tf_trda
| tf_trsn  | tf_trso  | tf_tsiz  | tf_tsrc  | tf_tsse  | tf_tyer.

Definition all_tframes : list tframe := [
  tf_talb; tf_tbpm; tf_tcom; tf_tcon; tf_tcop; tf_tdat; tf_tdly; tf_tenc; tf_text; tf_tflt;
  tf_time; tf_tit1; tf_tit2; tf_tit3; tf_tkey; tf_tlan; tf_tlen; tf_tmed; tf_toal; tf_tofn;
  tf_toly; tf_tope; tf_tory; tf_town; tf_tpe1; tf_tpe2; tf_tpe3; tf_tpe4; tf_tpos; tf_tpub;
  tf_trck; tf_trda; tf_trsn; tf_trso; tf_tsiz; tf_tsrc; tf_tsse; tf_tyer].

(** scribbu/framesv2.cc:79-241, the table of accepted names; of two entries with
    one key the first counts. *)
Definition tframe_names : list (bytes * tframe) := map (fun x => (B (fst x), snd x)) [
  ("talb", tf_talb); ("TALB", tf_talb); ("tal", tf_talb); ("TAL", tf_talb);
  ("album", tf_talb); ("tbpm", tf_tbpm); ("TBPM", tf_tbpm); ("tbm", tf_tbpm);
  ("TBM", tf_tbpm); ("tcom", tf_tcom); ("TCOM", tf_tcom); ("tcm", tf_tcom);
  ("TCM", tf_tcom); ("composer", tf_tcom); ("tcon", tf_tcon); ("TCON", tf_tcon);
  ("tco", tf_tcon); ("TCO", tf_tcon); ("content-type", tf_tcon); ("genre", tf_tcon);
  ("tcop", tf_tcop); ("TCOP", tf_tcop); ("tcr", tf_tcop); ("TCR", tf_tcop);
  ("tdat", tf_tdat); ("TDAT", tf_tdat); ("tda", tf_tdat); ("TDA", tf_tdat);
  ("date", tf_tdat); ("tdly", tf_tdly); ("TDLY", tf_tdly); ("tdy", tf_tdly);
  ("TDY", tf_tdly); ("tenc", tf_tenc); ("TENC", tf_tenc); ("ten", tf_tenc);
  ("TEN", tf_tenc); ("encoded-by", tf_tenc); ("text", tf_text); ("TEXT", tf_text);
  ("txt", tf_text); ("TXT", tf_text); ("tflt", tf_tflt); ("TFLT", tf_tflt);
  ("tft", tf_tflt); ("TFT", tf_tflt); ("time", tf_time); ("TIME", tf_time);
  ("tim", tf_time); ("TIM", tf_time); ("time", tf_time); ("tt1", tf_tit1);
  ("TT1", tf_tit1); ("tit1", tf_tit1); ("TIT1", tf_tit1); ("tit2", tf_tit2);
  ("TIT2", tf_tit2); ("tt2", tf_tit2); ("TT2", tf_tit2); ("title", tf_tit2);
  ("tit3", tf_tit3); ("TIT3", tf_tit3); ("tt3", tf_tit3); ("TT3", tf_tit3);
  ("sub-title", tf_tit3); ("tkey", tf_tkey); ("TKEY", tf_tkey); ("tke", tf_tkey);
  ("TKE", tf_tkey); ("tlan", tf_tlan); ("TLAN", tf_tlan); ("tla", tf_tlan);
  ("TLA", tf_tlan); ("languages", tf_tlan); ("tlen", tf_tlen); ("TLEN", tf_tlen);
  ("tle", tf_tlen); ("TLE", tf_tlen); ("length", tf_tlen); ("tmed", tf_tmed);
  ("TMED", tf_tmed); ("tmt", tf_tmed); ("TMT", tf_tmed); ("toal", tf_toal);
  ("TOAL", tf_toal); ("tot", tf_toal); ("TOT", tf_toal); ("tofn", tf_tofn);
  ("TOFN", tf_tofn); ("tof", tf_tofn); ("TOF", tf_tofn); ("toly", tf_toly);
  ("TOLY", tf_toly); ("tol", tf_toly); ("TOL", tf_toly); ("tope", tf_tope);
  ("TOPE", tf_tope); ("toa", tf_tope); ("TOA", tf_tope); ("tory", tf_tory);
  ("TORY", tf_tory); ("tor", tf_tory); ("TOR", tf_tory); ("town", tf_town);
  ("TOWN", tf_town); ("tpe1", tf_tpe1); ("TPE1", tf_tpe1); ("tp1", tf_tpe1);
  ("TP1", tf_tpe1); ("artist", tf_tpe1); ("tpe2", tf_tpe2); ("TPE2", tf_tpe2);
  ("tp2", tf_tpe2); ("TP2", tf_tpe2); ("tpe3", tf_tpe3); ("TPE3", tf_tpe3);
  ("tp3", tf_tpe3); ("TP3", tf_tpe3); ("tpe4", tf_tpe4); ("TPE4", tf_tpe4);
  ("tp4", tf_tpe4); ("TP4", tf_tpe4); ("tpos", tf_tpos); ("TPOS", tf_tpos);
  ("tpa", tf_tpos); ("TPA", tf_tpos); ("tpub", tf_tpub); ("TPUB", tf_tpub);
  ("tpb", tf_tpub); ("TPB", tf_tpub); ("trck", tf_trck); ("TRCK", tf_trck);
  ("trk", tf_trck); ("TRK", tf_trck); ("track", tf_trck); ("trda", tf_trda);
  ("TRDA", tf_trda); ("trd", tf_trda); ("TRD", tf_trda); ("trsn", tf_trsn);
  ("TRSN", tf_trsn); ("trso", tf_trso); ("TRSO", tf_trso); ("tsiz", tf_tsiz);
  ("TSIZ", tf_tsiz); ("tsi", tf_tsiz); ("TSI", tf_tsiz); ("tsrc", tf_tsrc);
  ("TSRC", tf_tsrc); ("trc", tf_tsrc); ("TRC", tf_tsrc); ("tsse", tf_tsse);
  ("TSSE", tf_tsse); ("tss", tf_tsse); ("TSS", tf_tsse); ("tyer", tf_tyer);
  ("TYER", tf_tyer); ("tye", tf_tyer); ("TYE", tf_tyer); ("year", tf_tyer)]%string.

(** [unordered_map::at]. *)
Fixpoint at_ (t : list (bytes * tframe)) (k : bytes) : outcome tframe :=
  match t with
  | [] => Throw OutOfRange
  | (n, x) :: r => if bytes_eqb n k then Ok x else at_ r k
  end.

(** scribbu/framesv2.cc:74-248 [operator>>]; the argument is the word that was
    extracted from the stream. *)
Definition tframe_of_name (word : bytes) : outcome tframe := at_ tframe_names word.

(** scribbu/framesv2.cc:250-298 [operator<<]. *)
Definition tframe_name (k : tframe) : bytes :=
  match k with
  | tf_talb => B "talb"
  | tf_tbpm => B "tbpm"
  | tf_tcom => B "tcom"
  | tf_tcon => B "tcon"
  | tf_tcop => B "tcop"
  | tf_tdat => B "tdat"
  | tf_tdly => B "tdly"
  | tf_tenc => B "tenc"
  | tf_text => B "text"
  | tf_tflt => B "tflt"
  | tf_time => B "time"
  | tf_tit1 => B "tit1"
  | tf_tit2 => B "tit2"
  | tf_tit3 => B "tit3"
  | tf_tkey => B "tkey"
  | tf_tlan => B "tlan"
  | tf_tlen => B "tlen"
  | tf_tmed => B "tmed"
  | tf_toal => B "toal"
  | tf_tofn => B "tofn"
  | tf_toly => B "toly"
  | tf_tope => B "tope"
  | tf_tory => B "tory"
  | tf_town => B "town"
  | tf_tpe1 => B "tpe1"
  | tf_tpe2 => B "tpe2"
  | tf_tpe3 => B "tpe3"
  | tf_tpe4 => B "tpe4"
  | tf_tpos => B "tpos"
  | tf_tpub => B "tpub"
  | tf_trck => B "trck"
  | tf_trda => B "trda"
  | tf_trsn => B "trsn"
  | tf_trso => B "trso"
  | tf_tsiz => B "tsiz"
  | tf_tsrc => B "tsrc"
  | tf_tsse => B "tsse"
  | tf_tyer => B "tyer"
  end.

(** scribbu/framesv2.cc:351-419 [frame_id3(id3v2_text_frames)]. *)
Definition frame_id3_of (k : tframe) : outcome bytes :=
  match k with
  | tf_talb => Ok (B "TAL")
  | tf_tbpm => Ok (B "TBM")
  | tf_tcom => Ok (B "TCM")
  | tf_tcon => Ok (B "TCO")
  | tf_tcop => Ok (B "TCR")
  | tf_tdat => Ok (B "TDA")
  | tf_tdly => Ok (B "TDY")
  | tf_tenc => Ok (B "TEN")
  | tf_text => Ok (B "TXT")
  | tf_tflt => Ok (B "TFT")
  | tf_time => Ok (B "TIM")
  | tf_tit1 => Ok (B "TT1")
  | tf_tit2 => Ok (B "TT2")
  | tf_tit3 => Ok (B "TT3")
  | tf_tkey => Ok (B "TKE")
  | tf_tlan => Ok (B "TLA")
  | tf_tlen => Ok (B "TLE")
  | tf_tofn => Ok (B "TOF")
  | tf_tpe1 => Ok (B "TP1")
  | tf_tpe2 => Ok (B "TP2")
  | tf_tpe3 => Ok (B "TP3")
  | tf_tpe4 => Ok (B "TP4")
  | tf_tpos => Ok (B "TPA")
  | tf_tpub => Ok (B "TPB")
  | tf_trck => Ok (B "TRK")
  | tf_trda => Ok (B "TRD")
  | tf_tsiz => Ok (B "TSI")
  | tf_tsrc => Ok (B "TRC")
  | tf_tsse => Ok (B "TSS")
  | tf_tyer => Ok (B "TYE")
  | _ => Throw UnknownFrame
  end.

(** scribbu/framesv2.cc:468-590 [frame_id4(id3v2_text_frames)]. *)
Definition frame_id4_of (k : tframe) : outcome bytes :=
  match k with
  | tf_talb => Ok (B "TALB")
  | tf_tbpm => Ok (B "TBPM")
  | tf_tcom => Ok (B "TCOM")
  | tf_tcon => Ok (B "TCON")
  | tf_tcop => Ok (B "TCOP")
  | tf_tdat => Ok (B "TDAT")
  | tf_tdly => Ok (B "TDLY")
  | tf_tenc => Ok (B "TENC")
  | tf_text => Ok (B "TEXT")
  | tf_tflt => Ok (B "TFLT")
  | tf_time => Ok (B "TIME")
  | tf_tit1 => Ok (B "TIT1")
  | tf_tit2 => Ok (B "TIT2")
  | tf_tit3 => Ok (B "TIT3")
  | tf_tkey => Ok (B "TKEY")
  | tf_tlan => Ok (B "TLAN")
  | tf_tlen => Ok (B "TLEN")
  | tf_tmed => Ok (B "TMED")
  | tf_toal => Ok (B "TOAL")
  | tf_tofn => Ok (B "TOFN")
  | tf_toly => Ok (B "TOLY")
  | tf_tope => Ok (B "TOPE")
  | tf_tory => Ok (B "TORY")
  | tf_town => Ok (B "TOWN")
  | tf_tpe1 => Ok (B "TPE1")
  | tf_tpe2 => Ok (B "TPE2")
  | tf_tpe3 => Ok (B "TPE3")
  | tf_tpe4 => Ok (B "TPE4")
  | tf_tpos => Ok (B "TPOS")
  | tf_tpub => Ok (B "TPUB")
  | tf_trck => Ok (B "TRCK")
  | tf_trda => Ok (B "TRDA")
  | tf_trsn => Ok (B "TRSN")
  | tf_trso => Ok (B "TRSO")
  | tf_tsiz => Ok (B "TSIZ")
  | tf_tsrc => Ok (B "TSRC")
  | tf_tsse => Ok (B "TSSE")
  | tf_tyer => Ok (B "TYER")
  end.

(** The identifier of a kind in a version: id3v22.cc:349-371, id3v23.cc:727-749,
    id3v24.cc:802-824 (reading and setting text by kind). *)
Definition frame_id_of (v : version) (k : tframe) : outcome bytes :=
  match v with V22 => frame_id3_of k | _ => frame_id4_of k end.
