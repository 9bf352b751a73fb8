(** * Specification: the identifiers the ID3v2 standards give to text frames. *)
From Verif Require Import Base M_Payload M_TextId.

(** ID3v2.3.0, section 4: the declared text frames. *)
Definition standard_id4 (k : tframe) : bytes :=
  match k with
  | tf_talb => B "TALB"
  | tf_tbpm => B "TBPM"
  | tf_tcom => B "TCOM"
  | tf_tcon => B "TCON"
  | tf_tcop => B "TCOP"
  | tf_tdat => B "TDAT"
  | tf_tdly => B "TDLY"
  | tf_tenc => B "TENC"
  | tf_text => B "TEXT"
  | tf_tflt => B "TFLT"
  | tf_time => B "TIME"
  | tf_tit1 => B "TIT1"
  | tf_tit2 => B "TIT2"
  | tf_tit3 => B "TIT3"
  | tf_tkey => B "TKEY"
  | tf_tlan => B "TLAN"
  | tf_tlen => B "TLEN"
  | tf_tmed => B "TMED"
  | tf_toal => B "TOAL"
  | tf_tofn => B "TOFN"
  | tf_toly => B "TOLY"
  | tf_tope => B "TOPE"
  | tf_tory => B "TORY"
  | tf_town => B "TOWN"
  | tf_tpe1 => B "TPE1"
  | tf_tpe2 => B "TPE2"
  | tf_tpe3 => B "TPE3"
  | tf_tpe4 => B "TPE4"
  | tf_tpos => B "TPOS"
  | tf_tpub => B "TPUB"
  | tf_trck => B "TRCK"
  | tf_trda => B "TRDA"
  | tf_trsn => B "TRSN"
  | tf_trso => B "TRSO"
  | tf_tsiz => B "TSIZ"
  | tf_tsrc => B "TSRC"
  | tf_tsse => B "TSSE"
  | tf_tyer => B "TYER"
  end.

(** ID3v2.2.0, section 4: the same information; three kinds came with 2.3. *)
Definition standard_id3 (k : tframe) : option bytes :=
  match k with
  | tf_talb => Some (B "TAL")
  | tf_tbpm => Some (B "TBP")
  | tf_tcom => Some (B "TCM")
  | tf_tcon => Some (B "TCO")
  | tf_tcop => Some (B "TCR")
  | tf_tdat => Some (B "TDA")
  | tf_tdly => Some (B "TDY")
  | tf_tenc => Some (B "TEN")
  | tf_text => Some (B "TXT")
  | tf_tflt => Some (B "TFT")
  | tf_time => Some (B "TIM")
  | tf_tit1 => Some (B "TT1")
  | tf_tit2 => Some (B "TT2")
  | tf_tit3 => Some (B "TT3")
  | tf_tkey => Some (B "TKE")
  | tf_tlan => Some (B "TLA")
  | tf_tlen => Some (B "TLE")
  | tf_tmed => Some (B "TMT")
  | tf_toal => Some (B "TOT")
  | tf_tofn => Some (B "TOF")
  | tf_toly => Some (B "TOL")
  | tf_tope => Some (B "TOA")
  | tf_tory => Some (B "TOR")
  | tf_town => None
  | tf_tpe1 => Some (B "TP1")
  | tf_tpe2 => Some (B "TP2")
  | tf_tpe3 => Some (B "TP3")
  | tf_tpe4 => Some (B "TP4")
  | tf_tpos => Some (B "TPA")
  | tf_tpub => Some (B "TPB")
  | tf_trck => Some (B "TRK")
  | tf_trda => Some (B "TRD")
  | tf_trsn => None
  | tf_trso => None
  | tf_tsiz => Some (B "TSI")
  | tf_tsrc => Some (B "TRC")
  | tf_tsse => Some (B "TSS")
  | tf_tyer => Some (B "TYE")
  end.

Definition standard_id (v : version) (k : tframe) : option bytes :=
  match v with V22 => standard_id3 k | _ => Some (standard_id4 k) end.

(** The six kinds whose ID3v2.2 identifier the program has wrong or lacks. *)
Definition wrong22 (k : tframe) : Prop :=
  In k [tf_tbpm; tf_tmed; tf_toal; tf_toly; tf_tope; tf_tory].
