(** * C45: the encodings of an ID3v2.4 text frame that a program can ask for. *)
From Verif Require Import Base M_Charset M_Payload M_Lookup S_Charset S_Lookup S_Text24 L_Charset.

(** A text set in any of them but ISO 8859-1 (C45_latin1_v24_refuted) is stored
    in that encoding, behind the byte the standard gives it, with a byte order
    mark where one is asked for. *)
Theorem C45_encodings_partial : forall ic s src x bom rsp out, x <> FE_Latin1 ->
  no_nul s -> s <> [] -> char_unit src = true ->
  ic src (asked_encoding x) rsp s = Some out -> len out <= 4 * len s ->
  text_set24 ic s src x bom rsp =
  Ok (mkText (asked_byte x) ((if bom then standard_bom (asked_encoding x) else []) ++ out)).
Proof.
  intros ic s src x bom rsp out NL NN NE CU IC LO. unfold text_set24.
  assert (encshim x = asked_encoding x) as -> by (destruct x; congruence || reflexivity).
  rewrite (to_bytes_short ic s src (asked_encoding x) bom rsp out NN NE CU IC LO). cbn [bind].
  destruct x; [congruence| | |]; destruct bom; reflexivity.
Qed.
Print Assumptions C45_encodings_partial.

(** In UTF-8 it reads back; in UTF-16, if it does so in the byte order that its
    first two bytes tell, or in the one the library takes by itself where they
    tell none. *)
Theorem C45_encoded_back_partial : forall ic s src x rsp rsp' out, x <> FE_Latin1 ->
  no_nul s -> s <> [] -> no_bom s -> no_trailing s -> char_unit src = true ->
  ic src (asked_encoding x) rsp s = Some out -> out <> [] -> len out <= 4 * len s ->
  ic (if utf16 x then utf16_of out else E_UTF_8) src rsp' out = Some s ->
  exists t, text_set24 ic s src x false rsp = Ok t /\ text_as_str V24 ic t src rsp' None = Ok s.
Proof.
  intros ic s src x rsp rsp' out NL NN NE NB NT CU IC NO LO IC'.
  rewrite (C45_encodings_partial ic s src x false rsp out NL NN NE CU IC LO). cbn [List.app].
  exists (mkText (asked_byte x) out). split; [reflexivity|]. unfold text_as_str. cbn [tx_text].
  destruct out as [|o out]; [congruence|].
  assert (text_source V24 (mkText (asked_byte x) (o :: out)) = Ok (if utf16 x then utf16_of (o :: out) else E_UTF_8)) as ->.
  { destruct x; [congruence| | |]; reflexivity. }
  cbn [bind]. apply to_string_l; auto; discriminate.
Qed.
Print Assumptions C45_encoded_back_partial.

(** With a mark asked for, UTF-16BE reads back: the mark tells the order, comes
    out as the mark of UTF-8 and is dropped. *)
Theorem C45_marked_partial : forall ic s rsp rsp' out,
  no_nul s -> s <> [] -> no_trailing s ->
  ic E_UTF_8 E_UTF_16BE rsp s = Some out -> len out <= 4 * len s ->
  ic E_UTF_16BE E_UTF_8 rsp' (254 :: 255 :: out) = Some (239 :: 187 :: 191 :: s) ->
  exists t, text_set24 ic s E_UTF_8 FE_Utf16BE true rsp = Ok t /\ text_as_str V24 ic t E_UTF_8 rsp' None = Ok s.
Proof.
  intros ic s rsp rsp' out NN NE NT IC LO IC'.
  assert (C : char_unit E_UTF_8 = true) by reflexivity.
  rewrite (C45_encodings_partial ic s E_UTF_8 FE_Utf16BE true rsp out ltac:(discriminate) NN NE C IC LO).
  eexists. split; [reflexivity|]. unfold text_as_str. cbn. unfold to_string. cbn. rewrite IC'. cbn.
  rewrite rtrim_id by exact NT. reflexivity.
Qed.
Print Assumptions C45_marked_partial.

(** Without one, UTF-16BE does not read back, where the library's own byte order
    gives another text: the byte that says UTF-16BE is read as UTF-16. *)
Theorem C45_utf16be_v24_refuted : forall ic s src rsp rsp' out s',
  no_nul s -> s <> [] -> char_unit src = true ->
  ic src E_UTF_16BE rsp s = Some out -> out <> [] -> utf16_of out = E_UTF_16 -> len out <= 4 * len s ->
  ic E_UTF_16 src rsp' out = Some s' -> no_bom s' -> no_trailing s' -> s' <> s ->
  exists t, text_set24 ic s src FE_Utf16BE false rsp = Ok t /\ text_as_str V24 ic t src rsp' None <> Ok s.
Proof.
  intros ic s src rsp rsp' out s' NN NE CU IC NO U LO IC' NB NT D.
  rewrite (C45_encodings_partial ic s src FE_Utf16BE false rsp out ltac:(discriminate) NN NE CU IC LO).
  cbn [List.app asked_byte]. eexists. split; [reflexivity|].
  assert (text_as_str V24 ic (mkText 2 out) src rsp' None = Ok s') as ->; [|congruence].
  unfold text_as_str. cbn [tx_text]. destruct out as [|o out]; [congruence|].
  assert (text_source V24 (mkText 2 (o :: out)) = Ok E_UTF_16) as ->.
  { change (text_source V24 (mkText 2 (o :: out))) with (Ok (utf16_of (o :: out))). rewrite U. reflexivity. }
  cbn [bind]. apply to_string_l; auto; discriminate.
Qed.
Print Assumptions C45_utf16be_v24_refuted.

(** A converter of one letter, ж, on a little-endian machine. *)
Definition zhe24 : iconv_t := fun s d _ b =>
  match s, d with
  | E_UTF_8, E_UTF_16BE => Some [4; 54]
  | E_UTF_8, E_UTF_16 => Some [255; 254; 54; 4]
  | E_UTF_16LE, E_UTF_8 => match b with [255; 254; 54; 4] => Some [208; 182] | _ => None end
  | E_UTF_16BE, E_UTF_8 => match b with [254; 255; 4; 54] => Some [239; 187; 191; 208; 182] | _ => Some [208; 182] end
  | E_UTF_16, E_UTF_8 => Some [227; 152; 132]
  | _, _ => Some b
  end.
Example C45_encodings_nontrivial :
  text_set24 zhe24 [208; 182] E_UTF_8 FE_Utf16Bom false NoFail = Ok (mkText 1 [255; 254; 54; 4]) /\
  text_as_str V24 zhe24 (mkText 1 [255; 254; 54; 4]) E_UTF_8 NoFail None = Ok [208; 182] /\
  text_set24 zhe24 [208; 182] E_UTF_8 FE_Utf16BE true NoFail = Ok (mkText 2 [254; 255; 4; 54]) /\
  text_as_str V24 zhe24 (mkText 2 [254; 255; 4; 54]) E_UTF_8 NoFail None = Ok [208; 182] /\
  text_set24 zhe24 [208; 182] E_UTF_8 FE_Utf16BE false NoFail = Ok (mkText 2 [4; 54]) /\
  text_as_str V24 zhe24 (mkText 2 [4; 54]) E_UTF_8 NoFail None = Ok [227; 152; 132].
Proof. vm_compute. auto 10. Qed.
