(** * Theorems: encodings and conversions (C51, C52, C53). *)
From Verif Require Import Base M_Charset S_Charset L_Charset.

(** The name printed for an encoding is read back as that encoding. *)
Theorem C51_names_inverse : forall e, enc_of_name (enc_name e) = Ok e.
Proof. exact enc_names_l. Qed.
Print Assumptions C51_names_inverse.

(** Every accepted name is the one that is printed. *)
Theorem C51_names_unique : forall word e, enc_of_name word = Ok e -> word = enc_name e.
Proof. exact enc_names_only_l. Qed.
Print Assumptions C51_names_unique.

(** The conversion library is asked for the encoding that was named. *)
Theorem C51_iconv_agrees : forall word e, enc_of_name word = Ok e -> iconv_name e = word.
Proof. intros word e H. rewrite iconv_name_l. symmetry. exact (enc_names_only_l word e H). Qed.
Print Assumptions C51_iconv_agrees.

Example C51_nontrivial : enc_of_name (B "BIG5-HKSCS:2004") = Ok E_BIG5_HKSCS_2004 /\
  enc_of_name (B "utf-8") = Throw OutOfRange.
Proof. vm_compute. auto. Qed.

(** Full statement: the result of converting a text is the requested byte order
    mark followed by the whole of what the conversion library makes of the text.
    Proved for conversions that at most quadruple the text and for byte order
    marks other than UTF-32BE's; false otherwise (next theorems). *)
Theorem C52_to_bytes_partial : forall ic s src dst bom rsp out,
  no_nul s -> s <> [] -> char_unit src = true -> ic src dst rsp s = Some out ->
  len out <= 4 * len s -> (bom = true -> ~ be32 dst) ->
  to_bytes ic s src dst bom rsp = Ok ((if bom then standard_bom dst else []) ++ out).
Proof.
  intros ic s src dst bom rsp out H1 H2 H3 H4 H5 H6.
  rewrite (to_bytes_short ic s src dst bom rsp out H1 H2 H3 H4 H5).
  destruct bom; [rewrite (bom_for_l dst (H6 eq_refl))|]; reflexivity.
Qed.
Print Assumptions C52_to_bytes_partial.

Example C52_to_bytes_nontrivial :
  let ic : iconv_t := fun _ _ _ b => Some (concat (map (fun c => [c; 0]) b)) in
  to_bytes ic (B "Hi") E_UTF_8 E_UTF_16LE true NoFail = Ok [255; 254; 72; 0; 105; 0].
Proof. vm_compute. reflexivity. Qed.

(** A conversion that more than quadruples the text is lost altogether, or runs
    over the end of its buffer. *)
Theorem C52_long_refuted : forall ic s src dst bom rsp out,
  no_nul s -> s <> [] -> char_unit src = true -> ic src dst rsp s = Some out ->
  4 * len s < len out ->
  to_bytes ic s src dst bom rsp = Ok [] \/ to_bytes ic s src dst bom rsp = UB OutOfBounds.
Proof. exact to_bytes_long. Qed.
Print Assumptions C52_long_refuted.

(** For instance to UTF-32, where the library puts a byte order mark of its own
    before the text. *)
Example C52_long_nontrivial :
  let ic : iconv_t := fun _ _ _ b => Some ([255; 254; 0; 0] ++ concat (map (fun c => [c; 0; 0; 0]) b)) in
  to_bytes ic (B "Hi") E_UTF_8 E_UTF_32 false NoFail = Ok [].
Proof. vm_compute. reflexivity. Qed.

(** The byte order mark of big-endian UTF-32 is never right. *)
Theorem C52_bom32_refuted : forall ic s src dst rsp out,
  be32 dst -> no_nul s -> s <> [] -> char_unit src = true -> ic src dst rsp s = Some out ->
  to_bytes ic s src dst true rsp <> Ok (standard_bom dst ++ out).
Proof. exact bom32_l. Qed.
Print Assumptions C52_bom32_refuted.

(** The conversion always ends. *)
Theorem C52_terminates : forall ic s src dst bom rsp, to_bytes ic s src dst bom rsp <> NonTerm.
Proof. exact to_bytes_terminates. Qed.
Print Assumptions C52_terminates.

(** Full statement: converting stored text to a string gives the whole of what
    the library makes of it.  Proved for text with no byte order mark in front
    and no NUL or space at the end. *)
Theorem C52_to_string_partial : forall ic buf src dst rsp out,
  buf <> [] -> char_unit dst = true -> ic src dst rsp buf = Some out ->
  no_bom out -> no_trailing out -> to_string ic buf src dst rsp = Ok out.
Proof. exact to_string_l. Qed.
Print Assumptions C52_to_string_partial.

Example C52_to_string_nontrivial :
  let ic : iconv_t := fun _ _ _ b => Some b in
  to_string ic (B "Song") E_ISO_8859_1 E_UTF_8 NoFail = Ok (B "Song") /\
  to_string ic (B "Song  ") E_ISO_8859_1 E_UTF_8 NoFail = Ok (B "Song").
Proof. vm_compute. auto. Qed.

(** A trailing space or NUL is always lost. *)
Theorem C52_trailing_refuted : forall ic buf src dst rsp out c,
  buf <> [] -> char_unit dst = true -> ic src dst rsp buf = Some (out ++ [c]) -> c = 0 \/ c = 32 ->
  to_string ic buf src dst rsp <> Ok (out ++ [c]).
Proof. exact to_string_lost. Qed.
Print Assumptions C52_trailing_refuted.

(** Strings of bytes cannot be in an encoding with wider units: those are refused,
    whatever the text, and only those.  (So are UTF-7, C99 and JAVA, whose units
    are bytes.) *)
Theorem C52_refused : forall ic text buf e other bom rsp,
  let wide := In (enc_name e) (map B ["UCS-2"; "UCS-2BE"; "UCS-2LE"; "UCS-4"; "UCS-4BE"; "UCS-4LE"; "UTF-16"; "UTF-16BE"; "UTF-16LE";
                                      "UTF-32"; "UTF-32BE"; "UTF-32LE"; "UTF-7"; "C99"; "JAVA"]%string) in
  (to_bytes ic text e other bom rsp = Throw BadCodeUnit <-> wide) /\
  (to_string ic buf other e rsp = Throw BadCodeUnit <-> wide).
Proof.
  intros ic text buf e other bom rsp. cbv zeta.
  assert (W : char_unit e = false <-> In (enc_name e) (map B ["UCS-2"; "UCS-2BE"; "UCS-2LE"; "UCS-4"; "UCS-4BE"; "UCS-4LE"; "UTF-16"; "UTF-16BE"; "UTF-16LE";
                                      "UTF-32"; "UTF-32BE"; "UTF-32LE"; "UTF-7"; "C99"; "JAVA"]%string)).
  { destruct e; vm_compute; split; intros H; try discriminate H; try reflexivity;
      repeat (first [left; reflexivity | right]); repeat (destruct H as [H|H]; [discriminate H|]); destruct H. }
  rewrite <- W. unfold to_bytes, to_string. split.
  - destruct (char_unit e); cbn [negb]; split; try reflexivity; try discriminate.
    destruct (c_str text) as [|c t]; [discriminate|]. destruct (ic e other rsp (c :: t)) as [out|]; [|discriminate].
    destruct (len out <=? 4 * len (c :: t)); [discriminate|]. intros G.
    assert (X : forall n b r m x, grow n b m r <> Throw x).
    { induction n as [|n IH]; intros b r m x; [discriminate|]. cbn [grow]. destruct (m <=? r * 4); [|apply IH].
      destruct (b + m <=? r * 4); discriminate. }
    now elim (X _ _ _ _ _ G).
  - destruct (char_unit e); cbn [negb]; split; try reflexivity; try discriminate.
    destruct buf as [|c t]; [discriminate|]. destruct (ic other e rsp (c :: t)); discriminate.
Qed.
Print Assumptions C52_refused.
Example C52_refused_nontrivial :
  to_bytes (fun _ _ _ b => Some b) (B "x") E_C99 E_UTF_8 false NoFail = Throw BadCodeUnit /\
  to_bytes (fun _ _ _ b => Some b) (B "x") E_ISO_8859_1 E_UTF_8 false NoFail = Ok (B "x").
Proof. vm_compute. auto. Qed.

(** Of a text with a NUL in it only what precedes the NUL is converted. *)
Theorem C52_nul_refuted : forall ic s rest src dst bom rsp, no_nul s ->
  to_bytes ic (s ++ 0 :: rest) src dst bom rsp = to_bytes ic s src dst bom rsp.
Proof.
  intros ic s rest src dst bom rsp H. unfold to_bytes.
  assert (E : c_str (s ++ 0 :: rest) = s).
  { induction s as [|c t IH]; [reflexivity|]. cbn [List.app c_str]. 
    rewrite (proj2 (N.eqb_neq c 0)) by (intros ->; apply H; now left). f_equal. apply IH. intros I. apply H. now right. }
  now rewrite E, (c_str_no_nul s H).
Qed.
Print Assumptions C52_nul_refuted.
Example C52_nul_nontrivial : to_bytes (fun _ _ _ b => Some b) (B "ab" ++ [0] ++ B "cd") E_ISO_8859_1 E_UTF_8 false NoFail = Ok (B "ab").
Proof. vm_compute. reflexivity. Qed.

(** The encoding named by the locale is never used: the answer is UTF-8, unless
    both locales name an encoding, which is an error. *)
Theorem C53_locale_refuted : forall global system, enc_of_locale global system =
  if existsb (N.eqb 46) global && existsb (N.eqb 46) system then Throw RangeError else Ok E_UTF_8.
Proof. exact locale_l. Qed.
Print Assumptions C53_locale_refuted.

Example C53_locale_nontrivial :
  enc_of_locale (B "en_US.UTF-8") (B "en_US.UTF-8") = Throw RangeError /\
  enc_of_locale (B "C") (B "de_DE.ISO8859-1") = Ok E_UTF_8.
Proof. vm_compute. auto. Qed.
