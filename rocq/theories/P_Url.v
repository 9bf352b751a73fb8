(** * C24: URL encoding. *)
From Verif Require Import Base M_Url S_Url L_Url.

(** C24: decoding an encoding returns the string. *)
Theorem C24_roundtrip : forall s : bytes, is_bytes s -> urldecode (urlencode s) = Ok s.
Proof. exact urlencode_roundtrip. Qed.
Print Assumptions C24_roundtrip.

(** C24: the encoding is a percent-encoding with only unreserved characters
    standing for themselves. *)
Theorem C24_encoding_well_formed : forall s : bytes, is_bytes s ->
  denotes unreserved (urlencode s) s.
Proof. exact encode_denotes. Qed.
Print Assumptions C24_encoding_well_formed.
Example C24_encoding_well_formed_nontrivial :
  is_bytes (B "a b%" ++ [0; 255]) /\ urlencode (B "a b%" ++ [0; 255]) = B "a%20b%25%00%ff".
Proof. split; [repeat constructor|reflexivity]. Qed.

(** C24: the decoder accepts every percent-encoding (either hexadecimal case,
    any literal character but the percent sign) and returns what it denotes. *)
Theorem C24_decoder_accepts : forall e s : bytes, denotes (fun _ => True) e s -> urldecode e = Ok s.
Proof. exact (decode_denotes (fun _ => True)). Qed.
Print Assumptions C24_decoder_accepts.
Example C24_decoder_accepts_nontrivial : denotes (fun _ => True) (B "a%4A%4a ") (B "aJJ ").
Proof.
  change (denotes (fun _ => True) [97; 37; 52; 65; 37; 52; 97; 32] [97; 16 * 4 + 10; 16 * 4 + 10; 32]).
  apply den_lit; [exact I|discriminate|].
  apply den_hex; [left; reflexivity|right; reflexivity|].
  apply den_hex; [left; reflexivity|left; reflexivity|].
  apply den_lit; [exact I|discriminate|constructor].
Qed.

(** C24: on any text at all the decoder returns a string or refuses with
    invalid_argument. *)
Theorem C24_decoder_total : forall s : bytes,
  (exists o, urldecode s = Ok o) \/ urldecode s = Throw InvalidArgument.
Proof. exact urldecode_total. Qed.
Print Assumptions C24_decoder_total.

(** C24: distinct strings have distinct encodings. *)
Theorem C24_injective : forall s t : bytes, is_bytes s -> is_bytes t ->
  urlencode s = urlencode t -> s = t.
Proof. exact urlencode_inj. Qed.
Print Assumptions C24_injective.
