(** * Theorems: names, identifiers and parsers of text frames (C44). *)
From Verif Require Import Base M_Payload M_Frame M_TextId S_TextId L_TextId.

(** The name printed for a kind is read back as that kind. *)
Theorem C44_names_inverse : forall k, tframe_of_name (tframe_name k) = Ok k.
Proof. exact names_l. Qed.
Print Assumptions C44_names_inverse.

Example C44_names_inverse_nontrivial :
  tframe_of_name (B "album") = Ok tf_talb /\ tframe_of_name (B "ALBUM") = Throw OutOfRange.
Proof. vm_compute. auto. Qed.

(** Naming a kind by its identifier in any version selects that kind, except for
    ID3v2.2's "TBP". *)
Theorem C44_identifier_names_partial : forall v k id,
  standard_id v k = Some id -> ~ (v = V22 /\ k = tf_tbpm) -> tframe_of_name id = Ok k.
Proof. exact std_names_l. Qed.
Print Assumptions C44_identifier_names_partial.

Example C44_identifier_names_nontrivial : standard_id V22 tf_tsrc = Some (B "TRC") /\ tframe_of_name (B "TRC") = Ok tf_tsrc.
Proof. vm_compute. auto. Qed.

(** In every version distinct kinds have distinct identifiers. *)
Theorem C44_identifiers_distinct : forall v k1 k2 id,
  frame_id_of v k1 = Ok id -> frame_id_of v k2 = Ok id -> k1 = k2.
Proof. exact distinct_l. Qed.
Print Assumptions C44_identifiers_distinct.

Example C44_identifiers_distinct_nontrivial :
  frame_id_of V22 tf_text = Ok (B "TXT") /\ frame_id_of V23 tf_text = Ok (B "TEXT").
Proof. vm_compute. auto. Qed.

(** ID3v2.3 and ID3v2.4: every kind has the identifier of the standard, and the
    parser treats it as a text frame. *)
Theorem C44_v23_v24_standard : forall v k, v <> V22 ->
  frame_id_of v k = Ok (standard_id4 k) /\ kind_of v (standard_id4 k) = KText.
Proof. exact v4_l. Qed.
Print Assumptions C44_v23_v24_standard.

(** ID3v2.3 and ID3v2.4: what the parser treats as text frames is exactly what
    the kinds map to. *)
Theorem C44_v23_v24_complete : forall v id, v <> V22 ->
  (kind_of v id = KText <-> exists k, frame_id_of v k = Ok id).
Proof. exact complete4_l. Qed.
Print Assumptions C44_v23_v24_complete.

Example C44_v23_v24_complete_nontrivial :
  kind_of V24 (B "TRSO") = KText /\ kind_of V24 (B "TXXX") = KTxxx /\ kind_of V24 (B "TDRC") = KUnknown.
Proof. vm_compute. auto. Qed.

(** ID3v2.2, full statement: every kind the standard has an identifier for maps
    to it and is parsed as a text frame.  Proved but for the six kinds of
    [wrong22], for which it is false (next theorem). *)
Theorem C44_v22_standard_partial : forall k, ~ wrong22 k ->
  (forall id, frame_id_of V22 k = Ok id <-> standard_id V22 k = Some id) /\
  (forall id, frame_id_of V22 k = Ok id -> kind_of V22 id = KText).
Proof. exact v22_l. Qed.
Print Assumptions C44_v22_standard_partial.

Example C44_v22_standard_nontrivial : ~ wrong22 tf_tyer /\ ~ wrong22 tf_town.
Proof. unfold wrong22; cbn. split; intros H; repeat (destruct H as [H|H]; [discriminate H|]); destruct H. Qed.

(** Six kinds have an ID3v2.2 identifier that the parser knows as a text frame
    but that reading or setting by kind does not use. *)
Theorem C44_v22_refuted : forall k, wrong22 k ->
  exists id, standard_id V22 k = Some id /\ kind_of V22 id = KText /\ frame_id_of V22 k <> Ok id.
Proof. exact wrong22_l. Qed.
Print Assumptions C44_v22_refuted.

(** For beats per minute the identifier used is one the parser does not treat as
    text, and the right one is not accepted as a name. *)
Theorem C44_v22_bpm_refuted :
  frame_id_of V22 tf_tbpm = Ok (B "TBM") /\ kind_of V22 (B "TBM") = KUnknown /\
  tframe_of_name (B "TBP") = Throw OutOfRange.
Proof. exact bpm_l. Qed.
Print Assumptions C44_v22_bpm_refuted.
