(** * C110: the tags in which an encoder describes a stream. *)
From Verif Require Import Base M_Stream M_Mp3 M_Vbr S_Vbr L_Vbr.
#[local] Open Scope N_scope.

(** ** A Xing tag laid out in the stream is read as it was laid out: whatever of the
    four fields it has, whatever the other flags, and the stream stands behind it. *)
Theorem C110_xing : forall (spare : bytes) (high : N) (x : xing) (before after : bytes) (mask : N),
  len spare = 3 -> xing_fits x ->
  let laid := xing_laid spare high x in
  xing_mp3_tag (mkIs (before ++ laid ++ after) (len before) mask 0) =
  (Ok x, mkIs (before ++ laid ++ after) (len (before ++ laid)) mask 0).
Proof. intros. now apply xing_reads. Qed.
Print Assumptions C110_xing.

(** ** Cut short anywhere, it is reported. *)
Theorem C110_xing_short : forall (spare : bytes) (high : N) (x : xing) (before : bytes) (k : N),
  len spare = 3 -> xing_fits x -> k < len (xing_laid spare high x) ->
  exists s', xing_mp3_tag (mkIs (before ++ takeN k (xing_laid spare high x)) (len before) all_bits 0) = (Throw IosFailure, s').
Proof. intros. now apply xing_short. Qed.
Print Assumptions C110_xing_short.

Definition ex_xing : xing := mkXing (Some 70000) None (Some (repeat 7 100)) (Some 57).
Example C110_xing_nontrivial :
  xing_fits ex_xing /\ takeN 10 (xing_laid [0; 0; 0] 0 ex_xing) = [0; 0; 0; 13; 0; 1; 17; 112; 7; 7] /\ len (xing_laid [0; 0; 0] 0 ex_xing) = 112.
Proof. repeat split. Qed.

(** ** A LAME tag likewise, the method by its number. *)
Theorem C110_lame : forall (name4 name5 : bytes) (revision k : N) (ten : bytes) (rate : N) (seven : bytes) (music : N) (before after : bytes) (mask : N),
  len name5 = 5 -> k < 16 -> len ten = 10 -> len seven = 7 -> music < 2 ^ 32 ->
  let laid := lame_laid name5 revision k ten rate seven music in
  exists m, is_method k m /\
    lame_mp3_tag name4 (mkIs (before ++ laid ++ after) (len before) mask 0) =
    (Ok (mkLame (name4 ++ name5) m rate music), mkIs (before ++ laid ++ after) (len (before ++ laid)) mask 0).
Proof. intros. exists (vbr_method_for_bits k). split; [now apply method_of|now apply lame_reads]. Qed.
Print Assumptions C110_lame.

Theorem C110_lame_short : forall (name4 name5 : bytes) (revision k : N) (ten : bytes) (rate : N) (seven : bytes) (music : N) (before : bytes) (n : N),
  len name5 = 5 -> len ten = 10 -> len seven = 7 ->
  let laid := lame_laid name5 revision k ten rate seven music in
  n < len laid ->
  exists s', lame_mp3_tag name4 (mkIs (before ++ takeN n laid) (len before) all_bits 0) = (Throw IosFailure, s').
Proof.
  intros name4 name5 revision k ten rate seven music before n L5 L10 L7 laid H. apply lame_short.
  assert (E : len laid = 28).
  { unfold laid, lame_laid. rewrite !len_app, L5, L10, L7. reflexivity. }
  rewrite len_takeN. lia.
Qed.
Print Assumptions C110_lame_short.

Example C110_lame_nontrivial :
  is_method 4 MVbr2 /\ is_method 7 MUnknown /\
  lame_laid (B "3.100") 0 4 (repeat 0 10) 128 (repeat 9 7) 4321000 =
    B "3.100" ++ [4; 0; 0; 0; 0; 0; 0; 0; 0; 0; 0; 128; 9; 9; 9; 9; 9; 9; 9; 0; 65; 238; 232].
Proof.
  split; [left; cbn; tauto|]. split; [right; split; [reflexivity|cbn; intuition discriminate]|reflexivity].
Qed.

(** ** The number of frames and of bytes on which durations rest (C36) are those of
    this very reading. *)
Theorem C110_durations : forall s : istream,
  read_xing s = match xing_mp3_tag s with
                | (Ok x, s') => (Ok (xi_frames x, xi_bytes x), s')
                | (Throw e, s') => (Throw e, s') | (UB u, s') => (UB u, s') | (NonTerm, s') => (NonTerm, s')
                end.
Proof. intros s. rewrite read_xing_fields. unfold sbind, sret. destruct (xing_mp3_tag s) as [[| | |] ?]; reflexivity. Qed.
Print Assumptions C110_durations.

(** ** Of a VBRI tag nothing can be said: no stream that has its first eighteen bytes
    is read without writing past a variable (finding). *)
Theorem C110_vbri_refuted : forall (before l : bytes) (mask : N), 18 <= len l ->
  exists s', read_vbri (mkIs (before ++ l) (len before) mask 0) = (UB OutOfBounds, s').
Proof. intros. now apply vbri_overruns. Qed.
Print Assumptions C110_vbri_refuted.
