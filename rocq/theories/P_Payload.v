(** * C10-C14: frame payloads. *)
From Verif Require Import Base M_Payload S_Ints S_Payload L_Payload.

(** ** C10 *)

(** C10: a counter set to [n] reads as [n], for every 32-bit [n]. *)
Theorem C10_set_then_read : forall n, n < 2 ^ 32 -> counter_value (reset_counter n) = Ok n.
Proof. exact counter_set_read. Qed.
Print Assumptions C10_set_then_read.
Example C10_set_then_read_nontrivial :
  reset_counter 70000 = [1; 17; 112] /\ counter_value [1; 17; 112] = Ok 70000.
Proof. split; reflexivity. Qed.

(** C10: what is stored is the big-endian form of [n], without leading zeros. *)
Theorem C10_shortest_form : forall n,
  is_bytes (reset_counter n) /\ positional 256 (reset_counter n) = n /\
  (reset_counter n = [0] \/ hd 0 (reset_counter n) <> 0).
Proof.
  exact (fun n => conj (reset_counter_bytes n) (conj (reset_counter_value n) (reset_counter_shortest n))).
Qed.
Print Assumptions C10_shortest_form.

(** C10: a stored counter of one to four bytes reads as its big-endian value. *)
Theorem C10_read_is_positional : forall c, is_bytes c -> (1 <= List.length c <= 4)%nat ->
  counter_value c = Ok (positional 256 c).
Proof. exact counter_value_positional. Qed.
Print Assumptions C10_read_is_positional.
Example C10_read_is_positional_nontrivial : is_bytes [0; 1; 0] /\ counter_value [0; 1; 0] = Ok 256.
Proof. split; [repeat constructor|reflexivity]. Qed.

(** C10: longer counters are refused on reading. *)
Theorem C10_long_refused : forall c, (4 < List.length c)%nat -> counter_value c = Throw DomainError.
Proof. exact counter_too_long. Qed.
Print Assumptions C10_long_refused.

(** C10: incrementing adds one. *)
Theorem C10_inc : forall c n, counter_value c = Ok n -> n + 1 < 2 ^ 32 ->
  exists c', counter_inc c = Ok c' /\ counter_value c' = Ok (n + 1).
Proof. exact counter_inc_adds. Qed.
Print Assumptions C10_inc.
Example C10_inc_nontrivial : counter_inc [0; 255] = Ok [1; 0].
Proof. reflexivity. Qed.

(** C10: [k] increments of a counter set to [n] leave the counter a set to
    [n + k] would have left. *)
Theorem C10_inc_many : forall k n, n + N.of_nat k < 2 ^ 32 ->
  fold_left (fun c _ => let* x := c in counter_inc x) (repeat tt k) (Ok (reset_counter n)) =
  Ok (reset_counter (n + N.of_nat k)).
Proof. exact counter_histories. Qed.
Print Assumptions C10_inc_many.

(** C10 fails at the top of the range: incrementing 2^32-1 produces a counter
    that can no longer be read. *)
Theorem C10_inc_refuted : exists c c', counter_value c = Ok (2 ^ 32 - 1) /\
  counter_inc c = Ok c' /\ counter_value c' = Throw DomainError.
Proof. exact counter_inc_max. Qed.
Print Assumptions C10_inc_refuted.

(** ** C11 *)

(** C11: POPM payloads survive a write and re-read, wherever in a tag they are. *)
Theorem C11_roundtrip : forall p after, ~ In 0 (po_email p) ->
  parse_popm (write_popm p) after = Ok p /\ len (write_popm p) = size_popm p.
Proof. exact popm_roundtrip. Qed.
Print Assumptions C11_roundtrip.
Example C11_roundtrip_nontrivial :
  parse_popm (write_popm (mkPopm (B "a@b.c") 196 [0; 12])) [] = Ok (mkPopm (B "a@b.c") 196 [0; 12]).
Proof. reflexivity. Qed.

(** C11: a POPM made from an owner, a rating and a count reads back with them. *)
Theorem C11_from_scratch : forall own rating n after, ~ In 0 own -> n < 2 ^ 32 ->
  exists p, parse_popm (write_popm (make_popm own rating n)) after = Ok p /\
    po_email p = own /\ po_rating p = rating /\ counter_value (po_counter p) = Ok n.
Proof. exact popm_scratch. Qed.
Print Assumptions C11_from_scratch.

(** ** C12 *)

(** C12, UFID. *)
Theorem C12_ufid : forall u, ~ In 0 (uf_owner u) ->
  parse_ufid (write_ufid u) = u /\ len (write_ufid u) = size_ufid u.
Proof. exact ufid_roundtrip. Qed.
Print Assumptions C12_ufid.
Example C12_ufid_nontrivial :
  write_ufid (mkUfid (B "own") [1; 0; 2]) = B "own" ++ [0; 1; 0; 2].
Proof. reflexivity. Qed.

(** C12, PRIV. *)
Theorem C12_priv : forall p, ~ In 0 (pr_email p) ->
  parse_priv (write_priv p) = Ok p /\ len (write_priv p) = size_priv p.
Proof. exact priv_roundtrip. Qed.
Print Assumptions C12_priv.

(** C12, text frames. *)
Theorem C12_text : forall t after,
  parse_text (write_text t) after = Ok t /\ len (write_text t) = size_text t.
Proof. exact text_roundtrip. Qed.
Print Assumptions C12_text.

(** C12, user-defined text, for every version: a frame whose terminator width is
    the one its version prescribes for its encoding, and whose description can
    be terminated. *)
Theorem C12_txxx : forall v t after, wf_txxx v t ->
  parse_txxx v (write_txxx t) after = Ok t /\ len (write_txxx t) = size_txxx t.
Proof. exact txxx_roundtrip. Qed.
Print Assumptions C12_txxx.
Example C12_txxx_nontrivial : wf_txxx V23 (mkTxxx 2 1 [255; 254; 65; 0] [66; 0; 0]).
Proof.
  split; [right; split; [reflexivity|discriminate]|]. right. split; [reflexivity|].
  repeat (constructor; [intros [? ?]; discriminate|]). constructor.
Qed.

(** C12: frames the constructor makes are such, except (next theorem) Unicode
    ones of ID3v2.4. *)
Theorem C12_txxx_from_scratch_partial : forall v uni text dsc,
  (v = V24 -> uni = uni_no) ->
  match uni with uni_no => terminable 1 dsc | _ => terminable 2 dsc end ->
  wf_txxx v (make_txxx v uni text dsc).
Proof. exact txxx_scratch_wf. Qed.
Print Assumptions C12_txxx_from_scratch_partial.

(** C12 fails for ID3v2.4 user-defined text made with Unicode. *)
Theorem C12_txxx_from_scratch_refuted : exists text dsc t after,
  make_txxx V24 uni_yes text dsc = t /\ ~ In 0 dsc /\ parse_txxx V24 (write_txxx t) after <> Ok t.
Proof. exact txxx_scratch_refuted. Qed.
Print Assumptions C12_txxx_from_scratch_refuted.

(** C12, comments. *)
Theorem C12_comm : forall v c after, wf_comm v c ->
  exists b, write_comm c = Ok b /\ len b = size_comm c /\ parse_comm v b after = Ok c.
Proof. exact comm_roundtrip. Qed.
Print Assumptions C12_comm.
Example C12_comm_nontrivial : wf_comm V24 (mkComm 1 (Some 3) (Some (B "eng")) (B "desc") (B "text")).
Proof.
  exists 3, (B "eng"). split; [reflexivity|]. split; [reflexivity|]. split; [reflexivity|].
  split; [discriminate|]. split; [cbn; auto|]. left. split; [reflexivity|]. cbn. intuition discriminate.
Qed.

(** C12: comments the constructor makes are such. *)
Theorem C12_comm_from_scratch : forall v lang uni text dsc, len lang = 3 ->
  match uni, v with
  | uni_no, _ => terminable 1 dsc
  | _, V24 => terminable 1 dsc
  | _, _ => terminable 2 dsc
  end ->
  wf_comm v (make_comm v lang uni text dsc).
Proof. exact comm_scratch_wf. Qed.
Print Assumptions C12_comm_from_scratch.

(** ** C13 *)

(** C13 fails: the terminator of the e-mail is not written. *)
Theorem C13_roundtrip_refuted : exists e b, write_encr e = Ok b /\ ~ In 0 (en_email e) /\
  parse_encr b <> e /\ len b <> size_encr e.
Proof. exact encr_refuted. Qed.
Print Assumptions C13_roundtrip_refuted.

(** C13: every registration is written one byte shorter than declared... *)
Theorem C13_size_off_by_one : forall e b, write_encr e = Ok b -> len b + 1 = size_encr e.
Proof. exact encr_size_off. Qed.
Print Assumptions C13_size_off_by_one.
Example C13_size_off_by_one_nontrivial : write_encr (mkEncr (B "a@b") (Some 5) [1]) = Ok (B "a@b" ++ [5; 1]).
Proof. reflexivity. Qed.

(** ... and every one with a non-zero method symbol is read back with another
    e-mail. *)
Theorem C13_email_lost : forall e m b, en_method e = Some m -> m <> 0 -> ~ In 0 (en_email e) ->
  write_encr e = Ok b -> en_email (parse_encr b) <> en_email e.
Proof. exact encr_reparse. Qed.
Print Assumptions C13_email_lost.

(** A registration as the standard has it is read as it stands... *)
Theorem C13_read : forall email m data, ~ In 0 email ->
  parse_encr (email ++ [0; m] ++ data) = mkEncr email (Some m) data.
Proof.
  intros email m data H. unfold parse_encr.
  assert (E : split0 (email ++ [0; m] ++ data) = (email, Some (m :: data))).
  { induction email as [|x l IH]; [reflexivity|]. cbn [List.app split0].
    rewrite (proj2 (N.eqb_neq x 0)) by (intros ->; apply H; now left).
    pose proof (IH (fun I => H (or_intror I))) as X. cbn [List.app] in X. rewrite X. reflexivity. }
  now rewrite E.
Qed.
Print Assumptions C13_read.
Example C13_read_nontrivial : parse_encr (B "a@b" ++ [0; 5; 1; 2]) = mkEncr (B "a@b") (Some 5) [1; 2].
Proof. reflexivity. Qed.

(** ... but one that ends with the e-mail, or with the NUL after it, has a method
    that was never set: writing it is undefined. *)
Theorem C13_no_method_refuted : forall email, ~ In 0 email ->
  write_encr (parse_encr email) = UB Uninitialised /\ write_encr (parse_encr (email ++ [0])) = UB Uninitialised.
Proof.
  intros email H. unfold parse_encr.
  assert (E1 : split0 email = (email, None)).
  { induction email as [|x l IH]; [reflexivity|]. cbn [List.app split0].
    rewrite (proj2 (N.eqb_neq x 0)) by (intros ->; apply H; now left).
    pose proof (IH (fun I => H (or_intror I))) as X. cbn [List.app] in X. rewrite X. reflexivity. }
  assert (E2 : split0 (email ++ [0]) = (email, Some [])).
  { clear E1. induction email as [|x l IH]; [reflexivity|]. cbn [List.app split0].
    rewrite (proj2 (N.eqb_neq x 0)) by (intros ->; apply H; now left).
    pose proof (IH (fun I => H (or_intror I))) as X. cbn [List.app] in X. rewrite X. reflexivity. }
  rewrite E1, E2. split; reflexivity.
Qed.
Print Assumptions C13_no_method_refuted.
Example C13_no_method_nontrivial : en_email (parse_encr (B "a@b" ++ [0])) = B "a@b".
Proof. reflexivity. Qed.

(** ** C14 *)

(** C14, UFID: stable for any bytes; identical if the owner was terminated. *)
Theorem C14_ufid : forall l, parse_ufid (write_ufid (parse_ufid l)) = parse_ufid l /\
  (In 0 l -> write_ufid (parse_ufid l) = l).
Proof.
  exact (fun l => conj (proj1 (ufid_roundtrip _ (ufid_parse_owner l))) (ufid_identical l)).
Qed.
Print Assumptions C14_ufid.

(** C14, text frames: identical. *)
Theorem C14_text : forall l after t, parse_text l after = Ok t -> write_text t = l.
Proof. exact text_identical. Qed.
Print Assumptions C14_text.
Example C14_text_nontrivial : parse_text [3; 65; 66] [] = Ok (mkText 3 [65; 66]).
Proof. reflexivity. Qed.

(** C14, POPM: identical. *)
Theorem C14_popm : forall l after p, parse_popm l after = Ok p ->
  write_popm p = l /\ ~ In 0 (po_email p).
Proof. exact popm_identical. Qed.
Print Assumptions C14_popm.

(** C14, PRIV: identical. *)
Theorem C14_priv : forall l p, parse_priv l = Ok p -> write_priv p = l /\ ~ In 0 (pr_email p).
Proof. exact priv_identical. Qed.
Print Assumptions C14_priv.

(** C14, user-defined text: what was parsed is well-formed, hence (C12) written
    and parsed again it is the same. *)
Theorem C14_txxx : forall v l after t after',
  parse_txxx v l after = Ok t ->
  wf_txxx v t /\ parse_txxx v (write_txxx t) after' = Ok t.
Proof.
  exact (fun v l after t after' H =>
    conj (txxx_parsed_wf v l after t H)
         (proj1 (txxx_roundtrip v t after' (txxx_parsed_wf v l after t H)))).
Qed.
Print Assumptions C14_txxx.
Example C14_txxx_nontrivial : parse_txxx V22 [0; 65; 66; 0; 67] [] = Ok (mkTxxx 1 0 [65; 66] [67]).
Proof. reflexivity. Qed.

(** C14: a user-defined text whose description is terminated is rewritten
    identically. *)
Theorem C14_txxx_identical : forall v u w r after t, nul_width v u w -> has_terminator w r ->
  parse_txxx v (u :: r) after = Ok t -> write_txxx t = u :: r.
Proof. exact txxx_identical'. Qed.
Print Assumptions C14_txxx_identical.

(** C14, comments of at least four bytes. *)
Theorem C14_comm_partial : forall v l after c after', 4 <= len l -> parse_comm v l after = Ok c ->
  wf_comm v c /\ exists b, write_comm c = Ok b /\ parse_comm v b after' = Ok c.
Proof.
  exact (fun v l after c after' H4 H =>
    let W := comm_parsed_wf v l after c H4 H in
    conj W match comm_roundtrip v c after' W with
           | ex_intro _ b (conj Hw (conj _ Hp)) => ex_intro _ b (conj Hw Hp)
           end).
Qed.
Print Assumptions C14_comm_partial.
Example C14_comm_nontrivial :
  parse_comm V23 ([0] ++ B "eng" ++ [65; 0; 66]) [] = Ok (mkComm 1 (Some 0) (Some (B "eng")) [65] [66]).
Proof. reflexivity. Qed.

Theorem C14_comm_identical : forall v u w lg r after c,
  len lg = 3 -> nul_width v u w -> has_terminator w r ->
  parse_comm v (u :: lg ++ r) after = Ok c -> write_comm c = Ok (u :: lg ++ r).
Proof. exact comm_identical'. Qed.
Print Assumptions C14_comm_identical.

(** C14 fails for shorter comment payloads: they are accepted, and writing them
    emits an indeterminate language. *)
Theorem C14_comm_refuted : exists l after c, parse_comm V23 l after = Ok c /\
  write_comm c = UB Uninitialised.
Proof. exact comm_short_refuted. Qed.
Print Assumptions C14_comm_refuted.

(** C14 fails for user-defined text whose two-byte description is cut short: the
    parser takes in a byte of the following frame. *)
Theorem C14_frame_boundary_refuted : exists l a1 a2 t1 t2, a1 <> [] /\ a2 <> [] /\
  parse_txxx V23 l a1 = Ok t1 /\ parse_txxx V23 l a2 = Ok t2 /\ ud_desc t1 <> ud_desc t2.
Proof. exact txxx_overread_refuted. Qed.
Print Assumptions C14_frame_boundary_refuted.

(** C14, C20: POPM and PRIV payloads without a NUL make the parser leave the
    payload. *)
Theorem C14_popm_refuted : exists l after, 0 < len l /\ parse_popm l after = UB OutOfBounds.
Proof. exact popm_short_refuted. Qed.
Print Assumptions C14_popm_refuted.

Theorem C14_priv_refuted : exists l, 0 < len l /\ parse_priv l = UB BadIterator.
Proof. exact priv_short_refuted. Qed.
Print Assumptions C14_priv_refuted.
