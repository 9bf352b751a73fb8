(** * C03, C04, C05: the unsynchronisation scheme. *)
From Verif Require Import Base M_Unsync S_Unsync L_Unsync.

(** C03: reversing the scheme returns the payload. *)
Theorem C03_resynchronise_unsynchronise : forall (l : bytes) (last : bool),
  resynchronise (unsynchronise l last) = l.
Proof. exact resync_unsync. Qed.
Print Assumptions C03_resynchronise_unsynchronise.
Example C03_resynchronise_unsynchronise_nontrivial :
  unsynchronise [255; 255; 0; 255; 224; 7; 255] true
  = [255; 0; 255; 0; 0; 255; 0; 224; 7; 255; 0].
Proof. reflexivity. Qed.

(** C03: the in-place decoder removes exactly the zeros that follow an ff. *)
Theorem C03_resynchronise_exact : forall l m : bytes, desync l m <-> resynchronise l = m.
Proof. exact resynchronise_desync. Qed.
Print Assumptions C03_resynchronise_exact.
Example C03_resynchronise_exact_nontrivial :
  desync [255; 0; 0; 1; 255; 255; 0] [255; 0; 1; 255; 255].
Proof. apply resynchronise_desync. reflexivity. Qed.

(** C03: it never lengthens the data. *)
Theorem C03_resynchronise_shrinks : forall l : bytes,
  (length (resynchronise l) <= length l)%nat.
Proof. exact resynchronise_length. Qed.
Print Assumptions C03_resynchronise_shrinks.

(** C04: no false sync survives. *)
Theorem C04_no_false_sync : forall (l : bytes) (last : bool) (i : nat), is_bytes l ->
  ~ false_sync_at (unsynchronise l last) i.
Proof. exact unsync_no_false_sync. Qed.
Print Assumptions C04_no_false_sync.
Example C04_no_false_sync_nontrivial :
  is_bytes [255; 251; 144] /\ false_sync_at [255; 251; 144] 0.
Proof.
  split; [repeat constructor|]. split; [reflexivity|]. exists 251. split; [reflexivity|lia].
Qed.

(** C04: with the end-of-tag option the last byte is not ff. *)
Theorem C04_last_not_ff : forall l : bytes, last (unsynchronise l true) 0 <> 255.
Proof. exact unsync_last_not_ff. Qed.
Print Assumptions C04_last_not_ff.

(** C04: exactly one byte is added per position that needs protection: an ff
    followed by 00 or by a byte with the top three bits set, or (with the
    end-of-tag option) a final ff. *)
Theorem C04_growth : forall (l : bytes) (last : bool), is_bytes l ->
  length (unsynchronise l last) =
  (length l + length (filter (needs_protection l last) (seq 0 (length l))))%nat.
Proof. exact unsync_length. Qed.
Print Assumptions C04_growth.
Example C04_growth_nontrivial : is_bytes [255; 0; 255; 233; 255].
Proof. repeat constructor. Qed.

(** C05 is false of the code: ff e0 is altered by the scheme but the test does
    not report it. *)
Theorem C05_test_agrees_refuted : exists l : bytes, is_bytes l /\
  count_syncs l false = 0 /\ unsynchronise l false <> l.
Proof. exact count_syncs_refuted. Qed.
Print Assumptions C05_test_agrees_refuted.

(** What is true: the test agrees with the scheme on data in which no ff is
    followed by a byte in e0..e9.  Missing from the full claim: those pairs. *)
Theorem C05_test_agrees_partial : forall l : bytes, is_bytes l ->
  (forall i q, nth_error l i = Some 255 -> nth_error l (S i) = Some q ->
     ~ (224 <= q <= 233)) ->
  (count_syncs l false = 0 <-> unsynchronise l false = l).
Proof. exact count_syncs_0. Qed.
Print Assumptions C05_test_agrees_partial.
Example C05_test_agrees_partial_nontrivial :
  (forall i q, nth_error [255; 251; 255; 0] i = Some 255 ->
     nth_error [255; 251; 255; 0] (S i) = Some q -> ~ (224 <= q <= 233)) /\
  count_syncs [255; 251; 255; 0] false = 2.
Proof.
  split; [|reflexivity]. intros i q H1 H2.
  destruct i as [|[|[|[|i]]]]; simpl in *; try discriminate; injection H2 as <-; lia.
Qed.

(** The pairs on which the false-sync test is wrong are exactly ff e0..ff e9. *)
Theorem C05_false_sync_disagreement : forall x y : N, x < 256 -> y < 256 ->
  (is_false_sync x y = true <-> x = 255 /\ 224 <= y) <-> ~ (x = 255 /\ 224 <= y <= 233).
Proof. exact false_sync_disagreement. Qed.
Print Assumptions C05_false_sync_disagreement.
Example C05_false_sync_disagreement_nontrivial : is_false_sync 255 230 = false.
Proof. reflexivity. Qed.
