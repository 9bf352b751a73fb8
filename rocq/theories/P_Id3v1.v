(** * C06, C07, C08, C09: ID3v1 tags. *)
From Verif Require Import Base M_Stream M_Id3v1 S_Id3v1 L_Stream L_Id3v1b L_Id3v1c.

(** C06: a well-formed tag, written and re-read, has the same fields. *)
Theorem C06_write_read : forall t : id3v1_tag, wf_v1 t ->
  exists b t', v1_write t = Ok b /\ len b = v1_size t /\
    (if v_extended t then init_extended b else init_standard b) = Ok t' /\ same_tag t t'.
Proof. exact v1_roundtrip. Qed.
Print Assumptions C06_write_read.
Example C06_write_read_nontrivial :
  wf_v1 (mkV1 true true (repeatN 65 90) (repeatN 66 90) (repeatN 67 28) 17 (repeatN 68 30)
              (Some (B "000:10")) (Some (B "003:59")) (Some 2) (repeatN 69 90) (Some 9) (B "1999")).
Proof. constructor; cbn; try reflexivity; try discriminate; repeat split; eauto; eexists; split; reflexivity || discriminate. Qed.

(** C06 fails for a v1.1 tag whose track number is 0 (not well-formed, but
    reachable through [set_track_number]): it comes back as v1.0. *)
Theorem C06_track_zero_refuted : exists t b t', v1_origin t /\
    v1_write (v1_apply t (SetTrack 0)) = Ok b /\ init_standard b = Ok t' /\
    v_v1_1 (v1_apply t (SetTrack 0)) = true /\ v_v1_1 t' = false.
Proof. exact v1_track0_refuted. Qed.
Print Assumptions C06_track_zero_refuted.

(** C07 is false: setting the speed of a tag read as a standard one makes the
    next write read outside the title. *)
Theorem C07_histories_writable_refuted :
  exists t hist, v1_origin t /\ v1_write (fold_left v1_apply hist t) = UB OutOfBounds.
Proof. exact v1_history_refuted. Qed.
Print Assumptions C07_histories_writable_refuted.

(** ... and tags made from scratch are written from uninitialised members. *)
Theorem C07_scratch_uninitialised_refuted :
  v1_write (v1_scratch false true) = UB Uninitialised /\
  v1_write (v1_scratch true false) = UB Uninitialised /\
  v1_write (v1_apply (v1_scratch false false) (SetStart (B "000:10"))) = UB OutOfBounds.
Proof. exact v1_scratch_refuted. Qed.
Print Assumptions C07_scratch_uninitialised_refuted.

(** What is true: for tags read from a file, and for tags made from scratch
    whose track number (v1.1) and speed (enhanced) are set at some point, every
    history that uses the enhanced-only setters on enhanced tags only leaves a
    tag that writes exactly [size()] bytes.  Missing from the full claim: the
    histories excluded here. *)
Theorem C07_histories_writable_partial : forall t hist,
  v1_origin t \/
  (exists v11 enh, t = v1_scratch v11 enh /\
     (v11 = true -> exists n, In (SetTrack n) hist) /\
     (enh = true -> exists s, In (SetSpeed s) hist)) ->
  (v_extended t = false -> forall op, In op hist -> enhanced_setter op = false) ->
  exists b, v1_write (fold_left v1_apply hist t) = Ok b /\
            len b = v1_size (fold_left v1_apply hist t).
Proof. exact v1_history_partial. Qed.
Print Assumptions C07_histories_writable_partial.
Example C07_histories_writable_partial_nontrivial :
  exists t, v1_origin t /\ v_extended t = true /\
  forall op, In op [SetTitle (B "x"); SetTrack 0; SetSpeed 3] -> 
    v_extended t = false -> enhanced_setter op = false.
Proof.
  destruct (init_extended (B "TAG+" ++ repeatN 0 223 ++ B "TAG" ++ repeatN 0 125)) as [t| | |] eqn:E;
    try (vm_compute in E; discriminate).
  exists t. split; [eapply from_ext; [|exact E]; reflexivity|].
  assert (v_extended t = true) by (revert E; vm_compute; intros [= <-]; reflexivity).
  split; [assumption|]. congruence.
Qed.

(** C07: the last value given to a field is the one it holds (cut or padded to
    the field's size), whatever else was set before and after. *)
Theorem C07_last_set_wins : forall t h1 op h2,
  (forall op', In op' h2 -> same_setter op op' = false) ->
  field_bytes op (fold_left v1_apply (h1 ++ op :: h2) t) =
  Some (stored_value op (v_extended (fold_left v1_apply h1 t))).
Proof. exact last_write_wins. Qed.
Print Assumptions C07_last_set_wins.
Example C07_last_set_wins_nontrivial :
  forall op', In op' [SetArtist (B "b"); SetTrack 3] -> same_setter (SetTitle (B "a")) op' = false.
Proof. intros op' [<-|[<-|[]]]; reflexivity. Qed.

(** C08: reading a block and writing it out again reproduces it. *)
Theorem C08_standard_block : forall blk t, len blk = 128 -> init_standard blk = Ok t ->
  v1_write t = Ok blk /\ v_extended t = false /\ wf_v1 t.
Proof. exact std_rewrite. Qed.
Print Assumptions C08_standard_block.
Theorem C08_enhanced_block : forall blk t, len blk = 355 -> init_extended blk = Ok t ->
  v1_write t = Ok blk /\ v_extended t = true /\ wf_v1 t.
Proof. exact ext_rewrite. Qed.
Print Assumptions C08_enhanced_block.

(** ... and exactly the blocks with the markers are accepted. *)
Theorem C08_standard_accepted : forall blk, takeN 3 blk = B "TAG" -> exists t, init_standard blk = Ok t.
Proof. exact init_standard_ok. Qed.
Print Assumptions C08_standard_accepted.
Theorem C08_enhanced_accepted : forall blk, takeN 4 blk = B "TAG+" -> slice 227 3 blk = B "TAG" ->
  exists t, init_extended blk = Ok t.
Proof. exact init_extended_ok. Qed.
Print Assumptions C08_enhanced_accepted.
Example C08_nontrivial :
  takeN 3 (B "TAG" ++ repeatN 7 125) = B "TAG" /\ len (B "TAG" ++ repeatN 7 125) = 128 /\
  takeN 4 (B "TAG+" ++ repeatN 1 223 ++ B "TAG" ++ repeatN 2 125) = B "TAG+" /\
  slice 227 3 (B "TAG+" ++ repeatN 1 223 ++ B "TAG" ++ repeatN 2 125) = B "TAG" /\
  len (B "TAG+" ++ repeatN 1 223 ++ B "TAG" ++ repeatN 2 125) = 355.
Proof. vm_compute. auto. Qed.

(** C09: the probe finds a tag exactly when the file ends in one, says where it
    is, and leaves the stream as it was. *)
Theorem C09_probe_exact : forall s, good s ->
  exists i, ends_in_id3v1 s = (Ok i, s) /\
  (v1i_type i = v1_ext <-> ends_in_block (s_data s) 355 (B "TAG+")) /\
  (v1i_type i = v1_std <->
     ends_in_block (s_data s) 128 (B "TAG") /\ ~ ends_in_block (s_data s) 355 (B "TAG+")) /\
  v1i_end i = len (s_data s) /\
  v1i_start i = len (s_data s) - match v1i_type i with v1_none => 0 | v1_std => 128 | v1_ext => 355 end.
Proof. exact probe_exact. Qed.
Print Assumptions C09_probe_exact.
Example C09_probe_exact_nontrivial :
  good (mkIs (B "audioTAG" ++ repeatN 7 125) 3 4 0) /\
  ends_in_block (B "audioTAG" ++ repeatN 7 125) 128 (B "TAG").
Proof. split; [reflexivity|]. exists (B "audio"), (B "TAG" ++ repeatN 7 125). repeat split. Qed.

(** C09: removal truncates exactly the trailing tag. *)
Theorem C09_remove : forall file f, maybe_remove_id3v1 file = Ok f ->
  (f = file /\ ~ ends_in_block file 355 (B "TAG+") /\ ~ ends_in_block file 128 (B "TAG")) \/
  (exists blk, file = f ++ blk /\
     ((len blk = 128 /\ takeN 3 blk = B "TAG" /\ ~ ends_in_block file 355 (B "TAG+")) \/
      (len blk = 355 /\ takeN 4 blk = B "TAG+" /\ slice 227 3 blk = B "TAG"))).
Proof. exact remove_spec. Qed.
Print Assumptions C09_remove.

(** C09: removal succeeds on every file but those with a TAG+ at -355 and no TAG
    at -128; those throw. *)
Theorem C09_remove_total_partial : forall file, 
  ~ (ends_in_block file 355 (B "TAG+") /\ ~ ends_in_block file 128 (B "TAG")) ->
  exists f, maybe_remove_id3v1 file = Ok f.
Proof. exact remove_total. Qed.
Print Assumptions C09_remove_total_partial.
Theorem C09_remove_total_refuted : exists file, maybe_remove_id3v1 file = Throw InvalidTag.
Proof. exact remove_broken_refuted. Qed.
Print Assumptions C09_remove_total_refuted.
Example C09_remove_nontrivial :
  maybe_remove_id3v1 (B "audioTAG" ++ repeatN 7 125) = Ok (B "audio") /\
  ~ (ends_in_block (B "audioTAG" ++ repeatN 7 125) 355 (B "TAG+") /\
     ~ ends_in_block (B "audioTAG" ++ repeatN 7 125) 128 (B "TAG")).
Proof.
  split; [vm_compute; reflexivity|]. intros [H _]. apply ends_in_block_len in H.
  vm_compute in H. auto.
Qed.

(** C09: replacement leaves the preceding bytes followed by the new tag, and
    that tag is read back.  Excluded: a standard tag after which the file
    happens to have TAG+ 355 bytes before its end. *)
Theorem C09_replace_partial : forall file t f, wf_v1 t -> replace_id3v1 file t = Ok f ->
  (v_extended t = false -> ~ ends_in_block f 355 (B "TAG+")) ->
  exists base b, maybe_remove_id3v1 file = Ok base /\ v1_write t = Ok b /\ f = base ++ b /\
    len b = v1_size t /\
    exists t', fst (process_id3v1 (open_file f all_bits)) = Ok (Some t') /\ same_tag t t'.
Proof. exact replace_read. Qed.
Print Assumptions C09_replace_partial.
Theorem C09_replace_refuted : exists file t f, wf_v1 t /\ replace_id3v1 file t = Ok f /\
  fst (process_id3v1 (open_file f all_bits)) <> Ok (Some t) /\
  exists t', fst (process_id3v1 (open_file f all_bits)) = Ok (Some t') /\ v_extended t' = true.
Proof. exact replace_accident_refuted. Qed.
Print Assumptions C09_replace_refuted.
Example C09_replace_partial_nontrivial :
  exists t f, wf_v1 t /\ replace_id3v1 (B "audio") t = Ok f /\
  (v_extended t = false -> ~ ends_in_block f 355 (B "TAG+")).
Proof.
  destruct (init_standard (B "TAG" ++ repeatN 7 125)) as [t| | |] eqn:E;
    try (vm_compute in E; discriminate).
  destruct (std_rewrite (B "TAG" ++ repeatN 7 125) t eq_refl E) as (Hw & _ & W).
  exists t, (B "audio" ++ B "TAG" ++ repeatN 7 125). split; [exact W|]. split.
  - unfold replace_id3v1.
    replace (maybe_remove_id3v1 (B "audio")) with (Ok (B "audio")) by (vm_compute; reflexivity).
    cbn [bind]. rewrite Hw. reflexivity.
  - intros _ H. apply ends_in_block_len in H. vm_compute in H. auto.
Qed.

(** The documentation of [process_id3v1] promises that the read pointer is
    restored; it is not when a tag is found. *)
Theorem C09_position_restored_refuted : exists s t s', good s /\
  process_id3v1 s = (Ok (Some t), s') /\ s_pos s' <> s_pos s.
Proof. exact process_position_refuted. Qed.
Print Assumptions C09_position_restored_refuted.
