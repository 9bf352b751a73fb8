(** * Properties: ID3v1 tags constructed from a stream (C103). *)
From Verif Require Import Base M_Stream M_Id3v1 S_Id3v1 L_Id3v1c L_Id3v1b M_Open1 S_Open1.

Lemma read_here pre blk post e st n : st = 0 -> len blk = n ->
  sread n (mkIs (pre ++ blk ++ post) (len pre) e st) = (Ok blk, mkIs (pre ++ blk ++ post) (len pre + n) e 0).
Proof.
  intros -> L. unfold sread. cbn [s_state s_pos s_data s_exc N.eqb].
  assert (E : slice (len pre) n (pre ++ blk ++ post) = blk).
  { unfold slice. rewrite (dropN_app_exact (len pre) pre _ eq_refl). apply takeN_app_exact. exact L. }
  rewrite E, L, N.eqb_refl. reflexivity.
Qed.
Lemma init_std blk : v1_block false blk -> exists t, init_standard blk = Ok t /\ v1_write t = Ok blk /\ v_extended t = false /\ wf_v1 t.
Proof. intros (L & T). destruct (init_standard_ok blk T) as (t & E). exists t. split; [exact E|]. exact (std_rewrite blk t L E). Qed.
Lemma init_ext blk : v1_block true blk -> exists t, init_extended blk = Ok t /\ v1_write t = Ok blk /\ v_extended t = true /\ wf_v1 t.
Proof. intros (L & T & U). destruct (init_extended_ok blk T U) as (t & E). exists t. split; [exact E|]. exact (ext_rewrite blk t L E). Qed.

(** ** A tag at the end of the stream, of either kind: it is told which of the two it is,
    the fields are those in the block, and the stream is behind it, with its mask. *)
Theorem C103_found : forall enhanced pre blk e, v1_block enhanced blk ->
  exists t, id3v1_from_stream (mkIs (pre ++ blk) (len pre) e 0) = (Ok t, mkIs (pre ++ blk) (len pre + v1_length enhanced) e 0) /\
    v1_write t = Ok blk /\ v_extended t = enhanced.
Proof.
  intros enhanced pre blk e H.
  assert (L : len blk = v1_length enhanced) by (destruct enhanced; apply H).
  assert (D : len (pre ++ blk) = len pre + v1_length enhanced) by (rewrite len_app, L; reflexivity).
  assert (R : sread (v1_length enhanced) (mkIs (pre ++ blk) (len pre) all_bits 0) = (Ok blk, mkIs (pre ++ blk) (len pre + v1_length enhanced) all_bits 0)).
  { pose proof (read_here pre blk [] all_bits 0 (v1_length enhanced) eq_refl L) as R. rewrite app_nil_r in R. exact R. }
  assert (Z : 0 <=? len (pre ++ blk) = true) by (apply N.leb_le, N.le_0_l).
  assert (Le : len pre <=? len pre + v1_length enhanced = true) by (apply N.leb_le, N.le_add_r).
  assert (Su : len pre + v1_length enhanced - len pre = v1_length enhanced) by (rewrite N.add_comm; apply N.add_sub).
  unfold id3v1_from_stream, sbind, get_exc, set_exc, tellg, scatch, seekg_end, seekg, all_bits in *. cbn [s_data s_pos s_exc s_state N.land N.eqb N.ldiff N.lor].
  rewrite Z. cbn [s_data s_pos s_exc s_state N.land N.eqb N.ldiff N.lor]. rewrite N.sub_0_r, D, Le, Su. cbn [andb].
  destruct enhanced; cbn [v1_length N.eqb Pos.eqb] in *.
  - rewrite R. destruct (init_ext blk H) as (t & E & W & X & _). unfold lift. rewrite E. cbn [s_state N.land N.eqb sret]. exists t. auto.
  - rewrite R. destruct (init_std blk H) as (t & E & W & X & _). unfold lift. rewrite E. cbn [s_state N.land N.eqb sret]. exists t. auto.
Qed.
Print Assumptions C103_found.
Example C103_found_nontrivial : v1_block true (B "TAG+" ++ repeatN 1 223 ++ B "TAG" ++ repeatN 2 125) /\ v1_block false (B "TAG" ++ repeatN 7 125).
Proof. vm_compute. repeat split. Qed.

(** ** A tag anywhere, of a kind that is known: the same, whatever follows; but the mask is
    lost, whatever it was. *)
Theorem C103_known_partial : forall enhanced pre blk post e, v1_block enhanced blk ->
  exists t, id3v1_known enhanced (mkIs (pre ++ blk ++ post) (len pre) e 0) =
      (Ok t, mkIs (pre ++ blk ++ post) (len pre + v1_length enhanced) all_bits 0) /\
    v1_write t = Ok blk /\ v_extended t = enhanced.
Proof.
  intros enhanced pre blk post e H.
  assert (L : len blk = v1_length enhanced) by (destruct enhanced; apply H).
  pose proof (read_here pre blk post all_bits 0 (v1_length enhanced) eq_refl L) as R.
  unfold id3v1_known, sbind, get_exc, set_exc, tellg, scatch, all_bits in *. cbn [s_data s_pos s_exc s_state N.land N.eqb N.lor].
  destruct enhanced; cbn [v1_length] in *; rewrite R.
  - destruct (init_ext blk H) as (t & E & W & X & _). unfold lift. rewrite E. exists t. auto.
  - destruct (init_std blk H) as (t & E & W & X & _). unfold lift. rewrite E. exists t. auto.
Qed.
Print Assumptions C103_known_partial.
Theorem C103_mask_refuted : forall enhanced s t s', id3v1_known enhanced s = (Ok t, s') -> s_exc s' = all_bits.
Proof.
  intros enhanced [data pos e st] t s' H. unfold id3v1_known, sbind, get_exc, set_exc, tellg in H. cbn [s_data s_pos s_exc s_state] in H.
  destruct (N.land st all_bits =? 0); [|discriminate H]. cbn [s_data s_pos s_exc s_state] in H.
  destruct (N.land st (N.lor badbit failbit) =? 0); [|discriminate H].
  assert (M : forall n b s1, sread n (mkIs data pos all_bits st) = (Ok b, s1) -> s_exc s1 = all_bits).
  { intros n b s1 E. unfold sread, setstate in E. cbn [s_data s_pos s_exc s_state] in E.
    destruct (st =? 0).
    - destruct (_ =? n); [injection E as _ <-; reflexivity|]. destruct (N.land _ _ =? 0); [injection E as _ <-; reflexivity|discriminate E].
    - destruct (N.land _ _ =? 0); [injection E as _ <-; reflexivity|discriminate E]. }
  unfold scatch in H.
  assert (K : forall n (f : bytes -> outcome id3v1_tag) h, match (match sread n (mkIs data pos all_bits st) with (Ok a, s1) => lift (f a) s1 | (Throw x, s1) => (Throw x, s1) | (UB u, s1) => (UB u, s1) | (NonTerm, s1) => (NonTerm, s1) end) with
      | (Throw IosFailure, s1) => h s1 | r => r end = (Ok t, s') -> (forall s1, fst (h s1) <> Ok t) -> s_exc s' = all_bits).
  { intros n f h K Nh. destruct (sread n (mkIs data pos all_bits st)) as [r s1] eqn:E. destruct r as [b|x|u|]; try discriminate K.
    - unfold lift in K. destruct (f b) as [t0|x|u|]; try discriminate K.
      + injection K as _ <-. exact (M n b s1 E).
      + destruct x; try discriminate K. exfalso. apply (Nh s1). now rewrite K.
    - destruct x; try discriminate K. exfalso. apply (Nh s1). now rewrite K. }
  assert (Nh : forall s1, fst ((fun s => match (let s2 := mkIs (s_data s) (s_pos s) goodbit (s_state s) in if N.land (s_state s) goodbit =? 0 then (Ok tt, s2) else (Throw IosFailure, s2)) with
      | (Ok _, s2) => match seekg pos s2 with (Ok _, s3) => match (let s4 := mkIs (s_data s3) (s_pos s3) e (s_state s3) in if N.land (s_state s3) e =? 0 then (Ok tt, s4) else (Throw IosFailure, s4)) with
          | (Ok _, s4) => sthrow InvalidTag s4 | (Throw x, s4) => (Throw x, s4) | (UB u, s4) => (UB u, s4) | (NonTerm, s4) => (NonTerm, s4) end
        | (Throw x, s3) => (Throw x, s3) | (UB u, s3) => (UB u, s3) | (NonTerm, s3) => (NonTerm, s3) end
      | (Throw x, s2) => (Throw x, s2) | (UB u, s2) => (UB u, s2) | (NonTerm, s2) => (NonTerm, s2) end) s1) <> Ok t).
  { intros s1. cbv beta zeta. destruct (N.land (s_state s1) goodbit =? 0); [|discriminate]. destruct (seekg pos _) as [[?|?|?|] s3]; try discriminate.
    destruct (N.land (s_state s3) e =? 0); discriminate. }
  destruct enhanced; [exact (K 355 init_extended _ H Nh)|exact (K 128 init_standard _ H Nh)].
Qed.
Print Assumptions C103_mask_refuted.
Example C103_known_nontrivial : let blk := B "TAG" ++ repeatN 7 125 in let s := mkIs ([1; 2] ++ blk ++ [3]) 2 0 0 in v1_block false blk /\
  exists t s', id3v1_known false s = (Ok t, s') /\ s_exc s' <> s_exc s.
Proof. split; [vm_compute; repeat split|]. eexists _, _. split; [vm_compute; reflexivity|discriminate]. Qed.

(** ** Errors *)

(** What is there is not marked as a tag: an [invalid_tag]; the stream is behind it, not
    where it was, and its mask is lost. *)
Theorem C103_unmarked_refuted : forall pre blk post e, len blk = 128 -> takeN 3 blk <> B "TAG" ->
  id3v1_known false (mkIs (pre ++ blk ++ post) (len pre) e 0) = (Throw InvalidTag, mkIs (pre ++ blk ++ post) (len pre + 128) all_bits 0) /\
  id3v1_from_stream (mkIs (pre ++ blk) (len pre) e 0) = (Throw InvalidTag, mkIs (pre ++ blk) (len pre + 128) all_bits 0).
Proof.
  intros pre blk post e L T.
  assert (E : init_standard blk = Throw InvalidTag).
  { unfold init_standard, slice. rewrite dropN_0. destruct (bytes_eqb (takeN 3 blk) (B "TAG")) eqn:Q; [|reflexivity]. apply bytes_eqb_eq in Q. contradiction. }
  split.
  - pose proof (read_here pre blk post all_bits 0 128 eq_refl L) as R.
    unfold id3v1_known, sbind, get_exc, set_exc, tellg, scatch, all_bits in *. cbn [s_data s_pos s_exc s_state N.land N.eqb N.lor]. rewrite R. unfold lift. rewrite E. reflexivity.
  - pose proof (read_here pre blk [] all_bits 0 128 eq_refl L) as R. rewrite app_nil_r in R.
    assert (D : len (pre ++ blk) = len pre + 128) by (rewrite len_app, L; reflexivity).
    assert (Z : 0 <=? len (pre ++ blk) = true) by (apply N.leb_le, N.le_0_l).
    assert (Le : len pre <=? len pre + 128 = true) by (apply N.leb_le, N.le_add_r).
    assert (Su : len pre + 128 - len pre = 128) by (rewrite N.add_comm; apply N.add_sub).
    unfold id3v1_from_stream, sbind, get_exc, set_exc, tellg, scatch, seekg_end, seekg, all_bits in *. cbn [s_data s_pos s_exc s_state N.land N.eqb N.ldiff N.lor].
    rewrite Z. cbn [s_data s_pos s_exc s_state N.land N.eqb N.ldiff N.lor]. rewrite N.sub_0_r, D, Le, Su. cbn [andb N.eqb Pos.eqb].
    rewrite R. unfold lift. rewrite E. reflexivity.
Qed.
Print Assumptions C103_unmarked_refuted.

(** Something of another length is left of the stream: an [invalid_tag]; the stream is where
    it was, but its mask is lost. *)
Theorem C103_length_refuted : forall pre rest e, len rest <> 128 -> len rest <> 355 ->
  id3v1_from_stream (mkIs (pre ++ rest) (len pre) e 0) = (Throw InvalidTag, mkIs (pre ++ rest) (len pre) all_bits 0).
Proof.
  intros pre rest e N1 N2.
  assert (D : len (pre ++ rest) = len pre + len rest) by apply len_app.
  assert (Z : 0 <=? len (pre ++ rest) = true) by (apply N.leb_le, N.le_0_l).
  assert (Su : len pre + len rest - len pre = len rest) by (rewrite N.add_comm; apply N.add_sub).
  apply N.eqb_neq in N1, N2.
  unfold id3v1_from_stream, sbind, get_exc, set_exc, tellg, scatch, seekg_end, seekg, all_bits in *. cbn [s_data s_pos s_exc s_state N.land N.eqb N.ldiff N.lor].
  rewrite Z. cbn [s_data s_pos s_exc s_state N.land N.eqb N.ldiff N.lor]. rewrite N.sub_0_r, D, Su, N1, N2, !andb_false_r. reflexivity.
Qed.
Print Assumptions C103_length_refuted.

(** Too little is there for the kind asked for: the stream is at its end with its failbit
    set, not where it was, and what is thrown is an [invalid_tag] only to a caller who has
    not asked for exceptions. *)
Theorem C103_short_refuted : forall enhanced pre rest e, len rest < v1_length enhanced ->
  id3v1_known enhanced (mkIs (pre ++ rest) (len pre) e 0) =
    (Throw (if N.testbit e 2 then IosFailure else InvalidTag), mkIs (pre ++ rest) (len pre + len rest) e failbit).
Proof.
  intros enhanced pre rest e L.
  assert (E : forall n, len rest < n -> sread n (mkIs (pre ++ rest) (len pre) all_bits 0) = (Throw IosFailure, mkIs (pre ++ rest) (len pre + len rest) all_bits 6)).
  { intros n Ln. unfold sread, slice. cbn [s_state s_pos s_data s_exc N.eqb]. rewrite (dropN_app_exact (len pre) pre _ eq_refl).
    rewrite (takeN_all n rest) by (apply N.lt_le_incl; exact Ln). destruct (len rest =? n) eqn:Q; [apply N.eqb_eq in Q; rewrite Q in Ln; destruct (N.lt_irrefl _ Ln)|]. reflexivity. }
  assert (T : N.land 4 e =? 0 = negb (N.testbit e 2)).
  { change 4 with (2 ^ 2). destruct (N.testbit e 2) eqn:Q; cbn [negb].
    - apply N.eqb_neq. intros Hz. assert (X : N.testbit (N.land (2 ^ 2) e) 2 = false) by (rewrite Hz; apply N.bits_0). rewrite N.land_spec, Q in X. discriminate X.
    - apply N.eqb_eq. apply N.bits_inj_0. intros i. rewrite N.land_spec. destruct (N.eq_dec i 2) as [->|Ni]; [rewrite Q; apply andb_false_r|].
      rewrite (N.pow2_bits_false 2 i); [reflexivity|]. intros H. apply Ni. now symmetry. }
  assert (H : forall d p here, (do _ <- set_exc goodbit;; do _ <- seekg here;; do _ <- set_exc e;; @sthrow id3v1_tag InvalidTag) (mkIs d p all_bits 6) =
    (Throw (if N.testbit e 2 then IosFailure else InvalidTag), mkIs d p e failbit)).
  { intros d p here. unfold sbind at 1. change (set_exc goodbit (mkIs d p all_bits 6)) with (@Ok unit tt, mkIs d p goodbit 6). unfold sbind at 1.
    change (seekg here (mkIs d p goodbit 6)) with (@Ok unit tt, mkIs d p goodbit 4). unfold sbind, set_exc. cbn [s_data s_pos s_exc s_state].
    rewrite T. destruct (N.testbit e 2); reflexivity. }
  unfold id3v1_known. unfold sbind at 1. cbn [get_exc s_exc]. unfold sbind at 1.
  change (set_exc all_bits (mkIs (pre ++ rest) (len pre) e 0)) with (@Ok unit tt, mkIs (pre ++ rest) (len pre) all_bits 0). unfold sbind at 1.
  change (tellg (mkIs (pre ++ rest) (len pre) all_bits 0)) with (Ok (len pre), mkIs (pre ++ rest) (len pre) all_bits 0).
  unfold scatch. destruct enhanced; cbn [v1_length] in L; unfold sbind at 1; rewrite (E _ L); apply H.
Qed.
Print Assumptions C103_short_refuted.
Example C103_short_nontrivial :
  fst (id3v1_known true (mkIs ([5] ++ B "TAG" ++ repeatN 7 125) 1 (N.lor eofbit failbit) 0)) = Throw IosFailure /\
  fst (id3v1_known true (mkIs ([5] ++ B "TAG" ++ repeatN 7 125) 1 goodbit 0)) = Throw InvalidTag.
Proof. split; vm_compute; reflexivity. Qed.
Example C103_unmarked_nontrivial : let s := mkIs ([5] ++ repeatN 7 128) 1 0 0 in
  fst (id3v1_from_stream s) = Throw InvalidTag /\ s_exc (snd (id3v1_from_stream s)) = 7 /\ s_pos (snd (id3v1_from_stream s)) = 129 /\
  let u := mkIs ([5] ++ B "TAG" ++ repeatN 7 100) 1 0 0 in
  fst (id3v1_from_stream u) = Throw InvalidTag /\ s_exc (snd (id3v1_from_stream u)) = 7 /\ s_pos (snd (id3v1_from_stream u)) = 1.
Proof. vm_compute. repeat split. Qed.
