(** * Lemmas: locating, removing and replacing the trailing ID3v1 tag. *)
From Verif Require Import Base M_Stream M_Id3v1 S_Id3v1 L_Stream L_Id3v1 L_Id3v1b.

Definition v1_find (d : bytes) : id3v1_info :=
  if (355 <=? len d) && bytes_eqb (slice (len d - 355) 4 d) (B "TAG+")
  then mkV1Info v1_ext (len d - 355) (len d)
  else if (128 <=? len d) && bytes_eqb (slice (len d - 128) 3 d) (B "TAG")
  then mkV1Info v1_std (len d - 128) (len d)
  else mkV1Info v1_none (len d) (len d).

Lemma seekg_end_good n s : good s -> n <= len (s_data s) ->
  seekg_end n s = (Ok tt, mkIs (s_data s) (len (s_data s) - n) (s_exc s) 0).
Proof.
  intros H Hn. unfold seekg_end. apply N.leb_le in Hn. rewrite Hn. now apply seekg_good.
Qed.

Lemma second_probe d p i1 : v1i_type i1 = v1_none -> v1i_end i1 = len d ->
  (exists st pos ex,
  match v1i_type i1 with
            | v1_none =>
                scatch
                  (do _ <- seekg_end 128;;
                   do buf <- sread 3;;
                   do p <- tellg;;
                   sret (if bytes_eqb buf (B "TAG") then mkV1Info v1_std (p - 3) (v1i_end i1)
                         else i1))
                  (do _ <- set_exc goodbit;; do _ <- sclear;; sret i1)
            | _ => sret i1
            end (mkIs d p (N.lor failbit badbit) 0) =
  (Ok (if (128 <=? len d) && bytes_eqb (slice (len d - 128) 3 d) (B "TAG")
       then mkV1Info v1_std (len d - 128) (len d) else i1), mkIs d pos ex st) /\ st = 0).
Proof.
  intros -> He. unfold scatch, sbind.
  destruct (N.leb_spec 128 (len d)) as [Hl|Hl].
  - rewrite seekg_end_good by (reflexivity || exact Hl). cbn [s_data s_pos s_exc].
    rewrite sread_good; [|reflexivity|cbn [s_data s_pos]; rewrite slice_len by lia; reflexivity].
    cbn [s_data s_pos s_exc]. rewrite tellg_good by reflexivity. cbn [s_pos].
    unfold sret. rewrite He. replace (len d - 128 + 3 - 3) with (len d - 128) by lia.
    do 3 eexists. split; [|reflexivity]. cbn [andb].
    reflexivity.
  - unfold seekg_end. cbn [s_data].
    apply N.leb_gt in Hl. rewrite Hl. cbn. do 3 eexists. split; reflexivity.
Qed.

Lemma ends_in_eq s : good s -> ends_in_id3v1 s = (Ok (v1_find (s_data s)), s).
Proof.
  intros Hg. destruct s as [d q e st]. unfold good in Hg. cbn [s_state] in Hg. subst st.
  unfold ends_in_id3v1. unfold sbind at 1. unfold get_exc. cbn [s_exc].
  unfold sbind at 1. rewrite set_exc_good by reflexivity. cbn [s_data s_pos].
  unfold sbind at 1. rewrite tellg_good by reflexivity. cbn [s_data s_pos].
  unfold sbind at 1.
  cbv beta zeta.
  match goal with |- context [scatch ?a ?b ?s0] => set (X := scatch a b s0) end.
  assert (HX : exists p, X = (Ok (if (355 <=? len d) && bytes_eqb (slice (len d - 355) 4 d) (B "TAG+")
                   then mkV1Info v1_ext (len d - 355) (len d) else mkV1Info v1_none (len d) (len d)),
              mkIs d p (N.lor failbit badbit) 0)).
  { subst X. unfold scatch. unfold sbind at 1.
    rewrite seekg_end_good by (try reflexivity; apply N.le_0_l). cbn [s_data s_pos s_exc].
    unfold sbind at 1. rewrite tellg_good by reflexivity. cbn [s_pos].
    rewrite N.sub_0_r.
    destruct (N.leb_spec 355 (len d)) as [Hl|Hl].
    - unfold sbind at 1. rewrite seekg_end_good by (reflexivity || exact Hl). cbn [s_data s_pos s_exc].
      unfold sbind at 1.
      rewrite sread_good; [|reflexivity|cbn [s_data s_pos]; rewrite slice_len by lia; reflexivity].
      cbn [s_data s_pos s_exc]. unfold sbind at 1. rewrite tellg_good by reflexivity. cbn [s_pos].
      unfold sret. replace (len d - 355 + 4 - 4) with (len d - 355) by lia.
      eexists. reflexivity.
    - unfold sret. eexists. reflexivity. }
  destruct HX as [p ->].
  unfold v1_find. cbn [s_data].
  destruct ((355 <=? len d) && bytes_eqb (slice (len d - 355) 4 d) (B "TAG+")).
  - cbn [v1i_type]. unfold sbind at 1. unfold sret at 1.
    unfold sbind at 1. rewrite seekg_good by reflexivity. cbn [s_data s_pos s_exc].
    unfold sbind at 1. rewrite set_exc_good by reflexivity. reflexivity.
  - unfold sbind at 1.
    destruct (second_probe d p (mkV1Info v1_none (len d) (len d)) eq_refl eq_refl)
      as (st & pos & ex & -> & ->).
    unfold sbind at 1. rewrite seekg_good by reflexivity. cbn [s_data s_pos s_exc].
    unfold sbind at 1. rewrite set_exc_good by reflexivity. reflexivity.
Qed.

(** What the probe reports, said of the file. *)
Lemma slice_tail_block (d : bytes) n m mark : m = len mark -> n <= len d -> m <= n ->
  (slice (len d - n) m d = mark <-> ends_in_block d n mark).
Proof.
  intros -> Hn Hm. unfold ends_in_block, slice. split.
  - intros H. exists (takeN (len d - n) d), (dropN (len d - n) d).
    rewrite takeN_dropN. split; [reflexivity|]. split; [rewrite len_dropN; lia|assumption].
  - intros (pre & blk & -> & Hb & Ht). rewrite len_app, Hb in *.
    rewrite dropN_app_exact; [assumption|lia].
Qed.

Lemma ends_in_block_len d n mark : ends_in_block d n mark -> n <= len d.
Proof. intros (pre & blk & -> & Hb & _). rewrite len_app. lia. Qed.

Lemma ext_iff d : ((355 <=? len d) && bytes_eqb (slice (len d - 355) 4 d) (B "TAG+") = true)
  <-> ends_in_block d 355 (B "TAG+").
Proof.
  rewrite andb_true_iff, N.leb_le, bytes_eqb_eq. split.
  - intros [Hl H]. now apply (slice_tail_block d 355 4 (B "TAG+")).
  - intros H. pose proof (ends_in_block_len _ _ _ H). split; [assumption|].
    apply slice_tail_block; auto; lia.
Qed.

Lemma std_iff d : ((128 <=? len d) && bytes_eqb (slice (len d - 128) 3 d) (B "TAG") = true)
  <-> ends_in_block d 128 (B "TAG").
Proof.
  rewrite andb_true_iff, N.leb_le, bytes_eqb_eq. split.
  - intros [Hl H]. now apply (slice_tail_block d 128 3 (B "TAG")).
  - intros H. pose proof (ends_in_block_len _ _ _ H). split; [assumption|].
    apply slice_tail_block; auto; lia.
Qed.

Lemma v1_find_spec d :
  (v1i_type (v1_find d) = v1_ext <-> ends_in_block d 355 (B "TAG+")) /\
  (v1i_type (v1_find d) = v1_std <->
     ends_in_block d 128 (B "TAG") /\ ~ ends_in_block d 355 (B "TAG+")) /\
  v1i_end (v1_find d) = len d /\
  v1i_start (v1_find d) =
    len d - match v1i_type (v1_find d) with v1_none => 0 | v1_std => 128 | v1_ext => 355 end.
Proof.
  rewrite <- ext_iff, <- std_iff. unfold v1_find.
  destruct ((355 <=? len d) && _); [cbn; intuition congruence|].
  destruct ((128 <=? len d) && _); cbn; [intuition congruence|].
  rewrite N.sub_0_r. intuition congruence.
Qed.

Lemma probe_exact s : good s ->
  exists i, ends_in_id3v1 s = (Ok i, s) /\
  (v1i_type i = v1_ext <-> ends_in_block (s_data s) 355 (B "TAG+")) /\
  (v1i_type i = v1_std <->
     ends_in_block (s_data s) 128 (B "TAG") /\ ~ ends_in_block (s_data s) 355 (B "TAG+")) /\
  v1i_end i = len (s_data s) /\
  v1i_start i = len (s_data s) - match v1i_type i with v1_none => 0 | v1_std => 128 | v1_ext => 355 end.
Proof.
  intros H. exists (v1_find (s_data s)). split; [now apply ends_in_eq|apply v1_find_spec].
Qed.

(** ** process_id3v1 *)
Lemma from_stream_std d p e : 128 <= len d -> p = len d - 128 ->
  id3v1_from_stream (mkIs d p e 0) =
  match init_standard (dropN p d) with
  | Ok t => (Ok t, mkIs d (len d) e 0)
  | o => (o, mkIs d (len d) all_bits 0)
  end.
Proof.
  intros Hl Hp. unfold id3v1_from_stream, sbind, get_exc. cbn [s_exc].
  rewrite set_exc_good by reflexivity. cbn [s_data s_pos].
  rewrite tellg_good by reflexivity. cbn [s_pos]. unfold scatch.
  rewrite seekg_end_good by (try reflexivity; apply N.le_0_l). cbn [s_data s_pos s_exc].
  rewrite tellg_good by reflexivity. cbn [s_pos]. rewrite N.sub_0_r.
  rewrite seekg_good by reflexivity. cbn [s_data s_pos s_exc].
  replace ((p <=? len d) && (len d - p =? 128)) with true by lia.
  rewrite sread_good; [|reflexivity|cbn [s_data s_pos]; apply slice_len; lia].
  cbn [s_data s_pos s_exc].
  replace (slice p 128 d) with (dropN p d).
  2:{ unfold slice. symmetry. apply takeN_all. rewrite len_dropN. lia. }
  replace (p + 128) with (len d) by lia.
  unfold lift. destruct (init_standard (dropN p d)) as [t|ex|u|] eqn:E; try reflexivity.
  - unfold init_standard in E.
    destruct (bytes_eqb _ _); [destruct (v1_tail _) as [[[? ?] ?] ?]; discriminate|].
    now injection E as <-.
Qed.

Lemma from_stream_ext d p e : 355 <= len d -> p = len d - 355 ->
  id3v1_from_stream (mkIs d p e 0) =
  match init_extended (dropN p d) with
  | Ok t => (Ok t, mkIs d (len d) e 0)
  | o => (o, mkIs d (len d) all_bits 0)
  end.
Proof.
  intros Hl Hp. unfold id3v1_from_stream, sbind, get_exc. cbn [s_exc].
  rewrite set_exc_good by reflexivity. cbn [s_data s_pos].
  rewrite tellg_good by reflexivity. cbn [s_pos]. unfold scatch.
  rewrite seekg_end_good by (try reflexivity; apply N.le_0_l). cbn [s_data s_pos s_exc].
  rewrite tellg_good by reflexivity. cbn [s_pos]. rewrite N.sub_0_r.
  rewrite seekg_good by reflexivity. cbn [s_data s_pos s_exc].
  replace ((p <=? len d) && (len d - p =? 128)) with false by lia.
  replace ((p <=? len d) && (len d - p =? 355)) with true by lia.
  rewrite sread_good; [|reflexivity|cbn [s_data s_pos]; apply slice_len; lia].
  cbn [s_data s_pos s_exc].
  replace (slice p 355 d) with (dropN p d).
  2:{ unfold slice. symmetry. apply takeN_all. rewrite len_dropN. lia. }
  replace (p + 355) with (len d) by lia.
  unfold lift. destruct (init_extended (dropN p d)) as [t|ex|u|] eqn:E; try reflexivity.
  - unfold init_extended in E.
    destruct (bytes_eqb _ _); [|now injection E as <-].
    destruct (bytes_eqb _ _); [destruct (v1_tail _) as [[[? ?] ?] ?]; discriminate|].
    now injection E as <-.
Qed.

Lemma process_eq d p e :
  process_id3v1 (mkIs d p e 0) =
  match v1i_type (v1_find d) with
  | v1_none => (Ok None, mkIs d p e 0)
  | v1_std => match init_standard (dropN (len d - 128) d) with
              | Ok t => (Ok (Some t), mkIs d (len d) e 0)
              | Throw x => (Throw x, mkIs d (len d) all_bits 0)
              | UB u => (UB u, mkIs d (len d) all_bits 0)
              | NonTerm => (NonTerm, mkIs d (len d) all_bits 0)
              end
  | v1_ext => match init_extended (dropN (len d - 355) d) with
              | Ok t => (Ok (Some t), mkIs d (len d) e 0)
              | Throw x => (Throw x, mkIs d (len d) all_bits 0)
              | UB u => (UB u, mkIs d (len d) all_bits 0)
              | NonTerm => (NonTerm, mkIs d (len d) all_bits 0)
              end
  end.
Proof.
  unfold process_id3v1. unfold sbind at 1. rewrite ends_in_eq by reflexivity.
  destruct (v1_find_spec d) as (He & Hs & _ & Hst). cbn [s_data].
  destruct (v1i_type (v1_find d)) eqn:E; [reflexivity| |];
    unfold sbind at 1; rewrite seekg_good by reflexivity; cbn [s_data s_pos s_exc]; rewrite Hst;
    unfold sbind at 1.
  - assert (128 <= len d) by (eapply ends_in_block_len, Hs; reflexivity).
    rewrite from_stream_std by auto. now destruct (init_standard _).
  - assert (355 <= len d) by (eapply ends_in_block_len, He; reflexivity).
    rewrite from_stream_ext by auto. now destruct (init_extended _).
Qed.

Lemma init_standard_ok blk : takeN 3 blk = B "TAG" -> exists t, init_standard blk = Ok t.
Proof.
  intros H. unfold init_standard. rewrite slice_0, H.
  change (bytes_eqb (B "TAG") (B "TAG")) with true. cbv iota.
  destruct (v1_tail _) as [[[? ?] ?] ?]. eauto.
Qed.

(** The unlucky case: TAG+ 355 bytes before the end, but no TAG inside. *)
Definition broken_ext (d : bytes) : Prop :=
  ends_in_block d 355 (B "TAG+") /\ ~ ends_in_block d 128 (B "TAG").

Lemma init_extended_ok blk : takeN 4 blk = B "TAG+" -> slice 227 3 blk = B "TAG" ->
  exists t, init_extended blk = Ok t.
Proof.
  intros H H3. unfold init_extended. rewrite slice_0, H.
  change (bytes_eqb (B "TAG+") (B "TAG+")) with true. cbv iota.
  match goal with |- context [bytes_eqb ?x (B "TAG")] =>
    replace x with (B "TAG") by (symmetry; rewrite slice_0, !dropN_dropN; exact H3) end.
  change (bytes_eqb (B "TAG") (B "TAG")) with true. cbv iota.
  destruct (v1_tail _) as [[[? ?] ?] ?]. eauto.
Qed.

Lemma init_extended_throw blk : slice 227 3 blk <> B "TAG" -> init_extended blk = Throw InvalidTag.
Proof.
  intros H3. unfold init_extended.
  destruct (bytes_eqb (slice 0 4 blk) (B "TAG+")); [|reflexivity].
  match goal with |- context [bytes_eqb ?x (B "TAG")] =>
    destruct (bytes_eqb_spec x (B "TAG")) as [H|H] end; [|reflexivity].
  elim H3. rewrite slice_0, !dropN_dropN in H. exact H.
Qed.

Lemma ext_split (d : bytes) : ends_in_block d 355 (B "TAG+") ->
  takeN 4 (dropN (len d - 355) d) = B "TAG+" /\ len (dropN (len d - 355) d) = 355 /\
  (ends_in_block d 128 (B "TAG") <-> slice 227 3 (dropN (len d - 355) d) = B "TAG").
Proof.
  intros H. pose proof (ends_in_block_len _ _ _ H) as Hl.
  apply (slice_tail_block d 355 4 (B "TAG+")) in H; [|reflexivity|lia|lia].
  split; [exact H|]. split; [rewrite len_dropN; lia|].
  rewrite <- (slice_tail_block d 128 3 (B "TAG")); [|reflexivity|lia|lia].
  unfold slice. rewrite dropN_dropN. replace (len d - 355 + 227) with (len d - 128) by lia.
  reflexivity.
Qed.

(** Reading the trailing tag: which block is decoded, when it throws. *)
Inductive v1_read (d : bytes) : outcome (option id3v1_tag) -> Prop :=
| read_none : ~ ends_in_block d 355 (B "TAG+") -> ~ ends_in_block d 128 (B "TAG") ->
    v1_read d (Ok None)
| read_std pre blk t : d = pre ++ blk -> len blk = 128 -> init_standard blk = Ok t ->
    ~ ends_in_block d 355 (B "TAG+") -> v1_read d (Ok (Some t))
| read_ext pre blk t : d = pre ++ blk -> len blk = 355 -> init_extended blk = Ok t ->
    v1_read d (Ok (Some t))
| read_broken : broken_ext d -> v1_read d (Throw InvalidTag).

Lemma process_read d p e : v1_read d (fst (process_id3v1 (mkIs d p e 0))).
Proof.
  rewrite process_eq. destruct (v1_find_spec d) as (He & Hs & _ & _).
  destruct (v1i_type (v1_find d)) eqn:E.
  - cbn. assert (H1 : ~ ends_in_block d 355 (B "TAG+")) by (intros C; apply He in C; discriminate).
    apply read_none; [assumption|].
    intros C. enough (v1_none = v1_std) by discriminate. apply Hs. auto.
  - destruct Hs as [Hs _]. destruct (Hs eq_refl) as [Hs1 Hs2].
    pose proof (ends_in_block_len _ _ _ Hs1) as Hl.
    apply (slice_tail_block d 128 3 (B "TAG")) in Hs1; [|reflexivity|lia|lia].
    destruct (init_standard_ok (dropN (len d - 128) d) Hs1) as [t Ht]. rewrite Ht. cbn.
    apply (read_std d (takeN (len d - 128) d) (dropN (len d - 128) d)); [symmetry; apply takeN_dropN|rewrite len_dropN; lia|exact Ht|exact Hs2].
  - destruct He as [He _]. specialize (He eq_refl).
    destruct (ext_split d He) as (H4 & HL & H3).
    destruct (list_eq_dec N.eq_dec (slice 227 3 (dropN (len d - 355) d)) (B "TAG")) as [Hy|Hn].
    + destruct (init_extended_ok _ H4 Hy) as [t Ht]. rewrite Ht. cbn.
      apply (read_ext d (takeN (len d - 355) d) (dropN (len d - 355) d)); [symmetry; apply takeN_dropN|exact HL|exact Ht].
    + rewrite init_extended_throw by assumption. cbn. apply read_broken.
      split; [assumption|]. now rewrite H3.
Qed.

Lemma v1_read_fun d o o' : v1_read d o -> v1_read d o' -> o = o'.
Proof.
  assert (Hblk : forall n m mark blk pre, d = pre ++ blk -> len blk = n -> takeN m blk = mark ->
            m = len mark -> ends_in_block d n mark).
  { intros n m mark blk pre -> H1 H2 ->. exists pre, blk. auto. }
  assert (Hstd : forall pre blk t, d = pre ++ blk -> len blk = 128 -> init_standard blk = Ok t ->
            ends_in_block d 128 (B "TAG")).
  { intros pre blk t E1 E2 E3. apply (Hblk 128 3 (B "TAG") blk pre); auto.
    unfold init_standard in E3. rewrite slice_0 in E3.
    destruct (bytes_eqb_spec (takeN 3 blk) (B "TAG")); [assumption|discriminate]. }
  assert (Hext : forall pre blk t, d = pre ++ blk -> len blk = 355 -> init_extended blk = Ok t ->
            ends_in_block d 355 (B "TAG+") /\ ends_in_block d 128 (B "TAG")).
  { intros pre blk t E1 E2 E3. destruct (init_extended_marks _ _ E3) as [M1 M2].
    assert (ends_in_block d 355 (B "TAG+")) by (apply (Hblk 355 4 (B "TAG+") blk pre); auto).
    split; [assumption|].
    apply (slice_tail_block d 128 3 (B "TAG"));
      [reflexivity|subst d; rewrite len_app; lia|lia|].
    subst d. rewrite slice_app_r by (rewrite len_app; lia). rewrite len_app.
    replace (len pre + len blk - 128 - len pre) with 227 by lia. exact M2. }
  assert (Hsame : forall n (p1 b1 p2 b2 : bytes), d = p1 ++ b1 -> d = p2 ++ b2 -> len b1 = n -> len b2 = n -> b1 = b2).
  { intros n p1 b1 p2 b2 E1 E2 L1 L2.
    assert (len p1 = len p2) by (rewrite E1 in E2; apply (f_equal len) in E2; rewrite !len_app in E2; lia).
    rewrite <- (dropN_app_exact (len p1) p1 b1) by reflexivity.
    rewrite <- (dropN_app_exact (len p1) p2 b2) by congruence. congruence. }
  intros H1 H2. 
  destruct H1 as [A1 A2|pre blk t A1 A2 A3 A4|pre blk t A1 A2 A3|A1],
           H2 as [B1 B2|pre' blk' t' B1 B2 B3 B4|pre' blk' t' B1 B2 B3|B1];
    try reflexivity;
    try (exfalso; match goal with
         | [ A : d = ?p ++ ?b, E : init_extended ?b = Ok ?t |- _ ] =>
             destruct (Hext p b t) as [X1 X2]; trivial; try destruct B1; try destruct A1; now auto
         end);
    try (exfalso; match goal with
         | [ A : d = ?p ++ ?b, E : init_standard ?b = Ok ?t |- _ ] =>
             pose proof (Hstd p b t) as X1; try destruct B1; try destruct A1; now auto
         end).
  - elim A2. eapply Hstd; eauto.
  - destruct B1. contradiction.
  - elim B2. eapply Hstd; eauto.
  - assert (blk = blk') by eauto. congruence.
  - assert (blk = blk') by eauto. congruence.
  - destruct A1. contradiction.
Qed.

(** ** Removal and replacement *)
Lemma remove_spec file f : maybe_remove_id3v1 file = Ok f ->
  (f = file /\ ~ ends_in_block file 355 (B "TAG+") /\ ~ ends_in_block file 128 (B "TAG")) \/
  (exists blk, file = f ++ blk /\
     ((len blk = 128 /\ takeN 3 blk = B "TAG" /\ ~ ends_in_block file 355 (B "TAG+")) \/
      (len blk = 355 /\ takeN 4 blk = B "TAG+" /\ slice 227 3 blk = B "TAG"))).
Proof.
  unfold maybe_remove_id3v1. unfold open_file.
  pose proof (process_read file 0 all_bits) as R.
  destruct (fst (process_id3v1 (mkIs file 0 all_bits 0))) as [o|x|u|]; cbn [bind]; try discriminate.
  inversion R as [A1 A2 E|pre blk t A1 A2 A3 A4 E|pre blk t A1 A2 A3 E|].
  - intros [= <-]. auto.
  - intros H. apply Ok_inj in H. subst f. right.
    destruct (std_rewrite blk t A2 A3) as (_ & Hext & _). unfold v1_size. rewrite Hext.
    exists blk. subst file. rewrite len_app, A2.
    rewrite takeN_app_exact by lia. split; [reflexivity|]. left. split; [reflexivity|].
    split; [|assumption]. unfold init_standard in A3. rewrite slice_0 in A3.
    destruct (bytes_eqb_spec (takeN 3 blk) (B "TAG")); [assumption|discriminate].
  - intros H. apply Ok_inj in H. subst f. right.
    destruct (ext_rewrite blk t A2 A3) as (_ & Hext & _). unfold v1_size. rewrite Hext.
    exists blk. subst file. rewrite len_app, A2.
    rewrite takeN_app_exact by lia. split; [reflexivity|]. right. split; [reflexivity|].
    now apply init_extended_marks in A3.
Qed.

Lemma remove_total file : ~ broken_ext file -> exists f, maybe_remove_id3v1 file = Ok f.
Proof.
  intros Hb. unfold maybe_remove_id3v1, open_file.
  pose proof (process_read file 0 all_bits) as R.
  inversion R as [A1 A2 E|pre blk t A1 A2 A3 A4 E|pre blk t A1 A2 A3 E|A E]; cbn [bind]; eauto.
  contradiction.
Qed.

(** Reading back what replacement wrote. *)
Lemma replace_read file t f : wf_v1 t -> replace_id3v1 file t = Ok f ->
  (v_extended t = false -> ~ ends_in_block f 355 (B "TAG+")) ->
  exists base b, maybe_remove_id3v1 file = Ok base /\ v1_write t = Ok b /\ f = base ++ b /\
    len b = v1_size t /\
    exists t', fst (process_id3v1 (open_file f all_bits)) = Ok (Some t') /\ same_tag t t'.
Proof.
  intros W. unfold replace_id3v1.
  destruct (maybe_remove_id3v1 file) as [base|x|u|]; cbn [bind]; try discriminate.
  destruct (v1_roundtrip t W) as (b & t' & Hw & Hl & Hi & Hs). rewrite Hw. cbn [bind].
  intros Hf Hacc. apply Ok_inj in Hf. subst f.
  exists base, b. repeat (split; [auto|]). exists t'. split; [|assumption].
  apply (v1_read_fun (base ++ b)); [apply process_read|].
  unfold v1_size in Hl. destruct (v_extended t).
  - eapply read_ext; eauto.
  - eapply read_std; eauto.
Qed.

Lemma replace_total file t : ~ broken_ext file -> wf_v1 t -> exists f, replace_id3v1 file t = Ok f.
Proof.
  intros Hb W. unfold replace_id3v1. destruct (remove_total file Hb) as [f0 ->]. cbn [bind].
  destruct (write_writable t (wf_writable t W)) as (b & -> & _). cbn [bind]. eauto.
Qed.

Lemma remove_broken_refuted : exists file, maybe_remove_id3v1 file = Throw InvalidTag.
Proof. exists (B "TAG+" ++ repeatN 0 351). vm_compute. reflexivity. Qed.

(** The documentation says the read pointer is restored; it is left at the end
    whenever a tag is found. *)
Lemma process_position_refuted : exists s t s', good s /\
  process_id3v1 s = (Ok (Some t), s') /\ s_pos s' <> s_pos s.
Proof.
  exists (open_file (B "TAG" ++ repeatN 0 125) 0). do 2 eexists. split; [reflexivity|].
  vm_compute. split; [reflexivity|]. discriminate.
Qed.

(** A standard tag written after data with TAG+ at the wrong place is not read
    back. *)
Lemma replace_accident_refuted : exists file t f, wf_v1 t /\ replace_id3v1 file t = Ok f /\
  fst (process_id3v1 (open_file f all_bits)) <> Ok (Some t) /\
  exists t', fst (process_id3v1 (open_file f all_bits)) = Ok (Some t') /\ v_extended t' = true.
Proof.
  assert (exists t, init_standard (B "TAG" ++ repeatN 32 125) = Ok t) as [t Ht] by (eexists; reflexivity).
  exists (B "TAG+" ++ repeatN 0 223), t.
  destruct (std_rewrite (B "TAG" ++ repeatN 32 125) t eq_refl Ht) as (Hw & _ & W).
  exists ((B "TAG+" ++ repeatN 0 223) ++ B "TAG" ++ repeatN 32 125).
  split; [assumption|]. split.
  { unfold replace_id3v1.
    replace (maybe_remove_id3v1 (B "TAG+" ++ repeatN 0 223)) with (Ok (B "TAG+" ++ repeatN 0 223)) by (vm_compute; reflexivity).
    cbn [bind]. rewrite Hw. reflexivity. }
  revert Ht. vm_compute. intros [= <-]. split; [discriminate|]. eexists. split; reflexivity.
Qed.
