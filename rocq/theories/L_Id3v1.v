(** * Lemmas: ID3v1. *)
From Verif Require Import Base M_Stream M_Id3v1 S_Id3v1 L_Stream.

(** ** Slices *)
Lemma slice_len {A} i n (l : list A) : i + n <= len l -> len (slice i n l) = n.
Proof. intros H. unfold slice. rewrite len_takeN, len_dropN. lia. Qed.
Lemma slice_0 {A} n (l : list A) : slice 0 n l = takeN n l.
Proof. unfold slice. now rewrite dropN_0. Qed.
Lemma slice_app_l {A} i n (l m : list A) : i + n <= len l -> slice i n (l ++ m) = slice i n l.
Proof.
  intros H. unfold slice. rewrite dropN_app_le by lia. apply takeN_app_le. rewrite len_dropN. lia.
Qed.
Lemma slice_app_r {A} i n (l m : list A) : len l <= i -> slice i n (l ++ m) = slice (i - len l) n m.
Proof. intros H. unfold slice. now rewrite dropN_app_ge. Qed.
Lemma slice_all {A} n (l : list A) : len l = n -> slice 0 n l = l.
Proof. intros H. rewrite slice_0. apply takeN_all. lia. Qed.
Lemma slice_app_exact {A} (l m k : list A) i n : len l = i -> len m = n -> slice i n (l ++ m ++ k) = m.
Proof.
  intros H1 H2. unfold slice. rewrite dropN_app_exact by assumption. now apply takeN_app_exact.
Qed.
Lemma slice_0_exact {A} n (l m : list A) : len l = n -> slice 0 n (l ++ m) = l.
Proof. intros H. rewrite slice_0. now apply takeN_app_exact. Qed.
Lemma slice_split {A} i n m (l : list A) : slice i n l ++ slice (i + n) m l = slice i (n + m) l.
Proof.
  unfold slice. rewrite <- dropN_dropN.
  rewrite <- (takeN_dropN n (dropN i l)) at 3.
  destruct (N.le_gt_cases n (len (dropN i l))) as [H|H].
  - rewrite takeN_app_ge by (rewrite len_takeN; lia).
    f_equal. f_equal. rewrite len_takeN. lia.
  - rewrite (dropN_all n) by lia. rewrite (takeN_all n) by lia. cbn [takeN].
    rewrite !app_nil_r. symmetry. apply takeN_all. lia.
Qed.
Lemma slice_slice_drop {A} i n j (l : list A) : slice i n (dropN j l) = slice (j + i) n l.
Proof. unfold slice. now rewrite dropN_dropN. Qed.

Lemma nthN_app_l i l m : i < len l -> nthN i (l ++ m) = nthN i l.
Proof. intros H. unfold nthN. apply app_nth1. unfold len in H. lia. Qed.
Lemma nthN_app_r i l m : len l <= i -> nthN i (l ++ m) = nthN (i - len l) m.
Proof.
  intros H. unfold nthN. rewrite app_nth2 by (unfold len in H; lia). f_equal.
  unfold len. lia.
Qed.
Lemma nthN_dropN i j l : nthN i (dropN j l) = nthN (j + i) l.
Proof.
  unfold nthN. rewrite dropN_skipn. replace (N.to_nat (j + i)) with (N.to_nat j + N.to_nat i)%nat by lia.
  generalize (N.to_nat j) (N.to_nat i). intros a b. revert l. induction a as [|a IH]; intros l; [reflexivity|].
  destruct l; simpl; [destruct b; reflexivity|apply IH].
Qed.
Lemma slice_1 i l : i < len l -> slice i 1 l = [nthN i l].
Proof.
  intros H. unfold slice. rewrite <- (N.add_0_r i) at 2. rewrite <- nthN_dropN.
  assert (Hl : len (dropN i l) <> 0) by (rewrite len_dropN; lia).
  destruct (dropN i l) as [|x r]; [now elim Hl|].
  simpl. rewrite takeN_0. reflexivity.
Qed.

Lemma write_at_ok v off n : off + n <= len v -> write_at v off n = Ok (slice off n v).
Proof. intros H. unfold write_at. now replace (off + n <=? len v) with true by lia. Qed.
Lemma write_at_len v off n b : write_at v off n = Ok b -> len b = n.
Proof.
  unfold write_at. destruct (N.leb_spec (off + n) (len v)); [|discriminate].
  intros [= <-]. now apply slice_len.
Qed.

Lemma vresize_len n l : len (vresize n l) = n.
Proof. unfold vresize. rewrite len_takeN, len_app, len_repeatN. lia. Qed.

(** ** Decoding a block of known shape *)
Lemma bytes_eqb_true x y : x = y -> bytes_eqb x y = true.
Proof. apply bytes_eqb_eq. Qed.

Lemma tail_decode (cm rest : bytes) g : len cm = 30 ->
  v1_tail (cm ++ g :: rest) =
  if (0 =? nthN 28 cm) && negb (0 =? nthN 29 cm)
  then (true, takeN 28 cm, Some (nthN 29 cm), g)
  else (false, cm, None, g).
Proof.
  intros H. unfold v1_tail.
  rewrite !(nthN_app_l _ cm) by lia.
  rewrite (nthN_app_r 30 cm) by lia. rewrite H. cbn [N.sub]. change (nthN 0 (g :: rest)) with g.
  rewrite (slice_app_l 0 28) by lia. rewrite (slice_app_l 0 30) by lia.
  rewrite slice_0. rewrite (slice_all 30) by lia. reflexivity.
Qed.

Lemma std_decode ti ar al yr cm g :
  len ti = 30 -> len ar = 30 -> len al = 30 -> len yr = 4 -> len cm = 30 ->
  init_standard (B "TAG" ++ ti ++ ar ++ al ++ yr ++ cm ++ [g]) =
  let '(v11, com, trk, gen) := v1_tail (cm ++ [g]) in
  Ok (mkV1 false v11 al ar com gen [] None None None ti trk yr).
Proof.
  intros H1 H2 H3 H4 H5. unfold init_standard.
  rewrite bytes_eqb_true by (rewrite slice_0; now apply takeN_app_exact).
  rewrite (dropN_app_exact 3 (B "TAG")) by reflexivity.
  rewrite (slice_0_exact 30 ti) by assumption.
  rewrite (slice_app_exact ti ar _ 30 30) by assumption.
  replace (slice 60 30 (ti ++ ar ++ al ++ yr ++ cm ++ [g])) with al.
  2:{ symmetry. do 2 (rewrite slice_app_r by lia).
      replace (60 - _ - _) with 0 by lia. rewrite slice_0. now apply takeN_app_exact. }
  replace (slice 90 4 (ti ++ ar ++ al ++ yr ++ cm ++ [g])) with yr.
  2:{ symmetry. do 3 (rewrite slice_app_r by lia).
      replace (90 - _ - _ - _) with 0 by lia. rewrite slice_0. now apply takeN_app_exact. }
  replace (dropN 94 (ti ++ ar ++ al ++ yr ++ cm ++ [g])) with (cm ++ [g]).
  2:{ symmetry. do 4 (rewrite dropN_app_ge by lia).
      replace (94 - _ - _ - _ - _) with 0 by lia. apply dropN_0. }
  reflexivity.
Qed.

Lemma ext_decode ti60 ar60 al60 sp xg st en ti ar al yr cm g :
  len ti60 = 60 -> len ar60 = 60 -> len al60 = 60 -> len xg = 30 -> len st = 6 -> len en = 6 ->
  len ti = 30 -> len ar = 30 -> len al = 30 -> len yr = 4 -> len cm = 30 ->
  init_extended ((B "TAG+" ++ ti60 ++ ar60 ++ al60 ++ [sp] ++ xg ++ st ++ en) ++
                 B "TAG" ++ ti ++ ar ++ al ++ yr ++ cm ++ [g]) =
  let '(v11, com, trk, gen) := v1_tail (cm ++ [g]) in
  Ok (mkV1 true v11 (al ++ al60) (ar ++ ar60) com gen xg (Some st) (Some en) (Some sp)
           (ti ++ ti60) trk yr).
Proof.
  intros. rewrite <- !app_assoc. unfold init_extended.
  rewrite bytes_eqb_true by (rewrite slice_0; now apply takeN_app_exact).
  rewrite (dropN_app_exact 4 (B "TAG+")) by reflexivity.
  assert (Hs : forall (a b c : bytes) i n, len a <= i -> slice i n (a ++ b) = slice (i - len a) n b)
    by (intros; now apply slice_app_r).
  assert (HT : len (B "TAG") = 3) by reflexivity.
  assert (Hsp : len [sp] = 1) by reflexivity.
  (* title *)
  replace (slice 226 30 (ti60 ++ ar60 ++ al60 ++ [sp] ++ xg ++ st ++ en ++
             B "TAG" ++ ti ++ ar ++ al ++ yr ++ cm ++ [g])) with ti.
  2:{ symmetry. do 8 (rewrite slice_app_r by lia).
      replace (226 - _ - _ - _ - _ - _ - _ - _ - _) with 0 by lia.
      rewrite slice_0. now apply takeN_app_exact. }
  rewrite (slice_0_exact 60 ti60) by assumption.
  rewrite (dropN_app_exact 60 ti60) by assumption.
  (* artist *)
  replace (slice 196 30 (ar60 ++ al60 ++ [sp] ++ xg ++ st ++ en ++
             B "TAG" ++ ti ++ ar ++ al ++ yr ++ cm ++ [g])) with ar.
  2:{ symmetry. do 8 (rewrite slice_app_r by lia).
      replace (196 - _ - _ - _ - _ - _ - _ - _ - _) with 0 by lia.
      rewrite slice_0. now apply takeN_app_exact. }
  rewrite (slice_0_exact 60 ar60) by assumption.
  rewrite (dropN_app_exact 60 ar60) by assumption.
  (* album *)
  replace (slice 166 30 (al60 ++ [sp] ++ xg ++ st ++ en ++
             B "TAG" ++ ti ++ ar ++ al ++ yr ++ cm ++ [g])) with al.
  2:{ symmetry. do 8 (rewrite slice_app_r by lia).
      replace (166 - _ - _ - _ - _ - _ - _ - _ - _) with 0 by lia.
      rewrite slice_0. now apply takeN_app_exact. }
  rewrite (slice_0_exact 60 al60) by assumption.
  rewrite (dropN_app_exact 60 al60) by assumption.
  change (nthN 0 ([sp] ++ xg ++ st ++ en ++ B "TAG" ++ ti ++ ar ++ al ++ yr ++ cm ++ [g])) with sp.
  rewrite (dropN_app_exact 1 [sp]) by reflexivity.
  rewrite (slice_0_exact 30 xg) by assumption.
  rewrite (dropN_app_exact 30 xg) by assumption.
  rewrite (slice_0_exact 6 st) by assumption.
  rewrite (dropN_app_exact 6 st) by assumption.
  rewrite (slice_0_exact 6 en) by assumption.
  rewrite (dropN_app_exact 6 en) by assumption.
  rewrite bytes_eqb_true by (rewrite slice_0; now apply takeN_app_exact).
  replace (dropN 93 (B "TAG" ++ ti ++ ar ++ al ++ yr ++ cm ++ [g])) with (yr ++ cm ++ [g]).
  2:{ symmetry. do 4 (rewrite dropN_app_ge by lia).
      replace (93 - _ - _ - _ - _) with 0 by lia. apply dropN_0. }
  rewrite (slice_0_exact 4 yr) by assumption.
  rewrite (dropN_app_exact 4 yr) by assumption.
  reflexivity.
Qed.
