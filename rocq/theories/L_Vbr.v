(** * Lemmas: the tags of encoders. *)
From Verif Require Import Base M_Ints S_Ints L_Ints M_Stream L_Stream L_Id3v1 M_Mp3 L_Mp3 M_Vbr S_Vbr.
#[local] Open Scope N_scope.

Lemma be32_four n : n < 2 ^ 32 -> M_Mp3.be32 (four n) = n.
Proof.
  intros H. change (2^32) with 4294967296 in H. unfold M_Mp3.be32, four. cbn [nth].
  rewrite nss4_spec by (apply N.mod_lt; lia).
  change (256^3) with 16777216. change (256^2) with 65536. change (2^24) with 16777216. change (2^16) with 65536.
  change (2^8) with 256. lia.
Qed.

Lemma takes n m pre rest e : len m = n ->
  sread n (mkIs (pre ++ m ++ rest) (len pre) e 0) = (Ok m, mkIs ((pre ++ m) ++ rest) (len (pre ++ m)) e 0).
Proof.
  intros H. assert (E : slice (len pre) n (pre ++ m ++ rest) = m) by now apply slice_app_exact.
  rewrite sread_good; [|reflexivity|]; cbn [s_data s_pos s_exc]; rewrite E; [|exact H].
  now rewrite <- app_assoc, len_app, H.
Qed.
Lemma takes_all n m pre rest e : len m = n ->
  sread_all n (mkIs (pre ++ m ++ rest) (len pre) e 0) = (Ok m, mkIs ((pre ++ m) ++ rest) (len (pre ++ m)) e 0).
Proof. intros H. unfold sread_all, sbind. rewrite takes by exact H. rewrite H, N.eqb_refl. reflexivity. Qed.
Lemma skips (n : N) m pre rest e : len m = n ->
  seekg_rel (Z.of_N n) (mkIs (pre ++ m ++ rest) (len pre) e 0) = (Ok tt, mkIs ((pre ++ m) ++ rest) (len (pre ++ m)) e 0).
Proof.
  intros H. rewrite seekg_rel_good; [|reflexivity|cbn [s_pos]; lia]. cbn [s_data s_pos s_exc].
  rewrite <- app_assoc, len_app, H. do 2 f_equal. lia.
Qed.

Lemma low_bits h f : f < 16 -> N.land (16 * h + f) 15 = f.
Proof.
  intros H. change 15 with (N.ones 4). rewrite N.land_ones. change (2 ^ 4) with 16.
  rewrite N.add_comm, N.mul_comm, N.mod_add by lia. now apply N.mod_small.
Qed.
Lemma low_bit h f k : f < 16 -> N.land 15 k = k -> N.land (16 * h + f) k = N.land f k.
Proof. intros H E. rewrite <- E at 1. now rewrite N.land_assoc, low_bits by exact H. Qed.

Lemma xing_flags_lt x : xing_flags x < 16.
Proof. destruct x as [[?|] [?|] [?|] [?|]]; reflexivity. Qed.

Lemma xing_reads spare h x pre rest e : len spare = 3 -> xing_fits x ->
  xing_mp3_tag (mkIs (pre ++ xing_laid spare h x ++ rest) (len pre) e 0) =
  (Ok x, mkIs (pre ++ xing_laid spare h x ++ rest) (len (pre ++ xing_laid spare h x)) e 0).
Proof.
  intros L F. pose proof (xing_flags_lt x) as FL.
  destruct spare as [|s0 [|s1 [|s2 [|? ?]]]]; try (cbv in L; discriminate L); [|rewrite !len_cons in L; lia].
  unfold xing_laid, xing_mp3_tag. unfold sbind at 1.
  set (tail := maybe four _ ++ _).
  replace (([s0; s1; s2] ++ [16 * h + xing_flags x] ++ tail) ++ rest) with ([s0; s1; s2; 16 * h + xing_flags x] ++ (tail ++ rest)) by reflexivity.
  rewrite takes_all by reflexivity. cbn [nth]. cbv zeta.
  rewrite !low_bit by (exact FL || reflexivity).
  replace ([s0; s1; s2] ++ [16 * h + xing_flags x] ++ tail) with ([s0; s1; s2; 16 * h + xing_flags x] ++ tail) by reflexivity.
  set (q := pre ++ [s0; s1; s2; 16 * h + xing_flags x]).
  replace (pre ++ [s0; s1; s2; 16 * h + xing_flags x] ++ tail ++ rest) with (q ++ tail ++ rest) by (unfold q; now rewrite <- app_assoc).
  replace (pre ++ [s0; s1; s2; 16 * h + xing_flags x] ++ tail) with (q ++ tail) by (unfold q; now rewrite <- app_assoc).
  clearbody q. subst tail. clear FL L.
  destruct x as [[a|] [c|] [t|] [g|]]; cbv [xing_fits fits xi_frames xi_bytes xi_toc xi_quality] in F; destruct F as [F1 [F2 [F3 F4]]];
    cbn [xing_flags given xi_frames xi_bytes xi_toc xi_quality maybe];
    repeat match goal with |- context [N.land ?u ?v] => let w := eval vm_compute in (N.land u v) in change (N.land u v) with w end;
    cbn [N.eqb negb Pos.eqb]; unfold sbind, sret;
    repeat (first [rewrite <- app_assoc | rewrite app_nil_l]);
    repeat (first [rewrite takes_all by reflexivity | rewrite takes by exact F3]; cbn beta iota);
    rewrite ?be32_four by assumption; rewrite ?F3; change (100 - 100) with 0; change (repeatN 0 0) with (@nil N); rewrite ?app_nil_r, <- ?app_assoc; reflexivity.
Qed.

Lemma method_of k : k < 16 -> is_method k (vbr_method_for_bits k).
Proof.
  intros H. unfold is_method, methods. cbn [map fst In].
  assert (C : k = 0 \/ k = 1 \/ k = 2 \/ k = 3 \/ k = 4 \/ k = 5 \/ k = 6 \/ k = 7 \/ k = 8 \/ k = 9 \/ k = 10 \/ k = 11 \/ k = 12 \/ k = 13 \/ k = 14 \/ k = 15) by lia.
  decompose [or] C; subst; cbn [vbr_method_for_bits]; try (left; tauto); right; (split; [reflexivity|]); intuition discriminate.
Qed.

Lemma lame_reads id5 id4 rev m ten rate seven music pre rest e :
  len id5 = 5 -> m < 16 -> len ten = 10 -> len seven = 7 -> music < 2 ^ 32 ->
  let laid := lame_laid id5 rev m ten rate seven music in
  lame_mp3_tag id4 (mkIs (pre ++ laid ++ rest) (len pre) e 0) =
  (Ok (mkLame (id4 ++ id5) (vbr_method_for_bits m) rate music), mkIs (pre ++ laid ++ rest) (len (pre ++ laid)) e 0).
Proof.
  intros L5 Hm L10 L7 Hn laid. subst laid. unfold lame_laid, lame_mp3_tag, sbind, sret.
  rewrite <- !app_assoc.
  rewrite takes_all by exact L5. rewrite takes_all by reflexivity.
  change 10%Z with (Z.of_N 10). rewrite skips by exact L10. rewrite takes_all by reflexivity.
  change 7%Z with (Z.of_N 7). rewrite skips by exact L7. rewrite takes_all by reflexivity.
  cbn [nth]. rewrite low_bits by exact Hm. rewrite be32_four by exact Hn. rewrite <- !app_assoc. reflexivity.
Qed.

(** A tag cut short. *)
Lemma tries n pre l : 0 < n ->
  (len l < n /\ exists s', sread n (mkIs (pre ++ l) (len pre) all_bits 0) = (Throw IosFailure, s')) \/
  (exists m r, l = m ++ r /\ len m = n /\
   sread n (mkIs (pre ++ l) (len pre) all_bits 0) = (Ok m, mkIs ((pre ++ m) ++ r) (len (pre ++ m)) all_bits 0)).
Proof.
  intros Z0. destruct (N.lt_ge_cases (len l) n) as [H|H].
  - left. split; [exact H|]. eexists. apply sread_short_throw; [reflexivity|reflexivity|].
    cbn [s_pos s_data]. unfold slice. rewrite len_takeN, len_dropN, len_app. lia.
  - right. exists (takeN n l), (dropN n l). assert (E : l = takeN n l ++ dropN n l) by (symmetry; apply takeN_dropN).
    assert (L : len (takeN n l) = n) by (rewrite len_takeN; lia).
    split; [exact E|]. split; [exact L|]. rewrite E at 1. now apply takes.
Qed.
Lemma tries_all n pre l : 0 < n ->
  (len l < n /\ exists s', sread_all n (mkIs (pre ++ l) (len pre) all_bits 0) = (Throw IosFailure, s')) \/
  (exists m r, l = m ++ r /\ len m = n /\
   sread_all n (mkIs (pre ++ l) (len pre) all_bits 0) = (Ok m, mkIs ((pre ++ m) ++ r) (len (pre ++ m)) all_bits 0)).
Proof.
  intros Z0. destruct (tries n pre l Z0) as [[H [s' E]]|[m [r [E1 [E2 E3]]]]].
  - left. split; [exact H|]. exists s'. unfold sread_all, sbind. now rewrite E.
  - right. exists m, r. split; [exact E1|]. split; [exact E2|]. unfold sread_all, sbind. rewrite E3, E2, N.eqb_refl. reflexivity.
Qed.

Ltac step_in :=
  match goal with
  | |- context [sread_all ?n (mkIs (?p ++ ?l) (len ?p) all_bits 0)] =>
      let H := fresh "H" in let s := fresh "s" in let E := fresh "E" in let m := fresh "m" in let r := fresh "r" in let X := fresh "X" in
      let M := fresh "M" in
      destruct (tries_all n p l ltac:(reflexivity)) as [[H [s E]]|[m [r [X [M E]]]]]; rewrite E; cbn beta iota zeta; clear E;
      [eexists; reflexivity|subst l]
  | |- context [sread ?n (mkIs (?p ++ ?l) (len ?p) all_bits 0)] =>
      let H := fresh "H" in let s := fresh "s" in let E := fresh "E" in let m := fresh "m" in let r := fresh "r" in let X := fresh "X" in
      let M := fresh "M" in
      destruct (tries n p l ltac:(reflexivity)) as [[H [s E]]|[m [r [X [M E]]]]]; rewrite E; cbn beta iota zeta; clear E;
      [eexists; reflexivity|subst l]
  end.

Lemma xing_short spare h x pre k : len spare = 3 -> xing_fits x -> k < len (xing_laid spare h x) ->
  exists s', xing_mp3_tag (mkIs (pre ++ takeN k (xing_laid spare h x)) (len pre) all_bits 0) = (Throw IosFailure, s').
Proof.
  intros L F K. pose proof (xing_flags_lt x) as FL.
  destruct spare as [|s0 [|s1 [|s2 [|? ?]]]]; try (cbv in L; discriminate L); [|rewrite !len_cons in L; lia].
  set (laid := xing_laid [s0; s1; s2] h x) in *.
  assert (B3 : nth 3 laid 0 = 16 * h + xing_flags x) by reflexivity.
  assert (T : len (takeN k laid) < len laid) by (rewrite len_takeN; lia).
  assert (B4 : 4 <= len (takeN k laid) -> nth 3 (takeN k laid) 0 = 16 * h + xing_flags x).
  { intros G. rewrite <- B3. rewrite <- (takeN_dropN k laid) at 2. rewrite app_nth1; [reflexivity|].
    unfold len in G. lia. }
  assert (LL : len laid = 4 + len (maybe four (xi_frames x)) + len (maybe four (xi_bytes x)) + len (maybe (fun t : bytes => t) (xi_toc x)) + len (maybe four (xi_quality x))).
  { unfold laid, xing_laid. rewrite !len_app. change (len [s0; s1; s2]) with 3. change (len [16 * h + xing_flags x]) with 1. lia. }
  rewrite LL in T. clear LL B3 K. revert B4 T. generalize (takeN k laid). intros l B4 T. clear laid.
  unfold xing_mp3_tag, sbind, sret. step_in.
  assert (B5 : nth 3 m 0 = 16 * h + xing_flags x).
  { rewrite <- B4 by (rewrite len_app; lia). symmetry. apply app_nth1. unfold len in M. lia. }
  rewrite B5. rewrite !low_bit by (exact FL || reflexivity). clear B4 B5 FL L. rewrite len_app, M in T.
  destruct x as [[a|] [c|] [t|] [g|]]; cbv [xing_fits fits xi_frames xi_bytes xi_toc xi_quality] in F; destruct F as [F1 [F2 [F3 F4]]];
    cbn [xing_flags given xi_frames xi_bytes xi_toc xi_quality maybe] in *;
    repeat match type of T with context [len (four ?z)] => change (len (four z)) with 4 in T end;
    change (len (@nil N)) with 0 in T; rewrite ?F3 in T;
    repeat match goal with |- context [N.land ?u ?v] => let w := eval vm_compute in (N.land u v) in change (N.land u v) with w end;
    cbn [N.eqb negb Pos.eqb]; repeat step_in; exfalso; rewrite ?len_app in T; lia.
Qed.

Lemma vbri_overruns pre l e : 18 <= len l ->
  exists s', read_vbri (mkIs (pre ++ l) (len pre) e 0) = (UB OutOfBounds, s').
Proof.
  intros H.
  assert (S : forall n p (r : bytes), n <= len r -> sread_all n (mkIs (p ++ r) (len p) e 0) = (Ok (takeN n r), mkIs ((p ++ takeN n r) ++ dropN n r) (len (p ++ takeN n r)) e 0)).
  { intros n p r G. rewrite <- (takeN_dropN n r) at 1. apply takes_all. rewrite len_takeN. lia. }
  unfold read_vbri, sbind. 
  do 5 (rewrite S by (rewrite ?len_dropN; lia)).
  set (p := (_ ++ takeN 4 _)). set (r := dropN 4 _).
  assert (R : 4 <= len r) by (unfold r; rewrite !len_dropN; lia). clearbody p r.
  rewrite <- (takeN_dropN 4 r). assert (R4 : len (takeN 4 r) = 4) by (rewrite len_takeN; lia).
  rewrite takes by exact R4. rewrite R4. cbn. eexists. reflexivity.
Qed.

Lemma tries_at n d p : 0 < n ->
  (exists s', sread_all n (mkIs d p all_bits 0) = (Throw IosFailure, s')) \/
  (p + n <= len d /\ exists m, sread_all n (mkIs d p all_bits 0) = (Ok m, mkIs d (p + n) all_bits 0)).
Proof.
  intros Z0. destruct (N.lt_ge_cases (len d) (p + n)) as [H|H].
  - left. eexists. unfold sread_all, sbind. rewrite sread_short_throw; [reflexivity|reflexivity|reflexivity|].
    cbn [s_pos s_data]. unfold slice. rewrite len_takeN, len_dropN. lia.
  - right. split; [exact H|]. eexists. now apply (sread_all_good n (mkIs d p all_bits 0)).
Qed.
Lemma lame_short id4 pre l : len l < 28 ->
  exists s', lame_mp3_tag id4 (mkIs (pre ++ l) (len pre) all_bits 0) = (Throw IosFailure, s').
Proof.
  intros H. assert (D : len (pre ++ l) < len pre + 28) by (rewrite len_app; lia).
  revert D. generalize (pre ++ l) as d, (len pre) as p. clear. intros d p D.
  unfold lame_mp3_tag, sbind.
  destruct (tries_at 5 d p ltac:(reflexivity)) as [[s E]|[_ [m1 E]]]; rewrite E; [eexists; reflexivity|]; clear E.
  destruct (tries_at 1 d (p + 5) ltac:(reflexivity)) as [[s E]|[_ [m2 E]]]; rewrite E; [eexists; reflexivity|]; clear E.
  rewrite seekg_rel_good; [|reflexivity|cbn [s_pos]; lia]. cbn [s_data s_pos s_exc].
  replace (Z.to_N (Z.of_N (p + 5 + 1) + 10)) with (p + 16) by lia.
  destruct (tries_at 1 d (p + 16) ltac:(reflexivity)) as [[s E]|[_ [m3 E]]]; rewrite E; [eexists; reflexivity|]; clear E.
  rewrite seekg_rel_good; [|reflexivity|cbn [s_pos]; lia]. cbn [s_data s_pos s_exc].
  replace (Z.to_N (Z.of_N (p + 16 + 1) + 7)) with (p + 24) by lia.
  destruct (tries_at 4 d (p + 24) ltac:(reflexivity)) as [[s E]|[X _]]; [rewrite E; eexists; reflexivity|lia].
Qed.

(** The reader of durations (M_Mp3) keeps two of the fields. *)
Lemma read_xing_fields s :
  read_xing s = (do x <- xing_mp3_tag;; sret (xi_frames x, xi_bytes x)) s.
Proof.
  unfold read_xing, xing_mp3_tag, sbind, sret.
  destruct (sread_all 4 s) as [[f| | |] s1]; try reflexivity. cbn beta iota zeta.
  destruct (negb (N.land (nth 3 f 0) 1 =? 0)); [destruct (sread_all 4 s1) as [[?| | |] s2]; try reflexivity|set (s2 := s1)];
  (destruct (negb (N.land (nth 3 f 0) 2 =? 0)); [destruct (sread_all 4 s2) as [[?| | |] s3]; try reflexivity|set (s3 := s2)]);
  (destruct (negb (N.land (nth 3 f 0) 4 =? 0)); [destruct (sread 100 s3) as [[?| | |] s4]; try reflexivity|set (s4 := s3)]);
  (destruct (negb (N.land (nth 3 f 0) 8 =? 0)); [destruct (sread_all 4 s4) as [[?| | |] s5]; reflexivity|reflexivity]).
Qed.
