(** * Lemmas: ID3v2.4 tags. *)
From Verif Require Import Base M_Ints M_Unsync M_Stream M_Payload M_Cloud M_Frame M_Tag23 M_Tag24
  S_Ints S_Stream S_Unsync S_Payload S_Cloud S_Tag S_Tag24
  L_Ints L_Unsync L_Stream L_Payload L_Cloud L_Cloud2 L_Frame L_Tag23 L_Tag23b L_Tag23c L_Tag23d L_Tag23e.

Lemma uss4_pos s0 s1 s2 s3 : Forall (fun x => x < 128) [s0; s1; s2; s3] ->
  uint32_from_sync_safe4 s0 s1 s2 s3 = positional 128 [s0; s1; s2; s3].
Proof.
  intros F. repeat (apply Forall_cons_iff in F as [? F]). rewrite uss4_spec, !N.mod_small by assumption.
  cbn [positional fold_left]. change (128 ^ 3) with 2097152. change (128 ^ 2) with 16384. lia.
Qed.

(** ** One frame *)
Lemma encr_pass24_cons z fuel x l pad ms found : encr_pass24 z (S fuel) (x :: l) pad ms found =
  let* h := frame_id24 (x :: l) in
  match h with
  | None => Ok (len (x :: l), ms, found)
  | Some id =>
      let* cb := frame_size24 (x :: l) in
      let next := encr_pass24 z fuel (dropN (cb + 10) (x :: l)) pad in
      if bytes_eqb id (B "ENCR") then
        if len (x :: l) <? 11 then Throw InvalidTag
        else
          let f1 := nth 9 (x :: l) 0 in
          let* (gid, enc, dli, pread, cbr) := frame_extras24 f1 (dropN 10 (x :: l)) cb in
          match enc with
          | Some m => if existsb (N.eqb m) ms then Throw LogicError else next ms true
          | None =>
              let* b := (if negb (N.land f1 128 =? 0) then
                           match dli with
                           | Some n => let* d := decompressed z pread cbr n in
                                       parse_payload V24 KEncr d (len d)
                           | None => UB Uninitialised
                           end
                         else parse_payload V24 KEncr pread cbr) in
              match b with
              | BEncr e =>
                  match en_method e with
                  | None => UB Uninitialised
                  | Some m => if existsb (N.eqb m) ms then Throw RuntimeError
                              else next (m :: ms) found
                  end
              | _ => next ms found
              end
          end
      else next ms found
  end.
Proof. reflexivity. Qed.

Definition payload24 (z : zlib) (id : bytes) (dli : option N) (pread : bytes) (cbr : N) : outcome body :=
  match dli with
  | Some n => let* d := decompressed z pread cbr n in parse_payload V24 (kind_of V24 id) d (len d)
  | None => parse_payload V24 (kind_of V24 id) pread cbr
  end.

Lemma frames24_cons z fuel cb ms x l : frames24 z (S fuel) cb ms (x :: l) =
  let* h := frame_id24 (x :: l) in
  match h with
  | None => Ok []
  | Some id =>
      if len (x :: l) <? 11 then Throw InvalidTag
      else
        let* c := frame_size24 (x :: l) in
        if cb <=? c then Throw InvalidTag
        else
          let f0 := nth 8 (x :: l) 0 in
          let f1 := nth 9 (x :: l) 0 in
          let* (gid, enc, dli, pread, cbr) := frame_extras24 f1 (dropN 10 (x :: l)) c in
          let* b :=
            (match enc with
             | Some m => if existsb (N.eqb m) ms then Throw LogicError else Throw InvalidArgument
             | None => payload24 z id dli pread cbr
             end) in
          let f := mkFrame id (mkFl (negb (N.land f0 64 =? 0)) (negb (N.land f0 32 =? 0))
                                    (negb (N.land f0 16 =? 0)) (negb (N.land f1 128 =? 0))
                                    enc gid (negb (N.land f1 2 =? 0)) (is_some dli)) b in
          let* r := frames24 z fuel cb ms (dropN (c + 10) (x :: l)) in
          Ok (f :: r)
  end.
Proof. reflexivity. Qed.

(** [w] is a frame that is read as [f]. *)
Definition item (z : zlib) (f : frame) (w : bytes) : Prop :=
  exists s0 s1 s2 s3 f0 f1 data dli q,
    w = f_id f ++ [s0; s1; s2; s3] ++ [f0; f1] ++ data /\
    len (f_id f) = 4 /\ hd 0 (f_id f) <> 0 /\ bytes_eqb (f_id f) (B "ENCR") = false /\
    data <> [] /\ uint32_from_sync_safe4 s0 s1 s2 s3 = len data /\
    (forall r, frame_extras24 f1 (data ++ r) (len data) = Ok (fl_gid (f_flags f), None, dli, q ++ r, len q)) /\
    (forall r, payload24 z (f_id f) dli (q ++ r) (len q) = Ok (f_body f)) /\
    f_flags f = mkFl (negb (N.land f0 64 =? 0)) (negb (N.land f0 32 =? 0))
                     (negb (N.land f0 16 =? 0)) (negb (N.land f1 128 =? 0))
                     None (fl_gid (f_flags f)) (negb (N.land f1 2 =? 0)) (is_some dli).

Lemma item_len z f w : item z f w -> 11 <= len w.
Proof.
  intros (s0 & s1 & s2 & s3 & f0 & f1 & data & dli & q & -> & Hid & _ & _ & Hne & _).
  rewrite !len_app, Hid. change (len [s0; s1; s2; s3]) with 4. change (len [f0; f1]) with 2.
  destruct data; [congruence|]. rewrite len_cons. lia.
Qed.

Lemma item_step z f w r : item z f w ->
  (forall fuel pad ms found, encr_pass24 z (S fuel) (w ++ r) pad ms found = encr_pass24 z fuel r pad ms found) /\
  (forall fuel cb ms, len w <= cb -> frames24 z (S fuel) cb ms (w ++ r) =
     let* fs := frames24 z fuel cb ms r in Ok (f :: fs)).
Proof.
  intros Hi. pose proof (item_len _ _ _ Hi) as H11.
  destruct Hi as (s0 & s1 & s2 & s3 & f0 & f1 & data & dli & q & Ew & Hid & Hhd & Hen & Hne & Hs & He & Hb & Hf).
  assert (Hl : len w = 10 + len data).
  { rewrite Ew, !len_app, Hid. change (len [s0; s1; s2; s3]) with 4. change (len [f0; f1]) with 2. lia. }
  destruct (len4 _ Hid) as (a & b & c & d & Ei).
  assert (Ewr : w ++ r = a :: b :: c :: d :: s0 :: s1 :: s2 :: s3 :: f0 :: f1 :: data ++ r).
  { rewrite Ew, Ei, <- !app_assoc. reflexivity. }
  assert (Hi : frame_id24 (w ++ r) = Ok (Some (f_id f))).
  { unfold frame_id24. rewrite len_app. replace (len w + len r <=? 3) with false by lia. cbn [andb].
    rewrite Ewr, Ei in *. cbn [hd] in Hhd. replace (a =? 0) with false by (symmetry; now apply N.eqb_neq). reflexivity. }
  assert (Hz : frame_size24 (w ++ r) = Ok (len data)) by (rewrite Ewr, <- Hs; reflexivity).
  assert (D10 : dropN 10 (w ++ r) = data ++ r)
    by (rewrite Ewr; exact (dropN_app_exact 10 [a; b; c; d; s0; s1; s2; s3; f0; f1] (data ++ r) eq_refl)).
  assert (Dk : dropN (len data + 10) (w ++ r) = r) by (apply dropN_app_exact; lia).
  assert (N8 : nth 8 (w ++ r) 0 = f0) by (rewrite Ewr; reflexivity).
  assert (N9 : nth 9 (w ++ r) 0 = f1) by (rewrite Ewr; reflexivity).
  assert (L11 : len (w ++ r) <? 11 = false) by (rewrite len_app; lia).
  clear Ew. rewrite Ewr in *. split.
  - intros fuel pad ms found. rewrite encr_pass24_cons, Hi. cbn [bind]. rewrite Hz. cbn [bind].
    rewrite Hen. cbv zeta. now rewrite Dk.
  - intros fuel cb ms Hcb. rewrite frames24_cons, Hi. cbn [bind]. rewrite L11, Hz. cbn [bind].
    replace (cb <=? len data) with false by lia. cbv zeta. rewrite N8, N9, D10, He. cbn [bind].
    rewrite Hb. cbn [bind]. rewrite <- Hf, Dk. destruct f. reflexivity.
Qed.

Lemma items_all z fs ws r : Forall2 (item z) fs ws ->
  (forall fuel pad ms found, encr_pass24 z (length fs + fuel) (concat ws ++ r) pad ms found =
                             encr_pass24 z fuel r pad ms found) /\
  (forall fuel cb ms, len (concat ws) <= cb -> frames24 z (length fs + fuel) cb ms (concat ws ++ r) =
     let* x := frames24 z fuel cb ms r in Ok (fs ++ x)).
Proof.
  induction 1 as [|f w fs ws Hi _ [I1 I2]].
  - split; [reflexivity|]. intros fuel cb ms _. cbn [concat app length plus]. destruct (frames24 z fuel cb ms r); reflexivity.
  - cbn [concat length plus]. rewrite <- app_assoc. destruct (item_step z f w (concat ws ++ r) Hi) as [S1 S2]. split.
    + intros fuel pad ms found. rewrite S1. apply I1.
    + intros fuel cb ms Hcb. rewrite len_app in Hcb. rewrite S2, I2 by lia.
      destruct (frames24 z fuel cb ms r); reflexivity.
Qed.

Lemma items_length z fs ws : Forall2 (item z) fs ws -> (length fs <= length (concat ws))%nat.
Proof.
  induction 1 as [|f w fs ws Hi _ IH]; [cbn; lia|]. cbn [concat length]. rewrite app_length.
  apply item_len in Hi. unfold len in Hi. lia.
Qed.

(** ** Tails *)
Definition zeros4 (r : bytes) : Prop :=
  r <> [] /\ ((len r <= 3 /\ all_zero r = true) \/ exists r', r = 0 :: 0 :: 0 :: 0 :: r').

Lemma id24_zeros r : zeros4 r -> frame_id24 r = Ok None.
Proof.
  intros [_ [[H1 H2]|[r' ->]]]; unfold frame_id24.
  - rewrite H2. now replace (len r <=? 3) with true by lia.
  - rewrite !len_cons. replace (1 + _ <=? 3) with false by lia. reflexivity.
Qed.

Lemma repeat_zeros4 n (r : bytes) : 0 < n -> n <= 3 /\ r = [] \/ 4 <= n -> zeros4 (repeatN 0 n ++ r).
Proof.
  intros Hn H. split.
  { intros E. apply (f_equal len) in E. rewrite len_app, len_repeatN, len_nil in E. lia. }
  destruct H as [[H ->]|H].
  - left. rewrite app_nil_r, len_repeatN. split; [exact H|].
    unfold all_zero, repeatN. apply forallb_forall. intros x Hx. apply repeat_spec in Hx. now subst.
  - right. replace n with (4 + (n - 4)) by lia. rewrite repeatN_add. eexists. reflexivity.
Qed.

Lemma tail_zeros z r : r = [] \/ zeros4 r ->
  (forall fuel ms found, encr_pass24 z (S fuel) r 0 ms found = Ok (len r, ms, found)) /\
  (forall fuel cb ms, frames24 z (S fuel) cb ms r = Ok []).
Proof.
  intros [->|H]; [split; reflexivity|]. pose proof (id24_zeros r H) as Hi.
  destruct r as [|x l]; [now destruct H|]. split; intros.
  - rewrite encr_pass24_cons, Hi. reflexivity.
  - rewrite frames24_cons, Hi. reflexivity.
Qed.

(** Ten bytes that begin like a footer. *)
Lemma tail_footer z r : len r = 10 -> hd 0 r <> 0 -> nth 0 r 0 = 51 ->
  (forall fuel ms found, encr_pass24 z (S (S fuel)) r 0 ms found = Ok (0, ms, found)) /\
  (forall fuel cb ms, frames24 z (S fuel) cb ms r = Throw InvalidTag).
Proof.
  intros Hl Hhd H0. do 10 (destruct r as [|? r]; [cbn in Hl; discriminate|]).
  destruct r; [|rewrite !len_cons in Hl; lia]. cbn [nth] in H0. subst n. split; intros.
  - rewrite encr_pass24_cons. unfold frame_id24, frame_size24.
    cbn [len length N.of_nat Pos.of_succ_nat Pos.succ N.leb N.compare Pos.compare Pos.compare_cont andb N.eqb Pos.eqb bind].
    change (bytes_eqb [51; n0; n1; n2] (B "ENCR")) with false. cbv zeta.
    change (dropN 4 [51; n0; n1; n2; n3; n4; n5; n6; n7; n8]) with [n3; n4; n5; n6; n7; n8]. cbn [bind].
    assert (E : forall k, 10 <= k -> dropN k [51; n0; n1; n2; n3; n4; n5; n6; n7; n8] = []).
    { intros k Hk. rewrite dropN_skipn. apply skipn_all2. cbn. lia. }
    rewrite E by lia. reflexivity.
  - rewrite frames24_cons. unfold frame_id24.
    cbn [len length N.of_nat Pos.of_succ_nat Pos.succ N.leb N.compare Pos.compare Pos.compare_cont andb N.eqb Pos.eqb bind].
    reflexivity.
Qed.

Lemma parse_body24_items z passes f fs ws r pad xw (x : option ext24) :
  (0 < passes)%nat -> Forall2 (item z) fs ws ->
  (forall fuel ms found, (length r < fuel)%nat -> encr_pass24 z fuel r 0 ms found = Ok (pad, ms, found)) ->
  (N.testbit f 6 = is_some x) ->
  (forall y, match x with Some x => parse_ext24 (xw ++ y) = Ok x /\ y_size x = len xw | None => xw = [] end) ->
  parse_body24 z passes f (xw ++ concat ws ++ r) =
  let* more := frames24 z (S (length (concat ws ++ r) - length fs)) (len (xw ++ concat ws ++ r)) [] r in
  Ok (mkTag24 (Some (N.testbit f 7)) (N.testbit f 5) (N.testbit f 4) x pad (map new_frame (fs ++ more))).
Proof.
  intros Hp Hi Hr H6 Hx. unfold parse_body24.
  change 128 with (2 ^ 7). change 64 with (2 ^ 6). change 32 with (2 ^ 5). change 16 with (2 ^ 4).
  rewrite !testbit_land, H6.
  match goal with |- bind ?t _ = _ => assert (E : t = Ok (x, concat ws ++ r)) end.
  { specialize (Hx (concat ws ++ r)). destruct x as [x|]; cbn [is_some].
    - destruct Hx as [Hx1 Hx2]. rewrite Hx1. cbn [bind]. rewrite Hx2. now rewrite dropN_app_exact by reflexivity.
    - now subst xw. }
  rewrite E. cbn [bind]. clear E Hx. set (cb := len (xw ++ concat ws ++ r)).
  assert (Hcb : len (concat ws) <= cb) by (unfold cb; rewrite !len_app; lia).
  pose proof (items_length z fs ws Hi) as Hl. destruct (items_all z fs ws r Hi) as [I1 I2].
  assert (Hlr : length (concat ws ++ r) = (length (concat ws) + length r)%nat) by apply app_length.
  destruct passes as [|k]; [lia|]. cbn [encr_passes24].
  replace (S (length (concat ws ++ r))) with (length fs + S (length (concat ws ++ r) - length fs))%nat by lia.
  rewrite I1, Hr by lia. cbn [bind]. rewrite I2 by exact Hcb.
  destruct (frames24 z (S (length (concat ws ++ r) - length fs)) cb [] r); reflexivity.
Qed.

(** ** Conforming tags *)
Lemma not_encr24 id b : kind_of V24 id = kind_of_body b -> wf_body V24 b -> bytes_eqb id (B "ENCR") = false.
Proof.
  intros Hk Hb. destruct (bytes_eqb_spec id (B "ENCR")) as [E|E]; [|reflexivity]. exfalso.
  rewrite E in Hk. change (kind_of V24 (B "ENCR")) with KEncr in Hk. destruct b; try discriminate. destruct Hb.
Qed.

Lemma payload_plain z id b p r : kind_of V24 id = kind_of_body b -> wf_body V24 b -> write_body b = Ok p ->
  p <> [] -> payload24 z id None (p ++ r) (len p) = Ok b.
Proof.
  intros Hk Hb Hp Hne. unfold payload24. destruct (body_roundtrip V24 b Hb) as (p' & E' & _ & HP).
  rewrite Hp in E'. apply Ok_inj in E'. subst p'. rewrite Hk. apply parse_payload_exact. now apply HP.
Qed.

Lemma laid_item z id f0 f1 gid cmp b p data s0 s1 s2 s3 :
  len id = 4 -> hd 0 id <> 0 -> kind_of V24 id = kind_of_body b ->
  wf_body V24 b -> write_body b = Ok p -> p <> [] ->
  data24 z gid p cmp f1 data ->
  Forall (fun x => x < 128) [s0; s1; s2; s3] -> len data = positional 128 [s0; s1; s2; s3] ->
  item z (as_read24 (id, f0, gid, cmp, b)) (id ++ [s0; s1; s2; s3] ++ [f0; f1] ++ data).
Proof.
  intros Hid Hhd Hk Hb Hp Hne Hd F Hs.
  assert (Fl : forall g, mkFl (N.testbit f0 6) (N.testbit f0 5) (N.testbit f0 4) false None gid false g =
    mkFl (negb (N.land f0 64 =? 0)) (negb (N.land f0 32 =? 0)) (negb (N.land f0 16 =? 0)) false None gid false g).
  { intros g. change 64 with (2 ^ 6). change 32 with (2 ^ 5). change 16 with (2 ^ 4). now rewrite !testbit_land. }
  destruct Hd as [|c d0 d1 d2 d3 F' Hl Hu].
  - exists s0, s1, s2, s3, f0, (match gid with Some _ => 64 | None => 0 end), (opt_bytes gid ++ p), None, p.
    cbn [as_read24 f_id f_flags f_body fl_gid]. do 4 (split; [(reflexivity || assumption || (now apply (not_encr24 id b)))|]).
    split; [destruct gid, p; discriminate || congruence|]. split; [now rewrite uss4_pos|].
    split; [|split].
    + intros r. destruct gid as [g|]; cbn [opt_bytes app].
      * unfold frame_extras24. change (negb (N.land 64 64 =? 0)) with true.
        change (negb (N.land 64 4 =? 0)) with false. change (negb (N.land 64 1 =? 0)) with false.
        unfold take1. rewrite len_cons. replace (1 + len p =? 0) with false by lia. cbn [bind].
        replace (1 + len p - 1) with (len p) by lia. reflexivity.
      * reflexivity.
    + intros r. now apply payload_plain.
    + rewrite Fl. now destruct gid.
  - set (f1 := match gid with Some _ => 73 | None => 9 end).
    exists s0, s1, s2, s3, f0, f1, (opt_bytes gid ++ [d0; d1; d2; d3] ++ c), (Some (len p)), c.
    cbn [as_read24 f_id f_flags f_body fl_gid]. do 4 (split; [(reflexivity || assumption || (now apply (not_encr24 id b)))|]).
    split; [now destruct gid|]. split; [now rewrite uss4_pos|].
    split; [|split].
    + intros r. destruct gid as [g|]; subst f1; cbn [opt_bytes app].
      * unfold frame_extras24. change (negb (N.land 73 64 =? 0)) with true.
        change (negb (N.land 73 4 =? 0)) with false. change (negb (N.land 73 1 =? 0)) with true.
        unfold take1. rewrite !len_cons. replace (1 + (_ + _) =? 0) with false by lia. cbn [bind].
        replace (1 + (1 + (1 + (1 + (1 + len c)))) - 1 <? 4) with false by lia. cbn [bind].
        rewrite uss4_pos, <- Hl by exact F'.
        replace (1 + (1 + (1 + (1 + (1 + len c)))) - 1 - 4) with (len c) by lia. reflexivity.
      * unfold frame_extras24. change (negb (N.land 9 64 =? 0)) with false.
        change (negb (N.land 9 4 =? 0)) with false. change (negb (N.land 9 1 =? 0)) with true.
        cbn [bind]. rewrite !len_cons. replace (1 + (1 + (1 + (1 + len c))) <? 4) with false by lia. cbn [bind].
        rewrite uss4_pos, <- Hl by exact F'.
        replace (1 + (1 + (1 + (1 + len c))) - 4) with (len c) by lia. reflexivity.
    + intros r. unfold payload24, decompressed. rewrite takeN_app_exact by reflexivity.
      rewrite len_app. replace (len c + len r <? len c) with false by lia. rewrite Hu. cbn [bind].
      pose proof (payload_plain z id b p [] Hk Hb Hp Hne) as H. rewrite app_nil_r in H. exact H.
    + rewrite Fl. subst f1. now destruct gid.
Qed.

Lemma laid_items z fs pad l : laid_out24 z fs pad l ->
  exists ws, Forall2 (item z) (map as_read24 fs) ws /\ l = concat ws ++ repeatN 0 pad.
Proof.
  induction 1 as [pad|id f0 f1 gid cmp b p data fs pad l s0 s1 s2 s3 Hid Hhd Hk Hb Hp Hne Hd F Hs _ (ws & I & ->)].
  - exists []. split; [constructor|reflexivity].
  - exists ((id ++ [s0; s1; s2; s3] ++ [f0; f1] ++ data) :: ws). cbn [map concat]. split.
    + constructor; [now apply (laid_item z id f0 f1 gid cmp b p)|exact I].
    + now rewrite <- !app_assoc.
Qed.

Lemma zeros_tail n : repeatN 0 n = [] \/ zeros4 (repeatN 0 n).
Proof.
  destruct (N.eq_dec n 0) as [->|H]; [now left|right]. rewrite <- (app_nil_r (repeatN 0 n)).
  apply repeat_zeros4; [lia|]. destruct (N.le_gt_cases n 3); [left; auto|right; lia].
Qed.

Lemma read_conforming24 z passes f fs pad l : (0 < passes)%nat -> laid_out24 z fs pad l -> N.testbit f 6 = false ->
  parse_body24 z passes f l =
  Ok (mkTag24 (Some (N.testbit f 7)) (N.testbit f 5) (N.testbit f 4) None pad (map new_frame (map as_read24 fs))).
Proof.
  intros Hp HL H6. apply laid_items in HL as (ws & Hi & ->).
  destruct (tail_zeros z _ (zeros_tail pad)) as [T1 T2].
  assert (P := parse_body24_items z passes f _ ws (repeatN 0 pad) pad [] None Hp Hi). cbn [app] in P.
  rewrite P; [rewrite T2; cbn [bind]; now rewrite app_nil_r| |exact H6|reflexivity].
  intros [|fuel] ms found H; [lia|]. now rewrite T1, len_repeatN.
Qed.

Lemma read_conforming24_stream z passes r f fs pad l pre post e : (0 < passes)%nat -> laid_out24 z fs pad l ->
  N.testbit f 6 = false ->
  exists t, read24 z passes (mkInfo 4 r f (len l)) (mkIs (pre ++ l ++ post) (len pre) e 0) =
    (Ok t, mkIs (pre ++ l ++ post) (len pre + len l) e 0) /\
  map c_frame (t4_frames t) = map as_read24 fs /\
  t4_pad t = pad /\ t4_unsync t = Some (N.testbit f 7) /\ t4_exp t = N.testbit f 5 /\ t4_foot t = N.testbit f 4.
Proof.
  intros Hp HL H6. eexists. split.
  - unfold read24. cbn [i_flags i_size]. apply parse_stream_ok. exact (read_conforming24 z passes f fs pad l Hp HL H6).
  - cbn [t4_frames t4_pad t4_unsync t4_exp t4_foot]. rewrite map_map. cbn [c_frame new_frame].
    rewrite map_id. auto.
Qed.

(** ** What is written *)
Definition f0_of24 (f : frame) : N :=
  bit_if (fl_tap (f_flags f)) 32 + bit_if (fl_fap (f_flags f)) 16 + bit_if (fl_ro (f_flags f)) 8.

Lemma wire24_item z f w : wf_frame V24 f -> status_only24 f -> wire24 z f = Ok w -> item z (shift_flags24 f) w.
Proof.
  intros W (ta & fa & ro & un & Hf) H. unfold wire24 in H. apply bind_ok in H as (p & Hp & H).
  rewrite Hf in H. cbn [fl_enc fl_cmp is_some bind] in H. apply bind_ok in H as (h & Hh & H).
  apply Ok_inj in H. subst w. unfold header24 in Hh. rewrite Hf in Hh. cbv zeta in Hh.
  apply bind_ok in Hh as (s & Hs & Hh). apply Ok_inj in Hh.
  cbn [fl_enc fl_cmp fl_gid fl_dli fl_unsync fl_tap fl_fap fl_ro is_some bit_if opt_bytes app] in Hh.
  pose proof (wf_nonempty _ _ _ W Hp) as Hne. destruct W as (Hid & Hhd & Hk & Hb & _). cbn [id_width] in Hid.
  destruct (body_roundtrip V24 (f_body f) Hb) as (p' & E' & Hsz & _). rewrite Hp in E'. apply Ok_inj in E'. subst p'.
  rewrite <- Hsz in Hs. destruct (N.lt_ge_cases (len p) (2 ^ 28)) as [L|L]; [|rewrite ssfu_throw in Hs by exact L; discriminate].
  destruct (sync_safe_roundtrip_l _ L) as (s0 & s1 & s2 & s3 & Es & _ & Ds). rewrite Es in Hs. apply Ok_inj in Hs. subst s.
  exists s0, s1, s2, s3, (bit_if ta 32 + bit_if fa 16 + bit_if ro 8), (bit_if un 2), p, None, p.
  cbn [shift_flags24 f_id f_flags f_body fl_gid]. rewrite Hf. cbn [fl_tap fl_fap fl_unsync].
  split. { rewrite <- Hh, <- !app_assoc. cbn [app]. rewrite !N.add_0_l, !N.add_0_r. reflexivity. }
  do 2 (split; [assumption|]). split; [now apply (not_encr24 _ (f_body f))|]. do 2 (split; [assumption|]).
  split; [|split].
  - intros r. destruct un; reflexivity.
  - intros r. now apply payload_plain.
  - destruct ta, fa, ro, un; reflexivity.
Qed.

Lemma ext24_reread x w r : simple_ext x -> ext_wire24 x = Ok w -> parse_ext24 (w ++ r) = Ok x /\ y_size x = len w.
Proof.
  destruct x as [sz up crc restr]. intros (Hc & Hr & Hsz). cbn [y_crc y_restr y_size y_update] in *. subst crc restr sz.
  destruct up; intros H; apply Ok_inj in H; subst w; (split; [|reflexivity]).
  - assert (E : dropN 6 ([0; 0; 0; 7; 1; 64; 0] ++ r) = 0 :: r).
    { exact (dropN_app_exact 6 [0; 0; 0; 7; 1; 64] (0 :: r) eq_refl). }
    unfold parse_ext24. change ((0 + 0 + 0 + 7) / 1) with 7 in *.
    cbn [app] in *. cbn [app N.eqb]. change (5 + 1) with 6. 
    change (negb (N.land 64 64 =? 0)) with true. change (negb (N.land 64 32 =? 0)) with false.
    change (negb (N.land 64 16 =? 0)) with false.
    match goal with |- context [dropN 6 ?l] => change l with (0 :: 0 :: 0 :: 7 :: 1 :: 64 :: 0 :: r) end.
    rewrite E. cbv zeta. unfold flag_data. rewrite len_cons. replace (1 + len r <? 0 + 1) with false by lia.
    reflexivity.
  - reflexivity.
Qed.

Lemma size24_inv z t u n t' : size24 z t u = Ok (n, t') ->
  t4_unsync t' = t4_unsync t /\ t4_exp t' = t4_exp t /\ t4_foot t' = t4_foot t /\ t4_ext t' = t4_ext t /\
  t4_pad t' = t4_pad t /\ refreshed (wire24 z) (t4_frames t) (t4_frames t') /\
  n = t4_pad t + bit_if (t4_foot t) 10 + match t4_ext t with Some x => y_size x | None => 0 end
      + sum_len (map (cached u) (t4_frames t')) + t4_pad t.
Proof.
  unfold size24. intros H. apply bind_ok in H as (fs & Hf & H). apply Ok_inj in H. injection H as <- <-.
  cbn. repeat (split; [reflexivity|]). split; [now apply (refresh_all_spec _ (t4_pad t =? 0))|reflexivity].
Qed.

Definition opt_footer (t : tag24) (ft : bytes) (n : N) : Prop :=
  if t4_foot t then exists s, sync_safe_from_unsigned n = Ok s /\ ft = [51; 68; 73; 4; 0; flags24 t] ++ s else ft = [].

Lemma write24_inv z t u b t' : write24 z t u = Ok (b, t') ->
  exists n h x ft, size24 z t u = Ok (n, t') /\ tag_header 4 0 (flags24 t) n = Ok h /\
    match t4_ext t with Some y => ext_wire24 y = Ok x | None => x = [] end /\ opt_footer t ft n /\
    b = h ++ x ++ concat (map (cached u) (t4_frames t')) ++ repeatN 0 (t4_pad t) ++ ft.
Proof.
  unfold write24. intros H. apply bind_ok in H as ([n t1] & Hs & H).
  apply bind_ok in H as (h & Hh & H). apply bind_ok in H as (x & Hx & H). apply bind_ok in H as (fs & Hf & H).
  apply bind_ok in H as (ft & Hft & H).
  destruct (size24_inv z t u n t1 Hs) as (_ & _ & Ef & Ex & Ep & (_ & Hcl & _) & _).
  rewrite map_refresh_clean in Hf by exact Hcl. apply Ok_inj in Hf. subst fs.
  apply Ok_inj in H. injection H as Hb Ht.
  assert (t1 = t') as <- by (rewrite <- Ht; now destruct t1). exists n, h, x, ft. rewrite Ex in Hx. rewrite Ep in Hb.
  split; [exact Hs|]. split; [exact Hh|]. split.
  { destruct (t4_ext t); [exact Hx|]. now apply Ok_inj in Hx. }
  split; [|now symmetry]. unfold opt_footer. rewrite Ef in Hft. destruct (t4_foot t); [|now apply Ok_inj in Hft].
  unfold tag_footer in Hft. apply bind_ok in Hft as (s & Es & Hft). apply Ok_inj in Hft. eauto.
Qed.

(** ** Round trips *)
Definition settled24 (z : zlib) (c : cframe) : Prop :=
  wf_frame V24 (c_frame c) /\ status_only24 (c_frame c) /\ wire24 z (c_frame c) = Ok (c_plain c) /\
  exists l, c_unsync c = unsynchronise (c_plain c) l.

Lemma settled24_post z t u n t' : wf_tag24 z t -> size24 z t u = Ok (n, t') -> Forall (settled24 z) (t4_frames t').
Proof.
  intros Hf Hs. apply size24_inv in Hs as (_ & _ & _ & _ & _ & (R1 & R2 & R3) & _). unfold wf_tag24 in Hf.
  assert (Hco : Forall (coherent (wire24 z)) (t4_frames t')).
  { apply R3. revert Hf. apply Forall_impl. now intros c (_ & _ & H). }
  assert (Hwf : Forall (fun f => wf_frame V24 f /\ status_only24 f) (map c_frame (t4_frames t'))).
  { rewrite R1. apply Forall_map. revert Hf. apply Forall_impl. now intros c (H1 & H2 & _). }
  apply Forall_map in Hwf. rewrite Forall_forall in *. intros c Hc. destruct (Hwf c Hc) as [W P].
  destruct (Hco c Hc (R2 c Hc)) as [C1 C2]. split; [exact W|]. split; [exact P|]. split; [exact C1|]. destruct C2; eauto.
Qed.

Lemma unaffected_unsync2 l b : is_bytes l -> (forall i, needs_protection l true i = false) ->
  unsynchronise l b = l.
Proof.
  intros Hb H.
  induction l as [|x r IH]; [reflexivity|]. apply Forall_cons_iff in Hb as [Hb0 Hr].
  assert (IH' : unsynchronise r b = r).
  { apply IH; [exact Hr|]. intros i. exact (H (S i)). }
  cbn [unsynchronise]. destruct (N.eqb_spec x 255) as [->|Hne]; [|now rewrite IH'].
  specialize (H O). unfold needs_protection in H.
  destruct r as [|q r]; [discriminate|]. 
  cbn [nth_error] in H. apply Forall_cons_iff in Hr as [Hq _].
  rewrite land224_ge by exact Hq. rewrite H. now rewrite IH'.
Qed.

Lemma written_items z t u n t' : wf_tag24 z t -> size24 z t u = Ok (n, t') ->
  (u = false \/ Forall (unaffected24 z) (map c_frame (t4_frames t))) ->
  Forall2 (item z) (map shift_flags24 (map c_frame (t4_frames t))) (map (cached u) (t4_frames t')).
Proof.
  intros Hw Hs Hu. pose proof (settled24_post _ _ _ _ _ Hw Hs) as Hse.
  apply size24_inv in Hs as (_ & _ & _ & _ & _ & (R1 & _) & _). rewrite <- R1 in *.
  assert (E : map (cached u) (t4_frames t') = map c_plain (t4_frames t')).
  { destruct Hu as [->|Hu]; [reflexivity|]. apply map_ext_in. intros c Hin. destruct u; [|reflexivity].
    rewrite Forall_forall in Hse. destruct (Hse c Hin) as (_ & _ & Hwc & l & Hl). cbn [cached]. rewrite Hl.
    rewrite Forall_forall in Hu. destruct (Hu (c_frame c) (in_map c_frame _ _ Hin) _ Hwc) as [B1 B2].
    now apply unaffected_unsync2. }
  rewrite E. clear E R1 Hu. induction Hse as [|c l (W & Sf & Hwc & _) _ IH]; [constructor|].
  cbn [map]. constructor; [now apply (wire24_item z)|exact IH].
Qed.

Lemma flags24_bits t : N.testbit (flags24 t) 7 = is_true (t4_unsync t) /\ N.testbit (flags24 t) 6 = is_some (t4_ext t) /\
  N.testbit (flags24 t) 5 = t4_exp t /\ N.testbit (flags24 t) 4 = t4_foot t.
Proof. unfold flags24. destruct (t4_unsync t) as [[|]|], (t4_ext t), (t4_exp t), (t4_foot t); repeat split; reflexivity. Qed.

Lemma header24_found pre b post h n f e v : tag_header v 0 f n = Ok h -> v <> 255 ->
  (exists r, b = h ++ r) ->
  looking_at_id3v2 false (mkIs (pre ++ b ++ post) (len pre) e 0) =
    (Ok (Some (mkInfo v 0 f n)), mkIs (pre ++ b ++ post) (len pre + 10) e 0) /\ len h = 10.
Proof.
  intros Hh Hv (r & Eb). destruct (tag_header_inv _ _ _ _ _ Hh) as (z0 & z1 & z2 & z3 & Eh & Fz & _ & Dz & _).
  split; [|rewrite Eh; reflexivity].
  rewrite looking_at_eq by reflexivity. cbn [s_data s_pos s_exc].
  assert (E : info_at (pre ++ b ++ post) (len pre) = Some (mkInfo v 0 f n)).
  { unfold info_at, slice. rewrite dropN_app_exact by reflexivity. rewrite Eb, <- app_assoc.
    rewrite takeN_app_exact by (rewrite Eh; reflexivity). rewrite Eh.
    change (B "ID3") with [73; 68; 51]. cbn [app]. cbn [classify_header N.eqb Pos.eqb andb negb].
    replace (v =? 255) with false by (symmetry; now apply N.eqb_neq). cbn [andb negb].
    repeat (apply Forall_cons_iff in Fz as [? Fz]).
    repeat match goal with |- context [?x <? 128] => replace (x <? 128) with true by lia end.
    cbn [andb]. now rewrite Dz. }
  rewrite E. reflexivity.
Qed.

(** Whatever follows the frames: the outcome of parsing it decides. *)
Lemma reread24 z passes t u n t' x r pad : (0 < passes)%nat -> wf_tag24 z t -> size24 z t u = Ok (n, t') ->
  (u = false \/ Forall (unaffected24 z) (map c_frame (t4_frames t))) -> ext_simple (t4_ext t) ->
  match t4_ext t with Some y => ext_wire24 y = Ok x | None => x = [] end ->
  (forall fuel ms found, (length r < fuel)%nat -> encr_pass24 z fuel r 0 ms found = Ok (pad, ms, found)) ->
  exists k cb, parse_body24 z passes (flags24 t) (x ++ concat (map (cached u) (t4_frames t')) ++ r) =
  let* more := frames24 z (S k) cb [] r in
  Ok (mkTag24 (Some (is_true (t4_unsync t))) (t4_exp t) (t4_foot t) (t4_ext t) pad
       (map new_frame (map shift_flags24 (map c_frame (t4_frames t)) ++ more))).
Proof.
  intros Hp Hw Hs Hu Hx Ex Hr. pose proof (written_items _ _ _ _ _ Hw Hs Hu) as Hi.
  destruct (flags24_bits t) as (F7 & F6 & F5 & F4).
  assert (P := parse_body24_items z passes (flags24 t) _ _ r pad x (t4_ext t) Hp Hi Hr F6).
  eexists _, _. rewrite P, F7, F5, F4; [reflexivity|].
  intros y. destruct (t4_ext t) as [e|]; [|exact Ex]. now apply ext24_reread.
Qed.

Lemma x_len t x : ext_simple (t4_ext t) -> match t4_ext t with Some y => ext_wire24 y = Ok x | None => x = [] end ->
  len x = match t4_ext t with Some y => y_size y | None => 0 end.
Proof.
  intros Hx Ex. destruct (t4_ext t) as [y|]; [|now subst x]. now destruct (ext24_reread y x [] Hx Ex).
Qed.

Lemma roundtrip24 z passes t u b t' pre post e : (0 < passes)%nat -> wf_tag24 z t -> write24 z t u = Ok (b, t') ->
  (u = false \/ Forall (unaffected24 z) (map c_frame (t4_frames t))) -> ext_simple (t4_ext t) ->
  t4_foot t = false -> (t4_pad t = 0 \/ 4 <= t4_pad t /\ t4_pad t <= len post) ->
  exists info t'',
    looking_at_id3v2 false (mkIs (pre ++ b ++ post) (len pre) e 0) =
      (Ok (Some info), mkIs (pre ++ b ++ post) (len pre + 10) e 0) /\ i_version info = 4 /\
    read24 z passes info (mkIs (pre ++ b ++ post) (len pre + 10) e 0) =
      (Ok t'', mkIs (pre ++ b ++ post) (len pre + len b + t4_pad t) e 0) /\
    map c_frame (t4_frames t'') = map shift_flags24 (map c_frame (t4_frames t)) /\
    t4_unsync t'' = Some (match t4_unsync t with Some true => true | _ => false end) /\
    t4_exp t'' = t4_exp t /\ t4_foot t'' = false /\ t4_ext t'' = t4_ext t /\ t4_pad t'' = 2 * t4_pad t.
Proof.
  intros Hp Hw H Hu Hx Hft Hpad. apply write24_inv in H as (n & h & x & ft & Hs & Hh & Ex & Eft & Eb).
  unfold opt_footer in Eft. rewrite Hft in Eft. subst ft. rewrite app_nil_r in Eb.
  destruct (header24_found pre b post h n (flags24 t) e 4 Hh) as [L1 L2]; [discriminate|eexists; exact Eb|].
  pose proof (x_len t x Hx Ex) as Hxl.
  destruct (size24_inv z t u n t' Hs) as (_ & _ & _ & _ & _ & _ & En). rewrite Hft in En. cbn [bit_if] in En.
  rewrite <- Hxl in En.
  set (xt := takeN (t4_pad t) post). set (r := repeatN 0 (t4_pad t) ++ xt).
  assert (Hxt : len xt = t4_pad t) by (unfold xt; rewrite len_takeN; lia).
  assert (Hrl : len r = 2 * t4_pad t) by (unfold r; rewrite len_app, len_repeatN; lia).
  assert (Hz4 : r = [] \/ zeros4 r).
  { destruct Hpad as [Hpad|Hpad].
    - left. destruct r; [reflexivity|]. rewrite len_cons in Hrl. lia.
    - right. apply repeat_zeros4; lia. }
  destruct (tail_zeros z r Hz4) as [T1 T2].
  destruct (reread24 z passes t u n t' x r (2 * t4_pad t) Hp Hw Hs Hu Hx Ex) as (k & cb & P).
  { intros [|fuel] ms found Hfu; [lia|]. now rewrite T1, Hrl. }
  rewrite T2 in P. cbn [bind] in P. rewrite app_nil_r in P.
  set (body := x ++ concat (map (cached u) (t4_frames t')) ++ r) in *.
  assert (Hbl : len body = n).
  { unfold body. rewrite !len_app, Hrl, En, sum_len_concat. lia. }
  assert (Ebd : b ++ post = h ++ body ++ dropN (t4_pad t) post).
  { rewrite Eb. unfold body, r, xt. rewrite <- !app_assoc. do 4 f_equal. symmetry. apply takeN_dropN. }
  assert (Hbl2 : len b + t4_pad t = 10 + n).
  { rewrite Eb, !len_app, len_repeatN, L2, En, sum_len_concat. lia. }
  exists (mkInfo 4 0 (flags24 t) n). eexists. split; [exact L1|]. split; [reflexivity|]. split.
  - unfold read24. cbn [i_flags i_size]. rewrite Ebd, <- Hbl. rewrite (app_assoc pre h).
    replace (len pre + 10) with (len (pre ++ h)) by (rewrite len_app; lia).
    rewrite (parse_stream_ok _ (pre ++ h) body (dropN (t4_pad t) post) e _ P). do 2 f_equal.
    rewrite len_app. lia.
  - cbn [t4_frames t4_unsync t4_exp t4_foot t4_ext t4_pad]. rewrite map_map. cbn [c_frame new_frame]. rewrite map_id.
    repeat (split; [reflexivity|]). split; [exact Hft|auto].
Qed.
