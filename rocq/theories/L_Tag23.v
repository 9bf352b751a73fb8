(** * Lemmas: ID3v2.3 tags. *)
From Verif Require Import Base M_Ints M_Unsync M_Stream M_Payload M_Cloud M_Frame M_Tag23
  S_Ints S_Stream S_Payload S_Cloud S_Tag L_Ints L_Unsync L_Stream L_Payload L_Cloud L_Cloud2 L_Frame.

(** ** One frame *)


Definition f0_of (f : frame) : N :=
  bit_if (fl_tap (f_flags f)) 64 + bit_if (fl_fap (f_flags f)) 32 + bit_if (fl_ro (f_flags f)) 16.

Lemma wire23_inv z f w : status_only f -> wire23 z f = Ok w ->
  exists p, write_body (f_body f) = Ok p /\ len p < 2 ^ 32 /\
    w = f_id f ++ be32 (len p) ++ [f0_of f; 0] ++ p.
Proof.
  intros (a & b & c & Hf) H. unfold wire23 in H. apply bind_ok in H as (p & Hp & H).
  rewrite Hf in H. cbn [fl_enc fl_cmp is_some bind] in H.
  apply bind_ok in H as (h & Hh & H). apply Ok_inj in H. subst w.
  unfold header23 in Hh. rewrite Hf in Hh.
  cbn [fl_enc fl_cmp fl_gid is_some bit_if fl_tap fl_fap fl_ro opt_bytes] in Hh.
  destruct (N.ltb_spec 4294967295 (len p)) as [L|L]; [discriminate|].
  apply Ok_inj in Hh. subst h. exists p. split; [exact Hp|]. split; [change (2 ^ 32) with 4294967296; lia|].
  unfold f0_of. rewrite Hf. cbn [fl_tap fl_fap fl_ro]. rewrite !app_nil_r, !N.add_0_r.
  now rewrite <- !app_assoc.
Qed.

Lemma len4 (l : bytes) : len l = 4 -> exists a b c d, l = [a; b; c; d].
Proof.
  intros H. do 4 (destruct l as [|? l]; [cbn in H; discriminate|]).
  destruct l; [eauto|]. rewrite !len_cons in H. lia.
Qed.

Lemma be32_list x : exists a b c d, be32 x = [a; b; c; d].
Proof. unfold be32. eauto. Qed.

Lemma frame_head_frame id n f0 f1 p r after : len id = 4 -> hd 0 id <> 0 -> n < 2 ^ 32 -> p ++ r <> [] ->
  frame_head23 ((id ++ be32 n ++ [f0; f1] ++ p) ++ r) after = Ok (Some (id, n, f0, f1)).
Proof.
  intros Hid Hhd Hn Hne. apply len4 in Hid as (a & b & c & d & ->). cbn [hd] in Hhd.
  destruct (be32_list n) as (s0 & s1 & s2 & s3 & Hs). pose proof (be32_decode n _ _ _ _ Hs Hn) as Hd.
  rewrite Hs. rewrite <- !app_assoc. cbn [app].
  destruct (p ++ r) as [|x xs] eqn:E; [congruence|].
  unfold frame_head23. rewrite !len_cons.
  replace (1 + _ <=? 3) with false by (symmetry; apply N.leb_gt; lia). cbn [andb app].
  replace (a =? 0) with false by (symmetry; now apply N.eqb_neq). cbn [andb]. now rewrite Hd.
Qed.

Lemma frame_head_zeros n after : 0 < n -> frame_head23 (repeatN 0 n) after = Ok None.
Proof.
  intros Hn. unfold frame_head23. rewrite len_repeatN.
  assert (Hz : all_zero (repeatN 0 n) = true).
  { unfold all_zero, repeatN. apply forallb_forall. intros x Hx. apply repeat_spec in Hx. now subst. }
  rewrite Hz. destruct (N.leb_spec n 3) as [L|L]; [reflexivity|]. cbn [andb].
  replace n with (4 + (n - 4)) by lia. rewrite repeatN_add. reflexivity.
Qed.

Lemma extras_none p cb : frame_extras23 0 p cb = Ok (None, None, None, p, cb).
Proof. reflexivity. Qed.

Lemma f0_bits f : (negb (N.land (f0_of f) 128 =? 0), negb (N.land (f0_of f) 64 =? 0),
                   negb (N.land (f0_of f) 32 =? 0)) =
  (false, fl_tap (f_flags f), fl_fap (f_flags f)).
Proof.
  unfold f0_of. destruct (fl_tap (f_flags f)), (fl_fap (f_flags f)), (fl_ro (f_flags f)); reflexivity.
Qed.

Lemma parse_payload_exact v k p r b : parse_body v k p r = Ok b -> parse_payload v k (p ++ r) (len p) = Ok b.
Proof.
  intros H. unfold parse_payload. rewrite takeN_app_exact, dropN_app_exact by reflexivity.
  rewrite len_app. replace (len p + len r <? len p) with false by lia. exact H.
Qed.

Lemma dropN10 id n f0 f1 (p r : bytes) : len id = 4 ->
  dropN 10 ((id ++ be32 n ++ [f0; f1] ++ p) ++ r) = p ++ r.
Proof.
  intros H. rewrite (app_assoc id), (app_assoc (id ++ be32 n)), <- app_assoc.
  apply dropN_app_exact. rewrite !len_app, be32_len, H. reflexivity.
Qed.

Lemma wf_nonempty v f p : wf_frame v f -> write_body (f_body f) = Ok p -> p <> [].
Proof. intros (_ & _ & _ & _ & H) E ->. contradiction. Qed.

Lemma wf_parse v f p after : wf_frame v f -> write_body (f_body f) = Ok p ->
  parse_body v (kind_of v (f_id f)) p after = Ok (f_body f).
Proof.
  intros W E. pose proof (wf_nonempty v f p W E) as Hne.
  destruct W as (_ & _ & Hk & Hb & _). rewrite Hk.
  destruct (body_roundtrip v (f_body f) Hb) as (p' & E' & _ & H). rewrite E in E'.
  apply Ok_inj in E'. subst p'. now apply H.
Qed.

Lemma frames23_cons z fuel cb x l after : frames23 z (S fuel) cb (x :: l) after =
  let* h := frame_head23 (x :: l) after in
  match h with
  | None => Ok []
  | Some (id, cbf, f0, f1) =>
      if cb <=? cbf then Throw InvalidTag
      else
        let* (dcsz, enc, gid, pread, cbr) := frame_extras23 f1 (dropN 10 (x :: l) ++ after) cbf in
        let* b :=
          (match enc with
           | Some _ => Throw LogicError
           | None =>
               match dcsz with
               | Some n => let* d := decompressed z pread cbr n in
                           parse_payload V23 (kind_of V23 id) d (len d)
               | None => parse_payload V23 (kind_of V23 id) pread cbr
               end
           end) in
        let f := mkFrame id (mkFl (negb (N.land f0 128 =? 0)) (negb (N.land f0 64 =? 0))
                                  (negb (N.land f0 32 =? 0)) (is_some dcsz) enc gid
                                  false false) b in
        let* r := frames23 z fuel cb (dropN (cbf + 10) (x :: l)) after in
        Ok (f :: r)
  end.
Proof. reflexivity. Qed.

Lemma frames23_step z fuel cb f w r after : wf_frame V23 f -> status_only f -> wire23 z f = Ok w ->
  len w <= cb ->
  frames23 z (S fuel) cb (w ++ r) after =
  let* fs := frames23 z fuel cb r after in Ok (shift_flags f :: fs).
Proof.
  intros W Sf Hw Hcb. destruct (wire23_inv z f w Sf Hw) as (p & Hp & Hl & ->).
  pose proof (wf_nonempty _ _ _ W Hp) as Hne. pose proof W as (Hid & Hhd & _). cbn [id_width] in Hid.
  set (w := f_id f ++ be32 (len p) ++ [f0_of f; 0] ++ p) in *.
  assert (Hwl : len w = 10 + len p).
  { unfold w. rewrite !len_app, be32_len, Hid. change (len [f0_of f; 0]) with 2. lia. }
  assert (Hne' : p ++ r <> []) by (destruct p; [congruence|discriminate]).
  destruct (w ++ r) as [|x l] eqn:E.
  { apply (f_equal len) in E. rewrite len_app, len_nil in E. lia. }
  rewrite frames23_cons, <- E. unfold w at 1. rewrite frame_head_frame by assumption. cbn [bind].
  replace (cb <=? len p) with false by lia.
  unfold w at 1. rewrite dropN10 by exact Hid. rewrite extras_none. cbn [bind].
  rewrite <- app_assoc, (parse_payload_exact V23 _ p (r ++ after) (f_body f))
    by now apply wf_parse. cbn [bind is_some].
  rewrite (dropN_app_exact (len p + 10) w r) by lia.
  pose proof (f0_bits f) as Hb. injection Hb as Hb1 Hb2 Hb3. rewrite Hb1, Hb2, Hb3. reflexivity.
Qed.

Lemma frames23_zeros z fuel cb n after : frames23 z (S fuel) cb (repeatN 0 n) after = Ok [].
Proof.
  destruct (N.eq_dec n 0) as [->|Hn]; [reflexivity|].
  destruct (repeatN 0 n) as [|x l] eqn:E.
  { apply (f_equal len) in E. rewrite len_repeatN, len_nil in E. lia. }
  rewrite frames23_cons, <- E, frame_head_zeros by lia. reflexivity.
Qed.

Definition wired (z : zlib) (f : frame) (w : bytes) : Prop :=
  wf_frame V23 f /\ status_only f /\ wire23 z f = Ok w.

Lemma frames23_all z fs ws : Forall2 (wired z) fs ws ->
  forall fuel cb n after, len (concat ws) <= cb -> (length fs < fuel)%nat ->
  frames23 z fuel cb (concat ws ++ repeatN 0 n) after = Ok (map shift_flags fs).
Proof.
  induction 1 as [|f w fs ws (W & Sf & Hw) _ IH]; intros fuel cb n after Hcb Hfuel.
  - destruct fuel; [cbn in Hfuel; lia|]. cbn [concat app map]. apply frames23_zeros.
  - destruct fuel as [|fuel]; [cbn in Hfuel; lia|]. cbn [concat map] in *. rewrite len_app in Hcb.
    rewrite <- app_assoc, (frames23_step z fuel cb f w) by (assumption || lia).
    rewrite IH by (cbn in Hfuel; lia). reflexivity.
Qed.

(** ** The pass for encryption methods *)
Lemma encr_pass_cons z fuel x l after pad ms found : encr_pass23 z (S fuel) (x :: l) after pad ms found =
  let* h := frame_head23 (x :: l) after in
  match h with
  | None => Ok (len (x :: l), ms, found)
  | Some (id, cb, _, f1) =>
      let next := encr_pass23 z fuel (dropN (cb + 10) (x :: l)) after pad in
      if bytes_eqb id (B "ENCR") then
        let* (dcsz, enc, gid, pread, cbr) := frame_extras23 f1 (dropN 10 (x :: l) ++ after) cb in
        match enc with
        | Some m => if existsb (N.eqb m) ms then Throw LogicError else next ms true
        | None =>
            let* b := (match dcsz with
                       | Some n => let* d := decompressed z pread cbr n in
                                   parse_payload V23 KEncr d (len d)
                       | None => parse_payload V23 KEncr pread cbr
                       end) in
            match b with
            | BEncr e =>
                match en_method e with
                | None => UB Uninitialised
                | Some m => if existsb (N.eqb m) ms then Throw InvalidArgument
                            else next (m :: ms) found
                end
            | _ => next ms found
            end
        end
      else next ms found
  end.
Proof. reflexivity. Qed.

Lemma wf_not_encr f : wf_frame V23 f -> bytes_eqb (f_id f) (B "ENCR") = false.
Proof.
  intros (_ & _ & Hk & Hb & _). destruct (bytes_eqb_spec (f_id f) (B "ENCR")) as [E|E]; [|reflexivity].
  rewrite E in Hk. change (kind_of V23 (B "ENCR")) with KEncr in Hk.
  destruct (f_body f); try discriminate. destruct Hb.
Qed.

Lemma encr_pass_all z fs ws : Forall2 (wired z) fs ws ->
  forall fuel n after ms found, (length fs < fuel)%nat ->
  encr_pass23 z fuel (concat ws ++ repeatN 0 n) after 0 ms found = Ok (n, ms, found).
Proof.
  induction 1 as [|f w fs ws (W & Sf & Hw) _ IH]; intros fuel n after ms found Hfuel.
  - destruct fuel; [cbn in Hfuel; lia|]. cbn [concat app map].
    destruct (N.eq_dec n 0) as [->|Hn]; [reflexivity|].
    destruct (repeatN 0 n) as [|x l] eqn:E.
    { apply (f_equal len) in E. rewrite len_repeatN, len_nil in E. lia. }
    rewrite encr_pass_cons, <- E, frame_head_zeros by lia. cbn [bind]. now rewrite len_repeatN.
  - destruct fuel as [|fuel]; [cbn in Hfuel; lia|]. cbn [concat] in *.
    destruct (wire23_inv z f w Sf Hw) as (p & Hp & Hl & Ew).
    pose proof (wf_nonempty _ _ _ W Hp) as Hne. pose proof W as (Hid & Hhd & _). cbn [id_width] in Hid.
    assert (Hwl : len w = 10 + len p).
    { rewrite Ew, !len_app, be32_len, Hid. change (len [f0_of f; 0]) with 2. lia. }
    rewrite <- app_assoc. set (r := concat ws ++ repeatN 0 n).
    assert (Hne' : p ++ r <> []) by (destruct p; [congruence|discriminate]).
    destruct (w ++ r) as [|x l] eqn:E.
    { apply (f_equal len) in E. rewrite len_app, len_nil in E. lia. }
    rewrite encr_pass_cons, <- E. rewrite Ew at 1. rewrite frame_head_frame by assumption. cbn [bind].
    rewrite wf_not_encr by exact W. cbv zeta.
    rewrite (dropN_app_exact (len p + 10) w r) by lia.
    apply IH. cbn in Hfuel. lia.
Qed.

Lemma encr_passes_all z fs ws passes n after : Forall2 (wired z) fs ws ->
  (0 < passes)%nat -> (length fs <= length (concat ws ++ repeatN 0%N n))%nat ->
  encr_passes23 z passes (concat ws ++ repeatN 0%N n) after 0 [] false = Ok (n, []).
Proof.
  intros H Hp Hl. destruct passes as [|k]; [lia|]. cbn [encr_passes23].
  rewrite (encr_pass_all z fs ws) by (assumption || lia). reflexivity.
Qed.

Lemma wired_length z fs ws : Forall2 (wired z) fs ws -> (length fs <= length (concat ws))%nat.
Proof.
  induction 1 as [|f w fs ws (W & Sf & Hw) _ IH]; [reflexivity|]. cbn [concat length].
  rewrite app_length. destruct (wire23_inv z f w Sf Hw) as (p & _ & _ & ->).
  rewrite app_length. destruct W as (Hid & _). cbn in Hid. unfold len in Hid. lia.
Qed.
