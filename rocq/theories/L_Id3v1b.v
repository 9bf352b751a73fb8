(** * Lemmas: ID3v1 round trips, histories and files. *)
From Verif Require Import Base M_Stream M_Id3v1 S_Id3v1 L_Stream L_Id3v1.


(** The 30-byte comment area written for a tag. *)
Definition comment_area (t : id3v1_tag) : bytes :=
  if v_v1_1 t then takeN 28 (v_comment t) ++ [0; match v_track t with Some n => n | None => 0 end]
  else takeN 30 (v_comment t).

Definition std_part (t : id3v1_tag) : bytes :=
  B "TAG" ++ takeN 30 (v_title t) ++ takeN 30 (v_artist t) ++ takeN 30 (v_album t) ++
  v_year t ++ comment_area t ++ [v_genre t].

Definition ext_part (t : id3v1_tag) sp st en : bytes :=
  B "TAG+" ++ slice 30 60 (v_title t) ++ slice 30 60 (v_artist t) ++ slice 30 60 (v_album t) ++
  [sp] ++ v_ext_genre t ++ st ++ en.

(** The weaker invariant that makes writing safe. *)
Record writable (t : id3v1_tag) : Prop := {
  wr_title : (if v_extended t then 90 else 30) <= len (v_title t);
  wr_artist : (if v_extended t then 90 else 30) <= len (v_artist t);
  wr_album : (if v_extended t then 90 else 30) <= len (v_album t);
  wr_year : len (v_year t) = 4;
  wr_comment : (if v_v1_1 t then 28 else 30) <= len (v_comment t);
  wr_track : v_v1_1 t = true -> exists n, v_track t = Some n;
  wr_enh : v_extended t = true ->
     (exists s, v_speed t = Some s) /\ len (v_ext_genre t) = 30 /\
     (exists x, v_start t = Some x /\ len x = 6) /\ (exists x, v_end t = Some x /\ len x = 6) }.

Lemma wf_writable t : wf_v1 t -> writable t.
Proof.
  intros [K1 K2 K3 K4 K5 K6 K7 K8]. constructor; rewrite ?K1, ?K2, ?K3, ?K5; try lia; auto.
  - intros H. destruct (K6 H) as (n & Hn & _). eauto.
Qed.

Lemma comment_write t : writable t ->
  (if v_v1_1 t then
     let* c := write_at (v_comment t) 0 28 in
     let* n := M_Id3v1.init (v_track t) in
     Ok (c ++ [0; n])
   else write_at (v_comment t) 0 30) = Ok (comment_area t).
Proof.
  intros W. unfold comment_area. pose proof (wr_comment t W) as Hc.
  destruct (v_v1_1 t) eqn:E.
  - rewrite write_at_ok by lia. cbn [bind].
    destruct (wr_track t W E) as [n ->]. cbn [bind M_Id3v1.init]. now rewrite slice_0.
  - rewrite write_at_ok by lia. now rewrite slice_0.
Qed.

Lemma comment_area_len t : writable t -> len (comment_area t) = 30.
Proof.
  intros W. unfold comment_area. pose proof (wr_comment t W) as Hc.
  destruct (v_v1_1 t) in *.
  - rewrite len_app, len_takeN. change (len [0; _]) with 2. lia.
  - rewrite len_takeN. lia.
Qed.

Lemma write_std t : writable t -> v_extended t = false -> v1_write t = Ok (std_part t).
Proof.
  intros W E. unfold v1_write. rewrite E. cbn [bind].
  pose proof (wr_title t W) as H1. pose proof (wr_artist t W) as H2. pose proof (wr_album t W) as H3.
  pose proof (wr_year t W) as H4. rewrite E in H1, H2, H3.
  rewrite (write_at_ok (v_title t)) by lia. cbn [bind].
  rewrite (write_at_ok (v_artist t)) by lia. cbn [bind].
  rewrite (write_at_ok (v_album t)) by lia. cbn [bind].
  rewrite (write_at_ok (v_year t)) by lia. cbn [bind].
  rewrite (comment_write t W). cbn [bind app].
  unfold std_part. rewrite !slice_0. rewrite (takeN_all 4) by lia. reflexivity.
Qed.

Lemma write_ext t : writable t -> v_extended t = true ->
  exists sp st en, v_speed t = Some sp /\ v_start t = Some st /\ v_end t = Some en /\
    len st = 6 /\ len en = 6 /\ len (v_ext_genre t) = 30 /\
    v1_write t = Ok (ext_part t sp st en ++ std_part t).
Proof.
  intros W E. unfold v1_write. rewrite E.
  pose proof (wr_title t W) as H1. pose proof (wr_artist t W) as H2. pose proof (wr_album t W) as H3.
  pose proof (wr_year t W) as H4. rewrite E in H1, H2, H3.
  destruct (wr_enh t W E) as ([sp Hsp] & Hg & (st & Hst & Lst) & (en & Hen & Len)).
  exists sp, st, en. repeat (split; [assumption|]).
  rewrite !write_at_ok by lia. cbn [bind].
  rewrite Hsp, Hst, Hen. cbn [bind M_Id3v1.init]. rewrite !write_at_ok by lia. cbn [bind].
  rewrite (comment_write t W). cbn [bind].
  unfold ext_part, std_part. rewrite !slice_0.
  rewrite (takeN_all 4) by lia. rewrite (takeN_all 6 st), (takeN_all 6 en) by lia.
  rewrite (takeN_all 30 (v_ext_genre t)) by lia. rewrite <- !app_assoc. reflexivity.
Qed.

Lemma std_part_len t : writable t -> len (std_part t) = 128.
Proof.
  intros W. unfold std_part. rewrite !len_app, (comment_area_len t W), !len_takeN.
  pose proof (wr_title t W). pose proof (wr_artist t W). pose proof (wr_album t W).
  pose proof (wr_year t W).
  change (len (B "TAG")) with 3. change (len [v_genre t]) with 1.
  destruct (v_extended t) in *; lia.
Qed.

Lemma write_writable t : writable t -> exists b, v1_write t = Ok b /\ len b = v1_size t.
Proof.
  intros W. unfold v1_size. destruct (v_extended t) eqn:E.
  - destruct (write_ext t W E) as (sp & st & en & _ & _ & _ & Lst & Len & Lg & ->).
    eexists. split; [reflexivity|].
    rewrite len_app, (std_part_len t W). unfold ext_part. rewrite !len_app.
    pose proof (wr_title t W). pose proof (wr_artist t W). pose proof (wr_album t W).
    rewrite E in *. rewrite !slice_len by lia.
    change (len (B "TAG+")) with 4. change (len [sp]) with 1. lia.
  - rewrite (write_std t W E). eexists. split; [reflexivity|]. now apply std_part_len.
Qed.

(** ** C06 *)
Lemma tail_of_tag t : wf_v1 t ->
  v1_tail (comment_area t ++ [v_genre t]) =
  (v_v1_1 t, v_comment t, if v_v1_1 t then v_track t else None, v_genre t).
Proof.
  intros W. rewrite tail_decode by (apply comment_area_len, wf_writable, W).
  pose proof (wf_comment t W) as Hc. unfold comment_area.
  destruct (v_v1_1 t) eqn:E.
  - destruct (wf_track t W E) as (n & Hn & Hn0). rewrite Hn.
    rewrite (takeN_all 28) by lia.
    rewrite !nthN_app_r by lia. rewrite Hc.
    change (nthN (28 - 28) [0; n]) with 0. change (nthN (29 - 28) [0; n]) with n.
    replace ((0 =? 0) && negb (0 =? n)) with true by lia.
    now rewrite takeN_app_exact.
  - rewrite (takeN_all 30) by lia.
    pose proof (wf_v10 t W E) as H10.
    destruct ((0 =? nthN 28 (v_comment t)) && negb (0 =? nthN 29 (v_comment t))) eqn:Et; [|reflexivity].
    exfalso. apply H10. lia.
Qed.

Lemma take_slice_90 (l : bytes) : len l = 90 -> takeN 30 l ++ slice 30 60 l = l.
Proof.
  intros H. rewrite <- (slice_0 30 l). change 30 with (0 + 30) at 2. rewrite slice_split.
  rewrite slice_0. apply takeN_all. lia.
Qed.

Lemma v1_roundtrip t : wf_v1 t ->
  exists b t', v1_write t = Ok b /\ len b = v1_size t /\
    (if v_extended t then init_extended b else init_standard b) = Ok t' /\ same_tag t t'.
Proof.
  intros W. pose proof (wf_writable t W) as Wr.
  pose proof (wf_title t W) as H1. pose proof (wf_artist t W) as H2.
  pose proof (wf_album t W) as H3. pose proof (wf_year t W) as H4.
  destruct (write_writable t Wr) as (b & Hb & Hl).
  destruct (v_extended t) eqn:E.
  - destruct (write_ext t Wr E) as (sp & st & en & Hsp & Hst & Hen & Lst & Len & Lg & Hw).
    exists b. rewrite Hw in Hb. apply Ok_inj in Hb; subst b.
    unfold ext_part, std_part.
    rewrite ext_decode; try assumption; try (apply slice_len; lia);
      try (rewrite len_takeN; lia); [|apply comment_area_len, Wr].
    rewrite (tail_of_tag t W).
    eexists. split; [exact Hw|]. split; [exact Hl|]. split; [reflexivity|].
    constructor; cbn; try assumption; try reflexivity;
      try (symmetry; apply take_slice_90; lia).
    + intros ->. reflexivity.
    + auto.
  - pose proof (write_std t Wr E) as Hw. exists b. rewrite Hw in Hb. apply Ok_inj in Hb; subst b.
    unfold std_part.
    rewrite std_decode; try assumption; try (rewrite len_takeN; lia); [|apply comment_area_len, Wr].
    rewrite (tail_of_tag t W).
    eexists. split; [exact Hw|]. split; [exact Hl|]. split; [reflexivity|].
    constructor; cbn; try assumption; try reflexivity; try (symmetry; apply takeN_all; lia).
    + intros ->. reflexivity.
    + congruence.
Qed.

(** ** C08 *)
Lemma split_comment (cm : bytes) : len cm = 30 -> cm = takeN 28 cm ++ [nthN 28 cm; nthN 29 cm].
Proof.
  intros H. rewrite <- (takeN_dropN 28 cm) at 1. f_equal.
  change [nthN 28 cm; nthN 29 cm] with ([nthN 28 cm] ++ [nthN 29 cm]).
  rewrite <- (slice_1 28 cm), <- (slice_1 29 cm) by lia.
  change 29 with (28 + 1). rewrite slice_split.
  unfold slice. symmetry. apply takeN_all. rewrite len_dropN. lia.
Qed.

Lemma tail_inv (cm : bytes) g v11 com trk gen : len cm = 30 ->
  v1_tail (cm ++ [g]) = (v11, com, trk, gen) ->
  gen = g /\ 
  (if v11 then len com = 28 /\ exists n, trk = Some n /\ n <> 0 /\ com ++ [0; n] = cm
   else trk = None /\ com = cm /\ ~ (nthN 28 cm = 0 /\ nthN 29 cm <> 0)).
Proof.
  intros H. rewrite tail_decode by assumption.
  destruct ((0 =? nthN 28 cm) && negb (0 =? nthN 29 cm)) eqn:E; intros [= <- <- <- <-].
  - split; [reflexivity|]. split; [rewrite len_takeN; lia|].
    exists (nthN 29 cm). split; [reflexivity|]. split; [lia|].
    rewrite (split_comment cm H) at 3. replace (nthN 28 cm) with 0 by lia. reflexivity.
  - split; [reflexivity|]. split; [reflexivity|]. split; [reflexivity|]. lia.
Qed.

Lemma std_block_split (blk : bytes) : len blk = 128 -> takeN 3 blk = B "TAG" ->
  exists ti ar al yr cm g,
    blk = B "TAG" ++ ti ++ ar ++ al ++ yr ++ cm ++ [g] /\
    len ti = 30 /\ len ar = 30 /\ len al = 30 /\ len yr = 4 /\ len cm = 30.
Proof.
  intros H Ht.
  exists (slice 3 30 blk), (slice 33 30 blk), (slice 63 30 blk), (slice 93 4 blk), (slice 97 30 blk),
    (nthN 127 blk).
  rewrite !slice_len by lia. split; [|auto].
  rewrite <- (slice_1 127) by lia. rewrite <- Ht, <- (slice_0 3 blk).
  change 127 with (97 + 30) at 1. rewrite slice_split.
  change 97 with (93 + 4) at 1. rewrite slice_split.
  change 93 with (63 + 30) at 1. rewrite slice_split.
  change 63 with (33 + 30) at 1. rewrite slice_split.
  change 33 with (3 + 30) at 1. rewrite slice_split.
  change 3 with (0 + 3) at 2. rewrite slice_split.
  rewrite slice_0, takeN_all by lia. reflexivity.
Qed.

Lemma std_rewrite blk t : len blk = 128 -> init_standard blk = Ok t ->
  v1_write t = Ok blk /\ v_extended t = false /\ wf_v1 t.
Proof.
  intros H Hi.
  assert (Ht : takeN 3 blk = B "TAG").
  { unfold init_standard in Hi. rewrite slice_0 in Hi.
    destruct (bytes_eqb_spec (takeN 3 blk) (B "TAG")); [assumption|discriminate]. }
  destruct (std_block_split blk H Ht) as (ti & ar & al & yr & cm & g & -> & L1 & L2 & L3 & L4 & L5).
  rewrite std_decode in Hi by assumption.
  destruct (v1_tail (cm ++ [g])) as [[[v11 com] trk] gen] eqn:E.
  destruct (tail_inv cm g v11 com trk gen L5 E) as [-> Hv].
  apply Ok_inj in Hi; subst t.
  assert (W : wf_v1 (mkV1 false v11 al ar com g [] None None None ti trk yr)).
  { destruct v11.
    - destruct Hv as (Lc & n & -> & Hn & _). constructor; cbn; auto; try discriminate.
      intros _. eauto.
    - destruct Hv as (-> & -> & Hn). constructor; cbn; auto; try discriminate. }
  split; [|auto].
  rewrite write_std; [|apply wf_writable, W|reflexivity].
  unfold std_part, comment_area. cbn. f_equal. 
  rewrite !(takeN_all 30 ti), !(takeN_all 30 ar), !(takeN_all 30 al) by lia.
  do 3 f_equal. f_equal. f_equal. f_equal. f_equal. f_equal.
  destruct v11.
  - destruct Hv as (Lc & n & -> & _ & <-). rewrite (takeN_all 28) by lia. reflexivity.
  - destruct Hv as (-> & -> & _). rewrite (takeN_all 30) by lia. reflexivity.
Qed.

Lemma ext_block_split (blk : bytes) : len blk = 355 -> takeN 4 blk = B "TAG+" ->
  slice 227 3 blk = B "TAG" ->
  exists ti60 ar60 al60 sp xg st en ti ar al yr cm g,
    blk = (B "TAG+" ++ ti60 ++ ar60 ++ al60 ++ [sp] ++ xg ++ st ++ en) ++
          B "TAG" ++ ti ++ ar ++ al ++ yr ++ cm ++ [g] /\
    (len ti60 = 60 /\ len ar60 = 60 /\ len al60 = 60 /\ len xg = 30 /\ len st = 6 /\ len en = 6) /\
    len ti = 30 /\ len ar = 30 /\ len al = 30 /\ len yr = 4 /\ len cm = 30.
Proof.
  intros H Ht Hs.
  destruct (std_block_split (dropN 227 blk)) as (ti & ar & al & yr & cm & g & Hd & L).
  { rewrite len_dropN. lia. } { exact Hs. }
  exists (slice 4 60 blk), (slice 64 60 blk), (slice 124 60 blk), (nthN 184 blk), (slice 185 30 blk),
    (slice 215 6 blk), (slice 221 6 blk), ti, ar, al, yr, cm, g.
  rewrite !slice_len by lia. split; [|auto 10].
  rewrite <- Hd. rewrite <- (slice_1 184) by lia. rewrite <- Ht, <- (slice_0 4 blk).
  change 221 with (215 + 6) at 1. rewrite slice_split.
  change 215 with (185 + 30) at 1. rewrite slice_split.
  change 185 with (184 + 1) at 1. rewrite slice_split.
  change 184 with (124 + 60) at 1. rewrite slice_split.
  change 124 with (64 + 60) at 1. rewrite slice_split.
  change 64 with (4 + 60) at 1. rewrite slice_split.
  change 4 with (0 + 4) at 2. rewrite slice_split.
  rewrite slice_0. symmetry. apply takeN_dropN.
Qed.

Lemma init_extended_marks blk t : init_extended blk = Ok t ->
  takeN 4 blk = B "TAG+" /\ slice 227 3 blk = B "TAG".
Proof.
  unfold init_extended. rewrite slice_0.
  destruct (bytes_eqb_spec (takeN 4 blk) (B "TAG+")) as [H4|]; [|discriminate].
  match goal with |- context [bytes_eqb ?x (B "TAG")] =>
    destruct (bytes_eqb_spec x (B "TAG")) as [H3|] end; [|discriminate].
  intros _. split; [assumption|]. rewrite slice_0 in H3. rewrite !dropN_dropN in H3. exact H3.
Qed.

Lemma ext_rewrite blk t : len blk = 355 -> init_extended blk = Ok t ->
  v1_write t = Ok blk /\ v_extended t = true /\ wf_v1 t.
Proof.
  intros H Hi. destruct (init_extended_marks blk t Hi) as [Ht Hs].
  destruct (ext_block_split blk H Ht Hs) as
    (ti60 & ar60 & al60 & sp & xg & st & en & ti & ar & al & yr & cm & g & -> &
     (M1 & M2 & M3 & M4 & M5 & M6) & L1 & L2 & L3 & L4 & L5).
  rewrite ext_decode in Hi by assumption.
  destruct (v1_tail (cm ++ [g])) as [[[v11 com] trk] gen] eqn:E.
  destruct (tail_inv cm g v11 com trk gen L5 E) as [-> Hv].
  apply Ok_inj in Hi; subst t.
  assert (W : wf_v1 (mkV1 true v11 (al ++ al60) (ar ++ ar60) com g xg (Some st) (Some en)
                          (Some sp) (ti ++ ti60) trk yr)).
  { destruct v11.
    - destruct Hv as (Lc & n & -> & Hn & _).
      constructor; cbn; rewrite ?len_app; try lia; try discriminate; intros; repeat split; eauto.
    - destruct Hv as (-> & -> & Hn).
      constructor; cbn; rewrite ?len_app; try lia; try discriminate; intros; repeat split; eauto. }
  split; [|auto].
  destruct (write_ext _ (wf_writable _ W) eq_refl) as (sp' & st' & en' & Esp & Est & Een & _ & _ & _ & ->).
  cbn in Esp, Est, Een. injection Esp as <-. injection Est as <-. injection Een as <-.
  unfold ext_part, std_part, comment_area. cbn [v_title v_artist v_album v_ext_genre v_year v_v1_1 v_comment v_track v_genre].
  rewrite !(takeN_app_exact 30) by assumption.
  rewrite !(slice_app_r 30 60) by lia. rewrite L1, L2, L3. change (30 - 30) with 0.
  rewrite !slice_0, !(takeN_all 60) by lia.
  destruct v11.
  - destruct Hv as (Lc & n & -> & _ & <-). rewrite (takeN_all 28) by lia. reflexivity.
  - destruct Hv as (-> & -> & _). rewrite (takeN_all 30) by lia. reflexivity.
Qed.

(** ** C07 *)

(** The invariant of setter histories that never turn a standard tag into an
    enhanced one.  [need_sp]/[need_tr]: a value is still missing. *)
Record inv (need_sp need_tr : bool) (t : id3v1_tag) : Prop := {
  in_title : (if v_extended t then 90 else 30) <= len (v_title t);
  in_artist : (if v_extended t then 90 else 30) <= len (v_artist t);
  in_album : (if v_extended t then 90 else 30) <= len (v_album t);
  in_year : len (v_year t) = 4;
  in_comment : (if v_v1_1 t then 28 else 30) <= len (v_comment t);
  in_track : v_v1_1 t = true -> need_tr = true \/ exists n, v_track t = Some n;
  in_enh : v_extended t = true ->
     (need_sp = true \/ exists s, v_speed t = Some s) /\ len (v_ext_genre t) = 30 /\
     (exists x, v_start t = Some x /\ len x = 6) /\ (exists x, v_end t = Some x /\ len x = 6) }.

Definition is_set_speed (op : v1_setter) : bool := match op with SetSpeed _ => true | _ => false end.
Definition is_set_track (op : v1_setter) : bool := match op with SetTrack _ => true | _ => false end.

Lemma apply_ext t op : (v_extended t = false -> enhanced_setter op = false) ->
  v_extended (v1_apply t op) = v_extended t.
Proof. destruct t as [ext ? ? ? ? ? ? ? ? ? ? ? ?], op, ext; cbn; intuition discriminate. Qed.

Lemma inv_apply a b t op : inv a b t ->
  (v_extended t = false -> enhanced_setter op = false) ->
  inv (a && negb (is_set_speed op)) (b && negb (is_set_track op)) (v1_apply t op).
Proof.
  intros I He. destruct t as [ext v11 alb art com gen xg st en sp tit trk yr].
  destruct I as [J1 J2 J3 J4 J5 J6 J7].
  cbn [v_extended v_v1_1 v_title v_artist v_album v_year v_comment v_track v_speed v_ext_genre v_start v_end] in *.
  destruct op; cbn [v1_apply is_set_speed is_set_track negb andb enhanced_setter] in *;
    rewrite ?andb_true_r, ?andb_false_r;
    try (destruct ext; [clear He|discriminate (He eq_refl)]);
    constructor; cbn [v_extended v_v1_1 v_title v_artist v_album v_year v_comment v_track v_speed v_ext_genre v_start v_end];
    rewrite ?vresize_len; auto; try lia.
  - destruct ext, v11; lia.
  - intros _. destruct (J7 eq_refl) as (A & _ & C & D). auto.
  - intros _. destruct (J7 eq_refl) as (_ & A & C & D). eauto 10.
  - intros _. destruct (J7 eq_refl) as (A & A' & _ & D). repeat (split; auto).
    eexists. split; [reflexivity|]. apply vresize_len.
  - intros _. destruct (J7 eq_refl) as (A & A' & C & _). repeat (split; auto).
    eexists. split; [reflexivity|]. apply vresize_len.
  - destruct v11; lia.
  - intros _. right. eauto.
Qed.

Lemma inv_history hist a b t : inv a b t ->
  (v_extended t = false -> forallb (fun op => negb (enhanced_setter op)) hist = true) ->
  inv (a && negb (existsb is_set_speed hist)) (b && negb (existsb is_set_track hist))
      (fold_left v1_apply hist t).
Proof.
  revert a b t. induction hist as [|op hist IH]; intros a b t I He.
  - cbn. now rewrite !andb_true_r.
  - cbn [fold_left existsb].
    assert (Hop : v_extended t = false -> enhanced_setter op = false).
    { intros E. specialize (He E). cbn in He. apply andb_true_iff in He as [He _].
      now destruct (enhanced_setter op). }
    pose proof (inv_apply a b t op I Hop) as I'.
    specialize (IH _ _ _ I').
    rewrite !negb_orb, !andb_assoc. apply IH.
    rewrite (apply_ext t op Hop). intros E. specialize (He E). cbn in He.
    now apply andb_true_iff in He as [_ He].
Qed.

Lemma inv_writable t : inv false false t -> writable t.
Proof.
  intros [J1 J2 J3 J4 J5 J6 J7]. constructor; auto.
  - intros E. destruct (J6 E); [discriminate|assumption].
  - intros E. destruct (J7 E) as ([?|?] & ?); [discriminate|auto].
Qed.

Lemma scratch_inv v11 enh : inv enh v11 (v1_scratch v11 enh).
Proof.
  destruct v11, enh; constructor; cbn [v1_scratch v_extended v_v1_1 v_title v_artist v_album v_year v_comment v_track v_speed v_ext_genre v_start v_end];
    rewrite ?len_repeatN; try lia; try discriminate; auto;
    intros _; repeat split; auto; eexists; split; reflexivity.
Qed.

Lemma wf_inv t : wf_v1 t -> inv false false t.
Proof.
  intros [K1 K2 K3 K4 K5 K6 K7 K8]. constructor; rewrite ?K1, ?K2, ?K3, ?K5; try lia; auto.
  - intros H. destruct (K6 H) as (n & Hn & _). eauto.
  - intros H. destruct (K8 H) as (A & C). auto.
Qed.

Lemma origin_inv t : v1_origin t -> inv false false t.
Proof.
  intros [blk u H Hi|blk u H Hi].
  - apply wf_inv. now apply (std_rewrite blk).
  - apply wf_inv. now apply (ext_rewrite blk).
Qed.

Lemma v1_history_partial t hist :
  v1_origin t \/
  (exists v11 enh, t = v1_scratch v11 enh /\
     (v11 = true -> exists n, In (SetTrack n) hist) /\
     (enh = true -> exists s, In (SetSpeed s) hist)) ->
  (v_extended t = false -> forall op, In op hist -> enhanced_setter op = false) ->
  exists b, v1_write (fold_left v1_apply hist t) = Ok b /\
            len b = v1_size (fold_left v1_apply hist t).
Proof.
  intros Ho He. apply write_writable, inv_writable.
  assert (He' : v_extended t = false -> forallb (fun op => negb (enhanced_setter op)) hist = true).
  { intros E. apply forallb_forall. intros op Hop. now rewrite (He E op Hop). }
  destruct Ho as [Ho|(v11 & enh & -> & H1 & H2)].
  - exact (inv_history hist false false t (origin_inv t Ho) He').
  - pose proof (inv_history hist enh v11 _ (scratch_inv v11 enh) He') as I.
    replace (enh && negb (existsb is_set_speed hist)) with false in I.
    2:{ destruct enh; [|reflexivity]. destruct (H2 eq_refl) as [s Hs]. symmetry.
        replace (existsb is_set_speed hist) with true; [reflexivity|]. symmetry.
        apply existsb_exists. exists (SetSpeed s). auto. }
    replace (v11 && negb (existsb is_set_track hist)) with false in I.
    2:{ destruct v11; [|reflexivity]. destruct (H1 eq_refl) as [n Hn]. symmetry.
        replace (existsb is_set_track hist) with true; [reflexivity|]. symmetry.
        apply existsb_exists. exists (SetTrack n). auto. }
    exact I.
Qed.

Lemma v1_history_refuted :
  exists t hist, v1_origin t /\ v1_write (fold_left v1_apply hist t) = UB OutOfBounds.
Proof.
  set (blk := B "TAG" ++ repeatN 32 125).
  assert (exists t, init_standard blk = Ok t) as [t Ht] by (eexists; reflexivity).
  exists t, [SetSpeed 1]. split.
  - now apply (from_std blk).
  - revert Ht. vm_compute. intros [= <-]. reflexivity.
Qed.

Lemma v1_scratch_refuted :
  v1_write (v1_scratch false true) = UB Uninitialised /\
  v1_write (v1_scratch true false) = UB Uninitialised /\
  v1_write (v1_apply (v1_scratch false false) (SetStart (B "000:10"))) = UB OutOfBounds.
Proof. repeat split; vm_compute; reflexivity. Qed.

(** A v1.1 tag with track number 0 does not come back as v1.1. *)
Lemma v1_track0_refuted :
  exists t b t', v1_origin t /\ 
    v1_write (v1_apply t (SetTrack 0)) = Ok b /\ init_standard b = Ok t' /\
    v_v1_1 (v1_apply t (SetTrack 0)) = true /\ v_v1_1 t' = false.
Proof.
  set (blk := B "TAG" ++ repeatN 32 125).
  assert (exists t, init_standard blk = Ok t) as [t Ht] by (eexists; reflexivity).
  exists t. eexists. eexists. split; [now apply (from_std blk)|].
  revert Ht. vm_compute. intros [= <-]. repeat split.
Qed.

(** ** Last write wins *)
Lemma vresize_fixed n x : vresize n x = fixed n x.
Proof.
  unfold vresize, fixed. destruct (N.le_gt_cases n (len x)).
  - rewrite takeN_app_le by assumption. replace (n - len x) with 0 by lia. cbn. now rewrite app_nil_r.
  - rewrite takeN_app_ge by lia. rewrite (takeN_all n x) by lia. f_equal.
    replace n with ((n - len x) + len x) at 2 by lia. rewrite repeatN_add.
    apply takeN_app_exact. apply len_repeatN.
Qed.

Lemma cstr_until x : cstr x = until_nul x.
Proof. induction x as [|b x IH]; cbn; [reflexivity|]. destruct (b =? 0); congruence. Qed.

Lemma other_setter_keeps f op t : same_setter f op = false ->
  field_bytes f (v1_apply t op) = field_bytes f t.
Proof. destruct t, f, op; cbn; intros H; try discriminate; reflexivity. Qed.

Lemma last_write_wins t h1 op h2 :
  (forall op', In op' h2 -> same_setter op op' = false) ->
  field_bytes op (fold_left v1_apply (h1 ++ op :: h2) t) =
  Some (stored_value op (v_extended (fold_left v1_apply h1 t))).
Proof.
  rewrite fold_left_app. cbn [fold_left]. set (u := fold_left v1_apply h1 t). clearbody u.
  intros H.
  assert (G : forall w, field_bytes op (fold_left v1_apply h2 w) = field_bytes op w).
  { clear -H. induction h2 as [|o h2 IH]; intros w; [reflexivity|]. cbn [fold_left].
    rewrite IH by (intros; apply H; now right). apply other_setter_keeps. apply H. now left. }
  rewrite G. clear. destruct u, op; cbn; rewrite ?vresize_fixed, ?cstr_until; reflexivity.
Qed.
