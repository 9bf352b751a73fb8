(** * Proofs: the genre command. *)
From Verif Require Import Base M_Ints M_Stream M_Id3v1 M_Payload M_Frame M_Tag22 M_Tag23 M_Tag24 M_Charset M_TextId M_Lookup M_Read S_Read M_Fs M_Tagset
  M_Genres M_Match M_Process M_Cmds S_Charset S_Lookup S_Id3v1 S_Match S_Process S_Cmds L_Charset L_Id3v1 L_Id3v1b L_Lookup L_Lookup2 L_Lookup3 L_Match5 L_Process L_Cmds L_Cmds2 L_Cmds4.
#[local] Open Scope N_scope.

(** ** All tags in turn *)
Lemma tags_all P (R : anytag -> anytag * bool -> Prop) v2 :
  (forall t, In t v2 -> exists d t', process_v2 P tt t = Ok (d, t', tt) /\ R t (t', d)) ->
  forall i, exists xs, process_tags P i (iota (length v2) i) v2 tt = Ok (map fst xs, existsb snd xs, tt) /\ Forall2 R v2 xs.
Proof.
  induction v2 as [|t r IH]; intros H i.
  - exists []. split; [reflexivity|constructor].
  - destruct (H t (or_introl eq_refl)) as (d & t' & E & HR).
    destruct (IH (fun u M => H u (or_intror M)) (i + 1)) as (xs & E2 & F).
    exists ((t', d) :: xs). split; [|constructor; assumption].
    cbn [length iota process_tags]. rewrite N.eqb_refl, E. cbn [bind]. rewrite E2. reflexivity.
Qed.

Lemma tags_fail P t v2 : In t v2 -> (forall x, process_v2 P tt t <> Ok x) ->
  forall i x, process_tags P i (iota (length v2) i) v2 tt <> Ok x.
Proof.
  induction v2 as [|u r IH]; intros M H i x; [destruct M|].
  cbn [length iota process_tags]. rewrite N.eqb_refl. destruct M as [->|M].
  - intros E. apply bind_ok in E as (y & E & _). exact (H _ E).
  - intros E. apply bind_ok in E as (((d, t'), s) & _ & E). destruct s. apply bind_ok in E as (y & E & _). exact (IH M H _ _ E).
Qed.

(** ** The content type *)
Lemma tcon_names v : names v tf_tcon (tcon_id v).
Proof. destruct v; split; reflexivity. Qed.

Lemma pick_nil {A} c : pick c (@nil A) = None.
Proof. destruct (pick c (@nil A)) as [x|] eqn:E; [destruct (pick_In _ _ _ E)|reflexivity]. Qed.

(** What a text query finds in a tag as read. *)
Lemma tag_text_read w k id t : fresh t -> names (any_version t) k id -> with_id id (shown t) <> [] ->
  exists f u, In f (with_id id (shown t)) /\ f_body f = BText u /\
    tag_text w (any_version t) k (tables t) = text_as_str (any_version t) (w_ic w) u E_UTF_8 NoFail None.
Proof.
  intros F (FI & KT) W. destruct (ready_fresh t F) as (R & _). rewrite <- tables_frames in W |- *.
  pose proof (with_id_found _ _ _ R KT W) as V. unfold tag_text. rewrite FI. cbn [bind].
  destruct (pick_some (w_texts w (l_texts (tables t)) id) _ V) as (a & P). assert (M := pick_In _ _ _ P). apply values_In in M.
  destruct (y_texts _ _ R id a M) as (i & c & u & X & ID & BT).
  exists (c_frame c), u. split; [apply with_id_In; eauto 6|]. split; [exact BT|].
  unfold get_text, find_text. rewrite P, (at_addr_spec _ _ _ _ (y_nodup _ _ R) X), BT. reflexivity.
Qed.

Lemma tag_text_missing w k id t : fresh t -> names (any_version t) k id -> with_id id (shown t) = [] ->
  tag_text w (any_version t) k (tables t) = Throw UnknownFrame.
Proof.
  intros F (FI & KT) W. destruct (ready_fresh t F) as (R & _). rewrite <- tables_frames in W.
  pose proof (with_id_none _ _ _ R W) as V. unfold tag_text. rewrite FI. cbn [bind].
  unfold get_text, find_text. rewrite V, pick_nil. reflexivity.
Qed.

Lemma genre_one w g t : fresh t -> has_genre (w_ic w) t -> storable (w_ic w) (any_version t) E_UTF_8 (gc_text g) ->
  exists d t', process_v2 (genre_processor w g) tt t = Ok (d, t', tt) /\ genre_put (w_ic w) (gc_text g) t t' d.
Proof.
  intros F (W & RD) G. pose proof (tcon_names (any_version t)) as NM.
  destruct (tag_text_read w tf_tcon _ t F NM W) as (f & u & M & BT & E).
  destruct (RD f M) as (s & u' & BT' & RS). assert (u' = u) by congruence. subst u'.
  cbn [genre_processor process_v2]. unfold genre_tables. rewrite E, RS. cbn [bind].
  destruct (bytes_eqb_spec s (gc_text g)) as [->|NE].
  - cbn [bind]. exists false, t. rewrite (with_tables_same t F). split; [reflexivity|].
    split; [destruct t as [[]|[]|[]]; reflexivity|]. split; [reflexivity|]. exists f. split; [exact M|]. exists u. auto.
  - unfold tag_set_text. rewrite (proj1 NM). cbn [bind].
    destruct (ready_fresh t F) as (R & _).
    destruct (set_put _ (w_ic w) _ (w_texts w (l_texts (tables t)) (tcon_id (any_version t))) _ _ _ R (proj2 NM) G) as (st' & E2 & _ & TP).
    rewrite E2. cbn [bind]. exists true, (with_tables st' t). split; [reflexivity|].
    destruct (with_tables_shown st' t) as (S1 & S2). split; [exact S2|]. rewrite S1, <- tables_frames. exact TP.
Qed.

Lemma genre_missing w g t : fresh t -> with_id (tcon_id (any_version t)) (shown t) = [] ->
  process_v2 (genre_processor w g) tt t = Throw UnknownFrame.
Proof.
  intros F W. cbn [genre_processor process_v2]. unfold genre_tables. rewrite (tag_text_missing w _ _ t F (tcon_names _) W). reflexivity.
Qed.

(** ** ID3v1 *)
Lemma write_at_len x o n b : write_at x o n = Ok b -> len b = n.
Proof.
  unfold write_at. destruct (N.leb_spec (o + n) (len x)) as [L|]; [|discriminate]. intros E. apply Ok_inj in E. subst b.
  apply L_Id3v1.slice_len. exact L.
Qed.

Lemma genre_written t b g : v1_write t = Ok b -> exists a old, b = a ++ [old] /\ v1_write (v1_apply t (SetGenre g)) = Ok (a ++ [g]).
Proof.
  destruct t as [ext v11 alb art com gen xg st en sp tit trk yr]. unfold v1_write. cbn [v1_apply v_extended v_title v_artist v_album v_speed v_ext_genre v_start v_end v_year v_v1_1 v_comment v_track v_genre].
  intros E. apply bind_ok in E as (x & -> & E). cbn [bind].
  apply bind_ok in E as (ti & -> & E). cbn [bind]. apply bind_ok in E as (ar & -> & E). cbn [bind].
  apply bind_ok in E as (al & -> & E). cbn [bind]. apply bind_ok in E as (y & -> & E). cbn [bind].
  apply bind_ok in E as (cm & -> & E). cbn [bind]. apply Ok_inj in E. subst b.
  exists (x ++ B "TAG" ++ ti ++ ar ++ al ++ y ++ cm), gen. rewrite <- !app_assoc. auto.
Qed.

Lemma genre_written_ext t b g name : v_extended t = true -> v1_write t = Ok b ->
  exists b', v1_write (v1_apply (v1_apply t (SetGenre g)) (SetEnhGenre name)) = Ok b' /\ genre_in_v1 g name true b b'.
Proof.
  destruct t as [ext v11 alb art com gen xg st en sp tit trk yr]. unfold v1_write. cbn [v1_apply v_extended v_title v_artist v_album v_speed v_ext_genre v_start v_end v_year v_v1_1 v_comment v_track v_genre].
  intros ->. intros E. apply bind_ok in E as (x & E0 & E).
  apply bind_ok in E0 as (a1 & A1 & E0). apply bind_ok in E0 as (a2 & A2 & E0). apply bind_ok in E0 as (a3 & A3 & E0).
  apply bind_ok in E0 as (s1 & A4 & E0). apply bind_ok in E0 as (g1 & A5 & E0). apply bind_ok in E0 as (t1 & A6 & E0).
  apply bind_ok in E0 as (t2 & A7 & E0). apply bind_ok in E0 as (t3 & A8 & E0). apply bind_ok in E0 as (t4 & A9 & E0). apply Ok_inj in E0. subst x.
  rewrite A1. cbn [bind]. rewrite A2. cbn [bind]. rewrite A3. cbn [bind]. rewrite A4. cbn [bind].
  rewrite L_Id3v1.write_at_ok by (rewrite L_Id3v1.vresize_len; lia). cbn [bind]. rewrite A6. cbn [bind]. rewrite A7. cbn [bind]. rewrite A8. cbn [bind]. rewrite A9. cbn [bind].
  apply bind_ok in E as (ti & -> & E). cbn [bind]. apply bind_ok in E as (ar & -> & E). cbn [bind].
  apply bind_ok in E as (al & -> & E). cbn [bind]. apply bind_ok in E as (y & -> & E). cbn [bind].
  apply bind_ok in E as (cm & -> & E). cbn [bind]. apply Ok_inj in E. subst b.
  eexists. split; [reflexivity|]. unfold genre_in_v1.
  exists (B "TAG+" ++ a1 ++ a2 ++ a3 ++ [s1]), g1, (t2 ++ t4 ++ B "TAG" ++ ti ++ ar ++ al ++ y ++ cm), gen.
  apply write_at_len in A1, A2, A3, A5.
  split; [rewrite <- !app_assoc; reflexivity|]. split; [rewrite !len_app, A1, A2, A3; reflexivity|]. split; [exact A5|].
  rewrite L_Id3v1.slice_all by apply L_Id3v1.vresize_len. rewrite L_Id3v1b.vresize_fixed. rewrite <- !app_assoc. reflexivity.
Qed.

Lemma genre_v1_l w g t b name : v1_write t = Ok b -> text_for_genre (gc_number g) = Some name ->
  (v_extended t = true -> to_bytes (w_ic w) name E_UTF_8 E_ASCII false NoFail = Ok name) ->
  exists t' b', process_v1 (genre_processor w g) tt t = Ok (true, t', tt) /\ v1_write t' = Ok b' /\
    genre_in_v1 (gc_number g) name (v_extended t) b b'.
Proof.
  intros HW HN HA. cbn [genre_processor process_v1]. unfold genre_v1.
  assert (EX : v_extended (v1_apply t (SetGenre (gc_number g))) = v_extended t) by (destruct t; reflexivity). rewrite EX, HN.
  destruct (v_extended t) eqn:X.
  - rewrite (HA eq_refl). cbn [bind]. destruct (genre_written_ext t b (gc_number g) name X HW) as (b' & W' & G').
    do 2 eexists. split; [reflexivity|]. split; [exact W'|exact G'].
  - cbn [bind]. destruct (genre_written t b (gc_number g) HW) as (a & old & E & W'). do 2 eexists. split; [reflexivity|].
    split; [exact W'|]. exists a, old. auto.
Qed.

(** ** ID3v1 tags as read can be written *)
Definition exc_kept {A} (m : ST A) := forall s a s', m s = (Ok a, s') -> s_exc s' = s_exc s.

Lemma set_exc_sets m s u s' : set_exc m s = (Ok u, s') -> s_exc s' = m.
Proof. unfold set_exc. destruct (_ =? 0); [|discriminate]. intros E. injection E as _ <-. reflexivity. Qed.
Lemma tellg_exc : exc_kept tellg.
Proof. intros s a s'. unfold tellg. destruct (_ =? 0); [|discriminate]. intros E. injection E as _ <-. reflexivity. Qed.
Lemma seekg_exc p : exc_kept (seekg p).
Proof. intros s a s'. unfold seekg. destruct (_ =? 0); [|discriminate]. destruct (_ =? 0); intros E; injection E as _ <-; reflexivity. Qed.
Lemma setstate_exc b : exc_kept (setstate b).
Proof. intros s a s'. unfold setstate. destruct (_ =? 0); [|discriminate]. intros E; injection E as _ <-; reflexivity. Qed.
Lemma seekg_end_exc p : exc_kept (seekg_end p).
Proof. intros s a s'. unfold seekg_end. destruct (_ <=? _); [apply seekg_exc|apply setstate_exc]. Qed.

Lemma setstate_throws b s : s_exc s = all_bits -> N.land b all_bits <> 0 -> fst (setstate b s) = Throw IosFailure.
Proof.
  intros E H. unfold setstate. rewrite E. destruct (N.eqb_spec (N.land (N.lor (s_state s) b) all_bits) 0) as [Z|]; [|reflexivity].
  exfalso. apply H. rewrite N.land_lor_distr_l in Z. apply N.lor_eq_0_iff in Z. tauto.
Qed.
Lemma sread_full n s b s' : s_exc s = all_bits -> sread n s = (Ok b, s') -> len b = n.
Proof.
  intros EX. unfold sread. destruct (s_state s =? 0) eqn:Z.
  - cbv zeta. set (x := slice (s_pos s) n (s_data s)). destruct (N.eqb_spec (len x) n) as [L|].
    + intros E. injection E as <- _. exact L.
    + pose proof (setstate_throws (N.lor eofbit failbit) (mkIs (s_data s) (s_pos s + len x) (s_exc s) 0) EX ltac:(discriminate)) as T.
      destruct (setstate _ _) as [[]]; cbn in T; discriminate.
  - pose proof (setstate_throws failbit s EX ltac:(discriminate)) as T. destruct (setstate _ _) as [[]]; cbn in T; discriminate.
Qed.

Lemma from_stream_writes s t s' : id3v1_from_stream s = (Ok t, s') -> exists b, v1_write t = Ok b /\ wf_v1 t.
Proof.
  unfold id3v1_from_stream. intros H.
  apply sbind_inv in H as (e & s1 & H1 & H). apply sbind_inv in H as (u & s2 & H2 & H). apply set_exc_sets in H2.
  apply sbind_inv in H as (here & s3 & H3 & H). apply tellg_exc in H3. rewrite H2 in H3. clear H1 H2 s1 s2 s u.
  unfold scatch in H. match type of H with (match ?m with _ => _ end) = _ => destruct m as [[t0|x|x|] s4] eqn:M end.
  2:{ destruct x; try discriminate H.
      apply sbind_inv in H as (? & ? & _ & H). apply sbind_inv in H as (? & ? & _ & H). apply sbind_inv in H as (? & ? & _ & H). discriminate. }
  2,3: discriminate.
  injection H as <- _.
  apply sbind_inv in M as (u1 & s5 & M1 & M). apply seekg_end_exc in M1.
  apply sbind_inv in M as (there & s6 & M2 & M). apply tellg_exc in M2.
  apply sbind_inv in M as (u2 & s7 & M3 & M). apply seekg_exc in M3.
  assert (EX : s_exc s7 = all_bits) by congruence. clear M1 M2 M3 H3.
  cbv zeta in M. apply sbind_inv in M as (t1 & s8 & M4 & M). apply sbind_inv in M as (u3 & s9 & _ & M). apply sret_inv in M. subst t1.
  destruct (_ && _) in M4.
  - apply sbind_inv in M4 as (b & s10 & R & M4). apply (sread_full _ _ _ _ EX) in R. unfold lift in M4.
    assert (E : init_standard b = Ok t0) by congruence. destruct (std_rewrite b t0 R E) as (W & _ & WF). eauto.
  - destruct (_ && _) in M4; [|discriminate].
    apply sbind_inv in M4 as (b & s10 & R & M4). apply (sread_full _ _ _ _ EX) in R. unfold lift in M4.
    assert (E : init_extended b = Ok t0) by congruence. destruct (ext_rewrite b t0 R E) as (W & _ & WF). eauto.
Qed.
