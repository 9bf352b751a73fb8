(** * Proofs: copying ID3v2 to ID3v1. *)
From Verif Require Import Base M_Ints M_Stream M_Id3v1 M_Payload M_Frame M_Tag22 M_Tag23 M_Tag24 M_Charset M_TextId M_Lookup M_Read S_Read M_Fs M_Tagset
  M_Genres M_Match M_Process M_Cmds S_Charset S_Lookup S_Id3v1 S_Match S_Process S_Cmds L_Charset L_Id3v1 L_Id3v1b L_Lookup L_Lookup2 L_Lookup3 L_Match5 L_Process
  L_Cmds L_Cmds2 L_Cmds4 L_Cmds5 L_Cmds6 L_Cmds9.
#[local] Open Scope N_scope.

Lemma tells_text w k t s : fresh t -> tells (w_ic w) k t s -> tag_text w (any_version t) k (tables t) = Ok s.
Proof.
  intros F (id & NM & NE & H). destruct (tag_text_read w k id t F NM NE) as (f & u & M & BT & ->).
  destruct (H f M) as (u' & BT' & E). assert (u' = u) as -> by congruence. exact E.
Qed.
Lemma lacks_text w k t : fresh t -> lacks k t -> tag_text w (any_version t) k (tables t) = Throw UnknownFrame.
Proof. intros F (id & NM & H). exact (tag_text_missing w k id t F NM H). Qed.

Lemma find_frame_l w k ts ss : Forall fresh ts -> Forall2 (tells (w_ic w) k) ts ss -> find_frame w k ts = Ok (find (fun s => negb (len s =? 0)) ss).
Proof.
  intros F H. induction H as [|t s a b T _ IH]; [reflexivity|]. apply Forall_cons_iff in F as (F1 & F2). cbn [find_frame find].
  rewrite (tells_text w k t s F1 T). cbn [bind]. destruct s as [|c r]; [exact (IH F2)|]. rewrite len_cons.
  destruct (N.eqb_spec (1 + len r) 0); [lia|]. reflexivity.
Qed.
Lemma find_year_l w ts ss : Forall fresh ts -> Forall2 (tells (w_ic w) tf_tyer) ts ss -> find_year w ts = Ok (find (fun s => len s =? 4) ss).
Proof.
  intros F H. induction H as [|t s a b T _ IH]; [reflexivity|]. apply Forall_cons_iff in F as (F1 & F2). cbn [find_year find].
  rewrite (tells_text w _ t s F1 T). cbn [bind]. destruct (len s =? 4); [reflexivity|exact (IH F2)].
Qed.

Definition beaten (wide : bytes -> outcome (list N)) (lim : Z -> Prop) (s : bytes) := forall name g d, s <> [] -> match_genre wide s = Ok (name, g, d) -> lim d.

Lemma find_genre_l w ts ss : Forall fresh ts -> Forall2 (tells (w_ic w) tf_tcon) ts ss ->
  Forall (fun s => s <> [] -> exists x, match_genre (w_wide w) s = Ok x) ss ->
  forall best, exists r, find_genre w ts best = Ok r /\
    ((r = option_map fst best /\ Forall (beaten (w_wide w) (fun d => exists g e, best = Some (g, e) /\ (e <= d)%Z)) ss) \/
     exists a s b name g d, ss = a ++ s :: b /\ s <> [] /\ match_genre (w_wide w) s = Ok (name, g, d) /\ r = Some g /\
       (forall h e, best = Some (h, e) -> (d < e)%Z) /\
       Forall (beaten (w_wide w) (fun d' => (d < d')%Z)) a /\ Forall (beaten (w_wide w) (fun d' => (d <= d')%Z)) b).
Proof.
  intros F H. induction H as [|t s ta sa T _ IH]; intros G best.
  - exists (option_map fst best). split; [reflexivity|]. left. auto.
  - apply Forall_cons_iff in F as (F1 & F2). apply Forall_cons_iff in G as (G1 & G2). specialize (IH F2 G2).
    cbn [find_genre]. rewrite (tells_text w _ t s F1 T). cbn [bind]. destruct s as [|c q].
    + destruct (IH best) as (r & E & [(A & C)|(a & s & b & name & g & d & E1 & X)]).
      * exists r. split; [exact E|]. left. split; [exact A|]. constructor; [intros ? ? ? X; congruence|exact C].
      * exists r. split; [exact E|]. right. exists ([] :: a), s, b, name, g, d. rewrite E1. split; [reflexivity|].
        destruct X as (X1 & X2 & X3 & X4 & X5 & X6). repeat split; auto. constructor; [intros ? ? ? Y; congruence|exact X5].
    + destruct (G1 ltac:(discriminate)) as (((name, g), d) & M). rewrite M. cbn [bind].
      set (better := match best with None => true | Some (_, e) => (d <? e)%Z end). destruct better eqn:BT.
      * destruct (IH (Some (g, d))) as (r & E & [(A & C)|(a & s & b & name' & g' & d' & E1 & X)]).
        -- exists r. split; [exact E|]. right. exists [], (c :: q), sa, name, g, d. split; [reflexivity|]. split; [discriminate|]. split; [exact M|].
           split; [exact A|]. split; [|split; [constructor|]].
           ++ intros h e ->. subst better. cbn in BT. apply Z.ltb_lt in BT. exact BT.
           ++ eapply Forall_impl; [|exact C]. intros s L n' g' d' NE MM. destruct (L n' g' d' NE MM) as (x & y & Q & LE). congruence.
        -- exists r. split; [exact E|]. right. exists ((c :: q) :: a), s, b, name', g', d'. rewrite E1. split; [reflexivity|].
           destruct X as (X1 & X2 & X3 & X4 & X5 & X6). pose proof (X4 g d eq_refl) as LT. repeat split; auto.
           ++ intros h e ->. subst better. cbn in BT. apply Z.ltb_lt in BT. eapply Z.lt_trans; eassumption.
           ++ constructor; [|exact X5]. intros n2 g2 d2 _ MM. congruence.
      * destruct (IH best) as (r & E & [(A & C)|(a & s & b & name' & g' & d' & E1 & X)]).
        -- exists r. split; [exact E|]. left. split; [exact A|]. constructor; [|exact C]. intros n2 g2 d2 _ MM.
           destruct best as [(h, e)|]; [|discriminate BT]. subst better. cbn in BT. apply Z.ltb_ge in BT. exists h, e. split; [reflexivity|]. congruence.
        -- exists r. split; [exact E|]. right. exists ((c :: q) :: a), s, b, name', g', d'. rewrite E1. split; [reflexivity|].
           destruct X as (X1 & X2 & X3 & X4 & X5 & X6). repeat split; auto.
           constructor; [|exact X5]. intros n2 g2 d2 _ MM. destruct best as [(h, e)|]; [|discriminate BT]. subst better. cbn in BT. apply Z.ltb_ge in BT.
           pose proof (X4 h e eq_refl) as LT. assert (d2 = d) as -> by congruence. eapply Z.lt_le_trans; eassumption.
Qed.

Lemma set_utf8 w mk ss t : Forall (fun s => no_nul s /\ w_ic w E_UTF_8 E_UTF_8 NoFail s = Some s) ss ->
  v1_set_utf8 w mk (find (fun s => negb (len s =? 0)) ss) t =
  Ok (match find (fun s => negb (len s =? 0)) ss with Some s => v1_apply t (mk s) | None => t end).
Proof.
  intros F. unfold v1_set_utf8. destruct (find (fun s => negb (len s =? 0)) ss) as [s|] eqn:E; [|reflexivity]. apply find_some in E as (M & NE).
  rewrite Forall_forall in F. destruct (F s M) as (NN & IC).
  rewrite (to_bytes_short (w_ic w) s E_UTF_8 E_UTF_8 false NoFail s NN) ; [reflexivity| |reflexivity|exact IC|lia].
  intros ->. discriminate NE.
Qed.

Lemma cstr_no_nul s : no_nul s -> cstr s = s.
Proof.
  induction s as [|c r IH]; intros H; [reflexivity|]. cbn [cstr]. destruct (N.eqb_spec c 0) as [->|]; [elim H; left; reflexivity|].
  rewrite IH; [reflexivity|]. intros M. apply H. right. exact M.
Qed.

Lemma fixed_len n s : len (fixed n s) = n.
Proof. rewrite <- vresize_fixed. apply vresize_len. Qed.

Lemma copy_v2_l w ts albums artists titles years types : Forall fresh ts ->
  Forall2 (tells (w_ic w) tf_talb) ts albums -> Forall2 (tells (w_ic w) tf_tpe1) ts artists -> Forall2 (tells (w_ic w) tf_tit2) ts titles ->
  Forall2 (tells (w_ic w) tf_tyer) ts years -> Forall2 (tells (w_ic w) tf_tcon) ts types ->
  Forall (fun s => no_nul s /\ w_ic w E_UTF_8 E_UTF_8 NoFail s = Some s) (albums ++ artists ++ titles ++ years) ->
  Forall (fun s => s <> [] -> exists x, match_genre (w_wide w) s = Ok x) types ->
  exists t g, copy_id3_v2 w ts = Ok t /\
    v1_write t = Ok (B "TAG" ++ fixed 30 (first_text titles) ++ fixed 30 (first_text artists) ++ fixed 30 (first_text albums) ++
                     fixed 4 (first_year years) ++ repeatN 0 30 ++ [g]) /\
    (Forall (fun s => s = []) types -> g = 0) /\ (~ Forall (fun s => s = []) types -> best_genre (w_wide w) types g).
Proof.
  intros F A1 A2 A3 A4 A5 N1 N2. rewrite !Forall_app in N1. destruct N1 as (N11 & N12 & N13 & N14).
  unfold copy_id3_v2. rewrite (find_frame_l w _ _ _ F A1). cbn [bind]. rewrite (set_utf8 w SetAlbum _ _ N11). cbn [bind].
  rewrite (find_frame_l w _ _ _ F A2). cbn [bind]. rewrite (set_utf8 w SetArtist _ _ N12). cbn [bind].
  rewrite (find_frame_l w _ _ _ F A3). cbn [bind]. rewrite (set_utf8 w SetTitle _ _ N13). cbn [bind].
  rewrite (find_year_l w _ _ F A4). cbn [bind].
  destruct (find_genre_l w _ _ F A5 N2 None) as (r & E & G). rewrite E. cbn [bind].
  eexists. exists (match r with Some i => i | None => 0 end). split; [reflexivity|].
  assert (YR : forall y, find (fun s => len s =? 4) years = Some y -> cstr y = y).
  { intros y Y. apply find_some in Y as (Y & _). rewrite Forall_forall in N14. apply cstr_no_nul. apply (N14 y Y). }
  assert (P : forall ti ar al ye gg, len ti = 30 -> len ar = 30 -> len al = 30 -> len ye = 4 ->
    v1_write (mkV1 false false al ar (repeatN 0 30) gg (repeatN 0 0) (Some (repeatN 0 6)) (Some (repeatN 0 6)) None ti None ye) =
    Ok (B "TAG" ++ ti ++ ar ++ al ++ ye ++ repeatN 0 30 ++ [gg])).
  { intros ti ar al ye gg L1 L2 L3 L4. unfold v1_write. cbn [v_extended v_title v_artist v_album v_year v_v1_1 v_comment v_genre bind].
    rewrite !write_at_ok by (rewrite ?len_repeatN; lia). cbn [bind]. rewrite !slice_all by (rewrite ?len_repeatN; assumption || reflexivity). reflexivity. }
  split; [|split].
  - unfold first_text, first_year.
    assert (Z30 : repeatN 0 30 = fixed 30 []) by reflexivity. assert (Z4 : repeatN 0 4 = fixed 4 []) by reflexivity.
    destruct (find (fun s => negb (len s =? 0)) albums); destruct (find (fun s => negb (len s =? 0)) artists);
    destruct (find (fun s => negb (len s =? 0)) titles); destruct (find (fun s => len s =? 4) years) as [y|].
    all: destruct r as [g0|]; cbv [v1_scratch v1_apply]; rewrite ?vresize_fixed; try rewrite (YR y eq_refl); (rewrite P; [reflexivity|apply fixed_len || reflexivity..]).
  - intros Z. destruct G as [(-> & _)|(a & s & b & name & g & d & E1 & NE & _)]; [reflexivity|]. exfalso.
    rewrite Forall_forall in Z. apply NE. apply Z. rewrite E1. apply in_or_app. right. left. reflexivity.
  - intros Z. destruct G as [(-> & C)|(a & s & b & name & g & d & E1 & NE & M & -> & _ & C1 & C2)].
    + elim Z. rewrite Forall_forall in C, N2 |- *. intros s M. destruct s as [|c q]; [reflexivity|].
      destruct (N2 _ M ltac:(discriminate)) as (((n0, g0), d0) & MM). destruct (C _ M n0 g0 d0 ltac:(discriminate) MM) as (? & ? & X & _). discriminate.
    + exists a, s, b, name, d. split; [exact E1|]. split; [exact NE|]. split; [exact M|]. rewrite Forall_forall in C1, C2. split.
      * intros s' n' g' d' MM NE' X. exact (C1 s' MM n' g' d' NE' X).
      * intros s' n' g' d' MM NE' X. exact (C2 s' MM n' g' d' NE' X).
Qed.

(** ** Frames that are not there *)
Lemma find_frame_lacks w k t r : fresh t -> lacks k t -> find_frame w k (t :: r) = Throw UnknownFrame.
Proof. intros F L. cbn [find_frame]. rewrite (lacks_text w k t F L). reflexivity. Qed.
Lemma find_genre_lacks w ts : Forall fresh ts -> Exists (lacks tf_tcon) ts -> forall best x, find_genre w ts best <> Ok x.
Proof.
  intros F H. induction H as [t r L|t r _ IH]; intros best x E; apply Forall_cons_iff in F as (F1 & F2); cbn [find_genre] in E.
  - rewrite (lacks_text w _ t F1 L) in E. discriminate.
  - apply bind_ok in E as (s & _ & E). destruct s as [|c q]; [exact (IH F2 _ _ E)|]. apply bind_ok in E as (((n, i), d) & _ & E). exact (IH F2 _ _ E).
Qed.

Lemma copy_v2_lacks w t r k : Forall fresh (t :: r) -> (In k [tf_talb; tf_tpe1; tf_tit2; tf_tyer] /\ lacks k t) \/ Exists (lacks tf_tcon) (t :: r) ->
  forall x, copy_id3_v2 w (t :: r) <> Ok x.
Proof.
  intros F H x E. assert (F1 : fresh t) by (apply Forall_cons_iff in F; tauto). unfold copy_id3_v2 in E.
  apply bind_ok in E as (a1 & E1 & E). apply bind_ok in E as (t1 & _ & E). apply bind_ok in E as (a2 & E2 & E). apply bind_ok in E as (t2 & _ & E).
  apply bind_ok in E as (a3 & E3 & E). apply bind_ok in E as (t3 & _ & E). apply bind_ok in E as (a4 & E4 & E). apply bind_ok in E as (a5 & E5 & E).
  destruct H as [(M & L)|H]; [|exact (find_genre_lacks w _ F H _ _ E5)].
  destruct M as [<-|[<-|[<-|[<-|[]]]]].
  - rewrite (find_frame_lacks w _ t r F1 L) in E1. discriminate.
  - rewrite (find_frame_lacks w _ t r F1 L) in E2. discriminate.
  - rewrite (find_frame_lacks w _ t r F1 L) in E3. discriminate.
  - cbn [find_year] in E4. rewrite (lacks_text w _ t F1 L) in E4. discriminate.
Qed.
