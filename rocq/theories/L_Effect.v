(** * Lemmas: what a file holds after a command. *)
From Verif Require Import Base M_Ints M_Unsync M_Stream M_Id3v1 M_Payload M_Frame M_Tag22 M_Tag23 M_Tag24 M_Read M_Fs M_Tagset M_Process
  S_Ints S_Stream S_Read S_Unsync S_Id3v1 S_Tag S_Tag22 S_Tag23 S_Tag24 S_Tagset S_Saved S_Process S_Effect
  L_Ints L_Stream L_Id3v1 L_Id3v1b L_Id3v1c L_Frame L_Tag23 L_Read L_Fs L_Tagset L_Tagset2 L_Tagset3 L_Tagset4 L_Tagset5 L_Tagset6 L_Tagset8 L_Tagset7 L_Saved L_Process L_M3u2.
#[local] Open Scope N_scope.

(** ** The trailing tag depends on the end of the file only *)
Lemma app_tail {A} (p x q y : list A) : p ++ x = q ++ y -> (length y <= length x)%nat -> exists c, x = c ++ y /\ q = p ++ c.
Proof.
  revert q. induction p as [|a p IH]; intros q E L.
  - exists q. auto.
  - destruct q as [|b q]; [|injection E as -> E; destruct (IH q E L) as (c & -> & ->); exists c; auto].
    cbn in E. subst y. cbn [length] in L. rewrite app_length in L. lia.
Qed.
Lemma len_le {A} (x y : list A) : len x <= len y -> (length x <= length y)%nat.
Proof. unfold len. lia. Qed.

Lemma tail_block (p x : bytes) n mark : n <= len x -> ends_in_block (p ++ x) n mark <-> ends_in_block x n mark.
Proof.
  intros H. split.
  - intros (q & blk & E & L & M). destruct (app_tail p x q blk E) as (c & -> & _); [apply len_le; lia|]. now exists c, blk.
  - intros (c & blk & -> & L & M). exists (p ++ c), blk. now rewrite app_assoc.
Qed.

Lemma tail_read (p q x : bytes) o : 355 <= len x -> v1_read (p ++ x) o -> v1_read (q ++ x) o.
Proof.
  intros L H. inversion H as [H1 H2|pre blk t H1 H2 H3 H4|pre blk t H1 H2 H3|[H1 H2]]; subst o.
  - apply read_none; rewrite tail_block by lia; rewrite tail_block in H1, H2 by lia; assumption.
  - destruct (app_tail p x pre blk H1) as (c & -> & _); [apply len_le; lia|].
    apply (read_std _ (q ++ c) blk t); [apply app_assoc|exact H2|exact H3|]. rewrite tail_block in H4 |- * by lia. exact H4.
  - destruct (app_tail p x pre blk H1) as (c & -> & _); [apply len_le; lia|].
    apply (read_ext _ (q ++ c) blk t); [apply app_assoc|exact H2|exact H3].
  - apply read_broken. split; rewrite tail_block by lia; rewrite tail_block in H1, H2 by lia; assumption.
Qed.
Lemma tail_process (p q x : bytes) a e b f o : 355 <= len x ->
  fst (process_id3v1 (mkIs (p ++ x) a e 0)) = o -> fst (process_id3v1 (mkIs (q ++ x) b f 0)) = o.
Proof.
  intros L H. pose proof (process_read (p ++ x) a e) as R. rewrite H in R. apply (tail_read p q x o L) in R.
  exact (v1_read_fun _ _ _ (process_read (q ++ x) b f) R).
Qed.

(** ** Tags read back *)
Lemma saved_loop_at z passes m e rest : crc_range z -> (0 < passes)%nat ->
  (forall v r f sz, ~ id3v2_header_at rest 0 v r f sz) ->
  forall ts w o pre fuel, Forall (storable z m) ts -> emit_all z m ts = (w, Ok o) -> len w < 2 ^ 64 -> (length ts < fuel)%nat ->
  exists ts'', read_all_loop z passes fuel (mkIs (pre ++ w ++ rest) (len pre) e 0) = (Ok ts'', mkIs (pre ++ w ++ rest) (len pre + len w) e 0) /\
    Forall2 S_Saved.same_tag ts ts'' /\ Forall2 same_padding ts ts'' /\ Forall2 (marked m) ts ts''.
Proof.
  intros Hz Hp Hrest. induction ts as [|t r IH]; intros w o pre fuel HS HE HL HF; destruct fuel as [|fuel]; try (cbn in HF; lia).
  - cbn in HE. injection HE as <- <-. cbn [read_all_loop]. unfold sbind, maybe_read_id3v2, sbind, sret.
    rewrite looking_at_nothing.
    + exists []. split; [change (len (@nil N)) with 0; rewrite N.add_0_r; reflexivity|]. split; [|split]; constructor.
    + intros v rv f sz H. apply (Hrest v rv f sz). apply (L_Tagset7.header_shift pre). exact H.
  - apply Forall_cons_iff in HS as [S1 S2]. apply emit_all_cons in HE as (b & t1 & w1 & o1 & E1 & E2 & -> & ->).
    rewrite len_app in HL.
    destruct (emit_back z m t b t1 S1 E1) as (t0 & T1 & T2 & T3 & T4 & T5 & T6); [lia|].
    destruct (written_back z passes m t0 b t1 pre (w1 ++ rest) e Hz Hp T1 T2 T3 T4) as (t'' & R1 & R2 & R3 & R4).
    destruct (IH w1 o1 (pre ++ b) fuel S2 E2) as (ts'' & I1 & I2 & I3 & I4); [lia|cbn in HF; lia|].
    exists (t'' :: ts''). rewrite <- app_assoc. cbn [read_all_loop]. unfold sbind. rewrite R1.
    rewrite <- app_assoc, len_app in I1. rewrite I1. rewrite len_app, N.add_assoc. split; [reflexivity|].
    split; [|split]; constructor; auto; [now apply (same_tag_trans t t0)|now apply (same_padding_trans t t0)|now apply (marked_trans m t t0)].
Qed.

Lemma saved_back_at z passes m ts w o rest e : crc_range z -> (0 < passes)%nat -> Forall (storable z m) ts ->
  emit_all z m ts = (w, Ok o) -> len w < 2 ^ 64 -> (forall v r f sz, ~ id3v2_header_at rest 0 v r f sz) ->
  exists ts'', read_all_id3v2 z passes (mkIs (w ++ rest) 0 e 0) = (Ok ts'', mkIs (w ++ rest) (len w) e 0) /\
    Forall2 S_Saved.same_tag ts ts'' /\ Forall2 same_padding ts ts'' /\ Forall2 (marked m) ts ts''.
Proof.
  intros Hz Hp HS HE HL Hrest. unfold read_all_id3v2. cbn [s_data].
  apply (saved_loop_at z passes m e rest Hz Hp Hrest ts w o [] _ HS HE HL).
  rewrite app_length. pose proof (emit_all_long z m ts w o HS HE HL). lia.
Qed.

(** A header needs ten bytes. *)
Lemma header_local (a x y : bytes) v r f sz : 10 <= len a -> id3v2_header_at (a ++ x) 0 v r f sz -> id3v2_header_at (a ++ y) 0 v r f sz.
Proof.
  intros L (z0 & z1 & z2 & z3 & rest & E & H). rewrite dropN_0 in E.
  destruct a as [|a0 [|a1 [|a2 [|a3 [|a4 [|a5 [|a6 [|a7 [|a8 [|a9 a]]]]]]]]]];
    try (exfalso; unfold len in L; cbn [length] in L; lia).
  change (B "ID3") with [73; 68; 51] in E. cbn [app] in E. injection E as -> -> -> -> -> -> -> -> -> -> _.
  exists z0, z1, z2, z3, (a ++ y). rewrite dropN_0. split; [reflexivity|exact H].
Qed.

(** ** A file as it has been written *)
Lemma app_small (w x : bytes) : len (w ++ x) < 2 ^ 64 -> len w < 2 ^ 64.
Proof. rewrite len_app. lia. Qed.
Lemma read_back z passes m r w o f data l v1 v1' a : crc_range z -> (0 < passes)%nat -> Forall (storable z m) r ->
  emit_all z m r = (w, Ok o) -> len f < 2 ^ 64 ->
  holds_audio data l v1 a -> 355 <= len a -> (forall p e, fst (process_id3v1 (mkIs data p e 0)) = Ok v1) ->
  (v1' = None -> v1 = None) -> (forall t, v1' = Some t -> wf_v1 t /\ (v_extended t = false -> ~ ends_in_block a 227 (B "TAG+"))) ->
  S_Process.saved w (dropN (tags_end 0 l) data) v1' f ->
  exists v2'' v1'' l'', read_tagset z passes f = Ok (v2'', v1'') /\ Forall2 S_Saved.same_tag r v2'' /\ Forall2 same_padding r v2'' /\
    Forall2 (marked m) r v2'' /\ same_v1 v1' v1'' /\ holds_audio f l'' v1'' a.
Proof.
  intros Hz Hp HS HE HL (TF & TE & blk & DB & LB) LA HP HN HV HF.
  assert (Hno : forall x v rv fl sz, ~ id3v2_header_at (a ++ x) 0 v rv fl sz).
  { intros x v rv fl sz H. apply (rest_none data l TF v rv fl sz). rewrite DB. apply (header_local a x blk); [lia|exact H]. }
  set (T := tags_end 0 l) in *.
  assert (Ed : data = takeN T data ++ a ++ blk) by (rewrite <- DB; symmetry; apply takeN_dropN).
  assert (Hpr : forall p e, fst (process_id3v1 (mkIs (w ++ a ++ blk) p e 0)) = Ok v1).
  { intros p e. apply (tail_process (takeN T data) w (a ++ blk) p e p e); [rewrite len_app; lia|]. rewrite <- Ed. apply HP. }
  assert (Hend : exists v1'' b, f = w ++ a ++ b /\ len b = trailer v1'' /\ (forall p e, fst (process_id3v1 (mkIs f p e 0)) = Ok v1'') /\ same_v1 v1' v1'').
  { destruct v1' as [t|].
    - cbn [S_Process.saved] in HF. rewrite DB in HF. destruct (HV t eq_refl) as [W NX].
      assert (HR : maybe_remove_id3v1 (w ++ a ++ blk) = Ok (w ++ a)).
      { unfold maybe_remove_id3v1, open_file. rewrite Hpr. cbn [bind]. destruct v1 as [u|]; cbn [trailer] in LB.
        - f_equal. rewrite app_assoc. rewrite <- LB. rewrite (len_app _ blk). rewrite N.add_sub. apply takeN_app_exact. reflexivity.
        - f_equal. destruct blk; [now rewrite app_nil_r|rewrite len_cons in LB; lia]. }
      assert (Ef : exists b, v1_write t = Ok b /\ f = w ++ a ++ b).
      { unfold replace_id3v1 in HF. rewrite HR in HF. cbn [bind] in HF. apply bind_ok in HF as (b & Hb & HF). apply Ok_inj in HF. exists b. rewrite app_assoc. auto. }
      destruct Ef as (b & Hb & Ef). subst f.
      destruct (replace_read (w ++ a ++ blk) t (w ++ a ++ b) W HF) as (base & b' & Q1 & Q2 & Q3 & Q4 & t' & Q5 & Q6).
      { intros X C. apply (NX X). rewrite app_assoc in C. destruct C as (pre & bl & C & C1 & C2).
        assert (Lb : len b = 128).
        { destruct (v1_roundtrip t W) as (b0 & t0 & X1 & X2 & _). rewrite Hb in X1. apply Ok_inj in X1. subst b0. rewrite X2. unfold v1_size. now rewrite X. }
        assert (LL : (length bl <= length (a ++ b))%nat) by (apply len_le; rewrite len_app; lia).
        rewrite <- app_assoc in C. destruct (app_tail w (a ++ b) pre bl C LL) as (c & C3 & _).
        symmetry in C3. destruct (app_tail c bl a b C3) as (c' & -> & ->); [apply len_le; lia|].
        exists c, c'. split; [reflexivity|]. rewrite len_app in C1. split; [lia|].
        assert (L4 : (227 <= length c')%nat). { clear - C1 Lb. unfold len in C1, Lb. rewrite Lb in C1. lia. }
        change (len (B "TAG+")) with 4 in C2 |- *. rewrite takeN_firstn in C2 |- *. change (N.to_nat 4) with 4%nat in C2 |- *.
        rewrite firstn_app in C2. replace (4 - length c')%nat with 0%nat in C2 by lia. now rewrite firstn_O, app_nil_r in C2. }
      rewrite Hb in Q2. apply Ok_inj in Q2. subst b'.
      exists (Some t'), b. split; [reflexivity|]. split; [|split; [|exact Q6]].
      + cbn [trailer]. rewrite Q4. unfold v1_size. now rewrite (st_ext _ _ Q6).
      + intros p e. unfold open_file in Q5. now rewrite (process_any _ p e 0 all_bits).
    - cbn [S_Process.saved] in HF. specialize (HN eq_refl). subst v1. exists None, blk. rewrite DB in HF. split; [exact HF|]. split; [exact LB|]. split; [now rewrite HF|exact Logic.I]. }
  destruct Hend as (v1'' & b & -> & Lb & P & SV). apply app_small in HL.
  destruct (saved_back_at z passes m r w o (a ++ b) all_bits Hz Hp HS HE HL (Hno b)) as (v2'' & R & S1 & S2 & S3).
  exists v2'', v1''. pose proof R as R'. apply (read_all_iff z passes all_bits (w ++ a ++ b) 0) in R'; [|lia].
  destruct R' as (l'' & A1 & A2 & _ & A3). assert (A4 : len w = tags_end 0 l'') by (injection A3 as A3; exact A3).
  exists l''. split.
  { unfold read_tagset, open_file, sbind. rewrite R. destruct (process_id3v1 _) as [x s] eqn:E. specialize (P (len w) all_bits). rewrite E in P. cbn [fst] in P. subst x. reflexivity. }
  split; [exact S1|]. split; [exact S2|]. split; [exact S3|]. split; [exact SV|]. split; [exact A1|]. split; [exact A2|].
  exists b. split; [|exact Lb]. rewrite <- A4. apply dropN_app_exact. reflexivity.
Qed.

(** ** Commands *)
Lemma v1_part k w rest v1' fs1 fs' st : find_node k fs1 = Some (File (w ++ rest)) ->
  match v1' with Some t => replace_v1_file k t | None => fret tt end fs1 = (st, (Ok tt, fs')) ->
  exists f, S_Process.saved w rest v1' f /\ find_node k fs' = Some (File f) /\ forall j, j <> k -> find_node j fs' = find_node j fs1.
Proof.
  intros Hk H. destruct v1' as [t|].
  - destruct (replace_v1_ok k t fs1 (w ++ rest) fs' st Hk H) as (f & A & C & D). eauto.
  - unfold fret in H. injection H as _ <-. exists (w ++ rest). split; [reflexivity|]. auto.
Qed.

Lemma tagset_v1 {S} (P : processor S) p v2 v1 s d v2' v1' s' : process_tagset P p v2 v1 s = Ok (d, v2', v1', s') -> v1' = None -> v1 = None.
Proof.
  unfold process_tagset. intros E ->. destruct v1 as [t|]; [exfalso|reflexivity].
  apply bind_ok in E as ([[[a b] c] s1] & _ & E). destruct (p_v1_scope p).
  - apply bind_ok in E as ([[x y] s2] & E1 & E). apply bind_ok in E1 as ([[x1 y1] s3] & _ & E1). apply Ok_inj in E1. injection E1 as <- <- <-.
    apply Ok_inj in E. injection E as _ _ E. discriminate E.
  - cbn [bind] in E. apply Ok_inj in E. injection E as _ _ E. discriminate E.
Qed.

Lemma same_repadded (ts ts1 r v2'' : list anytag) : Forall2 same_but_caches ts ts1 -> Forall2 repadded ts1 r -> Forall2 S_Saved.same_tag r v2'' ->
  Forall2 S_Saved.same_tag ts v2''.
Proof.
  intros H. revert r v2''. induction H as [|a b ra rb Hab _ IH]; intros r v2'' H1 H2; inversion H1; subst; inversion H2; subst; constructor; eauto.
  apply (same_tag_trans a b); [exact Hab|]. eapply repadded_same_tag; eassumption.
Qed.
Lemma marked_repadded m (ts ts1 r v2'' : list anytag) : Forall2 same_but_caches ts ts1 -> Forall2 repadded ts1 r -> Forall2 (marked m) r v2'' ->
  Forall2 (marked m) ts v2''.
Proof.
  intros H. revert r v2''. induction H as [|a b ra rb Hab _ IH]; intros r v2'' H1 H2; inversion H1; subst; inversion H2; subst; constructor; eauto.
  apply (marked_trans m a b); [exact Hab|]. eapply repadded_marked; eassumption.
Qed.

Lemma storable_repadded z m ts1 r : Forall2 repadded ts1 r -> Forall (storable z m) ts1 -> v24_padding r = 0 -> Forall (storable z m) r.
Proof.
  intros R S V. apply v24_none in V. induction R as [|a b ra rb Hab _ IH]; [constructor|].
  apply Forall_cons_iff in S as [? ?]. apply Forall_cons_iff in V as [? ?]. constructor; [now apply (repadded_storable z m a)|auto].
Qed.

Lemma unpadded_back r v2'' : v24_padding r = 0 -> Forall2 same_padding r v2'' -> Forall2 S_Saved.same_tag r v2'' -> Forall v24_unpadded v2''.
Proof.
  intros V. apply v24_none in V. intros P. induction P as [|x y rx ry Hxy _ IH]; intros T; inversion T; subst; [constructor|].
  apply Forall_cons_iff in V as [V1 V2]. constructor; [|auto]. intros E. assert (E' : is_v24 x = true) by (destruct x, y; cbn in *; tauto || assumption).
  specialize (V1 E'). destruct Hxy as [Hxy|[_ Hxy]]; [congruence|]. rewrite V1 in Hxy. now apply N.eq_add_0 in Hxy.
Qed.
Lemma storable_v24 z m ts : Forall (storable z m) ts -> v24_padding ts = 0.
Proof.
  induction 1 as [|t r H _ IH]; [reflexivity|]. rewrite v24_cons, IH. destruct t; [reflexivity|reflexivity|]. cbn [storable] in H.
  destruct H as (_ & _ & _ & _ & _ & H). cbn [any_padding]. rewrite H. reflexivity.
Qed.

Lemma command_effect {S} z passes e (P : processor S) p path d n fs data l a v2 v1 s v2' v1' s' st o fs' : let k := resolve (e_cwd e) path in
  crc_range z -> (0 < passes)%nat -> file_at e path d n ->
  find_node k fs = Some (File data) -> read_tagset z passes data = Ok (v2, v1) -> holds_audio data l v1 a -> 355 <= len a ->
  p_dry p = false -> process_tagset P p v2 v1 s = Ok (true, v2', v1', s') ->
  Forall (storable z (mode p)) v2' -> v1_fits a v1' -> can_be_written z p (tags_end 0 l) v2' ->
  process_file z passes e P p path s fs = (st, (Ok o, fs')) -> moderate k fs' ->
  exists data' v2'' v1'' l'', find_node k fs' = Some (File data') /\ read_tagset z passes data' = Ok (v2'', v1'') /\
    Forall2 S_Saved.same_tag v2' v2'' /\ Forall2 (marked (mode p)) v2' v2'' /\ Forall v24_unpadded v2'' /\
    same_v1 v1' v1'' /\ holds_audio data' l'' v1'' a.
Proof.
  intros k Hz Hp (NP & CW & DP & PN & AB & NT & NK) Hk HR HA LA DR HT HS HV HW HF HM.
  pose proof (tagset_v1 P p v2 v1 s true v2' v1' s' HT) as HN.
  destruct (tagset_split z passes data v2 v1 HR) as (l0 & T0 & _ & HP). pose proof HA as (TF & TE & _).
  unfold process_file in HF. fold k in HF. rewrite Hk in HF.
  apply fbind_ok in HF as ([b2 b1] & st1 & fs1 & st2 & E1 & HF). unfold flift in E1. rewrite HR in E1. injection E1 as _ <- <- <-.
  apply fbind_ok in HF as ([[[d1 c2] c1] s1] & st3 & fs3 & st4 & E1 & HF). unfold flift in E1. rewrite HT in E1. injection E1 as _ <- <- <- <- <-.
  apply fbind_ok in HF as (u & st5 & fs5 & st6 & HW1 & HF). unfold fret in HF. injection HF as _ _ HF. subst fs5.
  unfold write_tagset in HW1. rewrite DR in HW1. cbn [andb negb] in HW1. fold (mode p) in HW1.
  apply fbind_ok in HW1 as (r & st7 & fs7 & st8 & HC & HV1). destruct u. fold k in HV1.
  destruct (p_backups p) eqn:PB.
  - destruct (emit_all z (mode p) v2') as [w x] eqn:EE.
    pose proof (copy_any z e path d n v2' (mode p) true w x fs data l NP CW DP PN AB Hk TF EE NT NK) as C. cbv zeta in C. rewrite HC in C.
    destruct C as (_ & _ & -> & C). fold k in C.
    destruct (v1_part k w _ v1' fs7 fs' st8 C HV1) as (f & F1 & F2 & _).
    destruct (read_back z passes (mode p) v2' w r f data l v1 v1' a Hz Hp HS EE (HM f F2) HA LA HP HN HV F1)
      as (v2'' & v1'' & l'' & X1 & X2 & X3 & X4 & X5 & X6).
    pose proof (unpadded_back v2' v2'' (storable_v24 z (mode p) v2' HS) X3 X2).
    exists f, v2'', v1'', l''. repeat (split; [assumption|]). assumption.
  - destruct HW as [HW|HW]; [rewrite PB in HW; discriminate HW|]. destruct HW as (W1 & W2 & W3 & nn & pd & ts1 & W4 & W5 & W6).
    pose proof (unmixed_padding z e path d n v2' (mode p) ReducePaddingEvenly false fs data l st7 r fs7 nn pd ts1 NP CW DP PN AB Hk TF W1 TE HS W2 W4 W5 W6 NK NT W3 HC) as V24.
    assert (HSo : Forall sound_tag v2') by (eapply Forall_impl; [exact (storable_sound z (mode p))|exact HS]).
    destruct (save_written z e path d n v2' (mode p) ReducePaddingEvenly false fs data l st7 r fs7 nn pd ts1 NP CW DP PN AB Hk TF W1 TE HSo W2 W4 W5 W6 NK NT HC V24)
      as (R1 & w & Y1 & Y2 & Y3).
    pose proof (sizes_storable z (mode p) v2' nn pd ts1 HS W4) as HS1.
    destruct (sizes_settled z (mode p) v2' HSo nn pd ts1 W4) as (_ & _ & _ & Hsame & _).
    fold k in Y3. destruct (v1_part k w _ v1' fs7 fs' st8 Y3 HV1) as (f & F1 & F2 & _).
    destruct (read_back z passes (mode p) r w r f data l v1 v1' a Hz Hp (storable_repadded z (mode p) ts1 r R1 HS1 V24) Y1 (HM f F2) HA LA HP HN HV F1)
      as (v2'' & v1'' & l'' & X1 & X2 & X3 & X4 & X5 & X6).
    pose proof (unpadded_back r v2'' V24 X3 X2).
    exists f, v2'', v1'', l''. split; [exact F2|]. split; [exact X1|]. split; [exact (same_repadded v2' ts1 r v2'' Hsame R1 X2)|].
    split; [exact (marked_repadded (mode p) v2' ts1 r v2'' Hsame R1 X4)|]. auto.
Qed.
