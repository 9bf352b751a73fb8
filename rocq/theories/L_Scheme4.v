(** * Lemmas for C79: tags and files. *)
From Verif Require Import Base M_Ints M_Stream M_Charset M_Payload M_Cloud M_Frame M_Tag22 M_Tag23 M_Tag24 M_Lookup M_Read M_Fs M_Tagset M_Cmds M_Lang M_Scheme M_Scheme2
  S_Tag S_Tag22 S_Tag23 S_Tag24 S_Stream S_Read S_Tagset S_Saved S_Cmds S_Scheme2 L_Tagset L_Tagset5 L_Tagset6 L_Cmds L_Saved L_Scheme2 L_Scheme3.
#[local] Open Scope N_scope.

Lemma frames_back G v u xs ys : Forall2 (comes_back G v u) xs ys -> exists fs, gmap (ser G v) xs = GOk fs /\
  Forall (fun f => wf_frame v f /\ f_flags f = no_flags) fs /\
  forall z (w : bool), (u = false -> w = false) -> gmap (de G z v w) (map new_frame fs) = GOk ys.
Proof.
  induction 1 as [|x y xs ys H _ (fs & I1 & I2 & I3)]; [exists []; repeat split; constructor|].
  destruct (object_back _ _ _ _ _ H) as (f & F1 & F2 & F3 & F4). exists (f :: fs). split; [|split].
  - cbn [gmap]. rewrite F1. cbn [gbind]. rewrite I1. reflexivity.
  - constructor; auto.
  - intros z w Hw. cbn [map gmap]. rewrite (F4 z w Hw). cbn [gbind]. rewrite (I3 z w Hw). reflexivity.
Qed.

Lemma fresh_coherent wire f : coherent wire (new_frame f).
Proof. intros H. discriminate H. Qed.
Lemma frames_wf v wire (so : frame -> Prop) fs : (forall f, f_flags f = no_flags -> so f) -> Forall (fun f => wf_frame v f /\ f_flags f = no_flags) fs ->
  Forall (fun c => wf_frame v (c_frame c) /\ so (c_frame c) /\ coherent wire c) (map new_frame fs).
Proof.
  intros Hso H. apply Forall_map. eapply Forall_impl; [|exact H]. intros f [H1 H2]. cbn [new_frame c_frame].
  split; [exact H1|]. split; [now apply Hso|apply fresh_coherent].
Qed.
Lemma frames_plain v fs : Forall (fun f => wf_frame v f /\ f_flags f = no_flags) fs -> Forall plain_flags (map c_frame (map new_frame fs)).
Proof. intros H. rewrite map_map. cbn [new_frame c_frame]. rewrite map_id. eapply Forall_impl; [|exact H]. intros f [_ E]. exact E. Qed.
Lemma status_plain f : f_flags f = no_flags -> status_only f.
Proof. intros E. exists false, false, false. exact E. Qed.
Lemma status_plain24 f : f_flags f = no_flags -> status_only24 f.
Proof. intros E. exists false, false, false, false. exact E. Qed.

Lemma new_shown fs : map c_frame (map new_frame fs) = fs.
Proof. rewrite map_map. cbn [new_frame c_frame]. apply map_id. Qed.
Lemma truth_slot e b : truth e b -> (if is_null e then GOk false else to_bool e) = GOk b.
Proof. intros [->|[-> [->| ->]]]; reflexivity. Qed.

Lemma tag_made G z unsync m copied x y : to_unsync unsync = GOk m -> tag_back G unsync copied x y ->
  exists t, to_tag G x = GOk (Made t) /\ S_Saved.storable z m t /\
    forall t'', same_tag t t'' -> marked m t t'' -> fresh t'' ->
      (copied = true -> same_padding t t'') -> (is_v24 t'' = true -> any_padding t'' = 0) ->
      exists y', from_tag G z t'' = GOk y' /\ tag_back G unsync copied x y'.
Proof.
  intros Hm H. destruct H as [e e' xs ys pad pad' u rest HE HU1 HU2 HF HP _|e e' xs ys rest HE HU HF].
  - destruct (frames_back _ _ _ _ _ HF) as (fs & F1 & F2 & F3).
    exists (A23 (mkTag23 None e' None (Z.to_N pad) (map new_frame fs))). split; [|split].
    + unfold to_tag. cbn [slist list_ref gbind]. unfold to_int. change ((- 2 ^ 31 <=? 3) && (3 <? 2 ^ 31))%Z with true. cbv iota. cbn [gbind].
      unfold slot. cbn [nth_error gbind]. rewrite (truth_slot e e' HE). cbn [gbind]. unfold to_uint. rewrite (int_in pad _ HP). cbn [gbind].
      change (3 =? 2)%Z with false. change (3 =? 3)%Z with true. cbv iota. rewrite to_list_of. cbn [gbind]. rewrite F1. reflexivity.
    + cbn [S_Saved.storable t3_frames t3_ext t3_unsync]. split; [split; [|exact Logic.I]|split; [|split; [reflexivity|discriminate]]].
      * cbn [t3_frames]. apply (frames_wf V23); [exact status_plain|exact F2].
      * apply (frames_plain V23). exact F2.
    + intros t'' HS HM [HR _] HPd _. destruct t'' as [|t''|]; try contradiction. cbn in HS. destruct HS as (S1 & S2 & S3). cbn in HM. destruct HM as [M1 M2].
      unfold shown in HR. cbn [any_frames] in HR. rewrite S1 in HR. cbn [t3_frames t4_frames] in HR. rewrite new_shown in HR.
      assert (EW : any_mark unsync = false -> flagged (t3_unsync t'') = false).
      { intros Ha. destruct unsync as [| |[|]| | | | | | |]; try discriminate Ha. injection Hm as <-. rewrite (M1 eq_refl). reflexivity. }
      eexists. split.
      * cbn [from_tag]. rewrite HR, (F3 z _ EW). cbn [gbind]. reflexivity.
      * rewrite S2. apply tag_back3; auto.
        -- intros ->. apply EW. reflexivity.
        -- intros ->. injection Hm as <-. rewrite (M2 eq_refl). reflexivity.
        -- intros Hc. specialize (HPd Hc). unfold same_padding in HPd. cbn [any_padding any_unsync t3_pad] in HPd. unfold low32.
           assert (HB : (Z.to_N pad < 2 ^ 32)) by (apply small_in; exact HP).
           destruct HPd as [HPd|[HU HPd]].
           ++ left. rewrite HPd, N.mod_small by exact HB. lia.
           ++ right. rewrite HU. split; [reflexivity|]. rewrite N.mod_small by lia. lia.
  - subst unsync. injection Hm as <-. destruct (frames_back _ _ _ _ _ HF) as (fs & F1 & F2 & F3).
    exists (A24 (mkTag24 None e' false None 0 (map new_frame fs))). split; [|split].
    + unfold to_tag. cbn [slist list_ref gbind]. unfold to_int. change ((- 2 ^ 31 <=? 4) && (4 <? 2 ^ 31))%Z with true. cbv iota. cbn [gbind].
      unfold slot. cbn [nth_error gbind]. rewrite (truth_slot e e' HE). cbn [gbind]. unfold to_uint. rewrite (int_in 0 (2 ^ 32)) by lia. cbn [gbind].
      change (4 =? 2)%Z with false. change (4 =? 3)%Z with false. change (4 =? 4)%Z with true. cbv iota. rewrite to_list_of. cbn [gbind]. rewrite F1. reflexivity.
    + cbn [S_Saved.storable t4_frames t4_ext t4_foot t4_pad]. repeat split; auto.
      * unfold wf_tag24. cbn [t4_frames]. apply (frames_wf V24); [exact status_plain24|exact F2].
      * apply (frames_plain V24). exact F2.
    + intros t'' HS HM [HR _] HPd HC. destruct t'' as [| |t'']; try contradiction. cbn in HS. destruct HS as (S1 & S2 & S3 & S4). cbn in HM.
      unfold shown in HR. cbn [any_frames] in HR. rewrite S1 in HR. cbn [t3_frames t4_frames] in HR. rewrite new_shown in HR.
      assert (EP : t4_pad t'' = 0) by exact (HC eq_refl).
      eexists. split.
      * cbn [from_tag]. rewrite HR, HM. cbn [flagged]. rewrite (F3 z false (fun _ => eq_refl)). cbn [gbind]. rewrite S2, EP. reflexivity.
      * apply tag_back4; auto.
Qed.

Lemma tags_made G z unsync m copied xs : to_unsync unsync = GOk m -> Forall (fun x => exists y, tag_back G unsync copied x y) xs ->
  exists ts, gmap (to_tag G) xs = GOk (map Made ts) /\ Forall (S_Saved.storable z m) ts /\
    forall ts'', Forall2 same_tag ts ts'' -> Forall2 (marked m) ts ts'' -> Forall fresh ts'' ->
      (copied = true -> Forall2 same_padding ts ts'') -> Forall (fun t => is_v24 t = true -> any_padding t = 0) ts'' ->
      exists ys, gmap (from_tag G z) ts'' = GOk ys /\ Forall2 (tag_back G unsync copied) xs ys.
Proof.
  intros Hm. induction 1 as [|x xs (y & Hx) _ (ts & I1 & I2 & I3)].
  - exists []. split; [reflexivity|]. split; [constructor|]. intros ts'' H _ _ _ _. inversion H; subst. exists []. split; [reflexivity|constructor].
  - destruct (tag_made G z unsync m copied x y Hm Hx) as (t & T1 & T2 & T3). exists (t :: ts). split; [|split].
    + cbn [gmap]. rewrite T1. cbn [gbind]. rewrite I1. reflexivity.
    + constructor; auto.
    + intros ts'' HS HM HR HP HC. inversion HS as [|a b la lb S1 S2]; subst. inversion HM as [|a0 b0 la0 lb0 M1 M2]; subst.
      apply Forall_cons_iff in HR as [R1 R2].
      destruct (T3 b S1 M1 R1) as (y' & Y1 & Y2).
      { intros Hc. specialize (HP Hc). inversion HP; subst; assumption. }
      { now apply Forall_inv in HC. }
      destruct (I3 lb S2 M2 R2) as (ys & Z1 & Z2).
      { intros Hc. specialize (HP Hc). inversion HP; subst; assumption. }
      { now apply Forall_inv_tail in HC. }
      exists (y' :: ys). split; [cbn [gmap]; rewrite Y1; cbn [gbind]; rewrite Z1; reflexivity|constructor; auto].
Qed.

Lemma usable_made ts : usable (map Made ts) = GOk ts.
Proof. induction ts as [|t r IH]; [reflexivity|]. cbn [map usable]. rewrite IH. reflexivity. Qed.

Lemma read_loop_all z passes s ts s' : read_all_id3v2 z passes s = (Ok ts, s') -> Forall fresh ts.
Proof.
  intros R. unfold read_all_id3v2 in R. eapply Forall_impl; [|eapply read_loop_fresh; exact R]. intros t (F & _). exact F.
Qed.

(** #:copy #t *)
Lemma copy_read G z passes e xs pth unsync fs q d n data l st r fs' : let k := resolve (e_cwd e) q in
  crc_range z -> (0 < passes)%nat -> to_locale G pth = GOk q ->
  q <> [] -> hd 0 (e_cwd e) = 47 -> dir_path d -> plain_name n -> absolute (e_cwd e) q = spelled d n ->
  find_node k fs = Some (File data) -> tags_from data 0 l -> ~ In 46 (last (e_tmp e) []) -> e_tmp e <> k ->
  Forall (fun x => exists y, tag_back G unsync true x y) xs ->
  write_tagset_scm G z e (slist xs) pth unsync (SBool true) fs = (st, (GOk r, fs')) ->
  (forall b, find_node k fs' = Some (File b) -> len b < 2 ^ 64) ->
  exists ys, read_tagset_scm G z passes (e_cwd e) fs' pth = GOk (slist ys) /\ Forall2 (tag_back G unsync true) xs ys.
Proof.
  intros k Hz Hps Hq Hne Hc Hd Hn HA Hk Hl Ht Htk HX H HL. unfold write_tagset_scm in H.
  destruct (to_unsync unsync) as [m| | | |] eqn:Hm; try discriminate H. cbn [gbind] in H. rewrite to_list_of in H. cbn [gbind] in H.
  destruct (tags_made G z unsync m true xs Hm HX) as (ts & T1 & T2 & T3). rewrite T1 in H. cbn [gbind] in H. rewrite Hq in H. cbn [gbind] in H.
  rewrite usable_made in H. cbn [gbind gfs_run is_t] in H.
  destruct (replace_tagset_copy z e q ts m true fs) as [st0 [[r0|x|w|] fs0]] eqn:R; try discriminate H. injection H as <- _ <-.
  destruct (emit_all z m ts) as [w o] eqn:EM.
  pose proof (copy_any z e q d n ts m true w o fs data l Hne Hc Hd Hn HA Hk Hl EM Ht Htk) as C. cbv zeta in C. rewrite R in C.
  destruct C as (_ & [_ C1] & C2 & C3). pose proof (HL _ C3) as HLw. rewrite len_app in HLw.
  assert (RS : snd (replace_tagset_copy z e q ts m true fs) = (Ok r0, fs0)) by (rewrite R; reflexivity).
  assert (HW : len w < 2 ^ 64) by lia.
  destruct (copy_back z passes e q d n ts m true w o fs data l r0 fs0 goodbit Hz Hps Hne Hc Hd Hn HA Hk Hl EM HW Ht Htk T2 RS) as (data' & ts'' & s' & B1 & B2 & B3 & B4 & B5).
  pose proof (unpadded_back ts ts'' (v24_none ts (storable_v24 z m ts T2)) B3 B4) as B6.
  destruct (T3 ts'' B3 B5 (read_loop_all _ _ _ _ _ B2)) as (ys & Y1 & Y2); auto.
  exists ys. split; [|exact Y2]. unfold read_tagset_scm. rewrite Hq. cbn [gbind]. unfold file_data. rewrite B1. unfold M_Id3v1.open_file. rewrite B2. cbn [fst].
  rewrite Y1. reflexivity.
Qed.

(** Without. *)
Lemma save_read G z passes e xs pth unsync m copy ts fs q d nm data l st r fs' n pd ts1 : let k := resolve (e_cwd e) q in
  crc_range z -> (0 < passes)%nat -> to_locale G pth = GOk q -> copy <> SBool true ->
  q <> [] -> hd 0 (e_cwd e) = 47 -> dir_path d -> plain_name nm -> absolute (e_cwd e) q = spelled d nm ->
  find_node k fs = Some (File data) -> tags_from data 0 l -> tags_end 0 l < 2 ^ 28 -> tags_end 0 l <= len data ->
  Forall (fun x => exists y, tag_back G unsync false x y) xs ->
  to_unsync unsync = GOk m -> gmap (to_tag G) xs = GOk (map Made ts) ->
  Forall simple_tag ts \/ Forall (fun t => is_v24 t = true) ts -> Forall (fun t => any_padding t < 2 ^ 62) ts -> sizes z m ts = Ok (n, pd, ts1) -> n < 2 ^ 28 ->
  ~ wraps ts (tags_end 0 l) n -> e_tmp e <> k -> ~ In 46 (last (e_tmp e) []) ->
  write_tagset_scm G z e (slist xs) pth unsync copy fs = (st, (GOk r, fs')) ->
  exists ys, read_tagset_scm G z passes (e_cwd e) fs' pth = GOk (slist ys) /\ Forall2 (tag_back G unsync false) xs ys.
Proof.
  intros k Hz Hps Hq Hcp Hne Hc Hd Hn HA Hk Hl HT HLd HX Hm HTs HS HP Hsz Hb Hw Htk Hdot H. unfold write_tagset_scm in H.
  rewrite Hm in H. cbn [gbind] in H. rewrite to_list_of in H. cbn [gbind] in H.
  destruct (tags_made G z unsync m false xs Hm HX) as (ts0 & T1 & T2 & T3).
  assert (ET : ts0 = ts).
  { rewrite T1 in HTs. injection HTs as HTs. clear - HTs. revert ts HTs. induction ts0 as [|a r IH]; intros [|b s] E; try discriminate; [reflexivity|].
    cbn [map] in E. injection E as -> E. f_equal. auto. }
  subst ts0. rewrite T1 in H. cbn [gbind] in H. rewrite Hq in H. cbn [gbind] in H. rewrite usable_made in H. cbn [gbind gfs_run] in H.
  rewrite (is_t_not copy Hcp) in H.
  destruct (maybe_emplace_tagset z e q ts m OnlyWithFullPadding true fs) as [st0 [[r0|x|w|] fs0]] eqn:R; try discriminate H. injection H as <- _ <-.
  pose proof (unmixed_padding z e q d nm ts m OnlyWithFullPadding true fs data l st0 r0 fs0 n pd ts1 Hne Hc Hd Hn HA Hk Hl HT HLd T2 HP Hsz Hb Hw Htk Hdot HS R) as H0.
  destruct (save_back z passes e q d nm ts m OnlyWithFullPadding true fs data l st0 r0 fs0 n pd ts1 goodbit Hz Hps Hne Hc Hd Hn HA Hk Hl HT HLd HP Hsz Hb Hw Htk Hdot T2 R H0)
    as (data' & ts'' & s' & B1 & B2 & B3 & B4 & B5 & B6).
  destruct (T3 ts'' B3 B5 (read_loop_all _ _ _ _ _ B2)) as (ys & Y1 & Y2); auto; [discriminate|].
  exists ys. split; [|exact Y2]. unfold read_tagset_scm. rewrite Hq. cbn [gbind]. unfold file_data. rewrite B1. unfold M_Id3v1.open_file. rewrite B2. cbn [fst].
  rewrite Y1. reflexivity.
Qed.
