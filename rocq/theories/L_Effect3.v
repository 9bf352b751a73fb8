(** * Lemmas: texts set. *)
From Verif Require Import Base M_Ints M_Id3v1 M_Payload M_Frame M_Tag22 M_Tag23 M_Tag24 M_Charset M_TextId M_Lookup M_Read M_Fs M_Tagset M_Process M_Dirent M_Cmds M_Options
  S_Ints S_Read S_Id3v1 S_Payload S_Tag S_Tag22 S_Tag23 S_Tag24 S_Tagset S_Saved S_Process S_Lookup S_Cmds S_Effect
  L_Fs L_Payload L_Process L_Lookup L_Lookup2 L_Lookup3 L_Cmds L_Cmds2 L_Cmds8 L_Options L_Effect L_Effect2.
#[local] Open Scope N_scope.

Lemma text_id_four v k id : v = V23 \/ v = V24 -> frame_id_of v k = Ok id -> len id = id_width v /\ hd 0 id <> 0.
Proof. intros [-> | ->]; destruct k; vm_compute; intros E; try discriminate E; apply Ok_inj in E; subst id; vm_compute; (split; [reflexivity|discriminate]). Qed.

Lemma good_text ic v src id s f : v = V23 \/ v = V24 -> len id = id_width v -> hd 0 id <> 0 -> kind_of v id = KText -> f_id f = id -> f_flags f = no_flags ->
  reads ic v src f s -> good_frame v f.
Proof.
  intros V L H K E F (t & B0 & _). split; [|exact F]. unfold wf_frame. rewrite E, B0. cbn [kind_of_body wf_body write_body]. repeat split; auto. discriminate.
Qed.

Lemma texts_good ic v src xs fs fs' : v = V23 \/ v = V24 -> (forall id s, In (id, s) xs -> len id = id_width v /\ hd 0 id <> 0 /\ kind_of v id = KText) ->
  Forall (good_frame v) fs -> texts_put ic v src xs fs fs' -> Forall (good_frame v) fs'.
Proof.
  intros V X G (fs1 & fs2 & -> & F1 & _ & F2 & _). apply Forall_app. split.
  - induction F1 as [|f f' r r' (E1 & E2 & E3) _ IH]; [constructor|]. apply Forall_cons_iff in G as [G1 G2]. constructor; [|auto].
    destruct E3 as [->|(s & I1 & R1)]; [exact G1|]. destruct (X _ _ I1) as (L & H & K). apply (good_text ic v src (f_id f) s); auto. rewrite E2. apply G1.
  - eapply Forall_impl; [|exact F2]. cbn beta. intros f (FL & s & I1 & R1). destruct (X _ _ I1) as (L & H & K). now apply (good_text ic v src (f_id f) s).
Qed.

Lemma set_names v o id s : (forall k, In k (map fst (to_sets o)) -> exists id, names v k id) -> In (id, s) (combine (ids_in v (map fst (to_sets o))) (map snd (to_sets o))) ->
  exists k, names v k id.
Proof.
  intros H I1. apply in_combine_l in I1. unfold ids_in in I1. apply in_map_iff in I1 as (k & E & I1). destruct (H k I1) as (id' & N1 & N2).
  rewrite N1 in E. subst id'. exists k. split; assumption.
Qed.

Lemma gone_good v ids fs : Forall (good_frame v) fs -> Forall (good_frame v) (all_gone ids fs).
Proof. intros H. apply Forall_forall. intros f Hf. apply filter_In in Hf as [Hf _]. rewrite Forall_forall in H. auto. Qed.

(** ** Frames that nothing has been cached for *)
Definition all_dirty (st : ltag) : Prop := Forall (fun c => c_dirty c = true) (map snd (l_frames st)).
Lemma with_tables_dirty st t : all_dirty st -> Forall (fun c => c_dirty c = true) (any_frames (with_tables st t)).
Proof. unfold with_tables. destruct (set_frames_version (map snd (l_frames st)) t) as [_ ->]. auto. Qed.
Lemma tables_dirty t : all_dirty (tables t).
Proof. unfold all_dirty, tables. rewrite of_frames_l, Forall_map. apply Forall_forall. reflexivity. Qed.
Lemma lookups_frames v id i st st1 : remove_lookups v id i st = Ok st1 -> l_frames st1 = l_frames st.
Proof.
  unfold remove_lookups. intros H. apply bind_ok in H as (st0 & H0 & H).
  assert (E0 : l_frames st0 = l_frames st).
  { repeat match type of H0 with (if ?b then _ else _) = _ => destruct b | match ?x with _ => _ end = _ => destruct x end; try discriminate H0; apply Ok_inj in H0; now subst st0. }
  rewrite <- E0. clear - H.
  repeat match type of H with bind _ _ = _ => apply bind_ok in H as (? & ? & H) | (if ?b then _ else _) = _ => destruct b | match ?x with _ => _ end = _ => destruct x end; try discriminate H; apply Ok_inj in H; now subst st1.
Qed.
Lemma delete_dirty v c k st st' : all_dirty st -> delete_frame v c k st = Ok st' -> all_dirty st'.
Proof.
  unfold delete_frame, all_dirty. intros D H. apply bind_ok in H as (id & _ & H). destruct (pick c _) as [idx|]; [|apply Ok_inj in H; now subst].
  apply bind_ok in H as (st1 & H1 & H). apply lookups_frames in H1. destruct (idx <? size_l st1); [|discriminate H]. apply Ok_inj in H. subst st'. cbn [set_frames l_frames].
  rewrite H1. unfold remove_at. rewrite map_app. rewrite <- (firstn_skipn (N.to_nat idx) (l_frames st)), map_app in D. apply Forall_app in D as [D1 D2]. apply Forall_app. split; [exact D1|].
  apply Forall_forall. intros x Hx. rewrite Forall_forall in D2. apply D2. apply in_map_iff in Hx as (y & <- & Hy). apply in_map.
  remember (N.to_nat idx) as n eqn:En. clear - Hy. revert n Hy. induction (l_frames st) as [|a l IH]; intros [|n] Hy; cbn [skipn] in *; try exact Hy; [now right|]. now apply IH.
Qed.
Lemma set_dirty v ic c id s src st st' : all_dirty st -> set_text_frame v ic c id s src false NoFail st = Ok st' -> all_dirty st'.
Proof.
  unfold set_text_frame, all_dirty. intros D H. destruct (pick c _) as [a|].
  - destruct (at_addr a st); [|discriminate H]. apply bind_ok in H as (t & _ & H). apply Ok_inj in H. subst st'. unfold edit_at. cbn [set_frames l_frames].
    rewrite map_map, Forall_map. rewrite Forall_map in D. eapply Forall_impl; [|exact D]. cbn beta. intros [x y] E. cbn [fst snd]; destruct (x =? a); exact E.
  - apply bind_ok in H as (t & _ & H). apply Ok_inj in H. subst st'. cbn [put_at add_lookups bump set_frames l_frames]. unfold size_l. rewrite insert_at_end, map_app.
    apply Forall_app. split; [exact D|]. repeat constructor.
Qed.
Lemma delete_all_dirty w v ks : forall st st', all_dirty st -> delete_all w v ks st = Ok st' -> all_dirty st'.
Proof.
  induction ks as [|k r IH]; intros st st' D H; cbn [delete_all] in H; [apply Ok_inj in H; now subst|].
  apply bind_ok in H as (id & _ & H). apply bind_ok in H as (st1 & H1 & H). eapply IH; [|exact H]. eapply delete_dirty; eassumption.
Qed.
Lemma set_all_dirty w v src xs : forall st st', all_dirty st -> set_all w v src xs st = Ok st' -> all_dirty st'.
Proof.
  induction xs as [|[k s] r IH]; intros st st' D H; cbn [set_all] in H; [apply Ok_inj in H; now subst|].
  apply bind_ok in H as (st1 & H1 & H). eapply IH; [|exact H]. unfold tag_set_text in H1. apply bind_ok in H1 as (id & _ & H1). eapply set_dirty; eassumption.
Qed.
Lemma text_dirty w o s t u t' s' : process_v2 (text_processor w o) s t = Ok (u, t', s') -> Forall (fun c => c_dirty c = true) (any_frames t').
Proof.
  cbn [text_processor process_v2]. unfold text_tables. intros H. apply bind_ok in H as (st & H1 & H). apply Ok_inj in H. injection H as _ <- _.
  apply bind_ok in H1 as (st1 & H0 & H1). apply with_tables_dirty. eapply set_all_dirty; [|exact H1]. eapply delete_all_dirty; [|exact H0]. apply tables_dirty.
Qed.

Lemma tags_keep {S} (P : processor S) (Q : anytag -> Prop) : (forall s t u t' s', process_v2 P s t = Ok (u, t', s') -> Q t') -> forall v2 i tags s v2' d s', Forall Q v2 ->
  process_tags P i tags v2 s = Ok (v2', d, s') -> Forall Q v2'.
Proof.
  intros HQ. induction v2 as [|t r IH]; intros i tags s v2' d s' F H; cbn [process_tags] in H; [apply Ok_inj in H; injection H as <- _ _; constructor|].
  destruct tags as [|x rest]; [discriminate H|]. apply Forall_cons_iff in F as [F1 F2]. destruct (x =? i).
  - apply bind_ok in H as ([[u t'] s1] & H1 & H). apply bind_ok in H as ([[r' d'] s2] & H2 & H). apply Ok_inj in H. injection H as <- _ _. constructor; eauto.
  - apply bind_ok in H as ([[r' d'] s2] & H2 & H). apply Ok_inj in H. injection H as <- _ _. constructor; eauto.
Qed.
Lemma tagset_keep {S} (P : processor S) (Q : anytag -> Prop) p v2 v1 s d v2' v1' s' : (forall s t u t' s', process_v2 P s t = Ok (u, t', s') -> Q t') -> Forall Q v2 -> v2 <> [] ->
  process_tagset P p v2 v1 s = Ok (d, v2', v1', s') -> Forall Q v2'.
Proof.
  intros HQ F NE H. unfold process_tagset in H. destruct v2 as [|t r]; [congruence|]. set (v := t :: r) in *.
  apply bind_ok in H as ([[[x q] d1] s1] & H1 & H). assert (X : Forall Q x /\ q = None).
  { destruct (p_v2_scope p);
      (apply Ok_inj in H1; injection H1 as <- <- _ _; auto) ||
      (apply bind_ok in H1 as ([[y d2] s2] & H1 & E); apply Ok_inj in E; injection E as -> <- _ _; split; [eapply tags_keep; eassumption|reflexivity]). }
  destruct X as [X ->]. apply bind_ok in H as ([[z1 d3] s3] & H2 & H). apply Ok_inj in H. injection H as _ <- _ _. now rewrite app_nil_r.
Qed.

(** ** A run *)
Lemma text_options_parts loc vm o p : text_options loc vm = Handled (Ok (o, p)) -> given (tv_tag vm) = [] ->
  p_dry p = false /\ p_adjust p = tv_adjust vm /\ p_backups p = tv_backups vm /\ p_v2_scope p = TagsAll /\ p_v1_scope p = false /\ p_v1_creation p = V1Never.
Proof.
  unfold text_options. intros EO G. rewrite G in EO. apply hbind_ok in EO as (? & _ & EO). apply hbind_ok in EO as (r & _ & EO). apply hbind_ok in EO as (f & _ & EO).
  apply hbind_ok in EO as (q & EC & EO). injection EO as _ <-. unfold text_policies in EC. destruct (tv_always vm), (tv_create vm); cbn [checked bind] in EC; try discriminate EC;
    injection EC as <-; repeat split; reflexivity.
Qed.

Lemma with_index_all {A} (l : list A) : map snd (with_index l) = l.
Proof. unfold with_index. generalize 0. induction l as [|x l IH]; intros n; [reflexivity|]. cbn [length iota combine map snd]. f_equal. apply IH. Qed.

Lemma text_once z passes e entries w loc vm o p path d nm fs st fs' a v2 v1 : let k := resolve (e_cwd e) path in let ic := w_ic w in
  crc_range z -> (0 < passes)%nat -> file_at e path d nm ->
  text_options loc vm = Handled (Ok (o, p)) -> given (tv_tag vm) = [] -> tv_adjust vm = false -> tv_args vm = [path] ->
  NoDup (to_dels o) -> NoDup (map fst (to_sets o)) ->
  in_order z passes k a fs v2 v1 -> 355 <= len a -> Forall (text_takes ic o) v2 ->
  (forall data l d1 ts u1 s1, find_node k fs = Some (File data) -> tags_from data 0 l ->
     process_tagset (text_processor w o) p v2 v1 tt = Ok (d1, ts, u1, s1) -> can_be_written z p (tags_end 0 l) ts) ->
  run_text z passes e entries w loc vm fs = (st, (Ok 0, fs')) -> moderate k fs' ->
  exists v2' v1', in_order z passes k a fs' v2' v1' /\ Forall2 (tag_texts_read ic o) v2 v2' /\ same_v1 v1 v1'.
Proof.
  intros k ic Hz Hp FA EO VT VA VG ND NS (data & l & Hk & HR & NE & HA & HV & HS & V22') LA TK CW HRUN HM.
  destruct (text_options_parts loc vm o p EO VT) as (PD & PA & _ & P1 & P2 & P3). rewrite VA in PA.
  unfold run_text in HRUN. rewrite EO in HRUN. cbn [hbind] in HRUN. unfold proceed in HRUN. apply conclude_zero in HRUN as (u & HRUN). rewrite VG in HRUN.
  apply (over_one z passes e entries _ tt p path fs data) in HRUN as (st0 & s' & HF); [|exact (file_key e path d nm FA)|exact Hk].
  assert (SF : scope_fits p v2) by (unfold scope_fits; now rewrite P1).
  assert (SC : forall i, in_scope p i = true) by (intros i; unfold in_scope; now rewrite P1).
  destruct (text_tagset w o z passes data v2 v1 p HR NE SF P3 P2 ND NS) as (ts & HT & TS).
  { intros i t M _. rewrite Forall_forall in TK. apply TK. unfold with_index in M. now apply in_combine_r in M. }
  assert (DT : existsb (fun it => in_scope p (fst it)) (with_index v2) = true).
  { destruct v2 as [|t r]; [congruence|]. unfold with_index. cbn [length iota combine existsb fst]. now rewrite SC. }
  rewrite DT in HT.
  assert (TS' : Forall2 (fun t t' => same_rest t t' /\ tag_texts_read ic o t t') v2 ts).
  { rewrite <- (with_index_all v2). clear - TS SC. induction TS as [|[i t] t' r r' H _ IH]; [constructor|]. cbn [map snd]. constructor; [|exact IH].
    unfold tag_texts_set in H. cbn [fst snd] in H. rewrite SC in H. destruct H as [H1 H2]. split; [exact H1|]. split; [|exact H2].
    unfold same_rest in H1. destruct t, t'; cbn in H1; congruence || reflexivity. }
  pose proof (tagset_keep (text_processor w o) (fun t => Forall (fun c => c_dirty c = true) (any_frames t)) p v2 v1 tt true ts v1 tt
    (fun s t u t' s' => text_dirty w o s t u t' s')) as DD.
  assert (FR : Forall (fun t => Forall (fun c => c_dirty c = true) (any_frames t)) v2).
  { eapply Forall_impl; [|exact (tagset_fresh z passes data v2 v1 HR)]. apply fresh_dirty. }
  specialize (DD FR NE HT).
  assert (S' : Forall (S_Saved.storable z Never) ts).
  { clear - TS' DD HS V22' TK. induction TS' as [|t t' r r' (SR & VE & TP) _ IH]; [constructor|].
    apply Forall_cons_iff in DD as [D1 D2]. apply Forall_cons_iff in HS as [S1 S2]. apply Forall_cons_iff in V22' as [V1 V2]. apply Forall_cons_iff in TK as [T1 T2]. constructor; [|auto].
    pose proof (not_v22 _ V1) as V. apply storable_made; [| |exact D1].
    - pose proof (storable_rest z t S1 V1) as R. unfold same_rest in SR.
      apply (set_frames_rest []) in R. rewrite <- SR in R. clear - R. destruct t'; exact R.
    - rewrite VE. refine (texts_good ic _ _ _ _ _ V _ _ TP).
      + intros id s I1. destruct T1 as (T1 & _). destruct (set_names (any_version t) o id s) as (kk & N1 & N2); [|exact I1|].
        * intros kk Ik. apply T1. apply in_or_app. now right.
        * destruct (text_id_four _ kk id V N1). auto.
      + apply gone_good. now apply (storable_frames z). }
  assert (V' : Forall (fun t => any_version t <> V22) ts).
  { clear - TS' V22'. induction TS' as [|t t' r r' (SR & VE & TP) _ IH]; [constructor|]. apply Forall_cons_iff in V22' as [? ?]. constructor; [now rewrite VE|auto]. }
  assert (NE' : ts <> []) by (intros ->; inversion TS'; subst; now apply NE).
  destruct (command_order z passes e (text_processor w o) p path d nm fs data l a v2 v1 tt ts v1 tt st0 s' fs' Hz Hp FA Hk HR HA LA PD PA HT NE' S' V' HV
    (CW data l _ _ _ _ Hk (proj1 HA) HT) HF HM) as (v2'' & v1'' & X1 & X3 & X6).
  exists v2'', v1''. split; [exact X1|]. split; [|exact X6].
  clear - TS' X3. revert v2'' X3. induction TS' as [|t t' r r' (SR & TP) _ IH]; intros ? X3; inversion X3; subst; constructor; auto.
  unfold tag_texts_read in *. destruct (same_shown t' y) as [-> ->]; [assumption|]. exact TP.
Qed.
