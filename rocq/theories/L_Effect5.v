(** * Lemmas: genres set. *)
From Verif Require Import Base M_Ints M_Id3v1 M_Payload M_Frame M_Tag22 M_Tag23 M_Tag24 M_Charset M_TextId M_Lookup M_Genres M_Read M_Fs M_Tagset M_Process M_Dirent M_Cmds M_Options
  S_Ints S_Read S_Id3v1 S_Payload S_Tag S_Tag22 S_Tag23 S_Tag24 S_Tagset S_Saved S_Process S_Lookup S_Cmds S_Effect
  L_Id3v1 L_Fs L_Payload L_Process L_Lookup L_Lookup2 L_Lookup3 L_Cmds L_Cmds2 L_Cmds7 L_Cmds8 L_Options L_Effect L_Effect2 L_Effect3.
#[local] Open Scope N_scope.

Lemma genre_v1_wf w g t d t' : wf_v1 t -> genre_v1 w g t = Ok (d, t') -> wf_v1 t' /\ v_extended t' = v_extended t.
Proof.
  destruct t as [ext v11 alb art com gen xg st en sp tit trk yr]. unfold genre_v1. cbn [v1_apply v_extended].
  intros W H. destruct W. cbn [v_extended v_title v_artist v_album v_year v_comment v_v1_1 v_track v_speed v_ext_genre v_start v_end] in *.
  destruct ext; [|apply Ok_inj in H; injection H as _ <-; split; [constructor; assumption|reflexivity]].
  destruct (text_for_genre _) as [s|]; [|apply Ok_inj in H; injection H as _ <-; split; [constructor; assumption|reflexivity]].
  apply bind_ok in H as (b & _ & H). apply Ok_inj in H. injection H as _ <-. split; [|reflexivity].
  constructor; cbn [v_extended v_title v_artist v_album v_year v_comment v_v1_1 v_track v_speed v_ext_genre v_start v_end]; try assumption.
  intros _. destruct (wf_enh eq_refl) as (A & _ & C). split; [exact A|]. split; [apply vresize_len|exact C].
Qed.

Lemma tagset_v1_step {S} (P : processor S) p v2 v1 s d v2' v1' s' : v2 <> [] -> (v1 = None -> p_v1_creation p = V1Never) ->
  process_tagset P p v2 v1 s = Ok (d, v2', v1', s') -> v1' = v1 \/ exists t t' s0 d0 s1, v1 = Some t /\ v1' = Some t' /\ process_v1 P s0 t = Ok (d0, t', s1).
Proof.
  intros NE NC H. unfold process_tagset in H. apply bind_ok in H as ([[[x q] d1] s1] & H1 & H). apply bind_ok in H as ([[z1 d3] s3] & H2 & H).
  apply Ok_inj in H. injection H as _ _ <- _. destruct v1 as [t|].
  - destruct (p_v1_scope p); [|apply Ok_inj in H2; injection H2 as <- _ _; auto]. apply bind_ok in H2 as ([[d0 t'] s2] & H0 & H2). apply Ok_inj in H2. injection H2 as <- _ _.
    right. do 5 eexists. split; [reflexivity|]. split; [reflexivity|exact H0].
  - rewrite (NC eq_refl) in H2. destruct x; apply Ok_inj in H2; injection H2 as <- _ _; auto.
Qed.

Lemma genre_dirty w g s t u t' s' : process_v2 (genre_processor w g) s t = Ok (u, t', s') -> Forall (fun c => c_dirty c = true) (any_frames t').
Proof.
  cbn [genre_processor process_v2]. unfold genre_tables. intros H. apply bind_ok in H as ([d st] & H1 & H). apply Ok_inj in H. injection H as _ <- _.
  apply with_tables_dirty. apply bind_ok in H1 as (x & _ & H1). destruct (bytes_eqb x _); [apply Ok_inj in H1; injection H1 as _ <-; apply tables_dirty|].
  apply bind_ok in H1 as (st1 & H1 & H). apply Ok_inj in H. injection H as _ <-. unfold tag_set_text in H1. apply bind_ok in H1 as (id & _ & H1).
  eapply set_dirty; [apply tables_dirty|exact H1].
Qed.

Lemma genre_options_parts w vm g p : genre_options w vm = Handled (Ok (Some (g, p))) ->
  p_dry p = gv_dry vm /\ p_adjust p = gv_adjust vm /\ p_backups p = gv_backups vm.
Proof.
  unfold genre_options. intros EO. apply hbind_ok in EO as (n & _ & EO). destruct (gv_list vm); [discriminate EO|]. destruct (gv_args vm); [discriminate EO|].
  apply hbind_ok in EO as ([tx bst] & _ & EO). apply hbind_ok in EO as ([a c] & _ & EO). apply hbind_ok in EO as ([c2 c1] & _ & EO). apply hbind_ok in EO as (g0 & _ & EO).
  injection EO as _ <-. auto.
Qed.

Lemma tcon_good v : v = V23 \/ v = V24 -> len (tcon_id v) = id_width v /\ hd 0 (tcon_id v) <> 0 /\ kind_of v (tcon_id v) = KText.
Proof. intros [-> | ->]; (split; [reflexivity|split; [discriminate|reflexivity]]). Qed.
Lemma text_put_good ic v s fs fs' : v = V23 \/ v = V24 -> Forall (good_frame v) fs -> text_put ic v E_UTF_8 (tcon_id v) s fs fs' -> Forall (good_frame v) fs'.
Proof.
  intros V G. destruct (tcon_good v V) as (L & H & K). intros [(l1 & f & f' & l2 & -> & -> & E1 & E2 & E3 & R)|(_ & f' & -> & E2 & E3 & R)].
  - apply Forall_app in G as [G1 G2]. apply Forall_cons_iff in G2 as [G2 G3]. apply Forall_app. split; [exact G1|]. constructor; [|exact G3].
    apply (good_text ic v E_UTF_8 (tcon_id v) s); auto. rewrite E3. apply G2.
  - apply Forall_app. split; [exact G|]. constructor; [|constructor]. now apply (good_text ic v E_UTF_8 (tcon_id v) s).
Qed.

Lemma genre_once z passes e entries w vm g p path d nm fs st fs' a v2 v1 name : let k := resolve (e_cwd e) path in let ic := w_ic w in
  crc_range z -> (0 < passes)%nat -> file_at e path d nm -> 355 <= len a ->
  genre_options w vm = Handled (Ok (Some (g, p))) -> gv_dry vm = false -> gv_adjust vm = false -> gv_args vm = [path] ->
  in_order z passes k a fs v2 v1 -> scope_fits p v2 -> (v1 = None -> p_v1_creation p = V1Never) ->
  (forall i t, In (i, t) (with_index v2) -> in_scope p i = true -> has_genre ic t /\ S_Cmds.storable ic (any_version t) E_UTF_8 (gc_text g)) ->
  text_for_genre (gc_number g) = Some name -> to_bytes ic name E_UTF_8 E_ASCII false NoFail = Ok name ->
  (forall data l d1 ts u1 s1, find_node k fs = Some (File data) -> tags_from data 0 l ->
     process_tagset (genre_processor w g) p v2 v1 tt = Ok (d1, ts, u1, s1) -> can_be_written z p (tags_end 0 l) ts) ->
  run_genre z passes e entries w vm fs = (st, (Ok 0, fs')) -> moderate k fs' ->
  exists v2' v1' v1m, in_order z passes k a fs' v2' v1' /\ Forall2 (genre_read ic (gc_text g) p) (with_index v2) v2' /\
    v1_genre_set (gc_number g) name p v1 v1m /\ same_v1 v1m v1'.
Proof.
  intros k ic Hz Hp FA LA EO VD VA VG (data & l & Hk & HR & NE & HA & HV & HS & V22') SF NC HG TG TB CW HRUN HM.
  destruct (genre_options_parts w vm g p EO) as (PD & PA & _). rewrite VD in PD. rewrite VA in PA.
  unfold run_genre in HRUN. rewrite EO in HRUN. cbn [hbind] in HRUN. unfold proceed in HRUN. apply conclude_zero in HRUN as (u & HRUN). rewrite VG in HRUN.
  apply (over_one z passes e entries _ tt p path fs data) in HRUN as (st0 & s' & HF); [|exact (file_key e path d nm FA)|exact Hk].
  destruct (genre_tagset w g z passes data v2 v1 p name HR NE SF NC HG TG TB) as (xs & v1m & HT & TS & VS).
  assert (TS' : Forall2 (fun it t' => same_rest (snd it) t' /\ genre_read ic (gc_text g) p it t') (with_index v2) (map fst xs)).
  { clear - TS. induction TS as [|[i t] [t' c] r r' H _ IH]; [constructor|]. cbn [map fst]. constructor; [|exact IH]. unfold genre_set in H. unfold genre_read. cbn [fst snd] in *.
    destruct (in_scope p i) eqn:IS.
    - destruct H as [H1 H2]. split; [exact H1|]. split; [unfold same_rest in H1; destruct t, t'; cbn in H1; congruence || reflexivity|].
      destruct c; [right; auto|]. destruct H2 as [-> H2]. left. auto.
    - injection H as -> _. split; [reflexivity|]. split; [reflexivity|]. left. split; [reflexivity|]. discriminate. }
  destruct (existsb snd xs || match v1 with Some _ => p_v1_scope p | None => false end) eqn:DT.
  2: { apply orb_false_iff in DT as [D1 D2].
       assert (E1 : map fst xs = v2).
       { rewrite <- (with_index_all v2). clear - TS D1. induction TS as [|[i t] [t' c] r r' H _ IH]; [reflexivity|]. cbn [existsb snd] in D1. apply orb_false_iff in D1 as [-> D1].
         cbn [map fst snd]. rewrite (IH D1). f_equal. unfold genre_set in H. cbn [fst snd] in H. destruct (in_scope p i); [destruct H as (_ & H & _); exact H|]. now injection H as ->. }
       assert (E2 : v1m = v1).
       { clear - VS D2. unfold v1_genre_set in VS. destruct v1, v1m; try contradiction; [|reflexivity]. rewrite D2 in VS. now subst. }
       assert (E3 : fs' = fs).
       { unfold process_file in HF. fold k in HF. rewrite Hk in HF. apply fbind_ok in HF as ([b2 b1] & st1 & fs1 & st2 & E0 & HF).
         unfold flift in E0. rewrite HR in E0. injection E0 as _ <- <- <-.
         apply fbind_ok in HF as ([[[d1 c2] c1] s1] & st3 & fs3 & st4 & E0 & HF); unfold flift in E0; rewrite HT in E0; injection E0 as _ <- <- <- <- <-.
         apply fbind_ok in HF as (u1 & st5 & fs5 & st6 & HW & HF). unfold fret in HF. injection HF as _ _ HF. subst fs5.
         unfold write_tagset in HW. cbn [andb] in HW. unfold fret in HW. congruence. }
       subst fs' v1m. rewrite E1 in TS'. exists v2, v1, v1. split; [|split; [|split; [exact VS|]]].
       - exists data, l. repeat (split; [assumption|]). assumption.
       - clear - TS'. induction TS' as [|x y r r' [_ H] _ IH]; constructor; auto.
       - clear. destruct v1; cbn; [|exact Logic.I]. constructor; auto. }
  pose proof (tagset_keep (genre_processor w g) (fun t => Forall (fun c => c_dirty c = true) (any_frames t)) p v2 v1 tt true (map fst xs) v1m tt
    (fun s t u t' s' => genre_dirty w g s t u t' s')) as DD.
  assert (FR : Forall (fun t => Forall (fun c => c_dirty c = true) (any_frames t)) v2).
  { eapply Forall_impl; [|exact (tagset_fresh z passes data v2 v1 HR)]. apply fresh_dirty. }
  specialize (DD FR NE HT).
  assert (IO : Forall (fun it => S_Saved.storable z Never (snd it) /\ any_version (snd it) <> V22) (with_index v2)).
  { apply Forall_forall. intros [i t] M. unfold with_index in M. apply in_combine_r in M. rewrite Forall_forall in HS, V22'. cbn [snd]. auto. }
  assert (S' : Forall (S_Saved.storable z Never) (map fst xs) /\ Forall (fun t => any_version t <> V22) (map fst xs)).
  { clear - TS' DD IO. induction TS' as [|[i t] t' r r' (SR & VE & TP) _ IH]; [split; constructor|]. cbn [fst snd] in *.
    apply Forall_cons_iff in DD as [D1 D2]. apply Forall_cons_iff in IO as [(S1 & V1) S2]. cbn [snd] in S1, V1. destruct (IH D2 S2) as [I1 I2]. split; [|constructor; [now rewrite VE|exact I2]]. constructor; [|exact I1].
    pose proof (not_v22 _ V1) as V. apply storable_made; [| |exact D1].
    - pose proof (storable_rest z t S1 V1) as R. unfold same_rest in SR.
      apply (set_frames_rest []) in R. rewrite <- SR in R. clear - R. destruct t'; exact R.
    - rewrite VE. destruct TP as [[-> _]|[_ TP]]; [now apply (storable_frames z)|]. refine (text_put_good ic _ _ _ _ V _ TP). now apply (storable_frames z). }
  destruct S' as [S' V'].
  assert (NE' : map fst xs <> []).
  { intros E0. rewrite E0 in TS'. inversion TS' as [E3|]. apply NE. rewrite <- (with_index_all v2), <- E3. reflexivity. }
  assert (HV' : v1_fits a v1m).
  { destruct (tagset_v1_step (genre_processor w g) p v2 v1 tt true _ v1m tt NE NC HT) as [->|(t & t' & s0 & d0 & s1 & -> & -> & E0)]; [exact HV|].
    destruct (HV t eq_refl) as [W X]. intros t0 E1. apply (f_equal (fun o => match o with Some y => y | None => t0 end)) in E1. cbv beta iota in E1. subst t0.
    cbn [genre_processor process_v1] in E0. apply bind_ok in E0 as ([d1 t1] & E0 & E1). apply Ok_inj in E1. injection E1 as _ <- _.
    destruct (genre_v1_wf w g t d1 t1 W E0) as [W1 W2]. split; [exact W1|]. now rewrite W2. }
  destruct (command_order z passes e (genre_processor w g) p path d nm fs data l a v2 v1 tt (map fst xs) v1m tt st0 s' fs' Hz Hp FA Hk HR HA LA PD PA HT NE' S' V' HV'
    (CW data l _ _ _ _ Hk (proj1 HA) HT) HF HM) as (v2'' & v1'' & X1 & X3 & X6).
  exists v2'', v1'', v1m. split; [exact X1|]. split; [|split; [exact VS|exact X6]].
  clear - TS' X3. revert v2'' X3. induction TS' as [|it t' r r' (SR & TP) _ IH]; intros ? X3; inversion X3; subst; constructor; auto.
  unfold genre_read in *. destruct (same_shown t' y) as [-> ->]; [assumption|]. exact TP.
Qed.
