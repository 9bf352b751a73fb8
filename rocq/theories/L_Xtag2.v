(** * Proofs: the xtag command prints, creates and fails. *)
From Verif Require Import Base M_Ints M_Stream M_Payload M_Url M_Cloud M_Frame M_Tag22 M_Tag23 M_Tag24 M_Charset M_TextId M_Lookup M_Id3v1 M_Genres M_Read M_Fs M_Tagset M_Process M_Popm M_Cmds M_Xtag
  S_Url S_Cloud S_Lookup S_Process S_Cmds S_Xtag L_Url L_Cloud L_Cloud2 L_Cloud3 L_Process L_Cmds L_Cmds4 L_Cmds6 L_Cmds8 L_Cmds9 L_Cmds10 L_Match5 L_Xtag.
#[local] Open Scope N_scope.

(** ** Lines *)
Lemma urlencode_nil s : urlencode s = [] -> s = [].
Proof. destruct s as [|c r]; [reflexivity|]. unfold urlencode. cbn [flat_map]. unfold urlencode1 at 1. intros E. apply app_eq_nil in E as (E & _). destruct (c =? 37); [discriminate E|]. destruct (url_keep c); discriminate E. Qed.
Lemma join_nil sep l : M_Cloud.join sep l = [] -> l = [] \/ l = [[]].
Proof. destruct l as [|x [|y r]]; cbn [M_Cloud.join]; [auto|intros ->; auto|]. intros E. apply app_eq_nil in E as (_ & E). discriminate E. Qed.
Lemma urlencoded_nil c : urlencoded (tc_tags c) = [] <-> mute c.
Proof.
  unfold mute, urlencoded. split.
  - intros E. apply join_nil in E as [E|E].
    + left. destruct (tc_tags c); [reflexivity|discriminate E].
    + right. destruct (tc_tags c) as [|(k, vs) [|y r]]; try discriminate E. cbn [map] in E. injection E as E. unfold urlencoded_entry in E. cbn [fst snd] in E.
      apply app_eq_nil in E as (E1 & E2). apply urlencode_nil in E1. subst k. destruct vs; [reflexivity|discriminate E2].
  - intros [-> | ->]; reflexivity.
Qed.
Lemma join_in sep l x : In x (M_Cloud.join sep l) -> x = sep \/ exists s, In s l /\ In x s.
Proof.
  induction l as [|a r IH]; cbn [M_Cloud.join]; [intros []|]. destruct r as [|b r']; [intros H; right; exists a; split; [left; reflexivity|exact H]|].
  intros H. apply in_app_or in H as [H|[<-|H]]; [right; exists a; split; [left; reflexivity|exact H]|left; reflexivity|].
  destruct (IH H) as [->|(s & M & X)]; [left; reflexivity|right; exists s; split; [right; exact M|exact X]].
Qed.
Lemma urlencode_line s : is_bytes s -> ~ In 10 (urlencode s).
Proof.
  intros HB M. apply urlencode_chars in M; [|exact HB]. revert M. unfold unreserved. clear. intros H.
  destruct H as [H|[H|[H|[H|H]]]]; try lia. vm_compute in H. intuition discriminate.
Qed.
Lemma urlencoded_line m : bytes_map m -> ~ In 10 (urlencoded m).
Proof.
  intros HB M. apply join_in in M as [M|(s & M & X)]; [discriminate M|]. apply in_map_iff in M as ((k, vs) & <- & M).
  unfold bytes_map in HB. rewrite Forall_forall in HB. destruct (HB _ M) as (HK & HV). cbn [fst snd] in *. unfold urlencoded_entry in X. cbn [fst snd] in X.
  apply in_app_or in X as [X|X]; [exact (urlencode_line _ HK X)|]. destruct vs as [|v0 r]; [exact X|].
  destruct X as [X|X]; [discriminate X|]. apply join_in in X as [X|(s & MS & X)]; [discriminate X|]. apply in_map_iff in MS as (v & <- & MS).
  rewrite Forall_forall in HV. exact (urlencode_line _ (HV _ MS) X).
Qed.

Definition ended (l : bytes) : bytes := l ++ [10].
Lemma got_line c : is_map (tc_tags c) -> (mute c /\ got_text c = []) \/ (~ mute c /\ exists l, got_text c = ended l /\ tells_cloud l c).
Proof.
  intros HM. unfold got_text. destruct (urlencoded (tc_tags c)) as [|x r] eqn:E.
  - left. split; [apply urlencoded_nil; exact E|reflexivity].
  - right. assert (NM : ~ mute c) by (intros H; apply urlencoded_nil in H; congruence). split; [exact NM|]. exists (x :: r). split; [reflexivity|].
    split; [discriminate|]. intros HB. rewrite <- E. split; [apply urlencoded_line; exact HB|]. apply text_roundtrip_map; [exact HM|exact HB|].
    intros Q. apply NM. left. exact Q.
Qed.

Lemma lines_app cs1 ls1 cs2 ls2 : lines_for cs1 ls1 -> lines_for cs2 ls2 -> lines_for (cs1 ++ cs2) (ls1 ++ ls2).
Proof. induction 1; intros H2; cbn [app]; [exact H2|apply lf_mute; auto|apply lf_line; auto]. Qed.

Section Get_.
  Context (v : version) (o : xtag_opts) (G : x_get o = true).
  Lemma frames_get fs : Forall (payload_frame v) fs -> forall n, exists cs ls,
    xtag_frames v o (map new_frame fs) n [] = Ok (map new_frame fs, n || match cs with [] => false | _ => true end, concat (map ended ls)) /\
    clouds_in v (x_owner o) fs cs /\ lines_for cs ls.
  Proof.
    induction 1 as [|f fs PF F IH]; intros n; cbn [map xtag_frames].
    - exists [], []. rewrite orb_false_r. repeat constructor.
    - pose proof (frame_step v o f PF) as H. rewrite G in H. destruct (takes v (x_owner o) f) as [t|] eqn:E.
      + destruct H as (HM & ->). cbn [bind]. rewrite frames_out. destruct (IH (n || true)) as (cs & ls & -> & CI & LF). cbn [bind].
        apply takes_some in E. destruct (got_line t HM) as [(MU & ->)|(NM & l & -> & TC)].
        * exists (t :: cs), ls. split; [rewrite !orb_true_r; reflexivity|]. split; [apply ci_take; assumption|apply lf_mute; assumption].
        * exists (t :: cs), (l :: ls). split; [rewrite !orb_true_r; reflexivity|]. split; [apply ci_take; assumption|apply lf_line; assumption].
      + rewrite H. cbn [bind]. rewrite orb_false_r. destruct (IH n) as (cs & ls & -> & CI & LF). cbn [bind]. exists cs, ls. split; [reflexivity|].
        split; [apply ci_skip; [apply takes_none; exact E|exact CI]|exact LF].
  Qed.
  Lemma tag_get fs : Forall (payload_frame v) fs -> exists cs ls,
    xtag_tag v o (map new_frame fs) [] = Ok (match cs with [] => false | _ => true end, map new_frame fs, concat (map ended ls)) /\
    clouds_in v (x_owner o) fs cs /\ lines_for cs ls.
  Proof.
    intros F. unfold xtag_tag. destruct (frames_get fs F false) as (cs & ls & -> & CI & LF). cbn [bind orb]. rewrite G, andb_false_r. eauto.
  Qed.
End Get_.

Lemma set_same_frames t : any_set_frames (any_frames t) t = t.
Proof. destruct t as [[]|[]|[]]; reflexivity. Qed.

Lemma get_tagset w z passes data v2 v1 text owner create merge dry cv2 av2 adjust backups tags o p out :
  read_tagset z passes data = Ok (v2, v1) -> v2 <> [] -> scope_fits p v2 ->
  xtag_args text owner true create merge dry cv2 av2 adjust backups tags = Ok (o, p) ->
  exists cs ls, clouds_of p owner (with_index v2) cs /\ lines_for cs ls /\
    process_tagset (xtag_processor w o) p v2 v1 out =
      Ok (match cs with [] => false | _ => true end, v2, v1, out ++ concat (map ended ls)).
Proof.
  intros HR NE SF EA. destruct (args_set _ _ _ _ _ _ _ _ _ _ _ _ _ EA) as (V1C & V1S & _ & OW & GE & _ & _). subst owner. clear EA.
  pose proof (tagset_payloads _ _ _ _ _ HR) as FP. rewrite Forall_forall in FP.
  assert (A : forall i t, In (i, t) (with_index v2) -> exists cs ls,
    xtag_tag (any_version t) o (any_frames t) [] = Ok (match cs with [] => false | _ => true end, any_frames t, concat (map ended ls)) /\
    clouds_in (any_version t) (x_owner o) (shown t) cs /\ lines_for cs ls).
  { intros i t M. apply with_index_In in M. destruct (FP t M) as ((AF & _) & PF).
    destruct (tag_get (any_version t) o GE (shown t) PF) as (cs & ls & E & R). rewrite <- AF in E. eauto. }
  pose proof (tagset_sim (xtag_processor w o) (xtag_step o) (xtag_out o) p v2 v1 out NE SF V1C V1S) as T.
  assert (X : exists cs ls, clouds_of p (x_owner o) (with_index v2) cs /\ lines_for cs ls /\
    after (xtag_out o) (with_index v2) p out = out ++ concat (map ended ls) /\
    map (fun it : N * anytag => if in_scope p (fst it) then snd (xtag_step o (snd it)) else snd it) (with_index v2) = map snd (with_index v2) /\
    existsb snd (map (fun it : N * anytag => if in_scope p (fst it) then (snd (xtag_step o (snd it)), fst (xtag_step o (snd it))) else (snd it, false)) (with_index v2)) = match cs with [] => false | _ => true end).
  { clear - A. revert A out. generalize (with_index v2). intros l. induction l as [|(i, t) r IH]; intros A out.
    - exists [], []. repeat split; try constructor. cbn. rewrite app_nil_r. reflexivity.
    - assert (A' : forall i t, In (i, t) r -> exists cs ls, xtag_tag (any_version t) o (any_frames t) [] = Ok (match cs with [] => false | _ => true end, any_frames t, concat (map ended ls)) /\ clouds_in (any_version t) (x_owner o) (shown t) cs /\ lines_for cs ls).
      { intros i' t' M. apply (A i'). right. exact M. }
      unfold after. cbn [fold_left map fst snd existsb]. destruct (in_scope p i) eqn:IS.
      + destruct (A i t (or_introl eq_refl)) as (cs & ls & E & CI & LF). destruct (IH A' (xtag_out o t out)) as (cs' & ls' & CO & LF' & AF & M1 & M2).
        exists (cs ++ cs'), (ls ++ ls'). split; [apply co_take; assumption|]. split; [apply lines_app; assumption|]. split.
        * unfold after in AF. rewrite AF. unfold xtag_out. rewrite E, map_app, concat_app, <- app_assoc. reflexivity.
        * split; [f_equal; [unfold xtag_step; rewrite E; cbn [snd]; apply set_same_frames|exact M1]|].
          unfold after in M2. rewrite M2. unfold xtag_step. rewrite E. cbn [fst snd]. destruct cs; reflexivity.
      + destruct (IH A' out) as (cs' & ls' & CO & LF' & AF & M1 & M2). exists cs', ls'. split; [apply co_skip; assumption|]. split; [exact LF'|]. split; [exact AF|].
        split; [f_equal; exact M1|exact M2]. }
  destruct X as (cs & ls & CO & LF & AF & M1 & M2). exists cs, ls. split; [exact CO|]. split; [exact LF|].
  cbv zeta in T. rewrite T; [|intros i t s1 M _; destruct (A i t M) as (cs' & ls' & E & _); eapply xtag_called; exact E].
  rewrite M2, AF. f_equal. f_equal. f_equal. f_equal. rewrite map_map. rewrite (List.map_ext _ (fun it : N * anytag => if in_scope p (fst it) then snd (xtag_step o (snd it)) else snd it)).
  2:{ intros (i, t). cbn [fst snd]. destruct (in_scope p i); reflexivity. }
  rewrite M1. unfold with_index. clear. generalize 0 as k. induction v2 as [|t r IH]; intros k; [reflexivity|]. cbn [length iota combine map snd]. f_equal. apply IH.
Qed.

(** ** Files *)
Lemma fbind_assoc {A C D} (x : FS A) (f : A -> FS C) (g : C -> FS D) fs : fbind (fbind x f) g fs = fbind x (fun a => fbind (f a) g) fs.
Proof.
  unfold fbind. destruct (x fs) as (l1 & [a|e|u|] & f1); try reflexivity.
  destruct (f a f1) as (l2 & [b|e|u|] & f2); try reflexivity. destruct (g b f2) as (l3 & r). rewrite app_assoc. reflexivity.
Qed.
Lemma get_file w z passes e path fs data v2 v1 text owner create merge dry cv2 av2 adjust backups tags o p out :
  find_node (resolve (e_cwd e) path) fs = Some (File data) ->
  read_tagset z passes data = Ok (v2, v1) -> v2 <> [] -> scope_fits p v2 ->
  xtag_args text owner true create merge dry cv2 av2 adjust backups tags = Ok (o, p) ->
  exists cs ls, clouds_of p owner (with_index v2) cs /\ lines_for cs ls /\
    (cs = [] -> process_file z passes e (xtag_processor w o) p path out fs = ([], (Ok out, fs))) /\
    (cs <> [] -> process_file z passes e (xtag_processor w o) p path out fs =
       (run _ <- maybe_emplace_tagset z e path v2 Never ReducePaddingEvenly false;;
        run _ <- match v1 with Some t => replace_v1_file (resolve (e_cwd e) path) t | None => fret tt end;;
        fret (out ++ concat (map ended ls))) fs).
Proof.
  intros Hk HR NE SF EA. destruct (get_tagset w z passes data v2 v1 _ _ _ _ _ _ _ _ _ _ o p out HR NE SF EA) as (cs & ls & CO & LF & T).
  destruct (args_set _ _ _ _ _ _ _ _ _ _ _ _ _ EA) as (_ & _ & _ & _ & _ & _ & AG). destruct (AG eq_refl) as (_ & D & AJ & BK & _).
  destruct (file_of_tagset z passes e (xtag_processor w o) p path out fs data v2 v1 Hk HR) as (F & _).
  exists cs, ls. split; [exact CO|]. split; [exact LF|]. rewrite (F _ _ _ _ T). clear F T. unfold write_tagset. rewrite D, AJ, BK. split.
  - intros ->. inversion LF. subst ls. cbn [concat map]. rewrite app_nil_r. reflexivity.
  - intros NC. destruct cs as [|c cs]; [congruence|]. cbn [negb andb].
    apply fbind_assoc.
Qed.

(** ** Creation *)
Lemma no_xtags v o cs : (forall c, In c cs -> f_id (c_frame c) <> xtag_id v) -> forall n, xtag_frames v o cs n [] = Ok (cs, n, []).
Proof.
  induction cs as [|c cs IH]; intros H n; [reflexivity|]. cbn [xtag_frames]. unfold xtag_frame.
  destruct (bytes_eqb_spec (f_id (c_frame c)) (xtag_id v)) as [E|]; [elim (H c (or_introl eq_refl) E)|]. cbn [bind]. rewrite orb_false_r, IH; [reflexivity|].
  intros c' M. apply H. right. exact M.
Qed.
Lemma text_frame_ids id s f : In f (text_frame_of id s) -> f_id f = id.
Proof. destruct s; [intros []|intros [<-|[]]; reflexivity]. Qed.
Lemma v1_frame_ids lang a t al c g y f : In f (frames_of_v1 lang a t al c g y) -> f_id f <> B "XTAG".
Proof.
  unfold frames_of_v1. intros M. repeat (apply in_app_or in M as [M|M]);
    try (apply text_frame_ids in M; rewrite M; discriminate).
  destruct c; [destruct M|destruct M as [<-|[]]; discriminate].
Qed.

Lemma created_scratch w o l out : x_get o = false -> x_dry o = false -> x_text o = items_text l -> l <> [] -> Forall item_ok l -> fresh_bare [] [] l ->
  exists t, create_v2 (xtag_processor w o) out = Ok (Some t, out) /\ any_version t = V23 /\
    if x_create o then exists f, shown t = [f] /\ new_xtag V23 (x_owner o) l f else shown t = [].
Proof.
  intros NG ND TX NE OK FB. cbn [xtag_processor create_v2]. rewrite tag_out. unfold xtag_tag. cbn [xtag_frames bind negb andb]. rewrite NG, ND, andb_true_r.
  destruct (x_create o).
  - destruct (make_set V23 o l TX NE OK FB) as (f & -> & NX). cbn [bind app]. rewrite app_nil_r. eexists. split; [reflexivity|]. split; [reflexivity|]. exists f. split; [reflexivity|exact NX].
  - cbn [bind]. rewrite app_nil_r. eexists. repeat split.
Qed.

Lemma created_copy w o l out t artist title album comment year lang :
  x_get o = false -> x_dry o = false -> x_text o = items_text l -> l <> [] -> Forall item_ok l -> fresh_bare [] [] l ->
  ascii_alike (w_ic w) ->
  holds (v_artist t) artist -> holds (v_title t) title -> holds (v_album t) album -> holds (v_comment t) comment -> holds (v_year t) year ->
  w_lang w = Ok lang ->
  exists t', create_v2_from (xtag_processor w o) out t = Ok (Some t', out) /\ any_version t' = V23 /\
    let fs := frames_of_v1 lang artist title album comment (nth_error genres (N.to_nat (v_genre t))) year in
    if x_create o then exists f, shown t' = fs ++ [f] /\ new_xtag V23 (x_owner o) l f else shown t' = fs.
Proof.
  intros NG ND TX NE OK FB A1 A2 A3 A4 A5 A6 A7. cbn [xtag_processor create_v2_from].
  destruct (copy_v1_l w t artist title album comment year lang A1 A2 A3 A4 A5 A6 A7) as (st & -> & RY & F). cbn [bind].
  rewrite tag_out. unfold xtag_tag.
  assert (SH : map c_frame (map snd (l_frames st)) = frames_of_v1 lang artist title album comment (nth_error genres (N.to_nat (v_genre t))) year).
  { rewrite map_map. rewrite <- numbers. exact F. }
  assert (NX : forall c, In c (map snd (l_frames st)) -> f_id (c_frame c) <> xtag_id V23).
  { intros c M. apply (in_map c_frame) in M. rewrite SH in M. eapply v1_frame_ids. exact M. }
  rewrite (no_xtags V23 o _ NX). cbn [bind negb andb]. rewrite NG, ND, andb_true_r. destruct (x_create o).
  - destruct (make_set V23 o l TX NE OK FB) as (f & -> & X). cbn [bind app]. rewrite app_nil_r. eexists. split; [reflexivity|]. split; [reflexivity|]. exists f.
    split; [|exact X]. unfold shown. cbn [any_frames t3_frames]. rewrite map_app, SH. reflexivity.
  - cbn [bind]. rewrite app_nil_r. eexists. split; [reflexivity|]. split; [reflexivity|]. exact SH.
Qed.

(** ** Texts that cannot be read *)
Lemma frames_bad v o fs : x_get o = false -> x_dry o = false -> (forall c, cloud_from_text (x_owner o) (x_text o) <> Ok c) ->
  (exists f c, In f fs /\ xtag_of v (x_owner o) f c) -> forall n x, xtag_frames v o (map new_frame fs) n [] <> Ok x.
Proof.
  intros NG ND BAD (f & c & M & X). induction fs as [|g fs IH]; [destruct M|]. intros n x E. cbn [map xtag_frames] in E.
  apply bind_ok in E as (((c', k), o1) & E1 & E). apply bind_ok in E as (((r', n'), o2) & E2 & E). destruct M as [-> | M].
  - apply takes_iff in X. unfold xtag_frame in E1. change (c_frame (new_frame f)) with f in E1. unfold takes in X. destruct (bytes_eqb _ _); [|discriminate X].
    destruct (f_body f); try discriminate X. destruct (_ && _); [discriminate X|]. rewrite NG, ND in E1. injection X as ->. unfold cloud_from_text in BAD.
    destruct (parse_text_to_map (x_text o) []) as ([u|e|u|], m) eqn:P; [elim (BAD _ eq_refl)| | |]; destruct (x_merge o); cbn [cloud_apply] in E1; rewrite P in E1; discriminate E1.
  - rewrite frames_out in E2. apply bind_ok in E2 as (y & E2 & _). exact (IH M _ _ E2).
Qed.
Lemma tag_bad v o fs : x_get o = false -> x_dry o = false -> (forall c, cloud_from_text (x_owner o) (x_text o) <> Ok c) ->
  Forall (payload_frame v) fs -> x_create o = true \/ (exists f c, In f fs /\ xtag_of v (x_owner o) f c) -> forall x, xtag_tag v o (map new_frame fs) [] <> Ok x.
Proof.
  intros NG ND BAD PF [CR|X] x E; unfold xtag_tag in E; apply bind_ok in E as (((cs1, n), o1) & E1 & E); [|exact (frames_bad v o fs NG ND BAD X _ _ E1)].
  destruct (existsb (took v o) fs) eqn:T.
  - apply (took_iff v o) in T. exact (frames_bad v o fs NG ND BAD T _ _ E1).
  - assert (n = false) as ->.
    { enough (G : forall m cs o1 n', xtag_frames v o (map new_frame fs) m [] = Ok (cs, n', o1) -> n' = m) by (eapply G; exact E1).
      clear - T PF. induction PF as [|f fs PF F IH]; intros m cs o1 n' E; cbn [map xtag_frames] in E; [congruence|].
      cbn [existsb] in T. apply orb_false_iff in T as (T1 & T2). pose proof (frame_step v o f PF) as H. unfold took in T1. destruct (takes v (x_owner o) f); [discriminate T1|].
      rewrite H in E. cbn [bind] in E. apply bind_ok in E as (((r', n2), o2) & E2 & E). rewrite orb_false_r in E2. apply IH in E2; [|exact T2]. congruence. }
    rewrite CR, NG, ND in E. cbn [negb andb] in E. unfold make_xtag in E. apply bind_ok in E as (c & E & _). apply bind_ok in E as (c' & E & _). exact (BAD _ E).
Qed.

(** Success of a run is that of a run without state. *)
Definition silent (w : world) (o : xtag_opts) : processor unit :=
  mkProc unit (fun _ _ => Throw BadOperation) (fun _ => Throw BadOperation) (fun _ _ => Throw BadOperation) (fun _ => Throw BadOperation) (fun _ _ => Throw BadOperation)
    (fun _ t => let* (u, cs, _) := xtag_tag (any_version t) o (any_frames t) [] in Ok (u, any_set_frames cs t, tt)).
Lemma tags_silent w o v2 : forall i tags out x, process_tags (xtag_processor w o) i tags v2 out = Ok x -> exists y, process_tags (silent w o) i tags v2 tt = Ok y.
Proof.
  induction v2 as [|t r IH]; intros i tags out x E; cbn [process_tags] in *; [eauto|]. destruct tags as [|k rest]; [discriminate E|]. destruct (k =? i).
  - apply bind_ok in E as (((u, t'), o1) & E1 & E). apply bind_ok in E as (((r', d), o2) & E2 & E). destruct (IH _ _ _ _ E2) as (((r2, d2), []) & R).
    cbn [xtag_processor process_v2] in E1. rewrite tag_out in E1. apply bind_ok in E1 as (((u0, cs0), o0) & E1 & _). apply bind_ok in E1 as (((u3, cs3), o3) & E1 & _).
    cbn [silent process_v2]. rewrite E1. cbn [bind]. rewrite R. cbn [bind]. eauto.
  - apply bind_ok in E as (((r', d), o2) & E2 & E). destruct (IH _ _ _ _ E2) as (((r2, d2), []) & R). rewrite R. cbn [bind]. eauto.
Qed.

Lemma bad_tagset w z passes data v2 v1 s owner create merge cv2 av2 adjust backups tags o p out i t :
  read_tagset z passes data = Ok (v2, v1) -> scope_fits p v2 ->
  xtag_args (Some s) owner false create merge false cv2 av2 adjust backups tags = Ok (o, p) ->
  (forall c, cloud_from_text owner s <> Ok c) ->
  In (i, t) (with_index v2) -> in_scope p i = true -> create = true \/ (exists f c, In f (shown t) /\ xtag_of (any_version t) owner f c) ->
  forall x, process_tagset (xtag_processor w o) p v2 v1 out <> Ok x.
Proof.
  intros HR SF EA BAD M IS X x E. destruct (args_set _ _ _ _ _ _ _ _ _ _ _ _ _ EA) as (V1C & V1S & SC & OW & GE & AS & _).
  destruct (AS eq_refl) as (s' & ES & TX & CR & ME & DR & _). injection ES as <-. clear AS EA. subst owner create s.
  assert (NE : v2 <> []) by (intros ->; destruct M).
  assert (Y : exists y, process_tagset (silent w o) p v2 v1 tt = Ok y).
  { rewrite tagset_parts in *. apply bind_ok in E as ((((a2, pn), d1), o1) & E1 & E).
    assert (V : exists y, v2_part (silent w o) p v2 v1 tt = Ok y).
    { unfold v2_part in *. destruct v2 as [|t0 r0]; [congruence|]. destruct (p_v2_scope p).
      - apply bind_ok in E1 as (y & E1 & _). apply tags_silent in E1 as (((r2, d2), []) & ->). cbn [bind]. eauto.
      - eauto.
      - apply bind_ok in E1 as (y & E1 & _). apply tags_silent in E1 as (((r2, d2), []) & ->). cbn [bind]. eauto. }
    destruct V as ((((b2, pm), d2), []) & ->). cbn [bind]. unfold v1_part. rewrite V1S, V1C. destruct v1; [cbn [bind]; eauto|]. destruct b2; cbn [bind]; eauto. }
  destruct Y as (y & Y). destruct (tagset_calls (silent w o) p v2 v1 SF) as (_ & C). pose proof (C y Y) as F. rewrite Forall_forall in F.
  assert (W : In (ProcessV2 t) (wanted_calls (command_of (silent w o)) p v2 v1)).
  { unfold wanted_calls. apply in_or_app. left. destruct v2 as [|t0 r0]; [congruence|]. change (ProcessV2 t) with ((fun it : N * anytag => ProcessV2 (snd it)) (i, t)).
    apply in_map. apply filter_In. auto. }
  apply F in W. cbn [succeeds] in W. destruct W as (q & W). cbn [silent process_v2] in W. apply bind_ok in W as (((u, cs), o2) & W & _).
  pose proof (tagset_payloads _ _ _ _ _ HR) as FP. rewrite Forall_forall in FP. assert (M2 := M). apply with_index_In in M2. destruct (FP t M2) as ((AF & _) & PF).
  rewrite AF in W. exact (tag_bad (any_version t) o (shown t) GE DR BAD PF X _ W).
Qed.

(** ** As the theorems say it *)
Lemma clouds_in_fun v owner fs cs : clouds_in v owner fs cs -> forall cs', clouds_in v owner fs cs' -> cs = cs'.
Proof.
  induction 1 as [|f c fs cs X H IH|f fs cs X H IH]; intros cs' H'; inversion H'; subst; try reflexivity.
  - apply takes_iff in X. match goal with Y : xtag_of _ _ _ _ |- _ => apply takes_iff in Y; rewrite X in Y; injection Y as <- end. f_equal. auto.
  - match goal with Y : forall c, ~ xtag_of _ _ _ _ |- _ => elim (Y _ X) end.
  - match goal with Y : xtag_of _ _ _ _ |- _ => elim (X _ Y) end.
  - auto.
Qed.
Lemma clouds_of_fun p owner l cs : clouds_of p owner l cs -> forall cs', clouds_of p owner l cs' -> cs = cs'.
Proof.
  induction 1 as [|i t r a b IS C H IH|i t r cs IS H IH]; intros cs' H'; inversion H'; subst; try congruence.
  - f_equal; [eapply clouds_in_fun; eassumption|auto].
  - auto.
Qed.
Lemma get_untouched w z passes e path fs data v2 v1 text owner create merge dry cv2 av2 adjust backups tags o p out :
  find_node (resolve (e_cwd e) path) fs = Some (File data) ->
  read_tagset z passes data = Ok (v2, v1) -> v2 <> [] -> scope_fits p v2 ->
  xtag_args text owner true create merge dry cv2 av2 adjust backups tags = Ok (o, p) ->
  clouds_of p owner (with_index v2) [] ->
  process_file z passes e (xtag_processor w o) p path out fs = ([], (Ok out, fs)).
Proof.
  intros Hk HR NE SF EA CO. destruct (get_file w z passes e path fs data v2 v1 _ _ _ _ _ _ _ _ _ _ o p out Hk HR NE SF EA) as (cs & ls & CO' & _ & A & _).
  apply A. symmetry. eapply clouds_of_fun; eassumption.
Qed.
Lemma get_writes w z passes e path fs data v2 v1 text owner create merge dry cv2 av2 adjust backups tags o p out cs :
  find_node (resolve (e_cwd e) path) fs = Some (File data) ->
  read_tagset z passes data = Ok (v2, v1) -> v2 <> [] -> scope_fits p v2 ->
  xtag_args text owner true create merge dry cv2 av2 adjust backups tags = Ok (o, p) ->
  clouds_of p owner (with_index v2) cs -> cs <> [] ->
  exists out', process_file z passes e (xtag_processor w o) p path out fs =
    (run _ <- maybe_emplace_tagset z e path v2 Never ReducePaddingEvenly false;;
     run _ <- match v1 with Some t => replace_v1_file (resolve (e_cwd e) path) t | None => fret tt end;;
     fret out') fs.
Proof.
  intros Hk HR NE SF EA CO NC. destruct (get_file w z passes e path fs data v2 v1 _ _ _ _ _ _ _ _ _ _ o p out Hk HR NE SF EA) as (cs' & ls & CO' & _ & _ & A).
  eexists. apply A. rewrite <- (clouds_of_fun _ _ _ _ CO _ CO'). exact NC.
Qed.
Lemma created_with w o l out : x_get o = false -> x_dry o = false -> x_text o = items_text l -> l <> [] -> Forall item_ok l -> fresh_bare [] [] l ->
  x_create o = true ->
  (exists t f, create_v2 (xtag_processor w o) out = Ok (Some t, out) /\ any_version t = V23 /\ shown t = [f] /\ new_xtag V23 (x_owner o) l f) /\
  forall t artist title album comment year lang, ascii_alike (w_ic w) ->
  holds (v_artist t) artist -> holds (v_title t) title -> holds (v_album t) album -> holds (v_comment t) comment -> holds (v_year t) year ->
  w_lang w = Ok lang ->
  exists t' f, create_v2_from (xtag_processor w o) out t = Ok (Some t', out) /\ any_version t' = V23 /\
    shown t' = frames_of_v1 lang artist title album comment (nth_error genres (N.to_nat (v_genre t))) year ++ [f] /\ new_xtag V23 (x_owner o) l f.
Proof.
  intros NG ND TX NE OK FB CR. split.
  - destruct (created_scratch w o l out NG ND TX NE OK FB) as (t & E & V & Q). rewrite CR in Q. destruct Q as (f & S1 & S2). eauto 6.
  - intros t artist title album comment year lang A1 A2 A3 A4 A5 A6 A7.
    destruct (created_copy w o l out t artist title album comment year lang NG ND TX NE OK FB A1 A2 A3 A4 A5 A6 A7) as (t' & E & V & Q). cbv zeta in Q. rewrite CR in Q. destruct Q as (f & S1 & S2). eauto 6.
Qed.
Lemma created_without w o l out : x_get o = false -> x_dry o = false -> x_text o = items_text l -> l <> [] -> Forall item_ok l -> fresh_bare [] [] l ->
  x_create o = false ->
  (exists t, create_v2 (xtag_processor w o) out = Ok (Some t, out) /\ any_version t = V23 /\ shown t = []) /\
  forall t artist title album comment year lang, ascii_alike (w_ic w) ->
  holds (v_artist t) artist -> holds (v_title t) title -> holds (v_album t) album -> holds (v_comment t) comment -> holds (v_year t) year ->
  w_lang w = Ok lang ->
  exists t', create_v2_from (xtag_processor w o) out t = Ok (Some t', out) /\ any_version t' = V23 /\
    shown t' = frames_of_v1 lang artist title album comment (nth_error genres (N.to_nat (v_genre t))) year.
Proof.
  intros NG ND TX NE OK FB CR. split.
  - destruct (created_scratch w o l out NG ND TX NE OK FB) as (t & E & V & Q). rewrite CR in Q. eauto.
  - intros t artist title album comment year lang A1 A2 A3 A4 A5 A6 A7.
    destruct (created_copy w o l out t artist title album comment year lang NG ND TX NE OK FB A1 A2 A3 A4 A5 A6 A7) as (t' & E & V & Q). cbv zeta in Q. rewrite CR in Q. eauto.
Qed.
