(** * Proofs: the xtag command. *)
From Verif Require Import Base M_Ints M_Stream M_Payload M_Url M_Cloud M_Frame M_Tag22 M_Tag23 M_Tag24 M_Charset M_TextId M_Lookup M_Id3v1 M_Read M_Fs M_Tagset M_Process M_Popm M_Cmds M_Xtag
  S_Url S_Cloud S_Lookup S_Process S_Cmds S_Xtag L_Url L_Cloud L_Cloud2 L_Cloud3 L_Process L_Cmds L_Cmds4 L_Cmds6.
#[local] Open Scope N_scope.

(** ** What is printed is appended *)
Lemma frame_out v o c out : xtag_frame v o c out = let* (c', k, o1) := xtag_frame v o c [] in Ok (c', k, out ++ o1).
Proof.
  unfold xtag_frame. destruct (bytes_eqb _ _); [|cbn [bind]; rewrite app_nil_r; reflexivity].
  destruct (f_body (c_frame c)); try reflexivity. destruct (_ && _); [cbn [bind]; rewrite app_nil_r; reflexivity|].
  destruct (x_get o); [reflexivity|]. destruct (x_dry o); [reflexivity|].
  destruct (cloud_apply _ _) as ([u|e|u|], t'); cbn [bind]; rewrite ?app_nil_r; reflexivity.
Qed.
Lemma frames_out v o cs : forall n out, xtag_frames v o cs n out = let* (cs', n', o1) := xtag_frames v o cs n [] in Ok (cs', n', out ++ o1).
Proof.
  induction cs as [|c r IH]; intros n out; cbn [xtag_frames]; [cbn [bind]; rewrite app_nil_r; reflexivity|].
  rewrite (frame_out v o c out). destruct (xtag_frame v o c []) as [((c', k), o1)|e|u|]; cbn [bind]; try reflexivity.
  rewrite (IH (n || k) (out ++ o1)), (IH (n || k) o1).
  destruct (xtag_frames v o r (n || k) []) as [((cs', n'), o2)|e|u|]; cbn [bind]; try reflexivity. rewrite app_assoc. reflexivity.
Qed.
Lemma tag_out v o cs out : xtag_tag v o cs out = let* (u, cs', o1) := xtag_tag v o cs [] in Ok (u, cs', out ++ o1).
Proof.
  unfold xtag_tag. rewrite (frames_out v o cs false out). destruct (xtag_frames v o cs false []) as [((cs', n), o1)|e|u|]; cbn [bind]; try reflexivity.
  destruct (_ && _); [|reflexivity]. destruct (x_dry o); [cbn [bind]; rewrite <- (app_assoc out o1); reflexivity|].
  destruct (make_xtag v o); reflexivity.
Qed.

(** ** State that follows the calls *)
Definition after {S} (g : anytag -> S -> S) (l : list (N * anytag)) (p : policies) (s : S) : S :=
  fold_left (fun s it => if in_scope p (fst it) then g (snd it) s else s) l s.

Lemma tags_sim {S} (P : processor S) (f : anytag -> bool * anytag) (g : anytag -> S -> S) c v2 : does_v2 c = f ->
  forall i tags ts d log log' s, process_tags (logged c) i tags v2 log = Ok (ts, d, log ++ log') ->
  (forall t s, In (ProcessV2 t) log' -> process_v2 P s t = Ok (f t, g t s)) ->
  process_tags P i tags v2 s = Ok (ts, d, fold_left (fun s x => match x with ProcessV2 t => g t s | _ => s end) log' s).
Proof.
  intros EC. induction v2 as [|t r IH]; intros i tags ts d log log' s E H; cbn [process_tags] in *.
  - apply Ok_inj in E. assert (log' = []) as -> by (apply (app_inv_head log); rewrite app_nil_r; congruence). cbn [fold_left]. congruence.
  - destruct tags as [|x rest]; [discriminate E|]. destruct (x =? i).
    + cbn [logged process_v2 bind] in E. rewrite EC in E. destruct (f t) as (u, t') eqn:D. apply bind_ok in E as (((r', d'), s2) & E2 & E).
      destruct (logged_grows _ _ _ _ _ _ _ _ E2) as (more & ->).
      assert (log' = ProcessV2 t :: more) as ->.
      { apply Ok_inj in E. assert (X : (log ++ [ProcessV2 t]) ++ more = log ++ log') by congruence. rewrite <- app_assoc in X. apply app_inv_head in X. auto. }
      rewrite (H t s (or_introl eq_refl)), D. cbn [bind]. rewrite (IH _ _ _ _ _ more (g t s) E2) by (intros t1 s1 M; apply H; right; exact M).
      cbn [bind fold_left]. apply Ok_inj in E. congruence.
    + apply bind_ok in E as (((r', d'), s2) & E2 & E). destruct (logged_grows _ _ _ _ _ _ _ _ E2) as (more & ->).
      assert (log' = more) as -> by (apply (app_inv_head log); congruence). rewrite (IH _ _ _ _ _ _ s E2 H). cbn [bind]. congruence.
Qed.

(** A command that leaves ID3v1 tags alone, on a file with ID3v2 tags. *)
Lemma tagset_sim {S} (P : processor S) (f : anytag -> bool * anytag) (g : anytag -> S -> S) p v2 v1 s :
  v2 <> [] -> scope_fits p v2 -> p_v1_creation p = V1Never -> p_v1_scope p = false ->
  (forall i t s, In (i, t) (with_index v2) -> in_scope p i = true -> process_v2 P s t = Ok (f t, g t s)) ->
  let xs := map (fun it : N * anytag => if in_scope p (fst it) then (snd (f (snd it)), fst (f (snd it))) else (snd it, false)) (with_index v2) in
  process_tagset P p v2 v1 s = Ok (existsb snd xs, map fst xs, v1, after g (with_index v2) p s).
Proof.
  intros NE SF NC NS H xs. set (c := mkCommand f (fun t => (false, t)) (fun _ => None) None (fun _ => None) None).
  pose proof (process_tagset_eq c p v2 v1 SF) as L. rewrite (tagset_parts (logged c)) in L. rewrite (tagset_parts P).
  apply bind_ok in L as ((((a2, pn), d1), log1) & E1 & L). apply bind_ok in L as (((a1, d2), log2) & E2 & L). apply Ok_inj in L.
  assert (V : v1_part (logged c) p v1 a2 log1 = Ok (v1, false, log1) /\ forall s1, v1_part P p v1 a2 s1 = Ok (v1, false, s1)).
  { unfold v1_part. rewrite NS, NC. destruct v1; [split; reflexivity|]. destruct a2; split; reflexivity. }
  destruct V as (V1 & V2). rewrite V1 in E2. apply Ok_inj in E2. assert (a1 = v1 /\ d2 = false /\ log2 = log1) as (-> & -> & ->) by (repeat split; congruence). clear E2 V1.
  assert (W : log1 = map (fun it => ProcessV2 (snd it)) (filter (fun it => in_scope p (fst it)) (with_index v2))).
  { assert (X : log1 = wanted_calls c p v2 v1) by congruence. rewrite X. unfold wanted_calls. destruct v2 as [|t0 r0]; [congruence|]. rewrite NS. unfold wants_v1. rewrite NC. destruct v1; apply app_nil_r. }
  assert (N2 : a2 ++ match pn with Some t => [t] | None => [] end = map fst xs).
  { assert (X : a2 ++ match pn with Some t => [t] | None => [] end = new_v2 c p v2 v1) by congruence. rewrite X. unfold new_v2. destruct v2 as [|t0 r0]; [congruence|].
    unfold xs. rewrite map_map. apply List.map_ext. intros (i, t). cbn [fst snd c does_v2]. destruct (in_scope p i); reflexivity. }
  assert (D : d1 || false = existsb snd xs).
  { assert (X : d1 || false = is_dirty c p v2 v1) by congruence. rewrite X. unfold is_dirty.
    replace (wanted_calls c p v2 v1) with log1 by congruence. rewrite W. exact (scope_dirty c p (with_index v2)). }
  assert (F : fold_left (fun s x => match x with ProcessV2 t => g t s | _ => s end) log1 s = after g (with_index v2) p s).
  { rewrite W. unfold after. clear. revert s. induction (with_index v2) as [|(i, t) r IH]; intros s; [reflexivity|]. cbn [filter fst snd fold_left].
    destruct (in_scope p i); cbn [map fold_left fst snd]; apply IH. }
  assert (HH : forall t s, In (ProcessV2 t) log1 -> process_v2 P s t = Ok (f t, g t s)).
  { intros t s1 M. rewrite W in M. apply in_map_iff in M as ((i, t') & Q & M). cbn [snd] in Q. injection Q as ->. apply filter_In in M as (M & IS). exact (H i t s1 M IS). }
  rewrite <- F, <- D, <- N2. clear L F D N2 W H xs.
  enough (G : v2_part P p v2 v1 s = Ok (a2, pn, d1, fold_left (fun s x => match x with ProcessV2 t => g t s | _ => s end) log1 s)).
  { rewrite G. cbn [bind]. rewrite V2. reflexivity. }
  unfold v2_part in *. destruct v2 as [|t0 r0]; [congruence|]. clear V2. destruct (p_v2_scope p).
  - apply bind_ok in E1 as (((l, dd), l1) & C & E1). rewrite (tags_sim P f g c _ eq_refl _ _ _ _ [] l1 s C).
    + cbn [bind]. congruence.
    + assert (l1 = log1) as -> by congruence. exact HH.
  - assert (log1 = []) as -> by congruence. cbn [fold_left]. congruence.
  - apply bind_ok in E1 as (((l, dd), l1) & C & E1). rewrite (tags_sim P f g c _ eq_refl _ _ _ _ [] l1 s C).
    + cbn [bind]. congruence.
    + assert (l1 = log1) as -> by congruence. exact HH.
Qed.

(** ** Clouds that are read *)
Lemma values_set fuel : forall cb l vals vals' r, is_set vals -> parse_values fuel cb l vals = Ok (vals', r) -> is_set vals'.
Proof.
  induction fuel as [|fuel IH]; intros cb l vals vals' r HS E; cbn [parse_values] in E.
  - destruct (cb =? 0); [|discriminate E]. assert (vals' = vals) as -> by congruence. exact HS.
  - destruct (cb =? 0); [assert (vals' = vals) as -> by congruence; exact HS|].
    destruct (split0 l) as (x, [r'|]); [|discriminate E]. eapply IH; [|exact E]. apply sinsert_set. exact HS.
Qed.
Lemma entries_map fuel : forall l m m', is_map m -> parse_entries fuel l m = Ok m' -> is_map m'.
Proof.
  induction fuel as [|fuel IH]; intros l m m' HM E; cbn [parse_entries] in E.
  - destruct l; [|discriminate E]. assert (m' = m) as -> by congruence. exact HM.
  - destruct l as [|c l]; [assert (m' = m) as -> by congruence; exact HM|].
    destruct (split0 (c :: l)) as [k [[|b0 [|b1 [|b2 [|b3 r]]]]|]]; try discriminate E.
    apply bind_ok in E as ((vs, r') & EV & E). eapply IH; [|exact E]. apply mset_map; [exact HM|]. eapply values_set; [|exact EV]. constructor.
Qed.
Lemma cloud_map l c : parse_cloud l = Ok c -> is_map (tc_tags c).
Proof.
  unfold parse_cloud. destruct l as [|x r]; [discriminate|]. destruct (split0 r) as (own, [r'|]); [|discriminate].
  intros E. apply bind_ok in E as (m & EM & E). apply Ok_inj in E. subst c. eapply entries_map; [|exact EM]. exact nil_map.
Qed.
Lemma payload_cloud v f c : payload_frame v f -> f_body f = BCloud c -> is_map (tc_tags c).
Proof.
  intros (l & n & E) EB. assert (K := payload_kind _ _ _ _ _ E). rewrite EB in K, E. cbn in K. rewrite <- K in E. unfold parse_payload in E.
  destruct (len l <? n); [destruct (parse_body _ _ _ _); discriminate E|]. cbn [parse_body] in E.
  apply bind_ok in E as (t & E1 & E). apply Ok_inj in E. injection E as <-. eapply cloud_map. exact E1.
Qed.

(** ** One frame *)
Definition takes (v : version) (owner : bytes) (f : frame) : option cloud :=
  if bytes_eqb (f_id f) (xtag_id v) then
    match f_body f with
    | BCloud t => if negb (len owner =? 0) && negb (bytes_eqb owner (tc_owner t)) then None else Some t
    | _ => None
    end
  else None.

Lemma takes_some v owner f t : takes v owner f = Some t -> xtag_of v owner f t.
Proof.
  unfold takes, xtag_of. destruct (bytes_eqb_spec (f_id f) (xtag_id v)) as [E|]; [|discriminate]. destruct (f_body f); try discriminate.
  destruct (negb (len owner =? 0) && negb (bytes_eqb owner (tc_owner c))) eqn:Q; [discriminate|]. intros X. injection X as <-.
  split; [rewrite E; destruct v; reflexivity|]. split; [reflexivity|]. apply andb_false_iff in Q as [Q|Q]; apply negb_false_iff in Q.
  - left. apply N.eqb_eq in Q. destruct owner; [reflexivity|rewrite len_cons in Q; lia].
  - right. destruct (bytes_eqb_spec owner (tc_owner c)); [auto|discriminate].
Qed.
Lemma takes_none v owner f : takes v owner f = None -> forall c, ~ xtag_of v owner f c.
Proof.
  unfold takes, xtag_of. intros E c (A & C & D). destruct (bytes_eqb_spec (f_id f) (xtag_id v)) as [_|N1]; [|elim N1; rewrite A; destruct v; reflexivity].
  rewrite C in E. destruct D as [-> | D]; [discriminate E|]. subst owner.
  destruct (bytes_eqb_spec (tc_owner c) (tc_owner c)); [|congruence]. rewrite andb_false_r in E. discriminate E.
Qed.
Lemma takes_iff v owner f c : takes v owner f = Some c <-> xtag_of v owner f c.
Proof.
  split; [apply takes_some|]. intros H. destruct (takes v owner f) as [t|] eqn:E.
  - apply takes_some in E. destruct E as (_ & E & _). destruct H as (_ & H & _). congruence.
  - elim (takes_none _ _ _ E _ H).
Qed.

Lemma frame_step v o f : payload_frame v f ->
  match takes v (x_owner o) f with
  | None => xtag_frame v o (new_frame f) [] = Ok (new_frame f, false, [])
  | Some t => is_map (tc_tags t) /\
      xtag_frame v o (new_frame f) [] =
        if x_get o then Ok (new_frame f, true, got_text t)
        else if x_dry o then Ok (new_frame f, true, dry_text o t)
        else match cloud_apply t (if x_merge o then CMerge (x_text o) else CUpdate (x_text o)) with
             | (Ok _, t') => Ok (edit_body (BCloud t') (new_frame f), true, [])
             | (Throw e, _) => Throw e
             | (UB u, _) => UB u
             | (NonTerm, _) => NonTerm
             end
  end.
Proof.
  intros PF. unfold xtag_frame. change (c_frame (new_frame f)) with f. unfold takes. destruct (bytes_eqb_spec (f_id f) (xtag_id v)) as [E|]; [|reflexivity].
  assert (K : kind_of_body (f_body f) = KCloud).
  { rewrite <- (payload_parsed v f PF), E. destruct v; reflexivity. }
  destruct (f_body f) as [| | | | | | | |c|] eqn:EB; try discriminate K.
  destruct (_ && _); [reflexivity|]. split; [eapply payload_cloud; eassumption|]. destruct (x_get o); [reflexivity|]. destruct (x_dry o); reflexivity.
Qed.

(** ** Setting *)
Lemma update_items c l : l <> [] -> Forall item_ok l -> fresh_bare [] [] l ->
  exists c', cloud_apply c (CUpdate (items_text l)) = (Ok tt, c') /\ cloud_becomes false l c c'.
Proof.
  intros NE OK FB. destruct (parse_text_spec l [] nil_map NE OK FB) as (m & E & M & K & Q).
  exists (mkCloud (tc_owner c) m). cbn [cloud_apply]. rewrite E. split; [reflexivity|].
  split; [reflexivity|]. split; [exact M|]. cbn [tc_tags]. split.
  - intros k. rewrite K. split; [intros [(s & [])|H]; auto|intros [(H & _)|H]; [discriminate H|auto]].
  - intros k v. rewrite Q. split; [intros [(s & [] & _)|H]; auto|intros [(H & _)|H]; [discriminate H|auto]].
Qed.
Lemma apply_items c l (merge : bool) : is_map (tc_tags c) -> l <> [] -> Forall item_ok l -> fresh_bare [] [] l ->
  exists c', cloud_apply c (if merge then CMerge (items_text l) else CUpdate (items_text l)) = (Ok tt, c') /\ cloud_becomes merge l c c'.
Proof.
  intros HM NE OK FB. destruct merge; [|apply update_items; assumption].
  destruct (merge_items c l HM NE OK FB) as (c' & E & O & M & K & Q). exists c'. split; [exact E|]. split; [exact O|]. split; [exact M|]. split.
  - intros k. rewrite K. intuition.
  - intros k v. rewrite Q. intuition.
Qed.

Section Set_.
  Context (v : version) (o : xtag_opts) (l : list item).
  Context (NG : x_get o = false) (ND : x_dry o = false) (TX : x_text o = items_text l) (NE : l <> []) (OK : Forall item_ok l) (FB : fresh_bare [] [] l).

  Definition took (f : frame) : bool := match takes v (x_owner o) f with Some _ => true | None => false end.

  Lemma frame_set f : payload_frame v f ->
    exists f', xtag_frame v o (new_frame f) [] = Ok (new_frame f', took f, []) /\ xtag_frame_set v (x_owner o) (x_merge o) l f f'.
  Proof.
    intros PF. pose proof (frame_step v o f PF) as H. unfold took. destruct (takes v (x_owner o) f) as [t|] eqn:E.
    - destruct H as (HM & ->). rewrite NG, ND, TX. destruct (apply_items t l (x_merge o) HM NE OK FB) as (t' & -> & CB).
      exists (mkFrame (f_id f) (f_flags f) (BCloud t')). split; [reflexivity|]. split; [reflexivity|]. split; [reflexivity|]. split.
      + intros c X. apply takes_iff in X. assert (c = t) as -> by congruence. exists t'. split; [reflexivity|exact CB].
      + intros X. elim (X t). apply takes_some. exact E.
    - exists f. split; [exact H|]. split; [reflexivity|]. split; [reflexivity|]. split; [|auto].
      intros c X. elim (takes_none _ _ _ E _ X).
  Qed.
  Lemma frames_set fs : Forall (payload_frame v) fs -> forall n,
    exists fs', xtag_frames v o (map new_frame fs) n [] = Ok (map new_frame fs', n || existsb took fs, []) /\
      Forall2 (xtag_frame_set v (x_owner o) (x_merge o) l) fs fs'.
  Proof.
    induction 1 as [|f fs PF F IH]; intros n; cbn [map xtag_frames].
    - exists []. rewrite orb_false_r. split; [reflexivity|constructor].
    - destruct (frame_set f PF) as (f' & -> & FS). cbn [bind]. destruct (IH (n || took f)) as (fs' & -> & F2). cbn [bind].
      exists (f' :: fs'). cbn [map existsb]. rewrite orb_assoc. split; [reflexivity|constructor; assumption].
  Qed.
  Lemma took_iff fs : existsb took fs = true <-> exists f c, In f fs /\ xtag_of v (x_owner o) f c.
  Proof.
    rewrite existsb_exists. split.
    - intros (f & M & T). unfold took in T. destruct (takes v (x_owner o) f) as [c|] eqn:E; [|discriminate T]. exists f, c. split; [exact M|apply takes_some; exact E].
    - intros (f & c & M & X). exists f. split; [exact M|]. unfold took. apply takes_iff in X. rewrite X. reflexivity.
  Qed.

  Lemma make_set : exists f, make_xtag v o = Ok (new_frame f) /\ new_xtag v (x_owner o) l f.
  Proof.
    unfold make_xtag, cloud_from_text. rewrite TX. destruct (parse_text_spec l [] nil_map NE OK FB) as (m & -> & M & K & Q). cbn [bind].
    exists (mkFrame (xtag_id v) no_flags (BCloud (mkCloud (x_owner o) m))). split; [reflexivity|]. split; [reflexivity|].
    exists (mkCloud (x_owner o) m). split; [split; [destruct v; reflexivity|split; [reflexivity|left; reflexivity]]|].
    split; [reflexivity|]. split; [exact M|]. cbn [tc_tags]. split.
    - intros k. rewrite K. split; [intros [(s & [])|H]; auto|intros [(H & _)|H]; [discriminate H|auto]].
    - intros k x. rewrite Q. split; [intros [(s & [] & _)|H]; auto|intros [(H & _)|H]; [discriminate H|auto]].
  Qed.

  Lemma tag_set fs : Forall (payload_frame v) fs ->
    exists fs' u, xtag_tag v o (map new_frame fs) [] = Ok (u, map new_frame fs', []) /\
    exists fs1, Forall2 (xtag_frame_set v (x_owner o) (x_merge o) l) fs fs1 /\
      (((exists f c, In f fs /\ xtag_of v (x_owner o) f c) /\ fs' = fs1 /\ u = true) \/
       ((forall f c, In f fs -> ~ xtag_of v (x_owner o) f c) /\
        if x_create o then exists f, fs' = fs1 ++ [f] /\ new_xtag v (x_owner o) l f /\ u = true else fs' = fs1 /\ u = false)).
  Proof.
    intros F. unfold xtag_tag. destruct (frames_set fs F false) as (fs1 & -> & F2). cbn [bind orb]. rewrite NG, ND, andb_true_r.
    destruct (existsb took fs) eqn:T; cbn [negb andb].
    - exists fs1, true. split; [reflexivity|]. exists fs1. split; [exact F2|]. left. split; [apply took_iff; exact T|auto].
    - assert (X : forall f c, In f fs -> ~ xtag_of v (x_owner o) f c).
      { intros f c M X. assert (existsb took fs = true) by (apply took_iff; eauto). congruence. }
      destruct (x_create o).
      + destruct make_set as (f & -> & NX). cbn [bind]. exists (fs1 ++ [f]), true. rewrite map_app. split; [reflexivity|]. exists fs1. split; [exact F2|]. right. split; [exact X|]. eauto.
      + exists fs1, false. split; [reflexivity|]. exists fs1. split; [exact F2|]. right. auto.
  Qed.
End Set_.

(** ** Tagsets *)
Lemma any_set_shown cs t : shown (any_set_frames cs t) = map c_frame cs /\ same_rest t (any_set_frames cs t) /\ any_version (any_set_frames cs t) = any_version t.
Proof. destruct t; repeat split. Qed.

Definition xtag_step (o : xtag_opts) (t : anytag) : bool * anytag :=
  match xtag_tag (any_version t) o (any_frames t) [] with Ok (u, cs, _) => (u, any_set_frames cs t) | _ => (false, t) end.
Definition xtag_out (o : xtag_opts) (t : anytag) (out : bytes) : bytes :=
  match xtag_tag (any_version t) o (any_frames t) [] with Ok (_, _, o1) => out ++ o1 | _ => out end.

Lemma xtag_called w o t out x : xtag_tag (any_version t) o (any_frames t) [] = Ok x ->
  process_v2 (xtag_processor w o) out t = Ok (xtag_step o t, xtag_out o t out).
Proof.
  intros E. cbn [xtag_processor process_v2]. rewrite tag_out. unfold xtag_step, xtag_out. rewrite E. destruct x as ((u, cs), o1). reflexivity.
Qed.

Lemma args_set text owner get create merge dry cv2 av2 adjust backups tags o p :
  xtag_args text owner get create merge dry cv2 av2 adjust backups tags = Ok (o, p) ->
  p_v1_creation p = V1Never /\ p_v1_scope p = false /\ p_v2_scope p = match tags with [] => TagsAll | _ => TagsSome tags end /\
  x_owner o = owner /\ x_get o = get /\
  (get = false -> exists s, text = Some s /\ x_text o = s /\ x_create o = create /\ x_merge o = merge /\ x_dry o = dry /\ p_dry p = dry /\
     p_adjust p = adjust /\ p_backups p = backups /\ p_v2_creation p = if av2 then V2Always else if cv2 then V2WhenV1Present else V2Never) /\
  (get = true -> x_create o = false /\ p_dry p = false /\ p_adjust p = false /\ p_backups p = false /\ p_v2_creation p = V2Never).
Proof.
  unfold xtag_args. intros E. apply bind_ok in E as (c & EC & E). destruct get.
  - apply Ok_inj in E. injection E as <- <-. repeat split; discriminate.
  - destruct text as [s|]; [|discriminate E]. apply Ok_inj in E. injection E as <- <-. repeat split; try discriminate.
    intros _. exists s. repeat split. cbn [p_v2_creation]. destruct av2, cv2; congruence.
Qed.

Lemma set_tagset w z passes data v2 v1 l owner create merge cv2 av2 adjust backups tags o p out :
  read_tagset z passes data = Ok (v2, v1) -> v2 <> [] -> scope_fits p v2 ->
  l <> [] -> Forall item_ok l -> fresh_bare [] [] l ->
  xtag_args (Some (items_text l)) owner false create merge false cv2 av2 adjust backups tags = Ok (o, p) ->
  exists xs, process_tagset (xtag_processor w o) p v2 v1 out = Ok (existsb snd xs, map fst xs, v1, out) /\
    Forall2 (fun it x => if in_scope p (fst it) then xtag_set owner merge create l (snd it) (fst x) (snd x) else x = (snd it, false)) (with_index v2) xs.
Proof.
  intros HR NE SF NL OK FB EA. destruct (args_set _ _ _ _ _ _ _ _ _ _ _ _ _ EA) as (V1C & V1S & _ & OW & GE & AS & _).
  destruct (AS eq_refl) as (s & ES & TX & CR & ME & DR & _). injection ES as <-. clear AS EA. subst owner create merge.
  pose proof (tagset_payloads _ _ _ _ _ HR) as FP. rewrite Forall_forall in FP.
  assert (A : forall i t, In (i, t) (with_index v2) -> exists u cs, xtag_tag (any_version t) o (any_frames t) [] = Ok (u, cs, []) /\ xtag_set (x_owner o) (x_merge o) (x_create o) l t (any_set_frames cs t) u).
  { intros i t M. apply with_index_In in M. destruct (FP t M) as ((AF & _) & PF). 
    destruct (tag_set (any_version t) o l GE DR TX NL OK FB (shown t) PF) as (fs' & u & E & fs1 & F2 & Q). rewrite <- AF in E.
    exists u, (map new_frame fs'). split; [exact E|]. unfold xtag_set. destruct (any_set_shown (map new_frame fs') t) as (SH & SR & _).
    split; [exact SR|]. exists fs1. split; [exact F2|]. rewrite SH, map_map. change (map (fun x => c_frame (new_frame x)) fs') with (map (fun x : frame => x) fs'). rewrite map_id. exact Q. }
  eexists. split.
  - rewrite (tagset_sim (xtag_processor w o) (xtag_step o) (xtag_out o) p v2 v1 out NE SF V1C V1S).
    2:{ intros i t s1 M _. destruct (A i t M) as (u & cs & E & _). eapply xtag_called. exact E. }
    assert (AO : after (xtag_out o) (with_index v2) p out = out).
    { unfold after. clear - A. revert A. generalize (with_index v2). intros ll. induction ll as [|(i, t) r IH]; intros A; [reflexivity|]. cbn [fold_left fst snd].
      assert (X : xtag_out o t out = out). { destruct (A i t (or_introl eq_refl)) as (u & cs & E & _). unfold xtag_out. rewrite E. apply app_nil_r. }
      rewrite X. destruct (in_scope p i); apply IH; intros i' t' M; apply (A i'); right; exact M. }
    rewrite AO. reflexivity.
  - clear - A. revert A. generalize (with_index v2). intros ll. induction ll as [|(i, t) r IH]; intros A; cbn [map]; constructor.
    + cbn [fst snd]. destruct (in_scope p i); [|reflexivity]. destruct (A i t (or_introl eq_refl)) as (u & cs & E & Q). unfold xtag_step. rewrite E. exact Q.
    + apply IH. intros i' t' M. apply (A i'). right. exact M.
Qed.
