(** * Proofs: the text command on tags and tagsets. *)
From Verif Require Import Base M_Ints M_Stream M_Id3v1 M_Payload M_Frame M_Tag22 M_Tag23 M_Tag24 M_Charset M_TextId M_Lookup M_Read S_Read M_Fs M_Tagset
  M_Process M_Cmds S_Charset S_Lookup S_Id3v1 S_Process S_Cmds L_Charset L_TextId L_Lookup L_Lookup2 L_Lookup3 L_Process
  L_Cmds L_Cmds2 L_Cmds3 L_Cmds4 L_Cmds6 L_Cmds7 P_TextId.
#[local] Open Scope N_scope.

Lemma ids_named v ks : (forall k, In k ks -> exists id, names v k id) -> Forall2 (names v) ks (ids_in v ks).
Proof.
  induction ks as [|k r IH]; intros H; [constructor|]. cbn [ids_in map]. constructor; [|apply IH; intros; apply H; right; assumption].
  destruct (H k (or_introl eq_refl)) as (id & N1). pose proof (proj1 N1) as E. rewrite E. exact N1.
Qed.
Lemma ids_distinct v ks : NoDup ks -> (forall k, In k ks -> exists id, names v k id) -> NoDup (ids_in v ks).
Proof.
  induction ks as [|k r IH]; intros ND H; [constructor|]. apply NoDup_cons_iff in ND as (NI & ND). cbn [ids_in map]. constructor.
  - intros M. apply in_map_iff in M as (k' & E & M). destruct (H k (or_introl eq_refl)) as (id & E1 & _). destruct (H k' (or_intror M)) as (id' & E2 & _).
    rewrite E1, E2 in E. subst id'. apply NI. rewrite (C44_identifiers_distinct v k k' id E1 E2). exact M.
  - apply IH; [exact ND|]. intros; apply H; right; assumption.
Qed.

Lemma frames_shown st t : shown (with_tables st t) = frames_of st.
Proof. exact (proj1 (with_tables_shown st t)). Qed.

Definition sets_in (o : text_opts) (v : version) : list (bytes * bytes) := combine (ids_in v (map fst (to_sets o))) (map snd (to_sets o)).

(** ** One tag *)
Lemma text_one w o t : fresh t -> NoDup (to_dels o) -> NoDup (map fst (to_sets o)) -> text_takes (w_ic w) o t ->
  exists t', process_v2 (text_processor w o) tt t = Ok (true, t', tt) /\ same_rest t t' /\
    texts_put (w_ic w) (any_version t) (to_enc o) (sets_in o (any_version t)) (all_gone (ids_in (any_version t) (to_dels o)) (shown t)) (shown t').
Proof.
  intros F ND NS (NM & U & LF & G). set (v := any_version t) in *. destruct (ready_fresh t F) as (R & RG & _). fold v in R, RG.
  assert (N1 : forall k, In k (to_dels o) -> exists id, names v k id) by (intros; apply NM; apply in_or_app; auto).
  assert (N2 : forall k, In k (map fst (to_sets o)) -> exists id, names v k id) by (intros; apply NM; apply in_or_app; auto).
  rewrite <- tables_frames in U, LF |- *.
  destruct (delete_all_read w v (to_dels o) _ (tables t) R RG (ids_named v _ N1) (ids_distinct v _ ND N1) U) as [(_ & st1 & E1 & R1 & F1)|(X & _)]; [|contradiction].
  destruct (set_all_put w v (to_enc o) (to_sets o) _ (ids_named v _ N2) (ids_distinct v _ NS N2) G st1 R1) as (st2 & E2 & _ & TP).
  cbn [text_processor process_v2]. fold v. unfold text_tables. rewrite E1. cbn [bind]. rewrite E2. cbn [bind].
  exists (with_tables st2 t). split; [reflexivity|]. destruct (with_tables_shown st2 t) as (S1 & S2). split; [exact S2|].
  rewrite S1, <- F1. exact TP.
Qed.

(** Several deletions not from last to first. *)
Lemma text_stale w o t : fresh t -> NoDup (to_dels o) -> let v := any_version t in
  (forall k, In k (to_dels o) -> exists id, names v k id) ->
  (forall id, In id (ids_in v (to_dels o)) -> (length (with_id id (shown t)) <= 1)%nat) ->
  ~ last_first (shown t) (ids_in v (to_dels o)) ->
  process_v2 (text_processor w o) tt t = UB OutOfBounds \/
  (v <> V22 /\ process_v2 (text_processor w o) tt t = UB BadIterator) \/ (v = V22 /\ process_v2 (text_processor w o) tt t = Throw LogicError).
Proof.
  intros F ND v N1 U LF. destruct (ready_fresh t F) as (R & RG & _). fold v in R, RG.
  rewrite <- tables_frames in U, LF.
  destruct (delete_all_read w v (to_dels o) _ (tables t) R RG (ids_named v _ N1) (ids_distinct v _ ND N1) U) as [(X & _)|(_ & S1)]; [contradiction|].
  cbn [text_processor process_v2]. fold v. unfold text_tables.
  destruct S1 as [-> | [(NV & ->) | (NV & ->)]]; cbn [bind]; auto.
Qed.

(** One deletion: one frame of that name goes, be there more or not. *)
Lemma text_delete_one w k id src t : fresh t -> names (any_version t) k id ->
  exists t', process_v2 (text_processor w (mkTextOpts [k] [] src)) tt t = Ok (true, t', tt) /\ same_rest t t' /\
   (with_id id (shown t) = [] -> shown t' = shown t) /\ (with_id id (shown t) <> [] -> one_gone id (shown t) (shown t')).
Proof.
  intros F N1. destruct (ready_fresh t F) as (R & RG & _).
  destruct (delete_one _ k id (w_ids w (l_ids (tables t)) id) _ N1 R RG) as (A & C). rewrite tables_frames in A, C.
  cbn [text_processor process_v2]. unfold text_tables. cbn [to_dels to_sets delete_all set_all]. rewrite (proj1 N1). cbn [bind].
  destruct (with_id id (shown t)) as [|f r] eqn:W.
  - rewrite (A eq_refl). cbn [bind]. eexists. split; [reflexivity|]. destruct (with_tables_shown (tables t) t) as (S1 & S2).
    split; [exact S2|]. split; [intros _; rewrite S1; apply tables_frames|congruence].
  - destruct C as (st' & E & _ & G); [discriminate|]. rewrite E. cbn [bind]. eexists. split; [reflexivity|]. destruct (with_tables_shown st' t) as (S1 & S2).
    split; [exact S2|]. split; [discriminate|]. intros _. rewrite S1. exact G.
Qed.

(** ** The tagset *)
Lemma existsb_in_scope (l : list (anytag * bool)) (l' : list (N * anytag)) (p : policies) :
  Forall2 (fun it x => snd x = in_scope p (fst it)) l' l -> existsb snd l = existsb (fun it => in_scope p (fst it)) l'.
Proof. induction 1 as [|it x a b H _ IH]; [reflexivity|]. cbn [existsb]. rewrite H, IH. reflexivity. Qed.

Lemma text_tagset w o z passes data v2 v1 p : read_tagset z passes data = Ok (v2, v1) -> v2 <> [] -> scope_fits p v2 ->
  p_v1_creation p = V1Never -> p_v1_scope p = false ->
  NoDup (to_dels o) -> NoDup (map fst (to_sets o)) ->
  (forall i t, In (i, t) (with_index v2) -> in_scope p i = true -> text_takes (w_ic w) o t) ->
  exists ts, process_tagset (text_processor w o) p v2 v1 tt = Ok (existsb (fun it => in_scope p (fst it)) (with_index v2), ts, v1, tt) /\
    Forall2 (tag_texts_set (w_ic w) (to_enc o) p (fun v => ids_in v (to_dels o)) (sets_in o)) (with_index v2) ts.
Proof.
  intros HR NE SF NC NS ND NDS HT. pose proof (tagset_fresh _ _ _ _ _ HR) as FR. rewrite Forall_forall in FR.
  destruct (tagset_scope (text_processor w o) p v2 v1 (fun t t' d => d = true /\ same_rest t t' /\
    texts_put (w_ic w) (any_version t) (to_enc o) (sets_in o (any_version t)) (all_gone (ids_in (any_version t) (to_dels o)) (shown t)) (shown t'))
    (fun _ _ _ => True) NE SF (fun _ => NC)) as (xs & v1' & d1 & E & F & V).
  - intros i t M IS. destruct (text_one w o t (FR _ (with_index_In _ _ _ _ M)) ND NDS (HT i t M IS)) as (t' & E & G). exists true, t'. auto.
  - intros t _ X. congruence.
  - assert (v1' = v1 /\ d1 = false) as (-> & ->).
    { rewrite NS in V. destruct v1, v1'; try (destruct V; fail); [destruct V; subst; auto|auto]. }
    exists (map fst xs). rewrite E, orb_false_r. split.
    + rewrite (existsb_in_scope xs (with_index v2) p); [reflexivity|]. clear - F. induction F as [|it x a b H _ IH]; constructor; [|exact IH].
      destruct (in_scope p (fst it)); [exact (proj1 H)|]. subst x. reflexivity.
    + clear - F. induction F as [|it x a b H _ IH]; [constructor|]. cbn [map]. constructor; [|exact IH].
      unfold tag_texts_set. destruct (in_scope p (fst it)); [destruct H as (_ & H1); exact H1|]. subst x. reflexivity.
Qed.

(** ** Files with an ID3v1 tag only *)
Lemma text_v1_false w o t x : process_v1 (text_processor w o) tt t = Ok x -> exists t', x = (false, t', tt).
Proof.
  cbn [text_processor process_v1]. unfold text_v1. intros E. apply bind_ok in E as ((d, t') & E1 & E).
  apply bind_ok in E1 as (a & _ & E1). apply bind_ok in E1 as (b & _ & E1). apply Ok_inj in E1, E. assert (d = false) as -> by congruence. exists t'. congruence.
Qed.

Lemma text_v1_only z passes e w o p path fs data v1 :
  find_node (resolve (e_cwd e) path) fs = Some (File data) -> read_tagset z passes data = Ok ([], v1) ->
  p_v2_creation p = V2Never -> p_v1_creation p = V1Never ->
  exists r, process_file z passes e (text_processor w o) p path tt fs = ([], (r, fs)) /\ (p_v1_scope p = false -> r = Ok tt).
Proof.
  intros Hk HR C2 C1.
  destruct (file_of_tagset z passes e (text_processor w o) p path tt fs data [] v1 Hk HR) as (F1 & _).
  assert (SC : p_v1_scope p = false -> exists y, process_tagset (text_processor w o) p [] v1 tt = Ok y).
  { intros S1. rewrite tagset_parts. unfold v2_part, v1_part. rewrite C2, C1, S1. destruct v1; cbn [bind]; eauto. }
  destruct (process_tagset (text_processor w o) p [] v1 tt) as [(((d, a), b), s)|x|u|] eqn:E.
  - assert (d = false) as ->.
    { rewrite tagset_parts in E. unfold v2_part, v1_part in E. rewrite C2, C1 in E. destruct v1 as [t|]; cbn [bind] in E.
      - destruct (p_v1_scope p); [|cbn [bind] in E; apply Ok_inj in E; cbn in E; congruence].
        destruct (process_v1 (text_processor w o) tt t) as [x|x|u|] eqn:E1; try discriminate E.
        destruct (text_v1_false w o t x E1) as (t' & ->). cbn [bind] in E. apply Ok_inj in E. cbn in E. congruence.
      - apply Ok_inj in E. cbn in E. congruence. }
    exists (Ok s). rewrite (F1 _ _ _ _ eq_refl). destruct s. auto.
  - destruct (file_of_tagset z passes e (text_processor w o) p path tt fs data [] v1 Hk HR) as (_ & F2 & _). eexists. split; [exact (F2 _ E)|].
    intros S1. destruct (SC S1) as (y & Y). discriminate.
  - destruct (file_of_tagset z passes e (text_processor w o) p path tt fs data [] v1 Hk HR) as (_ & _ & F2). eexists. split; [exact (F2 _ E)|].
    intros S1. destruct (SC S1) as (y & Y). discriminate.
  - unfold process_file. rewrite Hk. unfold fbind at 1. unfold flift at 1. rewrite HR. unfold fbind at 1. unfold flift at 1. rewrite E. cbn [app].
    eexists. split; [reflexivity|]. intros S1. destruct (SC S1) as (y & Y). discriminate.
Qed.

(** The ID3v1 tag is not in the scope unless tags are named. *)
Lemma text_v1_kept {S} (P : processor S) p v2 v1 s d v2' v1' s' : p_v1_creation p = V1Never -> p_v1_scope p = false ->
  process_tagset P p v2 v1 s = Ok (d, v2', v1', s') -> v1' = v1.
Proof.
  intros C1 SC E. rewrite tagset_parts in E. apply bind_ok in E as ((((a2, pn), d1), s1) & _ & E). apply bind_ok in E as (((a1, d2), s2) & E2 & E).
  unfold v1_part in E2. rewrite SC, C1 in E2. apply Ok_inj in E. assert (a1 = v1') as -> by congruence. destruct v1 as [t|]; [congruence|]. destruct a2; congruence.
Qed.

(** ** What is left alone *)
Lemma file_untouched {S} z passes e (P : processor S) p path s fs data v2 v1 :
  find_node (resolve (e_cwd e) path) fs = Some (File data) -> read_tagset z passes data = Ok (v2, v1) ->
  (forall x, process_tagset P p v2 v1 s <> Ok x) ->
  exists o, process_file z passes e P p path s fs = ([], (o, fs)) /\ (forall x, o <> Ok x).
Proof.
  intros Hk HR N. unfold process_file. rewrite Hk. unfold fbind at 1. unfold flift at 1. rewrite HR. unfold fbind at 1. unfold flift at 1.
  destruct (process_tagset P p v2 v1 s) as [x|x|u|] eqn:E; [elim (N x); reflexivity|cbn [app]; eexists; (split; [reflexivity|discriminate])..].
Qed.
