(** * Proofs: the genre command on tagsets. *)
From Verif Require Import Base M_Ints M_Stream M_Id3v1 M_Payload M_Frame M_Tag22 M_Tag23 M_Tag24 M_Charset M_TextId M_Lookup M_Read S_Read M_Fs M_Tagset
  M_Genres M_Match M_Process M_Cmds S_Charset S_Lookup S_Id3v1 S_Match S_Process S_Cmds L_Charset L_Lookup L_Lookup2 L_Lookup3 L_Match5 L_Process
  L_Cmds L_Cmds2 L_Cmds4 L_Cmds5 L_Cmds6.
#[local] Open Scope N_scope.

Lemma tagset_v1_writes z passes data v2 t : read_tagset z passes data = Ok (v2, Some t) -> exists b, v1_write t = Ok b /\ wf_v1 t.
Proof.
  unfold read_tagset. destruct (sbind _ _ _) as (o & s) eqn:E. cbn [fst]. intros ->.
  apply sbind_inv in E as (ts & s1 & _ & E). apply sbind_inv in E as (u & s2 & R & E). apply sret_inv in E. assert (u = Some t) as -> by congruence.
  unfold process_id3v1 in R. apply sbind_inv in R as (i & s3 & _ & R).
  destruct (v1i_type i); [apply sret_inv in R; discriminate|..];
    (apply sbind_inv in R as (x & s4 & _ & R); apply sbind_inv in R as (y & s5 & R & Q); apply sret_inv in Q; assert (y = t) as -> by congruence; exact (from_stream_writes _ _ _ R)).
Qed.

(** ** The arguments *)
Lemma args_number w n v1 : genre_for_args w (Some n) [] [] v1 = match nth_error genres (N.to_nat n) with Some s => Ok (mkGenre n s) | None => Throw BadOperation end.
Proof.
  unfold genre_for_args. rewrite <- numbers. destruct (N.ltb_spec n 192) as [L|L].
  - cbn [bind]. unfold textual_genre. assert ((n =? 255) = false) as Z by (apply N.eqb_neq; lia). rewrite Z. cbn [negb bind].
    unfold make_genre. rewrite Z. cbn [negb]. reflexivity.
  - cbn [bind]. destruct (text_for_genre n) eqn:E; [|reflexivity]. exfalso. assert (X : text_for_genre n <> None) by congruence. apply numbers_192 in X. lia.
Qed.
Lemma args_close w s v1 : s <> [] -> genre_for_args w None s [] v1 = let* (name, i, _) := match_genre (w_wide w) s in Ok (mkGenre i name).
Proof. intros H. unfold genre_for_args. destruct s; [congruence|]. reflexivity. Qed.
Lemma args_free w s v1 : s <> [] -> genre_for_args w None [] s v1 =
  let* (_, i, _) := match_genre (w_wide w) s in Ok (mkGenre (match v1 with Some n => if n =? 255 then i else n | None => i end) s).
Proof. intros H. unfold genre_for_args. destruct s; [congruence|]. destruct v1; reflexivity. Qed.
Lemma args_several w number close free v1 :
  (number <> None /\ close <> []) \/ (number <> None /\ free <> []) \/ (close <> [] /\ free <> []) \/ (number = None /\ close = [] /\ free = []) ->
  genre_for_args w number close free v1 = Throw BadOperation.
Proof.
  intros H. unfold genre_for_args. destruct number as [n|].
  - destruct (N.ltb_spec n 192) as [L|L]; cbn [bind]; [|reflexivity].
    unfold textual_genre. assert ((n =? 255) = false) as -> by (apply N.eqb_neq; lia). cbn [negb].
    destruct close, free; try reflexivity. exfalso. intuition congruence.
  - cbn [bind]. unfold textual_genre. change (negb (255 =? 255)) with false. cbn iota.
    destruct close, free; try reflexivity; exfalso; intuition congruence.
Qed.

Lemma genre_tagset w g z passes data v2 v1 p name : read_tagset z passes data = Ok (v2, v1) -> v2 <> [] -> scope_fits p v2 ->
  (v1 = None -> p_v1_creation p = V1Never) ->
  (forall i t, In (i, t) (with_index v2) -> in_scope p i = true -> has_genre (w_ic w) t /\ storable (w_ic w) (any_version t) E_UTF_8 (gc_text g)) ->
  text_for_genre (gc_number g) = Some name -> to_bytes (w_ic w) name E_UTF_8 E_ASCII false NoFail = Ok name ->
  exists xs v1', process_tagset (genre_processor w g) p v2 v1 tt =
      Ok (existsb snd xs || match v1 with Some _ => p_v1_scope p | None => false end, map fst xs, v1', tt) /\
    Forall2 (genre_set (w_ic w) (gc_text g) p) (with_index v2) xs /\ v1_genre_set (gc_number g) name p v1 v1'.
Proof.
  intros HR NE SF NC HG HN HA. pose proof (tagset_fresh _ _ _ _ _ HR) as FR. rewrite Forall_forall in FR.
  destruct (tagset_scope (genre_processor w g) p v2 v1 (genre_put (w_ic w) (gc_text g))
    (fun t t' d => d = true /\ exists b b', v1_write t = Ok b /\ v1_write t' = Ok b' /\ genre_in_v1 (gc_number g) name (v_extended t) b b') NE SF NC)
    as (xs & v1' & d1 & E & F & V).
  - intros i t M IS. destruct (HG i t M IS) as (G1 & G2). exact (genre_one w g t (FR _ (with_index_In _ _ _ _ M)) G1 G2).
  - intros t -> _. destruct (tagset_v1_writes _ _ _ _ _ HR) as (b & W & _). destruct (genre_v1_l w g t b name W HN (fun _ => HA)) as (t' & b' & E & W' & G).
    exists true, t'. split; [exact E|]. eauto 6.
  - exists xs, v1'. unfold v1_genre_set. destruct v1 as [t|], v1' as [t'|]; try (destruct V; fail).
    + destruct (p_v1_scope p); destruct V as (V1 & V2); subst; auto.
    + subst d1. auto.
Qed.

(** A tag in scope without content type: the file is left alone. *)
Lemma genre_untouched z passes e w g p path fs data v2 v1 i t :
  find_node (resolve (e_cwd e) path) fs = Some (File data) -> read_tagset z passes data = Ok (v2, v1) -> scope_fits p v2 ->
  In (i, t) (with_index v2) -> in_scope p i = true -> with_id (tcon_id (any_version t)) (shown t) = [] ->
  exists o, process_file z passes e (genre_processor w g) p path tt fs = ([], (o, fs)) /\ o <> Ok tt.
Proof.
  intros Hk HR SF M IS NO. destruct (file_calls z passes e (genre_processor w g) p path fs data v2 v1 Hk HR SF) as (_ & A). apply A. clear A.
  intros F. rewrite Forall_forall in F.
  assert (X : succeeds (genre_processor w g) (ProcessV2 t)).
  { apply F. unfold wanted_calls. destruct v2 as [|t0 r0] eqn:EV; [destruct M|]. apply in_or_app. left.
    apply in_map_iff. exists (i, t). split; [reflexivity|]. apply filter_In. auto. }
  destruct X as (x & X). pose proof (tagset_fresh _ _ _ _ _ HR) as FR. rewrite Forall_forall in FR.
  rewrite (genre_missing w g t (FR _ (with_index_In _ _ _ _ M)) NO) in X. discriminate.
Qed.

(** Nothing there at all. *)
Lemma genre_fresh_v2 w g : storable (w_ic w) V23 E_UTF_8 (gc_text g) ->
  exists t f, create_v2 (genre_processor w g) tt = Ok (Some t, tt) /\ any_version t = V23 /\ shown t = [f] /\
    f_id f = B "TCON" /\ f_flags f = no_flags /\ reads (w_ic w) V23 E_UTF_8 f (gc_text g).
Proof.
  intros G. cbn [genre_processor create_v2]. unfold tag_set_text.
  pose proof (tcon_names V23) as (N1 & N2). cbn [tcon_id] in N1, N2. rewrite N1. cbn [bind].
  assert (RD : ready V23 empty_ltag).
  { change empty_ltag with (of_frames []). change (of_frames []) with (tables (A23 (mkTag23 None false None 1024 []))).
    apply (ready_fresh (A23 (mkTag23 None false None 1024 []))). split; [reflexivity|repeat constructor]. }
  destruct (set_put V23 (w_ic w) _ (w_texts w (l_texts empty_ltag) (B "TCON")) _ _ _ RD N2 G) as (st' & E2 & _ & TP).
  rewrite E2. cbn [bind]. destruct TP as [(l1 & f & f' & l2 & X & _)|(_ & f' & X & Y)]; [destruct l1; discriminate X|].
  exists (scratch23 st'), f'. split; [reflexivity|]. split; [reflexivity|]. split; [|exact Y].
  unfold shown. change (any_frames (scratch23 st')) with (map snd (l_frames st')). rewrite map_map. exact X.
Qed.

Lemma genre_fresh_v1 w g : exists t, create_v1 (genre_processor w g) tt = Ok (Some t, tt) /\
  v1_write t = Ok (B "TAG" ++ repeatN 0 124 ++ [gc_number g]).
Proof. cbn [genre_processor create_v1]. eexists. split; [reflexivity|]. cbv [v1_scratch v1_apply]. reflexivity. Qed.

Lemma args_foreign w s n text : s <> [] -> w_wide w s = Ok text -> (22 <= length text)%nat -> (Z.of_nat (length text) < 2 ^ 62)%Z ->
  (forall g c, In g genresw -> In c text -> ~ In c g) -> genre_for_args w None [] s (Some n) = UB Uninitialised.
Proof.
  intros NE W L1 L2 H. rewrite (args_free w s (Some n) NE). rewrite (match_genre_eq _ _ _ W), (match_foreign text L1 L2 H). reflexivity.
Qed.
