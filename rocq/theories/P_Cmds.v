(** * Theorems: the genre and text commands, copies between versions (C62, C63, C64, C65). *)
From Verif Require Import Base M_Ints M_Stream M_Id3v1 M_Payload M_Frame M_Tag22 M_Tag23 M_Tag24 M_Charset M_TextId M_Lookup M_Read S_Read M_Fs M_Tagset
  M_Genres M_Match M_Process M_Cmds S_Charset S_Lookup S_Id3v1 S_Match S_Tag23 S_Tagset S_Process S_Cmds L_Match5
  L_Cmds L_Cmds3 L_Cmds4 L_Cmds6 L_Cmds7 L_Cmds8 L_Cmds9 L_Cmds10 P_Tagset.
#[local] Open Scope N_scope.

(** A file for the examples: a 2.3 tag with an artist, a content type and a title,
    another without content type, and an ID3v1 tag. *)
Definition ex_world : world :=
  mkWorld (fun _ _ _ b => Some b) (fun _ _ => 0) (fun _ _ => 0) (fun t => Ok (map low t)) (Ok (B "eng")).
Definition ex_v1 : bytes := B "TAG" ++ B "Song" ++ repeatN 0 26 ++ B "Band" ++ repeatN 32 26 ++ repeatN 0 30 ++ B "1999" ++ B "fine" ++ repeatN 0 24 ++ [0; 7; 17].
Definition ex_tag1 : bytes := B "ID3" ++ [3; 0; 0; 0; 0; 0; 45] ++
  B "TPE1" ++ [0; 0; 0; 5; 0; 0; 0] ++ B "Band" ++ B "TCON" ++ [0; 0; 0; 5; 0; 0; 0] ++ B "Rock" ++ B "TIT2" ++ [0; 0; 0; 5; 0; 0; 0] ++ B "Song".
Definition ex_tag2 : bytes := B "ID3" ++ [3; 0; 0; 0; 0; 0; 15] ++ B "TPE1" ++ [0; 0; 0; 5; 0; 0; 0] ++ B "Band".
Definition ex_set (data : bytes) : list anytag * option id3v1_tag := match read_tagset no_zlib 3 data with Ok x => x | _ => ([], None) end.
Definition ex_all : policies := mkPol TagsAll true V2Never V1Never false false true.
Example ex_sets : read_tagset no_zlib 3 (ex_tag1 ++ B "music" ++ ex_v1) = Ok (ex_set (ex_tag1 ++ B "music" ++ ex_v1)) /\
  List.length (fst (ex_set (ex_tag1 ++ B "music" ++ ex_v1))) = 1%nat /\ snd (ex_set (ex_tag1 ++ B "music" ++ ex_v1)) <> None.
Proof. vm_compute. repeat split. discriminate. Qed.
Definition ex_file : bytes := ex_tag1 ++ B "music" ++ ex_v1.
Definition ex_first : anytag := nth 0 (fst (ex_set ex_file)) (A23 (mkTag23 None false None 0 [])).
Example ex_first_version : any_version ex_first = V23.
Proof. vm_compute. reflexivity. Qed.
Example ex_ascii : ascii_alike (w_ic ex_world) /\ ascii_text (B "Jazz") /\ ascii_text (B "Tune") /\ ascii_text (B "Song") /\ ascii_text (B "Band").
Proof.
  split; [intros src dst s _ _ _; reflexivity|].
  repeat match goal with |- _ /\ ascii_text _ => split | |- ascii_text _ /\ _ => split end; (split; [repeat constructor|]; intros s' c E; apply (f_equal (fun l => last l 0)) in E; rewrite last_last in E; cbn in E; subst c; split; discriminate).
Qed.

(** ** C62: the genre command *)

(** What the arguments choose: a number names its genre; a text to be matched the
    closest one; a free text goes to ID3v2 as it is and the number given, or that of
    the closest, to ID3v1; one of the three must be given. *)
Theorem C62_args : forall w number close free v1,
  (forall n, number = Some n -> close = [] -> free = [] -> genre_for_args w number close free v1 =
     match nth_error genres (N.to_nat n) with Some s => Ok (mkGenre n s) | None => Throw BadOperation end) /\
  (number = None -> close <> [] -> free = [] -> genre_for_args w number close free v1 =
     let* (name, i, _) := match_genre (w_wide w) close in Ok (mkGenre i name)) /\
  (number = None -> close = [] -> free <> [] -> genre_for_args w number close free v1 =
     let* (_, i, _) := match_genre (w_wide w) free in Ok (mkGenre (match v1 with Some n => if n =? 255 then i else n | None => i end) free)) /\
  ((number <> None /\ close <> []) \/ (number <> None /\ free <> []) \/ (close <> [] /\ free <> []) \/ (number = None /\ close = [] /\ free = []) ->
   genre_for_args w number close free v1 = Throw BadOperation).
Proof.
  intros w number close free v1. split; [intros n -> -> ->; exact (args_number w n v1)|]. split; [intros -> H ->; exact (args_close w close v1 H)|].
  split; [intros -> -> H; exact (args_free w free v1 H)|]. exact (args_several w number close free v1).
Qed.
Print Assumptions C62_args.
Example C62_args_nontrivial :
  genre_for_args ex_world (Some 17) [] [] None = Ok (mkGenre 17 (B "Rock")) /\ genre_for_args ex_world (Some 192) [] [] None = Throw BadOperation /\
  genre_for_args ex_world None (B "rock") [] None = Ok (mkGenre 17 (B "Rock")).
Proof.
  split; [reflexivity|]. split; [reflexivity|]. rewrite (proj1 (proj2 (C62_args ex_world None (B "rock") [] None))) by (reflexivity || discriminate).
  rewrite (match_case (w_wide ex_world) (B "rock") 17%nat (B "Rock")) by reflexivity. reflexivity.
Qed.

(** Full statement: every tag in scope has the genre afterwards.  Proved where each
    of those has a content type that can be read and takes the text: the tags in
    scope have it and are otherwise as they were, as are all others; the ID3v1 tag
    has the number and, if extended, the name; what is reported is whether any of
    the former was changed or the latter is there. *)
Theorem C62_set_partial : forall w g z passes data v2 v1 p name,
  read_tagset z passes data = Ok (v2, v1) -> v2 <> [] -> scope_fits p v2 ->
  (v1 = None -> p_v1_creation p = V1Never) ->
  (forall i t, In (i, t) (with_index v2) -> in_scope p i = true -> has_genre (w_ic w) t /\ storable (w_ic w) (any_version t) E_UTF_8 (gc_text g)) ->
  text_for_genre (gc_number g) = Some name -> to_bytes (w_ic w) name E_UTF_8 E_ASCII false NoFail = Ok name ->
  exists xs v1', process_tagset (genre_processor w g) p v2 v1 tt =
      Ok (existsb snd xs || match v1 with Some _ => p_v1_scope p | None => false end, map fst xs, v1', tt) /\
    Forall2 (genre_set (w_ic w) (gc_text g) p) (with_index v2) xs /\ v1_genre_set (gc_number g) name p v1 v1'.
Proof. exact genre_tagset. Qed.
Print Assumptions C62_set_partial.
Example C62_set_nontrivial :
  read_tagset no_zlib 3 ex_file = Ok ([ex_first], snd (ex_set ex_file)) /\
  has_genre (w_ic ex_world) ex_first /\ storable (w_ic ex_world) (any_version ex_first) E_UTF_8 (B "Jazz") /\
  text_for_genre 8 = Some (B "Jazz") /\ to_bytes (w_ic ex_world) (B "Jazz") E_UTF_8 E_ASCII false NoFail = Ok (B "Jazz").
Proof.
  split; [vm_compute; reflexivity|]. split.
  - split; [vm_compute; discriminate|]. intros f M. exists (B "Rock").
    assert (E : with_id (tcon_id (any_version ex_first)) (shown ex_first) = [mkFrame (B "TCON") no_flags (BText (mkText 0 (B "Rock")))]) by (vm_compute; reflexivity).
    rewrite E in M. destruct M as [<-|[]]. rewrite ?ex_first_version. eexists. split; reflexivity.
  - rewrite ex_first_version. split; [apply ascii_storable; [apply ex_ascii|apply ex_ascii|discriminate]|]. split; vm_compute; reflexivity.
Qed.

(** A tag in scope without content type: nothing is written, no tag gets the genre. *)
Theorem C62_missing_refuted : forall z passes e w g p path fs data v2 v1 i t,
  find_node (resolve (e_cwd e) path) fs = Some (File data) -> read_tagset z passes data = Ok (v2, v1) -> scope_fits p v2 ->
  In (i, t) (with_index v2) -> in_scope p i = true -> with_id (tcon_id (any_version t)) (shown t) = [] ->
  exists o, process_file z passes e (genre_processor w g) p path tt fs = ([], (o, fs)) /\ o <> Ok tt.
Proof. exact genre_untouched. Qed.
Print Assumptions C62_missing_refuted.
Example C62_missing_nontrivial : exists t, nth_error (with_index (fst (ex_set (ex_tag1 ++ ex_tag2 ++ B "music")))) 1 = Some (1, t) /\
  with_id (tcon_id (any_version t)) (shown t) = [] /\ scope_fits ex_all (fst (ex_set (ex_tag1 ++ ex_tag2 ++ B "music"))).
Proof. eexists. split; [vm_compute; reflexivity|]. split; [vm_compute; reflexivity|]. constructor. Qed.

(** A file without tags for which tags are to be made: one ID3v2.3 tag with nothing
    but the genre, one ID3v1 tag with nothing but its number. *)
Theorem C62_created_partial : forall w g,
  (storable (w_ic w) V23 E_UTF_8 (gc_text g) ->
   exists t f, create_v2 (genre_processor w g) tt = Ok (Some t, tt) /\ any_version t = V23 /\ shown t = [f] /\
     f_id f = B "TCON" /\ f_flags f = no_flags /\ reads (w_ic w) V23 E_UTF_8 f (gc_text g)) /\
  exists t, create_v1 (genre_processor w g) tt = Ok (Some t, tt) /\ v1_write t = Ok (B "TAG" ++ repeatN 0 124 ++ [gc_number g]).
Proof. intros w g. exact (conj (genre_fresh_v2 w g) (genre_fresh_v1 w g)). Qed.
Print Assumptions C62_created_partial.
Example C62_created_nontrivial : storable (w_ic ex_world) V23 E_UTF_8 (B "Jazz").
Proof. apply ascii_storable; [apply ex_ascii|apply ex_ascii|discriminate]. Qed.

(** A free text of 22 characters and more that has none in common with any genre:
    an uninitialised variable is used, although the number has been given. *)
Theorem C62_foreign_refuted : forall w s n text, s <> [] -> w_wide w s = Ok text -> (22 <= length text)%nat -> (Z.of_nat (length text) < 2 ^ 62)%Z ->
  (forall g c, In g genresw -> In c text -> ~ In c g) -> genre_for_args w None [] s (Some n) = UB Uninitialised.
Proof. exact args_foreign. Qed.
Print Assumptions C62_foreign_refuted.
Example C62_foreign_nontrivial : forall g c, In g genresw -> In c (repeat 1080 25) -> ~ In c g.
Proof.
  assert (H : forallb (fun g => forallb (fun c => negb (c =? 1080)) g) genresw = true) by (vm_compute; reflexivity).
  intros g c G C I. apply repeat_spec in C. subst c. rewrite forallb_forall in H. specialize (H g G). rewrite forallb_forall in H. specialize (H _ I). discriminate.
Qed.

(** ** C63: the text command *)

(** Full statement: every tag in scope has the texts set, and none of the frames
    deleted.  Proved where the frames are text frames of the tag's version, none to
    delete is there twice, those there are named from the last to the first, and
    the texts can be stored. *)
Theorem C63_texts_partial : forall w o z passes data v2 v1 p,
  read_tagset z passes data = Ok (v2, v1) -> v2 <> [] -> scope_fits p v2 ->
  p_v1_creation p = V1Never -> p_v1_scope p = false -> NoDup (to_dels o) -> NoDup (map fst (to_sets o)) ->
  (forall i t, In (i, t) (with_index v2) -> in_scope p i = true -> text_takes (w_ic w) o t) ->
  exists ts, process_tagset (text_processor w o) p v2 v1 tt = Ok (existsb (fun it => in_scope p (fst it)) (with_index v2), ts, v1, tt) /\
    Forall2 (tag_texts_set (w_ic w) (to_enc o) p (fun v => ids_in v (to_dels o))
      (fun v => combine (ids_in v (map fst (to_sets o))) (map snd (to_sets o)))) (with_index v2) ts.
Proof. exact text_tagset. Qed.
Print Assumptions C63_texts_partial.
Example C63_texts_nontrivial :
  text_takes (w_ic ex_world) (mkTextOpts [tf_tit2; tf_tpe1] [(tf_tcon, B "Jazz"); (tf_tit2, B "Tune")] E_UTF_8) ex_first.
Proof.
  assert (SH : map f_id (shown ex_first) = [B "TPE1"; B "TCON"; B "TIT2"]) by (vm_compute; reflexivity).
  unfold text_takes. rewrite ex_first_version.
  split; [|split; [|split]].
  - intros k M. cbn [to_dels to_sets map fst app In] in M. destruct M as [<-|[<-|[<-|[<-|[]]]]]; eexists; (split; [reflexivity|reflexivity]).
  - intros id M. cbn [ids_in to_dels map] in M. destruct M as [<-|[<-|[]]]; vm_compute; apply le_n.
  - intros i j a b p q f g A C L P FA Q FB. assert (EA := P). apply (map_nth_error f_id) in P. apply (map_nth_error f_id) in Q. rewrite SH in P, Q. clear EA.
    change (nth_error [B "TIT2"; B "TPE1"] i = Some a) in A. change (nth_error [B "TIT2"; B "TPE1"] j = Some b) in C.
    destruct i as [|[|i]]; cbn in A; [| |destruct i; discriminate A].
    + destruct j as [|[|j]]; cbn in C; [inversion L| |destruct j; discriminate C]. injection A as <-. injection C as <-.
      destruct p as [|[|[|p]]]; cbn in P; rewrite FA in P; try discriminate P; [|destruct p; discriminate P].
      destruct q as [|[|[|q]]]; cbn in Q; rewrite FB in Q; try discriminate Q; [|destruct q; discriminate Q]. repeat constructor.
    + destruct j as [|[|j]]; cbn in C; [inversion L|inversion L; inversion H0|destruct j; discriminate C].
  - apply Forall_cons; [|apply Forall_cons; [|apply Forall_nil]]; cbn [snd].
    all: apply ascii_storable; [apply ex_ascii|apply ex_ascii|discriminate].
Qed.

(** One frame to delete: one of that name goes, where there is one. *)
Theorem C63_delete_one_partial : forall w k id src t, as_read t -> names (any_version t) k id ->
  exists t', process_v2 (text_processor w (mkTextOpts [k] [] src)) tt t = Ok (true, t', tt) /\ same_rest t t' /\
   (with_id id (shown t) = [] -> shown t' = shown t) /\ (with_id id (shown t) <> [] -> one_gone id (shown t) (shown t')).
Proof. intros w k id src t A. exact (text_delete_one w k id src t (read_fresh t A)). Qed.
Print Assumptions C63_delete_one_partial.
Example C63_delete_one_nontrivial : as_read ex_first /\ names (any_version ex_first) tf_tcon (B "TCON") /\ with_id (B "TCON") (shown ex_first) <> [].
Proof.
  split; [exists no_zlib, 3%nat, ex_file, [ex_first], (snd (ex_set ex_file)); split; [vm_compute; reflexivity|left; reflexivity]|].
  rewrite ex_first_version. split; [split; reflexivity|vm_compute; discriminate].
Qed.

(** Several frames to delete, of which one stands behind one named before: an index
    that has become wrong is used. *)
Theorem C63_delete_order_refuted : forall w o t, as_read t -> NoDup (to_dels o) -> let v := any_version t in
  (forall k, In k (to_dels o) -> exists id, names v k id) ->
  (forall id, In id (ids_in v (to_dels o)) -> (length (with_id id (shown t)) <= 1)%nat) ->
  ~ last_first (shown t) (ids_in v (to_dels o)) ->
  process_v2 (text_processor w o) tt t = UB OutOfBounds \/
  (v <> V22 /\ process_v2 (text_processor w o) tt t = UB BadIterator) \/ (v = V22 /\ process_v2 (text_processor w o) tt t = Throw LogicError).
Proof. intros w o t A. exact (text_stale w o t (read_fresh t A)). Qed.
Print Assumptions C63_delete_order_refuted.
Example C63_delete_order_nontrivial : ~ last_first (shown ex_first) (ids_in V23 [tf_tpe1; tf_tit2]) /\
  process_v2 (text_processor ex_world (mkTextOpts [tf_tpe1; tf_tit2] [] E_UTF_8)) tt ex_first = UB OutOfBounds.
Proof.
  split; [|vm_compute; reflexivity]. intros H.
  destruct (shown ex_first) as [|f1 [|f2 [|f3 r]]] eqn:E; try (vm_compute in E; discriminate E).
  assert (A : f_id f1 = B "TPE1" /\ f_id f3 = B "TIT2") by (vm_compute in E; injection E as <- _ <- _; split; reflexivity).
  specialize (H 0%nat 1%nat (B "TPE1") (B "TIT2") 0%nat 2%nat f1 f3 eq_refl eq_refl (le_n 1) eq_refl (proj1 A) eq_refl (proj2 A)). inversion H.
Qed.

(** Unless tags are named by number, the ID3v1 tag is not updated. *)
Theorem C63_v1_kept_refuted : forall w o create always adjust backups p v2 v1 d v2' v1',
  text_policies [] create always adjust backups = Ok p ->
  process_tagset (text_processor w o) p v2 v1 tt = Ok (d, v2', v1', tt) -> v1' = v1.
Proof.
  intros w o create always adjust backups p v2 v1 d v2' v1' E. apply text_v1_kept; destruct create, always; cbn in E; first [discriminate E | apply Ok_inj in E; subst p; reflexivity].
Qed.
Print Assumptions C63_v1_kept_refuted.
Example C63_v1_kept_nontrivial : exists p d v2' v1', text_policies [] false false false true = Ok p /\
  process_tagset (text_processor ex_world (mkTextOpts [] [(tf_tit2, B "Tune")] E_UTF_8)) p (fst (ex_set ex_file)) (snd (ex_set ex_file)) tt = Ok (d, v2', v1', tt) /\
  snd (ex_set ex_file) <> None.
Proof. do 4 eexists. split; [reflexivity|]. split; [vm_compute; reflexivity|vm_compute; discriminate]. Qed.

(** A file with an ID3v1 tag only is not changed, even if tags are named. *)
Theorem C63_v1_only_refuted : forall z passes e w o tags adjust backups p path fs data v1,
  find_node (resolve (e_cwd e) path) fs = Some (File data) -> read_tagset z passes data = Ok ([], v1) ->
  text_policies tags false false adjust backups = Ok p ->
  exists r, process_file z passes e (text_processor w o) p path tt fs = ([], (r, fs)) /\ (tags = [] -> r = Ok tt).
Proof.
  intros z passes e w o tags adjust backups p path fs data v1 Hk HR E.
  destruct (text_v1_only z passes e w o p path fs data v1 Hk HR) as (r & A & C).
  1,2: destruct tags; cbn in E; apply Ok_inj in E; subst p; reflexivity.
  exists r. split; [exact A|]. intros ->. apply C. cbn in E. apply Ok_inj in E. subst p. reflexivity.
Qed.
Print Assumptions C63_v1_only_refuted.
Example C63_v1_only_nontrivial : exists t, read_tagset no_zlib 3 (B "music" ++ ex_v1) = Ok ([], Some t) /\ v_title t = B "Song" ++ repeatN 0 26.
Proof. eexists. split; vm_compute; reflexivity. Qed.

(** ** C64: copies between versions *)

(** Full statement: all that an ID3v1 tag tells is in the ID3v2 tag made from it.
    Proved for artist, title, album, comment, genre and a year of four characters,
    in ASCII. *)
Theorem C64_from_v1_partial : forall w t artist title album comment year lang, ascii_alike (w_ic w) ->
  holds (v_artist t) artist -> holds (v_title t) title -> holds (v_album t) album -> holds (v_comment t) comment -> holds (v_year t) year ->
  w_lang w = Ok lang ->
  exists st, copy_v1_frames w t = Ok st /\
    map c_frame (map snd (l_frames st)) = frames_of_v1 lang artist title album comment (nth_error genres (N.to_nat (v_genre t))) year.
Proof.
  intros w t artist title album comment year lang A1 A2 A3 A4 A5 A6 A7.
  destruct (copy_v1_l w t artist title album comment year lang A1 A2 A3 A4 A5 A6 A7) as (st & E & _ & F). exists st. split; [exact E|].
  rewrite <- numbers, map_map. exact F.
Qed.
Print Assumptions C64_from_v1_partial.
Example C64_from_v1_nontrivial : exists t, snd (ex_set ex_file) = Some t /\ holds (v_title t) (B "Song") /\ holds (v_artist t) (B "Band") /\
  match copy_v1_frames ex_world t with Ok st => map (fun x => f_id (c_frame (snd x))) (l_frames st) | _ => [] end = [B "TPE1"; B "TIT2"; B "COMM"; B "TCON"; B "TYER"].
Proof.
  eexists. split; [vm_compute; reflexivity|]. split; [|split; [|vm_compute; reflexivity]].
  - split; [apply ex_ascii|]. exists (repeatN 0 26). split; [reflexivity|]. vm_compute. repeat (constructor; [left; reflexivity|]). constructor.
  - split; [apply ex_ascii|]. exists (repeatN 32 26). split; [reflexivity|]. vm_compute. repeat (constructor; [right; reflexivity|]). constructor.
Qed.

(** A field that is no ASCII text to iconv (as Latin-1 with accents) stops it. *)
Theorem C64_latin1_refuted : forall w t field, In field [v_artist t; v_title t; v_album t; v_comment t; v_year t] -> field <> [] ->
  w_ic w E_ASCII E_UTF_8 NoFail field = None -> forall st, copy_v1_frames w t <> Ok st.
Proof. exact copy_v1_fails. Qed.
Print Assumptions C64_latin1_refuted.
Example C64_latin1_nontrivial :
  let ic : iconv_t := fun src _ _ b => match src with E_ASCII => if forallb (fun c => c <? 128) b then Some b else None | _ => Some b end in
  let t := v1_apply (v1_scratch false false) (SetTitle [68; 233; 106; 224]) in
  ic E_ASCII E_UTF_8 NoFail (v_title t) = None /\ v_title t <> [].
Proof. split; [vm_compute; reflexivity|vm_compute; discriminate]. Qed.

(** Track number, speed, extended genre, start and end are not copied. *)
Theorem C64_others_refuted : forall w t t', v_artist t = v_artist t' -> v_title t = v_title t' -> v_album t = v_album t' -> v_comment t = v_comment t' ->
  v_genre t = v_genre t' -> v_year t = v_year t' -> copy_v1_frames w t = copy_v1_frames w t'.
Proof. exact copy_v1_six. Qed.
Print Assumptions C64_others_refuted.
Example C64_others_nontrivial : forall t, v_artist t = v_artist (v1_apply t (SetTrack 9)) /\ v_track (v1_apply t (SetTrack 9)) = Some 9.
Proof. intros []. split; reflexivity. Qed.

(** Full statement: an ID3v1 tag made from ID3v2 tags has the title, artist, album,
    year and genre that these tell.  Proved where each of the tags has all of these
    frames (perhaps with empty text), and each content type has a closest genre:
    the first texts that are not empty, cut after thirty bytes, the first year of
    four characters, the first of the closest genres. *)
Theorem C64_from_v2_partial : forall w ts albums artists titles years types, Forall as_read ts ->
  Forall2 (tells (w_ic w) tf_talb) ts albums -> Forall2 (tells (w_ic w) tf_tpe1) ts artists -> Forall2 (tells (w_ic w) tf_tit2) ts titles ->
  Forall2 (tells (w_ic w) tf_tyer) ts years -> Forall2 (tells (w_ic w) tf_tcon) ts types ->
  Forall (fun s => no_nul s /\ w_ic w E_UTF_8 E_UTF_8 NoFail s = Some s) (albums ++ artists ++ titles ++ years) ->
  Forall (fun s => s <> [] -> exists x, match_genre (w_wide w) s = Ok x) types ->
  exists t g, copy_id3_v2 w ts = Ok t /\
    v1_write t = Ok (B "TAG" ++ fixed 30 (first_text titles) ++ fixed 30 (first_text artists) ++ fixed 30 (first_text albums) ++
                     fixed 4 (first_year years) ++ repeatN 0 30 ++ [g]) /\
    (Forall (fun s => s = []) types -> g = 0) /\ (~ Forall (fun s => s = []) types -> best_genre (w_wide w) types g).
Proof.
  intros w ts albums artists titles years types F. apply copy_v2_l. eapply Forall_impl; [exact read_fresh|exact F].
Qed.
Print Assumptions C64_from_v2_partial.
Example C64_from_v2_nontrivial : tells (w_ic ex_world) tf_tpe1 ex_first (B "Band") /\ tells (w_ic ex_world) tf_tcon ex_first (B "Rock") /\
  match_genre (w_wide ex_world) (B "Rock") = Ok (B "Rock", 17, 0%Z).
Proof.
  split; [|split; [|apply (match_case _ _ 17%nat); reflexivity]].
  - exists (B "TPE1"). rewrite ex_first_version. split; [split; reflexivity|]. split; [vm_compute; discriminate|]. intros f M.
    assert (E : with_id (B "TPE1") (shown ex_first) = [mkFrame (B "TPE1") no_flags (BText (mkText 0 (B "Band")))]) by (vm_compute; reflexivity).
    rewrite E in M. destruct M as [<-|[]]. rewrite ?ex_first_version. eexists. split; reflexivity.
  - exists (B "TCON"). rewrite ex_first_version. split; [split; reflexivity|]. split; [vm_compute; discriminate|]. intros f M.
    assert (E : with_id (B "TCON") (shown ex_first) = [mkFrame (B "TCON") no_flags (BText (mkText 0 (B "Rock")))]) by (vm_compute; reflexivity).
    rewrite E in M. destruct M as [<-|[]]. rewrite ?ex_first_version. eexists. split; reflexivity.
Qed.

(** Where the first tag lacks one of these frames, or any lacks the content type,
    there is no copy. *)
Theorem C64_lacks_refuted : forall w t r k, Forall as_read (t :: r) ->
  (In k [tf_talb; tf_tpe1; tf_tit2; tf_tyer] /\ lacks k t) \/ Exists (lacks tf_tcon) (t :: r) ->
  forall x, copy_id3_v2 w (t :: r) <> Ok x.
Proof. intros w t r k F. apply copy_v2_lacks. eapply Forall_impl; [exact read_fresh|exact F]. Qed.
Print Assumptions C64_lacks_refuted.
Example C64_lacks_nontrivial : lacks tf_talb ex_first /\ copy_id3_v2 ex_world [ex_first] = Throw UnknownFrame.
Proof. split; [exists (B "TALB"); rewrite ex_first_version; split; [split; reflexivity|vm_compute; reflexivity]|vm_compute; reflexivity]. Qed.

(** ** C65: all or nothing *)

(** A command comes through with a file's tags exactly if each of the calls it
    should make does, and then with what they made. *)
Theorem C65_calls : forall P p v2 v1, scope_fits p v2 -> let c := command_of P in
  (Forall (succeeds P) (wanted_calls c p v2 v1) ->
     process_tagset P p v2 v1 tt = Ok (is_dirty c p v2 v1, new_v2 c p v2 v1, new_v1 c p v2 v1, tt)) /\
  (forall x, process_tagset P p v2 v1 tt = Ok x -> Forall (succeeds P) (wanted_calls c p v2 v1)).
Proof. exact tagset_calls. Qed.
Print Assumptions C65_calls.
Example C65_calls_nontrivial :
  wanted_calls (command_of (genre_processor ex_world (mkGenre 8 (B "Jazz")))) ex_all (fst (ex_set ex_file)) None = [ProcessV2 ex_first] /\
  succeeds (genre_processor ex_world (mkGenre 8 (B "Jazz"))) (ProcessV2 ex_first).
Proof. split; [vm_compute; reflexivity|]. eexists. vm_compute. reflexivity. Qed.

(** If it does not, no file is changed at any time. *)
Theorem C65_untouched : forall S z passes e (P : processor S) p path s fs data v2 v1,
  find_node (resolve (e_cwd e) path) fs = Some (File data) -> read_tagset z passes data = Ok (v2, v1) ->
  (forall x, process_tagset P p v2 v1 s <> Ok x) ->
  exists o, process_file z passes e P p path s fs = ([], (o, fs)) /\ (forall x, o <> Ok x).
Proof. exact @file_untouched. Qed.
Print Assumptions C65_untouched.
Example C65_untouched_nontrivial :
  process_tagset (genre_processor ex_world (mkGenre 8 (B "Jazz"))) ex_all (fst (ex_set (ex_tag1 ++ ex_tag2))) None tt = Throw UnknownFrame.
Proof. vm_compute. reflexivity. Qed.

(** What a command that comes through writes, where backups are kept. *)
Theorem C42_commands_partial : forall z passes e P p path d n fs data l v2 v1 v2' v1' st fs', let k := resolve (e_cwd e) path in
  path <> [] -> hd 0 (e_cwd e) = 47 -> dir_path d -> plain_name n ->
  absolute (e_cwd e) path = spelled d n -> find_node k fs = Some (File data) -> tags_from data 0 l ->
  ~ In 46 (last (e_tmp e) []) -> e_tmp e <> k ->
  read_tagset z passes data = Ok (v2, v1) -> scope_fits p v2 -> p_dry p = false -> p_backups p = true ->
  process_tagset P p v2 v1 tt = Ok (true, v2', v1', tt) ->
  process_file z passes e P p path tt fs = (st, (Ok tt, fs')) ->
  (exists w r f, emit_all z (if p_adjust p then AsNeeded else Never) v2' = (w, Ok r) /\
     saved w (dropN (tags_end 0 l) data) v1' f /\ find_node k fs' = Some (File f)) /\
  forall j, j <> k -> j <> e_tmp e -> ~ is_backup d n j -> find_node j fs' = find_node j fs.
Proof. exact file_saved. Qed.
Print Assumptions C42_commands_partial.
Example C42_commands_nontrivial : exists st fs' v2',
  process_tagset (text_processor ex_world (mkTextOpts [] [(tf_tit2, B "Tune")] E_UTF_8)) ex_all (fst (ex_set ex_old)) None tt = Ok (true, v2', None, tt) /\
  process_file no_zlib 1 (ex_env RenameOk) (text_processor ex_world (mkTextOpts [] [(tf_tit2, B "Tune")] E_UTF_8)) ex_all (B "a") tt ex_fs = (st, (Ok tt, fs')) /\
  find_node ex_key fs' <> find_node ex_key ex_fs.
Proof. do 3 eexists. split; [vm_compute; reflexivity|]. split; [vm_compute; reflexivity|vm_compute; discriminate]. Qed.
