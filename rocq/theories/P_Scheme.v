(** * C75 - C78: frames of a tag, trees of files, errors, going through files. *)
From Coq Require Import Permutation.
From Verif Require Import Base M_Ints M_Stream M_Id3v1 M_Charset M_Payload M_Frame M_Tag22 M_Tag23 M_Tag24 M_Read M_Fs M_Tagset M_Process M_Lang
  M_Scheme M_Scheme2 S_Tag S_Tag23 S_Tagset S_Stream S_Read S_Scheme L_Scheme L_Scheme2 P_Tagset.
#[local] Open Scope N_scope.

(** A Guile in which all texts are ASCII. *)
Definition ex_ascii (s : bytes) : bool := forallb (fun c => c <? 128) s.
Definition ex_guile : guile :=
  mkGuile (fun _ _ _ s => Some s) ex_ascii (fun _ => None) (fun s => Some s) (fun s => Some s) (mkLenv None None None).
Definition ex_text (sym text : bytes) : scm := SObj CText [SSym sym; SNull; SNull; SNull; SNull; SStr text].

(** ** C75: has-frame? and get-frames *)
Theorem C75_has_frame : forall e p fs f, Forall frame_object fs ->
  exists b, has_frame_scm (SObj CTag [e; slist fs; p]) f = GOk b /\ (b = true <-> Exists (named f) fs).
Proof. exact has_frame_l. Qed.
Print Assumptions C75_has_frame.
Definition ex_frames : list scm :=
  [ex_text (B "artist-frame") (B "x"); ex_text (B "title-frame") (B "one"); ex_text (B "title-frame") (B "two")].
Example C75_has_frame_nontrivial : Forall frame_object ex_frames /\
  has_frame_scm (SObj CTag [SNull; slist ex_frames; SInt 0]) (B "title-frame") = GOk true /\
  has_frame_scm (SObj CTag [SNull; slist ex_frames; SInt 0]) (B "album-frame") = GOk false.
Proof.
  split; [|split; vm_compute; reflexivity].
  repeat constructor; eexists _, _, _; (split; [reflexivity|vm_compute; tauto]).
Qed.

(** What get-frames gives is the frames with the name, all of them, in order. *)
Theorem C75_get_frames : forall e p fs f l, Forall frame_object fs ->
  (get_frames_scm (SObj CTag [e; slist fs; p]) f = GOk (slist l) <-> picked f fs l).
Proof. exact get_frames_l. Qed.
Print Assumptions C75_get_frames.
Example C75_get_frames_nontrivial :
  get_frames_scm (SObj CTag [SNull; slist ex_frames; SInt 0]) (B "title-frame") =
  GOk (slist [ex_text (B "title-frame") (B "one"); ex_text (B "title-frame") (B "two")]).
Proof. vm_compute. reflexivity. Qed.

(** The two agree. *)
Theorem C75_agree : forall e p fs f, Forall frame_object fs ->
  (has_frame_scm (SObj CTag [e; slist fs; p]) f = GOk true <->
   exists x l, get_frames_scm (SObj CTag [e; slist fs; p]) f = GOk (slist (x :: l))).
Proof. exact get_agree. Qed.
Print Assumptions C75_agree.
Example C75_agree_nontrivial : exists x l,
  get_frames_scm (SObj CTag [SNull; slist ex_frames; SInt 0]) (B "artist-frame") = GOk (slist (x :: l)).
Proof. eexists _, []. vm_compute. reflexivity. Qed.

(** With anything else among the frames, get-frames raises an error. *)
Theorem C75_not_frames : forall e p fs f, ~ Forall frame_object fs ->
  exists er, get_frames_scm (SObj CTag [e; slist fs; p]) f = GRaise er.
Proof. exact get_bad. Qed.
Print Assumptions C75_not_frames.
Example C75_not_frames_nontrivial : ~ Forall frame_object (ex_frames ++ [SInt 1]).
Proof.
  intros H. rewrite Forall_forall in H. destruct (H (SInt 1)) as (c & i & r & E & _); [vm_compute; tauto|discriminate].
Qed.

(** ** C76: trees of files *)

(** The generator gives the path of every regular file below the root, once each,
    and from then on the end-of-file object, however often it is called. *)
Theorem C76_generator : forall root l fuel, (dirs (NDir l) <= fuel)%nat -> exists order,
  (forall f, In f order <-> below root l f) /\ (well_named l -> NoDup order) /\
  forall n, gen_calls fuel n [(root, l)] = GOk (map Some (firstn n order) ++ repeat None (n - length order)).
Proof. exact generator_l. Qed.
Print Assumptions C76_generator.
Definition ex_tree : list (bytes * dnode) :=
  [(B ".", NDir []); (B "..", NDir []); (B "a", NReg); (B "d", NDir [(B "b", NReg); (B "e", NDir []); (B "s", NOther)]); (B "c", NReg)].
Example C76_generator_nontrivial : well_named ex_tree /\ dirs (NDir ex_tree) = 3%nat /\
  gen_calls 3 5 [(B "/m", ex_tree)] = GOk [Some (B "/m/a"); Some (B "/m/c"); Some (B "/m/d/b"); None; None].
Proof.
  split; [|split; vm_compute; reflexivity].
  assert (D : forall l : list bytes, (fix nodup l := match l with [] => true | x :: r => negb (existsb (bytes_eqb x) r) && nodup r end) l = true -> NoDup l).
  { induction l as [|x r IH]; intros H; constructor; apply andb_true_iff in H as [H1 H2]; [|now apply IH].
    intros K. apply negb_true_iff in H1. rewrite <- not_true_iff_false in H1. apply H1. apply existsb_exists. exists x. split; [exact K|].
    apply bytes_eqb_refl. }
  assert (W : forall l, (fix nodup l := match l with [] => true | x :: r => negb (existsb (bytes_eqb x) r) && nodup r end) (map fst l) = true ->
     forallb (fun e => negb (existsb (N.eqb 47) (fst e))) l = true ->
     (forall n l', In (n, NDir l') l -> n <> B "." -> n <> B ".." -> well_named l') -> well_named l).
  { intros l H1 H2 H3. constructor; [now apply D| |exact H3]. rewrite forallb_forall in H2. apply Forall_forall. intros e He K.
    apply H2 in He. apply negb_true_iff in He. rewrite <- not_true_iff_false in He. apply He. apply existsb_exists. exists 47. split; [exact K|reflexivity]. }
  apply W; [reflexivity|reflexivity|]. intros n l' [H|[H|[H|[H|[H|[]]]]]] N1 N2; inversion H; subst; try congruence.
  apply W; [reflexivity|reflexivity|]. intros n l' [H0|[H0|[H0|[]]]] _ _; inversion H0; subst. apply W; [reflexivity|reflexivity|]. intros ? ? [].
Qed.

(** Full statement: flat-file-system-tree gives the regular files.  It gives the
    paths of what has no children ... *)
Theorem C76_flat_partial : forall t parent f, In f (flat_tree parent t) <-> exists b, leaf parent t f b.
Proof. exact flat_tree_l. Qed.
Print Assumptions C76_flat_partial.
(** ... so that an empty directory is taken for a file. *)
Theorem C76_flat_refuted : forall t parent f, leaf parent t f true -> In f (flat_tree parent t).
Proof. intros t parent f H. apply flat_tree_l. now exists true. Qed.
Print Assumptions C76_flat_refuted.
Example C76_flat_nontrivial :
  let t := FNode (B "m") true [FNode (B "a") false []; FNode (B "e") true []; FNode (B "d") true [FNode (B "b") false []]] in
  leaf [] t (B "/m/e") true /\ flat_tree [] t = [B "/m/a"; B "/m/e"; B "/m/d/b"].
Proof.
  split; [|vm_compute; reflexivity]. apply (leaf_below [] (B "m") true _ (FNode (B "e") true [])); [vm_compute; tauto|]. constructor.
Qed.

(** ** C77: errors *)

(** No C++ exception leaves one of the procedures: whatever the arguments and the
    files, it returns or raises an error in Scheme, unless what it does is
    undefined or does not end. *)
Theorem C77_no_exception : forall G z passes e cwd fs a b u copy,
  (forall x, read_tagset_scm G z passes cwd fs a <> GThrow x) /\
  (forall x, read_v1_scm G cwd fs a <> GThrow x) /\
  (forall x, fst (snd (write_tagset_scm G z e a b u copy fs)) <> GThrow x) /\
  (forall x, fst (snd (write_v1_scm G cwd a b fs)) <> GThrow x).
Proof.
  intros. split; [apply quiet_read|]. split; [apply quiet_read_v1|]. split; apply quiet_run.
Qed.
Print Assumptions C77_no_exception.
(** A file that is not there; one that is cut off inside its tag; a missing ID3v1 tag. *)
Example C77_no_exception_nontrivial :
  let fs := [([B "m"], Dir); (ex_key, File (takeN 9 ex_old)); ([B "m"; B "b"], File (takeN 15 ex_old))] in
  read_tagset_scm ex_guile no_zlib 3 (B "/m") fs (SStr (B "x")) = GRaise ScribbuErr /\
  read_tagset_scm ex_guile no_zlib 3 (B "/m") fs (SStr (B "b")) = GRaise BadTag /\
  read_v1_scm ex_guile (B "/m") fs (SStr (B "a")) = GOk SNil.
Proof. vm_compute. repeat split. Qed.

(** An error other than 'scribbu is raised before anything is written. *)
Theorem C77_untouched : forall G z e tags p u copy fs st er fs',
  write_tagset_scm G z e tags p u copy fs = (st, (GRaise er, fs')) -> er <> ScribbuErr -> st = [] /\ fs' = fs.
Proof. exact write_untouched. Qed.
Print Assumptions C77_untouched.
Theorem C77_untouched_v1 : forall G cwd tag p fs st er fs',
  write_v1_scm G cwd tag p fs = (st, (GRaise er, fs')) -> er <> ScribbuErr -> st = [] /\ fs' = fs.
Proof. exact write_v1_untouched. Qed.
Print Assumptions C77_untouched_v1.
Example C77_untouched_nontrivial :
  write_tagset_scm ex_guile no_zlib (ex_env RenameOk) (slist [SInt 3]) (SStr (B "a")) (SBool false) (SBool true) ex_fs = ([], (GRaise WrongType, ex_fs)) /\
  write_v1_scm ex_guile (B "/m") (SObj CV1 [SInt 3]) (SStr (B "a")) ex_fs = ([], (GRaise WrongType, ex_fs)).
Proof. vm_compute. repeat split. Qed.

(** A wrong value of #:apply-unsync is refused with 'unexpected-unsync-param. *)
Theorem C77_bad_unsync : forall G z e tags p u copy fs, u <> SBool true -> u <> SBool false -> u <> SSym (B "as-needed") ->
  write_tagset_scm G z e tags p u copy fs = ([], (GRaise UnexpectedUnsync, fs)).
Proof. exact write_bad_unsync. Qed.
Print Assumptions C77_bad_unsync.
Example C77_bad_unsync_nontrivial : SSym (B "always") <> SBool true /\ SSym (B "always") <> SBool false /\ SSym (B "always") <> SSym (B "as-needed").
Proof. repeat split; discriminate. Qed.

(** A tag that cannot be converted stops everything: no tag is written, not even
    those before it, and the error is the one of that tag. *)
Theorem C77_bad_tag : forall G z e pre x post p u m copy fs ms er, to_unsync u = GOk m ->
  gmap (to_tag G) pre = GOk ms -> to_tag G x = GRaise er ->
  write_tagset_scm G z e (slist (pre ++ x :: post)) p u copy fs = ([], (GRaise er, fs)).
Proof. exact write_bad_tag. Qed.
Print Assumptions C77_bad_tag.
Definition ex_tag (frames : list scm) (pad : Z) (ver : Z) : scm := slist [SObj CTag [SNull; slist frames; SInt pad]; SInt ver].
Example C77_bad_tag_nontrivial : exists ms, gmap (to_tag ex_guile) [ex_tag ex_frames 8 3] = GOk ms /\
  to_tag ex_guile (ex_tag ex_frames 8 5) = GRaise BadTagVersion /\ to_tag ex_guile (ex_tag [SInt 1] 8 3) = GRaise UnexpectedType /\
  to_tag ex_guile (ex_tag ex_frames (-1) 3) = GRaise BadRange.
Proof. eexists. split; [vm_compute; reflexivity|]. vm_compute. repeat split. Qed.

(** With #:copy #t, whatever goes wrong while the file is written, the old content
    or the complete new content is there, under the file's name or a backup's, and
    other files are as they were. *)
Theorem C77_copy_fails : forall G z e tags pth u m ms ts fs q d n data l, let k := resolve (e_cwd e) q in
  to_unsync u = GOk m -> (exists xs, to_list tags = GOk xs /\ gmap (to_tag G) xs = GOk ms) -> to_locale G pth = GOk q -> usable ms = GOk ts ->
  q <> [] -> hd 0 (e_cwd e) = 47 -> dir_path d -> plain_name n -> absolute (e_cwd e) q = spelled d n ->
  find_node k fs = Some (File data) -> tags_from data 0 l -> ~ In 46 (last (e_tmp e) []) -> e_tmp e <> k ->
  let '(st, (_, fs')) := write_tagset_scm G z e tags pth u (SBool true) fs in
  forall s, In s (fs :: st ++ [fs']) ->
    (find_node k s = Some (File data) \/
     find_node k s = Some (File (fst (emit_all z m ts) ++ dropN (tags_end 0 l) data)) \/
     exists c, is_backup d n c /\ find_node c s = Some (File data)) /\
    forall j, j <> k -> j <> e_tmp e -> ~ is_backup d n j -> find_node j s = find_node j fs.
Proof.
  intros G z e tags pth u m ms ts fs q d n data l k Hu (xs & Hx & Hm) Hq Hs Hne Hc Hd Hn HA Hk Hl Ht Htk.
  unfold write_tagset_scm. rewrite Hu. cbn [gbind]. rewrite Hx. cbn [gbind]. rewrite Hm. cbn [gbind]. rewrite Hq. cbn [gbind].
  rewrite Hs. cbn [gbind gfs_run is_t].
  pose proof (C30_crash_safe z e q d n ts m true fs data l Hne Hc Hd Hn HA Hk Hl Ht Htk) as C.
  destruct (replace_tagset_copy z e q ts m true fs) as [st [[r|x|w|] fs']]; exact C.
Qed.
Print Assumptions C77_copy_fails.
Example C77_copy_fails_nontrivial : exists ms ts,
  gmap (to_tag ex_guile) [ex_tag ex_frames 8 3] = GOk ms /\ usable ms = GOk ts /\ len ts = 1.
Proof. eexists _, _. do 2 (split; [vm_compute; reflexivity|]). reflexivity. Qed.

(** Without, if the error 'scribbu is raised, the same holds of what is left.
    Missing, as in C34: extended headers of ID3v2.3 tags that are not [ext_plain],
    and sizes beyond 28 bits. *)
Theorem C77_save_fails_partial : forall G z e tags pth u m ms ts copy fs q d nm data l st fs' n pd ts1, let k := resolve (e_cwd e) q in
  to_unsync u = GOk m -> (exists xs, to_list tags = GOk xs /\ gmap (to_tag G) xs = GOk ms) -> to_locale G pth = GOk q -> usable ms = GOk ts ->
  copy <> SBool true ->
  q <> [] -> hd 0 (e_cwd e) = 47 -> dir_path d -> plain_name nm -> absolute (e_cwd e) q = spelled d nm ->
  find_node k fs = Some (File data) -> tags_from data 0 l -> tags_end 0 l < 2 ^ 28 -> tags_end 0 l <= len data ->
  Forall sound_tag ts -> Forall (fun t => any_padding t < 2 ^ 62) ts -> sizes z m ts = Ok (n, pd, ts1) -> n < 2 ^ 28 ->
  ~ wraps ts (tags_end 0 l) n -> e_tmp e <> k -> ~ In 46 (last (e_tmp e) []) ->
  write_tagset_scm G z e tags pth u copy fs = (st, (GRaise ScribbuErr, fs')) ->
  (find_node k fs' = Some (File data) \/
   (exists w, find_node k fs' = Some (File (w ++ dropN (tags_end 0 l) data))) \/
   exists c, is_backup d nm c /\ find_node c fs' = Some (File data)) /\
  forall j, j <> k -> j <> e_tmp e -> ~ is_backup d nm j -> find_node j fs' = find_node j fs.
Proof.
  intros G z e tags pth u m ms ts copy fs q d nm data l st fs' n pd ts1 k Hu (xs & Hx & Hm) Hq Hs Hcp Hne Hc Hd Hn HA Hk Hl HT HL HS HP Hz Hb Hw Htk Ht H.
  unfold write_tagset_scm in H. rewrite Hu in H. cbn [gbind] in H. rewrite Hx in H. cbn [gbind] in H. rewrite Hm in H. cbn [gbind] in H.
  rewrite Hq in H. cbn [gbind] in H. rewrite Hs in H. cbn [gbind gfs_run] in H.
  assert (E : is_t copy = false) by (destruct copy as [| |[|]| | | | | | |]; try reflexivity; congruence). rewrite E in H.
  destruct (maybe_emplace_tagset z e q ts m OnlyWithFullPadding true fs) as [st0 [[r|x|w|] fs0]] eqn:M; try discriminate. injection H as -> ->.
  exact (save_fails z e q d nm ts m OnlyWithFullPadding true fs data l st x fs' n pd ts1 Hne Hc Hd Hn HA Hk Hl HT HL HS HP Hz Hb Hw Htk Ht M).
Qed.
Print Assumptions C77_save_fails_partial.
Example C77_save_fails_nontrivial : exists fs' st,
  write_tagset_scm ex_guile no_zlib (mkEnv (B "/m") [B "tmp"; B "x"] RenameError None None None) (slist [ex_tag ex_frames 8 3]) (SStr (B "a"))
    (SBool false) (SBool false) ex_fs = (st, (GRaise ScribbuErr, fs')).
Proof. eexists _, _. vm_compute. reflexivity. Qed.

(** ** C78: with-track-in *)

(** If it returns, the procedure has been called once for each entry that was not
    a directory, in order, each call has returned, and each was given the path and
    what could be read from the file at that moment. *)
Theorem C78_calls : forall G z passes cwd fcn es fs u fs', Forall (fun p => ~ In 0 p) es ->
  with_track_in G z passes cwd fcn es fs = (GOk u, fs') ->
  exists cs, linked fs cs fs' /\ visits cwd fs es cs /\
    Forall (returned fcn) cs /\ Forall (args_read (read_tagset_scm G z passes cwd) (read_v1_scm G cwd)) cs.
Proof. exact walk_l. Qed.
Print Assumptions C78_calls.
(** A procedure that removes each file it is called for. *)
Definition ex_remover (ts pth v1 : scm) (fs : fsys) : gres unit * fsys :=
  match pth with SStr p => (GOk tt, del_node (resolve (B "/") p) fs) | _ => (GRaise WrongType, fs) end.
Example C78_calls_nontrivial :
  with_track_in ex_guile no_zlib 3 (B "/") ex_remover [B "/m"; B "/m/a"; B "/m/a.1"] ex_fs = (GOk tt, [([B "m"], Dir)]).
Proof. vm_compute. reflexivity. Qed.

(** An error stops it.  It comes from the procedure, called as above, or from a
    path that is not UTF-8; entries after that are not visited. *)
Theorem C78_stops : forall G z passes cwd fcn es fs er fs', Forall (fun p => ~ In 0 p) es ->
  with_track_in G z passes cwd fcn es fs = (GRaise er, fs') ->
  exists es1 p es2 cs fs1, es = es1 ++ p :: es2 /\ linked fs cs fs1 /\ visits cwd fs es1 cs /\ Forall (returned fcn) cs /\
    find_node (resolve cwd p) fs1 <> Some Dir /\
    (g_utf8 G p = false /\ er = Decoding /\ fs' = fs1 \/
     exists c, ca_before c = fs1 /\ ca_path c = SStr p /\ args_read (read_tagset_scm G z passes cwd) (read_v1_scm G cwd) c /\
       fcn (ca_tags c) (ca_path c) (ca_v1 c) fs1 = (GRaise er, fs')).
Proof. exact walk_stops. Qed.
Print Assumptions C78_stops.
Example C78_stops_nontrivial :
  with_track_in ex_guile no_zlib 3 (B "/") ex_remover [B "/m"; B "/m/a"; B "/m/" ++ [233]; B "/m/a.1"] ex_fs =
  (GRaise Decoding, [([B "m"], Dir); ([B "m"; B "a.1"], File (B "older"))]).
Proof. vm_compute. reflexivity. Qed.

(** Full statement: the procedure is given what can be read of each file.  It is
    false of an ID3v1 tag in a file whose ID3v2 tags cannot be read ... *)
Theorem C78_hidden_refuted : forall G z passes cwd fs pth er t, read_tagset_scm G z passes cwd fs pth = GRaise er ->
  read_v1_scm G cwd fs pth = GOk t -> track_args G z passes cwd fs pth = GOk (SNil, SNil).
Proof. intros G z passes cwd fs pth er t H _. exact (hidden_v1 G z passes cwd fs pth er H). Qed.
Print Assumptions C78_hidden_refuted.
Definition ex_both : fsys :=
  [([B "f"], File (B "ID3" ++ [3; 0; 0; 0; 0; 0; 20] ++ B "music" ++ B "TAG" ++ B "title" ++ repeatN 0 119 ++ [17]))].
Example C78_hidden_nontrivial : exists er t,
  read_tagset_scm ex_guile no_zlib 3 (B "/") ex_both (SStr (B "f")) = GRaise er /\
  read_v1_scm ex_guile (B "/") ex_both (SStr (B "f")) = GOk t.
Proof. eexists _, _. split; vm_compute; reflexivity. Qed.

(** ... and one file whose path is not UTF-8 keeps all that come after it from
    being visited. *)
Theorem C78_name_refuted : forall G z passes cwd fcn p es fs, ~ In 0 p -> find_node (resolve cwd p) fs <> Some Dir -> g_utf8 G p = false ->
  with_track_in G z passes cwd fcn (p :: es) fs = (GRaise Decoding, fs).
Proof.
  intros G z passes cwd fcn p es fs Hp HD Hu. cbn [with_track_in]. unfold from_utf8. rewrite (c_str_no_nul p Hp), Hu.
  destruct (find_node (resolve cwd p) fs) as [[d|]|]; congruence.
Qed.
Print Assumptions C78_name_refuted.
Example C78_name_nontrivial : g_utf8 ex_guile (B "/m/" ++ [233]) = false /\ find_node (resolve (B "/") (B "/m/" ++ [233])) ex_fs <> Some Dir.
Proof. split; [reflexivity|discriminate]. Qed.
