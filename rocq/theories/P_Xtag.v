(** * Theorems: the xtag command (C66, C67, C68). *)
From Verif Require Import Base M_Ints M_Stream M_Payload M_Url M_Cloud M_Frame M_Tag22 M_Tag23 M_Tag24 M_Charset M_TextId M_Lookup M_Id3v1 M_Genres M_Read M_Fs M_Tagset M_Process M_Popm M_Cmds M_Xtag
  S_Url S_Cloud S_Lookup S_Tag23 S_Id3v1 S_Process S_Cmds S_Xtag L_Xtag L_Xtag2 P_Tagset P_Cmds.
#[local] Open Scope N_scope.

(** A file for the examples: a 2.3 tag with a title and clouds of two owners. *)
Definition ex_cloud_me : cloud := mkCloud (B "me") [(B "mood", [B "calm"])].
Definition ex_cloud_you : cloud := mkCloud (B "you") [(B "kind", [B "a b"; B "c"])].
Definition ex_xbody : bytes :=
  B "TIT2" ++ [0; 0; 0; 5; 0; 0; 0] ++ B "Song" ++
  B "XTAG" ++ [0; 0; 0; 18; 0; 0] ++ write_cloud ex_cloud_me ++ B "XTAG" ++ [0; 0; 0; 20; 0; 0] ++ write_cloud ex_cloud_you.
Definition ex_xfile : bytes := B "ID3" ++ [3; 0; 0; 0; 0; 0; 73] ++ ex_xbody ++ B "music".
Definition ex_xtag : anytag := nth 0 (fst (ex_set ex_xfile)) (A23 (mkTag23 None false None 0 [])).
Definition ex_items : list item := [mkItem (B "mood") [B "wild"] (B "mood") [B "wild"]; mkItem (B "live") [] (B "live") []].
Example ex_xread : read_tagset no_zlib 3 ex_xfile = Ok ([ex_xtag], None).
Proof. vm_compute. reflexivity. Qed.
Example ex_items_ok : ex_items <> [] /\ Forall item_ok ex_items /\ fresh_bare [] [] ex_items /\ items_text ex_items = B "mood=wild&live".
Proof.
  assert (D : forall x, (forall c, In c x -> c <> 37) -> denotes any x x).
  { induction x as [|c x IH]; intros H; [constructor|]. apply den_lit; [exact I|apply H; left; reflexivity|apply IH; intros d M; apply H; right; exact M]. }
  assert (D1 : denotes any (B "mood") (B "mood")) by (apply D; vm_compute; intuition (subst; discriminate)).
  assert (D2 : denotes any (B "wild") (B "wild")) by (apply D; vm_compute; intuition (subst; discriminate)).
  assert (D3 : denotes any (B "live") (B "live")) by (apply D; vm_compute; intuition (subst; discriminate)).
  split; [discriminate|]. split; [|split; [|reflexivity]].
  - constructor; [|constructor; [|constructor]]; (split; [assumption|split; [|split; [|split]]]).
    1,2,5,6: vm_compute; intuition discriminate.
    + constructor; [assumption|constructor].
    + constructor; [|constructor]. vm_compute; intuition discriminate.
    + constructor.
    + constructor.
  - apply fresh_cons; [discriminate|]. apply fresh_cons; [|constructor]. intros _. split; [intros (x & [])|vm_compute; intuition discriminate].
Qed.

(** ** C66: setting and merging tag clouds *)

(** In the tags in scope, the clouds of the owner asked for (of any, if none is
    given) are set, or the items merged into them; where there is none, one is made
    if that is asked for.  All else is as it was.  A change is reported if and only
    if there was such a cloud or one was made. *)
Theorem C66_set : forall w z passes data v2 v1 l owner create merge cv2 av2 adjust backups tags o p out,
  read_tagset z passes data = Ok (v2, v1) -> v2 <> [] -> scope_fits p v2 ->
  l <> [] -> Forall item_ok l -> fresh_bare [] [] l ->
  xtag_args (Some (items_text l)) owner false create merge false cv2 av2 adjust backups tags = Ok (o, p) ->
  exists xs, process_tagset (xtag_processor w o) p v2 v1 out = Ok (existsb snd xs, map fst xs, v1, out) /\
    Forall2 (fun it x => if in_scope p (fst it) then xtag_set owner merge create l (snd it) (fst x) (snd x) else x = (snd it, false)) (with_index v2) xs.
Proof. exact set_tagset. Qed.
Print Assumptions C66_set.
Example C66_set_nontrivial : exists o p, xtag_args (Some (items_text ex_items)) (B "me") false true true false false false false true [] = Ok (o, p) /\
  scope_fits p [ex_xtag] /\
  exists t', process_tagset (xtag_processor ex_world o) p [ex_xtag] None [] = Ok (true, [t'], None, []) /\
  map f_body (shown t') = [BText (mkText 0 (B "Song")); BCloud (mkCloud (B "me") [(B "live", []); (B "mood", [B "calm"; B "wild"])]); BCloud ex_cloud_you].
Proof. do 2 eexists. split; [reflexivity|]. split; [constructor|]. eexists. split; vm_compute; reflexivity. Qed.

(** Tags to be set that cannot be read (a broken escape, a key without values given
    twice): wherever they would have been used, the command fails, and then no file
    is changed. *)
Theorem C66_malformed : forall w z passes e path fs data v2 v1 s owner create merge cv2 av2 adjust backups tags o p out i t,
  find_node (resolve (e_cwd e) path) fs = Some (File data) ->
  read_tagset z passes data = Ok (v2, v1) -> scope_fits p v2 ->
  xtag_args (Some s) owner false create merge false cv2 av2 adjust backups tags = Ok (o, p) ->
  (forall c, cloud_from_text owner s <> Ok c) ->
  In (i, t) (with_index v2) -> in_scope p i = true -> create = true \/ (exists f c, In f (shown t) /\ xtag_of (any_version t) owner f c) ->
  exists r, process_file z passes e (xtag_processor w o) p path out fs = ([], (r, fs)) /\ (forall x, r <> Ok x).
Proof.
  intros w z passes e path fs data v2 v1 s owner create merge cv2 av2 adjust backups tags o p out i t Hk HR SF EA BAD M IS X.
  apply (C65_untouched _ z passes e (xtag_processor w o) p path out fs data v2 v1 Hk HR).
  exact (bad_tagset w z passes data v2 v1 s owner create merge cv2 av2 adjust backups tags o p out i t HR SF EA BAD M IS X).
Qed.
Print Assumptions C66_malformed.
Example C66_malformed_nontrivial : (forall c, cloud_from_text (B "me") (B "mood=%zz") <> Ok c) /\ (forall c, cloud_from_text (B "me") (B "live&live") <> Ok c) /\
  exists f c, In f (shown ex_xtag) /\ xtag_of (any_version ex_xtag) (B "me") f c.
Proof.
  split; [intros c E; vm_compute in E; discriminate E|]. split; [intros c E; vm_compute in E; discriminate E|].
  exists (mkFrame (B "XTAG") no_flags (BCloud ex_cloud_me)), ex_cloud_me. split; [vm_compute; auto|].
  replace (any_version ex_xtag) with V23 by (vm_compute; reflexivity). repeat split. right. reflexivity.
Qed.

(** ** C67: printing tag clouds *)

(** The lines printed tell the clouds asked for, in order, but for those that are
    empty (or have the empty key without values only); no tag is changed.  What is
    reported, though, is whether there was a cloud. *)
Theorem C67_printed : forall w z passes data v2 v1 text owner create merge dry cv2 av2 adjust backups tags o p out,
  read_tagset z passes data = Ok (v2, v1) -> v2 <> [] -> scope_fits p v2 ->
  xtag_args text owner true create merge dry cv2 av2 adjust backups tags = Ok (o, p) ->
  exists cs ls, clouds_of p owner (with_index v2) cs /\ lines_for cs ls /\
    process_tagset (xtag_processor w o) p v2 v1 out =
      Ok (match cs with [] => false | _ => true end, v2, v1, out ++ concat (map (fun l => l ++ [10]) ls)).
Proof. exact get_tagset. Qed.
Print Assumptions C67_printed.
Example C67_printed_nontrivial : exists o p, xtag_args None [] true false false false false false false false [] = Ok (o, p) /\
  process_tagset (xtag_processor ex_world o) p [ex_xtag] None [] = Ok (true, [ex_xtag], None, B "mood=calm" ++ [10] ++ B "kind=a%20b,c" ++ [10]).
Proof. do 2 eexists. split; vm_compute; reflexivity. Qed.

(** Full statement: asking for clouds changes no file.  Proved for files without a
    cloud asked for. *)
Theorem C67_get_partial : forall w z passes e path fs data v2 v1 text owner create merge dry cv2 av2 adjust backups tags o p out,
  find_node (resolve (e_cwd e) path) fs = Some (File data) ->
  read_tagset z passes data = Ok (v2, v1) -> v2 <> [] -> scope_fits p v2 ->
  xtag_args text owner true create merge dry cv2 av2 adjust backups tags = Ok (o, p) ->
  clouds_of p owner (with_index v2) [] ->
  process_file z passes e (xtag_processor w o) p path out fs = ([], (Ok out, fs)).
Proof. exact get_untouched. Qed.
Print Assumptions C67_get_partial.
Example C67_get_nontrivial : forall p, p_v2_scope p = TagsAll -> clouds_of p (B "they") (with_index [ex_xtag]) [].
Proof.
  intros p E. cbn [with_index]. apply (co_take p (B "they") 0 ex_xtag [] [] []); [unfold in_scope; rewrite E; reflexivity| |constructor].
  replace (any_version ex_xtag) with V23 by (vm_compute; reflexivity).
  replace (shown ex_xtag) with [mkFrame (B "TIT2") no_flags (BText (mkText 0 (B "Song"))); mkFrame (B "XTAG") no_flags (BCloud ex_cloud_me); mkFrame (B "XTAG") no_flags (BCloud ex_cloud_you)] by (vm_compute; reflexivity).
  repeat (apply ci_skip; [intros c (A & C & D); try discriminate A; injection C as <-; destruct D as [D|D]; discriminate D|]). constructor.
Qed.

(** Any other is written anew, and no backup is made whatever is asked for. *)
Theorem C67_get_refuted : forall w z passes e path fs data v2 v1 text owner create merge dry cv2 av2 adjust backups tags o p out cs,
  find_node (resolve (e_cwd e) path) fs = Some (File data) ->
  read_tagset z passes data = Ok (v2, v1) -> v2 <> [] -> scope_fits p v2 ->
  xtag_args text owner true create merge dry cv2 av2 adjust backups tags = Ok (o, p) ->
  clouds_of p owner (with_index v2) cs -> cs <> [] ->
  exists out', process_file z passes e (xtag_processor w o) p path out fs =
    (run _ <- maybe_emplace_tagset z e path v2 Never ReducePaddingEvenly false;;
     run _ <- match v1 with Some t => replace_v1_file (resolve (e_cwd e) path) t | None => fret tt end;;
     fret out') fs.
Proof. exact get_writes. Qed.
Print Assumptions C67_get_refuted.
(** A tag that is unsynchronised is changed by that, here with a smaller tag. *)
Definition ex_ufile : bytes :=
  B "ID3" ++ [3; 0; 128; 0; 0; 0; 42] ++ B "TPE1" ++ [0; 0; 0; 3; 0; 0; 0; 255; 0; 224] ++ B "XTAG" ++ [0; 0; 0; 18; 0; 0] ++ write_cloud ex_cloud_me ++ B "music".
Example C67_get_nontrivial_refuted : exists o p st out' fs', xtag_args None [] true false false true false false false true [] = Ok (o, p) /\
  process_file no_zlib 1 (ex_env RenameOk) (xtag_processor ex_world o) p (B "a") [] [([B "m"], Dir); (ex_key, File ex_ufile)] = (st, (Ok out', fs')) /\
  find_node ex_key fs' <> Some (File ex_ufile) /\ out' = B "mood=calm" ++ [10].
Proof. do 5 eexists. split; [reflexivity|]. split; [vm_compute; reflexivity|]. split; [vm_compute; discriminate|reflexivity]. Qed.

(** ** C68: creation of tags *)

(** Full statement: a tag that is made has the cloud.  Proved where frames are to be
    made, too; and it has what the ID3v1 tag told, if it is made from one. *)
Theorem C68_created_partial : forall w o l out, x_get o = false -> x_dry o = false -> x_text o = items_text l -> l <> [] -> Forall item_ok l -> fresh_bare [] [] l ->
  x_create o = true ->
  (exists t f, create_v2 (xtag_processor w o) out = Ok (Some t, out) /\ any_version t = V23 /\ shown t = [f] /\ new_xtag V23 (x_owner o) l f) /\
  forall t artist title album comment year lang, ascii_alike (w_ic w) ->
  holds (v_artist t) artist -> holds (v_title t) title -> holds (v_album t) album -> holds (v_comment t) comment -> holds (v_year t) year ->
  w_lang w = Ok lang ->
  exists t' f, create_v2_from (xtag_processor w o) out t = Ok (Some t', out) /\ any_version t' = V23 /\
    shown t' = frames_of_v1 lang artist title album comment (nth_error genres (N.to_nat (v_genre t))) year ++ [f] /\ new_xtag V23 (x_owner o) l f.
Proof. exact created_with. Qed.
Print Assumptions C68_created_partial.
Example C68_created_nontrivial : exists t, create_v2 (xtag_processor ex_world (mkXtag (items_text ex_items) (B "me") false true false false)) [] = Ok (Some t, []) /\
  map f_body (shown t) = [BCloud (mkCloud (B "me") [(B "live", []); (B "mood", [B "wild"])])].
Proof. eexists. split; vm_compute; reflexivity. Qed.

(** Where they are not, the file is given a tag without a cloud. *)
Theorem C68_created_refuted : forall w o l out, x_get o = false -> x_dry o = false -> x_text o = items_text l -> l <> [] -> Forall item_ok l -> fresh_bare [] [] l ->
  x_create o = false ->
  (exists t, create_v2 (xtag_processor w o) out = Ok (Some t, out) /\ any_version t = V23 /\ shown t = []) /\
  forall t artist title album comment year lang, ascii_alike (w_ic w) ->
  holds (v_artist t) artist -> holds (v_title t) title -> holds (v_album t) album -> holds (v_comment t) comment -> holds (v_year t) year ->
  w_lang w = Ok lang ->
  exists t', create_v2_from (xtag_processor w o) out t = Ok (Some t', out) /\ any_version t' = V23 /\
    shown t' = frames_of_v1 lang artist title album comment (nth_error genres (N.to_nat (v_genre t))) year.
Proof. exact created_without. Qed.
Print Assumptions C68_created_refuted.
Example C68_created_nontrivial_refuted : exists o p t st fs',
  xtag_args (Some (items_text ex_items)) (B "me") false false false false false true false true [] = Ok (o, p) /\
  process_tagset (xtag_processor ex_world o) p [] None [] = Ok (true, [t], None, []) /\ shown t = [] /\
  process_file no_zlib 1 (ex_env RenameOk) (xtag_processor ex_world o) p (B "a") [] [([B "m"], Dir); (ex_key, File (B "music"))] = (st, (Ok [], fs')) /\
  find_node ex_key fs' <> Some (File (B "music")).
Proof. do 5 eexists. split; [reflexivity|]. split; [vm_compute; reflexivity|]. split; [reflexivity|]. split; [vm_compute; reflexivity|vm_compute; discriminate]. Qed.
