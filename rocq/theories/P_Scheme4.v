(** * C82: the objects a script gets for the tags of a file. *)
From Verif Require Import Base M_Stream M_Id3v1 M_Charset M_Payload M_Cloud M_Frame M_Tag23 M_Read M_Fs M_Process M_Cmds M_Lang M_Scheme M_Scheme2
  S_Charset S_Tag23 S_Cmds S_Scheme2 S_Scheme3 S_Scheme4 L_Scheme8 L_Scheme9.
#[local] Open Scope N_scope.

(** A list of the tags of the file, in order: for each a list of a tag object, its
    version and its unsynchronisation flag; in the tag object the experimental flag
    ('() in ID3v2.2), the padding, and one object for each frame, in order: of the
    class and with the symbol of the manual's table and with all it holds; or, for
    identifiers that are not in the table and for texts and counters that cannot be
    converted, an 'unknown-frame with identifier and bytes. *)
Theorem C82_file_partial : forall G z passes cwd fs pth p d ts s x, gives_utf8 G ->
  to_locale G pth = GOk p -> find_node (resolve cwd p) fs = Some (File d) ->
  read_all_id3v2 z passes (open_file d goodbit) = (Ok ts, s) ->
  Forall (fun t => Forall (complete (any_version t)) (shown t) /\ padding t < 2 ^ 32) ts ->
  (read_tagset_scm G z passes cwd fs pth = GOk x <-> exists xs, Forall2 (tag_shown G z) ts xs /\ x = slist xs).
Proof. exact file_l. Qed.
Print Assumptions C82_file_partial.
Example C82_file_nontrivial : gives_utf8 ex_G /\ to_locale ex_G (SStr (B "f")) = GOk (B "f") /\ find_node (resolve (B "/") (B "f")) ex_files = Some (File ex_data) /\
  exists t s, read_all_id3v2 no_zlib 3 (open_file ex_data goodbit) = (Ok [t], s) /\ Forall (complete (any_version t)) (shown t) /\ padding t < 2 ^ 32 /\
  read_tagset_scm ex_G no_zlib 3 (B "/") ex_files (SStr (B "f")) = GOk (slist [slist [SObj CTag [SBool false; slist ex_objects; SInt 3]; SInt 3; SBool false]]).
Proof. exact ex_file_l. Qed.

(** One frame. *)
Theorem C82_frame_partial : forall G z v u f x, gives_utf8 G -> of_its_kind v f -> complete v f ->
  (de G z v u (new_frame f) = GOk x <-> frame_shown G z v u f x).
Proof. exact objects_l. Qed.
Print Assumptions C82_frame_partial.
Example C82_frame_nontrivial : Forall (of_its_kind V23) ex_fs /\ Forall (complete V23) ex_fs /\ gmap (de ex_G no_zlib V23 false) (map new_frame ex_fs) = GOk ex_objects.
Proof. exact ex_frames_l. Qed.

(** Of a text of several values (ID3v2.4, section 4.2) only the first is there. *)
Theorem C82_several_refuted : forall G z v u f sym t e out a b x, gives_utf8 G -> text_symbol v sym (f_id f) -> f_body f = BText t ->
  ~ unmarked_be v (tx_unicode t) (tx_text t) -> tx_text t <> [] ->
  stored_as v (tx_unicode t) (tx_text t) = Some e -> g_ic G e E_UTF_8 NoFail (tx_text t) = Some out -> trimmed out (a ++ 0 :: b) -> no_nul a ->
  de G z v u (new_frame f) = GOk x -> x = SObj CText (SSym sym :: marks_of v (f_flags f) ++ [SStr a]).
Proof. exact several_l. Qed.
Print Assumptions C82_several_refuted.
Example C82_several_nontrivial : let t := mkText 3 (B "One" ++ [0] ++ B "Two") in
  text_symbol V24 (B "artist-frame") (B "TPE1") /\ stored_as V24 3 (tx_text t) = Some E_UTF_8 /\ g_ic ex_G E_UTF_8 E_UTF_8 NoFail (tx_text t) = Some (tx_text t) /\
  trimmed (tx_text t) (B "One" ++ 0 :: B "Two") /\
  de ex_G no_zlib V24 false (new_frame (mkFrame (B "TPE1") no_flags (BText t))) =
    GOk (SObj CText [SSym (B "artist-frame"); SBool true; SBool true; SBool false; SBool false; SStr (B "One")]).
Proof.
  intros t. split; [|split; [reflexivity|split; [vm_compute; reflexivity|split; [|vm_compute; reflexivity]]]].
  - split; [exists (Some (B "TP1")), (B "TPE1"); split; [cbn; tauto|reflexivity]|]. vm_compute. intuition discriminate.
  - exists [], []. split; [reflexivity|]. split; [right; split; [reflexivity|intros r; discriminate]|]. split; [constructor|].
    intros s' c H. change (t.(tx_text)) with (B "One" ++ 0 :: B "Tw" ++ [111]) in H. change (B "One" ++ 0 :: B "Two") with ((B "One" ++ 0 :: B "Tw") ++ [111]) in H.
    apply app_inj_tail in H as [_ <-]. split; discriminate.
Qed.

(** Text in UTF-16BE (2 in front of it) is converted from what the library takes
    for UTF-16. *)
Theorem C82_utf16be_refuted : forall G z u f sym t out m s, gives_utf8 G -> text_symbol V24 sym (f_id f) -> f_body f = BText t ->
  unmarked_be V24 (tx_unicode t) (tx_text t) -> (forall r, tx_text t <> 255 :: 254 :: r) ->
  g_ic G E_UTF_16 E_UTF_8 NoFail (tx_text t) = Some out -> trimmed out m -> first_text m s ->
  de G z V24 u (new_frame f) = GOk (SObj CText (SSym sym :: marks_of V24 (f_flags f) ++ [SStr s])).
Proof. exact be_l. Qed.
Print Assumptions C82_utf16be_refuted.
Example C82_utf16be_nontrivial : let t := mkText 2 [0; 72; 0; 105] in
  unmarked_be V24 (tx_unicode t) (tx_text t) /\ stored_as V24 2 (tx_text t) = Some E_UTF_16BE /\
  g_ic ex_le E_UTF_16 E_UTF_8 NoFail (tx_text t) = Some [228; 160; 128; 230; 164; 128] /\ g_ic ex_le E_UTF_16BE E_UTF_8 NoFail (tx_text t) = Some (B "Hi") /\
  de ex_le no_zlib V24 false (new_frame (mkFrame (B "TPE1") no_flags (BText t))) =
    GOk (SObj CText [SSym (B "artist-frame"); SBool true; SBool true; SBool false; SBool false; SStr [228; 160; 128; 230; 164; 128]]).
Proof. intros t. split; [repeat split; try congruence; discriminate|]. repeat split; vm_compute; reflexivity. Qed.

(** A tag cloud whose owner is not UTF-8 keeps a script from reading any tag of the
    file. *)
Theorem C82_cloud_refuted : forall G z passes cwd fs pth p d ts st t f c s, to_locale G pth = GOk p -> find_node (resolve cwd p) fs = Some (File d) ->
  read_all_id3v2 z passes (open_file d goodbit) = (Ok ts, st) -> In t ts -> In f (shown t) ->
  documented_id (any_version t) (B "tag-cloud-frame") (f_id f) -> f_body f = BCloud c -> first_text (tc_owner c) s -> g_utf8 G s = false ->
  forall x, read_tagset_scm G z passes cwd fs pth <> GOk x.
Proof. exact cloud_file. Qed.
Print Assumptions C82_cloud_refuted.
Example C82_cloud_nontrivial : exists t s f c, read_all_id3v2 no_zlib 3 (open_file ex_cloudy goodbit) = (Ok [t], s) /\ shown t = [f; mkFrame (B "XTAG") no_flags (BCloud c)] /\
  tc_owner c = [255; 254] /\ g_utf8 ex_G [255; 254] = false /\
  read_tagset_scm ex_G no_zlib 3 (B "/") [([B "f"], File ex_cloudy)] (SStr (B "f")) = GRaise Decoding.
Proof. do 4 eexists. split; [vm_compute; reflexivity|]. split; [vm_compute; reflexivity|]. repeat split; vm_compute; reflexivity. Qed.

(** In ID3v2.2 the bytes are unsynchronised exactly in tags that are not. *)
Theorem C82_bytes22_refuted : forall G z u f w idt i, no_symbol V22 f -> M_Tag22.wire22 f = Ok w -> first_text (f_id f) i -> g_from_locale G i = Some idt ->
  de G z V22 u (new_frame f) = GOk (SObj CUnk (SSym (B "unknown-frame") :: marks_of V22 (f_flags f) ++ [SStr idt; SBytes (if u then w else M_Unsync.unsynchronise w false)])).
Proof. exact bytes22_l. Qed.
Print Assumptions C82_bytes22_refuted.
Example C82_bytes22_nontrivial :
  de ex_G no_zlib V22 false (new_frame (mkFrame (B "XYZ") no_flags (BUnknown [1; 255; 224]))) =
  GOk (SObj CUnk [SSym (B "unknown-frame"); SNull; SNull; SNull; SNull; SStr (B "XYZ"); SBytes (B "XYZ" ++ [0; 0; 3; 1; 255; 0; 224])]).
Proof. vm_compute. reflexivity. Qed.
