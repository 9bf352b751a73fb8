(** * C79: tags that scripts write and read again. *)
From Verif Require Import Base M_Ints M_Stream M_Id3v1 M_Charset M_Payload M_Cloud M_Frame M_Tag22 M_Tag23 M_Tag24 M_Read M_Fs M_Tagset M_Cmds M_Lang
  M_Scheme M_Scheme2 S_Charset S_Payload S_Cloud S_Lang S_Tag S_Tag23 S_Tagset S_Stream S_Read S_Saved S_Scheme2 L_Scheme3 L_Scheme4 L_Scheme5 L_Scheme6 P_Tagset.
#[local] Open Scope N_scope.

Definition ex_tag2 (pad : Z) : scm := slist [SObj CTag [SNull; slist ex_given; SInt pad]; SInt 3; SBool false].
Definition ex_tag2' (pad : Z) : scm := slist [SObj CTag [SBool false; slist ex_got; SInt pad]; SInt 3; SBool false].

(** Each frame object is written as a frame, which gives the object again. *)
Theorem C79_object_partial : forall G v u x y, comes_back G v u x y ->
  exists f, ser G v x = GOk f /\ forall z (w : bool), (u = false -> w = false) -> de G z v w (new_frame f) = GOk y.
Proof. intros G v u x y H. destruct (object_back _ _ _ _ _ H) as (f & H1 & _ & _ & H2). exists f. exact (conj H1 H2). Qed.
Print Assumptions C79_object_partial.
Example C79_object_nontrivial : Forall2 (comes_back ex_guile2 V23 false) ex_given ex_got.
Proof. exact ex_back. Qed.

(** A frame is written with the identifier that the manual has for its symbol. *)
Theorem C79_identifier : forall G v c sym slots id f, documented_id v sym id -> (forall b, nth_error slots 5 <> Some (SBytes b)) ->
  ser G v (SObj c (SSym sym :: slots)) = GOk f -> f_id f = id.
Proof. exact written_id. Qed.
Print Assumptions C79_identifier.
Example C79_identifier_nontrivial : documented_id V22 (B "title-frame") (B "TT2") /\ documented_id V24 (B "popm-frame") (B "POPM") /\
  exists f, ser ex_guile2 V22 (ex_object CText (B "title-frame") [SStr (B "One")]) = GOk f.
Proof.
  split; [|split; [|eexists; vm_compute; reflexivity]]; eexists _, _; (split; [|reflexivity]); unfold documented; repeat (first [left; reflexivity|right]).
Qed.

(** With #:copy #t: the tags written are read again, all of them and in order.
    Missing: tags of ID3v2.2 and the objects [comes_back] leaves out (see below),
    and ID3v2.4 with padding or unsynchronisation. *)
Theorem C79_copied_partial : forall G z passes e xs pth unsync fs q d n data l st r fs', let k := resolve (e_cwd e) q in
  crc_range z -> (0 < passes)%nat -> to_locale G pth = GOk q ->
  q <> [] -> hd 0 (e_cwd e) = 47 -> dir_path d -> plain_name n -> absolute (e_cwd e) q = spelled d n ->
  find_node k fs = Some (File data) -> tags_from data 0 l -> ~ In 46 (last (e_tmp e) []) -> e_tmp e <> k ->
  Forall (fun x => exists y, tag_back G unsync true x y) xs ->
  write_tagset_scm G z e (slist xs) pth unsync (SBool true) fs = (st, (GOk r, fs')) ->
  (forall b, find_node k fs' = Some (File b) -> len b < 2 ^ 64) ->
  exists ys, read_tagset_scm G z passes (e_cwd e) fs' pth = GOk (slist ys) /\ Forall2 (tag_back G unsync true) xs ys.
Proof. exact copy_read. Qed.
Print Assumptions C79_copied_partial.
Example C79_copied_nontrivial : tag_back ex_guile2 (SBool false) true (ex_tag2 8) (ex_tag2' 8) /\ exists st r fs',
  write_tagset_scm ex_guile2 no_zlib (ex_env RenameXdev) (slist [ex_tag2 8; ex_tag2 0]) (SStr (B "a")) (SBool false) (SBool true) ex_fs = (st, (GOk r, fs')) /\
  read_tagset_scm ex_guile2 no_zlib 9 (B "/m") fs' (SStr (B "a")) = GOk (slist [ex_tag2' 8; ex_tag2' 0]).
Proof.
  split; [apply tag_back3; try discriminate; try reflexivity; [right; auto|exact ex_back|split; reflexivity || discriminate|auto]|].
  assert (X : forall (w : list fsys * (gres scm * fsys)) (P : fsys -> Prop), match fst (snd w) with GOk _ => True | _ => False end -> P (snd (snd w)) ->
            exists st r fs', w = (st, (GOk r, fs')) /\ P fs') by (intros [st [[r| | | | ] fs']] P E HP; try contradiction; eauto).
  apply X; vm_compute; [exact I|reflexivity].
Qed.

(** Without, when the tags may be written over the old ones: also, except that the
    padding may be another.  Missing besides, as in C34: ID3v2.4 tags together with
    others, sizes beyond 28 bits, and the case [wraps]. *)
Theorem C79_saved_partial : forall G z passes e xs pth unsync m copy ts fs q d nm data l st r fs' n pd ts1, let k := resolve (e_cwd e) q in
  crc_range z -> (0 < passes)%nat -> to_locale G pth = GOk q -> copy <> SBool true ->
  q <> [] -> hd 0 (e_cwd e) = 47 -> dir_path d -> plain_name nm -> absolute (e_cwd e) q = spelled d nm ->
  find_node k fs = Some (File data) -> tags_from data 0 l -> tags_end 0 l < 2 ^ 28 -> tags_end 0 l <= len data ->
  Forall (fun x => exists y, tag_back G unsync false x y) xs ->
  to_unsync unsync = GOk m -> gmap (to_tag G) xs = GOk (map Made ts) ->
  Forall simple_tag ts \/ Forall (fun t => is_v24 t = true) ts -> Forall (fun t => any_padding t < 2 ^ 62) ts -> sizes z m ts = Ok (n, pd, ts1) -> n < 2 ^ 28 ->
  ~ wraps ts (tags_end 0 l) n -> e_tmp e <> k -> ~ In 46 (last (e_tmp e) []) ->
  write_tagset_scm G z e (slist xs) pth unsync copy fs = (st, (GOk r, fs')) ->
  exists ys, read_tagset_scm G z passes (e_cwd e) fs' pth = GOk (slist ys) /\ Forall2 (tag_back G unsync false) xs ys.
Proof. exact save_read. Qed.
Print Assumptions C79_saved_partial.
Example C79_saved_nontrivial : exists ts n pd ts1 st r fs',
  gmap (to_tag ex_guile2) [ex_tag2 8; ex_tag2 0] = GOk (map Made ts) /\ Forall simple_tag ts /\ sizes no_zlib Never ts = Ok (n, pd, ts1) /\ n = 328 /\
  write_tagset_scm ex_guile2 no_zlib (ex_env RenameOk) (slist [ex_tag2 8; ex_tag2 0]) (SStr (B "a")) (SBool false) (SBool false) ex_fs = (st, (GOk r, fs')).
Proof.
  assert (X : forall (w : list fsys * (gres scm * fsys)) (P : fsys -> Prop), match fst (snd w) with GOk _ => True | _ => False end -> P (snd (snd w)) ->
            exists st r fs', w = (st, (GOk r, fs')) /\ P fs') by (intros [st [[r| | | | ] fs']] P E HP; try contradiction; eauto).
  edestruct (X (write_tagset_scm ex_guile2 no_zlib (ex_env RenameOk) (slist [ex_tag2 8; ex_tag2 0]) (SStr (B "a")) (SBool false) (SBool false) ex_fs) (fun _ => True))
    as (st & r & fs' & H & _); [vm_compute; exact I|exact I|].
  set (t := map (fun p => mkTag23 None false None p (map new_frame (match gmap (ser ex_guile2 V23) ex_given with GOk l => l | _ => [] end))) [8; 0]).
  exists (map A23 t), 328.
  eexists _, _, st, r, fs'. split; [vm_compute; reflexivity|]. split; [repeat constructor|].
  split; [vm_compute; reflexivity|]. split; [reflexivity|]. exact H.
Qed.

(** ** What is not written *)

(** A text that the encoding cannot hold (in ID3v2.2 and 2.3, anything that is not
    Latin-1): the object is taken for that of an unknown frame, and a slot is read
    that it does not have. *)
Theorem C79_text_refuted : forall G v sym id a b c d s r, text_symbol v sym id -> no_nul s -> s <> [] ->
  g_ic G E_UTF_8 (text_encoding v) NoFail s = None -> g_to_locale G s = Some r ->
  ser G v (SObj CText [SSym sym; a; b; c; d; SStr s]) = GUB OutOfBounds.
Proof. exact latin1_l. Qed.
Print Assumptions C79_text_refuted.
Example C79_text_refuted_nontrivial : ex_ic E_UTF_8 E_ISO_8859_1 NoFail [206; 177] = None /\
  snd (write_tagset_scm ex_guile2 no_zlib (ex_env RenameOk) (slist [slist [SObj CTag [SNull; slist [ex_object CText (B "title-frame") [SStr [206; 177]]]; SInt 0]; SInt 3]])
    (SStr (B "a")) (SBool false) (SBool true) ex_fs) = (GUB OutOfBounds, ex_fs).
Proof. split; vm_compute; reflexivity. Qed.

(** The same if the symbol of a text frame is given to an object of another class. *)
Theorem C79_class_refuted : forall G v sym id a b c d s r, text_symbol v sym id -> no_nul s -> g_to_locale G s = Some r ->
  forall cl, is_frame cl = true -> cl <> CText -> ser G v (SObj cl [SSym sym; a; b; c; d; SStr s]) = GUB OutOfBounds.
Proof. exact misclassed_l. Qed.
Print Assumptions C79_class_refuted.
Example C79_class_refuted_nontrivial : text_symbol V23 (B "title-frame") (B "TIT2") /\
  ser ex_guile2 V23 (ex_object CUnk (B "title-frame") [SStr (B "One")]) = GUB OutOfBounds.
Proof.
  split; [|vm_compute; reflexivity]. split; [|vm_compute; intuition discriminate].
  eexists _, _. split; [|reflexivity]. unfold documented. repeat (first [left; reflexivity|right]).
Qed.

(** A comment in a language that is not known. *)
Theorem C79_language_refuted : forall G v a b c d l dsc s e r, no_nul l -> l <> [] -> read_language l = Throw e -> g_to_locale G l = Some r ->
  exists w, ser G v (SObj CComment [SSym (B "comment-frame"); a; b; c; d; SStr l; SStr dsc; SStr s]) = GUB w.
Proof. exact language_l. Qed.
Print Assumptions C79_language_refuted.
Example C79_language_refuted_nontrivial : exists e, read_language (B "xxx") = Throw e.
Proof. eexists. vm_compute. reflexivity. Qed.

(** A tag cloud that is not empty, in ID3v2.2 or 2.4. *)
Theorem C79_cloud_refuted : forall G v a b c d own kv given, v <> V23 -> no_nul own ->
  ser G v (SObj CCloud [SSym (B "tag-cloud-frame"); a; b; c; d; SStr own; alist (kv :: given)]) = GUB NullDeref.
Proof. exact cloud_l. Qed.
Print Assumptions C79_cloud_refuted.
Example C79_cloud_refuted_nontrivial :
  ser ex_guile2 V24 (ex_object CCloud (B "tag-cloud-frame") [SStr (B "me"); alist [(B "k", One (B "v"))]]) = GUB NullDeref.
Proof. vm_compute. reflexivity. Qed.

(** Any tag of ID3v2.2, whatever else there is. *)
Theorem C79_old_refuted : forall G z e xs t rest y ms pth q unsync m copy fs, to_unsync unsync = GOk m -> to_locale G pth = GOk q ->
  gmap (to_tag G) xs = GOk ms -> In (SPair t (SPair (SInt 2) rest)) xs -> to_tag G (SPair t (SPair (SInt 2) rest)) = GOk y ->
  snd (write_tagset_scm G z e (slist xs) pth unsync copy fs) = (GUB Uninitialised, fs).
Proof.
  intros G z e xs t rest y ms pth q unsync m copy fs H1 H2 H3 H4 H5. destruct (old_made G _ t rest xs ms y H3 H4 eq_refl H5) as (t0 & Ht).
  exact (old_l G z e (slist xs) xs ms t0 pth q unsync m copy fs H1 (to_list_of xs) H3 H2 Ht).
Qed.
Print Assumptions C79_old_refuted.
Example C79_old_refuted_nontrivial : exists ms, gmap (to_tag ex_guile2) [ex_tag2 8; slist [SObj CTag [SNull; SNull; SInt 0]; SInt 2]] = GOk ms.
Proof. eexists. vm_compute. reflexivity. Qed.

(** ** What is written, and not read as what it was *)

(** A user-defined text in ID3v2.4, and a count of 2^32 or more. *)
Theorem C79_udt_refuted : forall G a b c d dsc s, description_kept G V24 dsc -> unicode_kept G V24 s -> dsc <> [] \/ s <> [] ->
  exists f, ser G V24 (SObj CUdt [SSym (B "udt-frame"); a; b; c; d; SStr dsc; SStr s]) = GOk f /\ f_id f = B "TXXX" /\
    forall z w x, de G z V24 w (new_frame f) = GOk x ->
      exists idt bv, x = SObj CUnk (SSym (B "unknown-frame") :: flag_slots V24 (f_flags f) ++ [SStr idt; SBytes bv]).
Proof. exact udt24_l. Qed.
Print Assumptions C79_udt_refuted.
Example C79_udt_refuted_nontrivial : exists f x, ser ex_guile2 V24 (ex_object CUdt (B "udt-frame") [SStr (B "mood"); SStr (B "calm")]) = GOk f /\
  de ex_guile2 no_zlib V24 false (new_frame f) = GOk (SObj CUnk (SSym (B "unknown-frame") :: x)).
Proof. eexists _, _. split; vm_compute; reflexivity. Qed.
Theorem C79_count_refuted : forall G v a b c d n, (2 ^ 32 <= n < 2 ^ 64)%Z ->
  exists f, ser G v (SObj CCount [SSym (B "play-count-frame"); a; b; c; d; SInt n]) = GOk f /\
    forall z w x, de G z v w (new_frame f) = GOk x ->
      exists idt bv, x = SObj CUnk (SSym (B "unknown-frame") :: flag_slots v (f_flags f) ++ [SStr idt; SBytes bv]).
Proof. exact count_l. Qed.
Print Assumptions C79_count_refuted.
Example C79_count_refuted_nontrivial : exists f x, ser ex_guile2 V23 (ex_object CCount (B "play-count-frame") [SInt (2 ^ 32)]) = GOk f /\
  de ex_guile2 no_zlib V23 false (new_frame f) = GOk (SObj CUnk (SSym (B "unknown-frame") :: x)).
Proof. eexists _, _. split; vm_compute; reflexivity. Qed.

(** An unknown frame of ID3v2.4 is marked as unsynchronised if, and only if, its
    'read-only slot is set, whatever its 'unsync slot says. *)
Theorem C79_unsync_refuted : forall G sym tap fap ro unsync rest f, (forall i, ~ documented_id V24 sym i) ->
  ser G V24 (SObj CUnk (SSym sym :: tap :: fap :: ro :: unsync :: rest)) = GOk f -> fl_unsync (f_flags f) = is_t ro.
Proof. exact unknown_unsync_l. Qed.
Print Assumptions C79_unsync_refuted.
Example C79_unsync_refuted_nontrivial : exists f,
  ser ex_guile2 V24 (SObj CUnk [SSym (B "unknown-frame"); SNull; SNull; SNull; SBool true; SStr (B "WXYZ"); SBytes (repeat 0 10 ++ [1])]) = GOk f /\
  fl_unsync (f_flags f) = false.
Proof. eexists. split; vm_compute; reflexivity. Qed.
