(** * Theorems: playlists (C69, C70). *)
From Verif Require Import Base M_Ints M_Stream M_Id3v1 M_Payload M_Frame M_Tag22 M_Tag23 M_Tag24 M_Charset M_TextId M_Lookup M_Mp3 M_Read M_Fs M_Tagset M_Process M_Cmds M_Split M_Rename M_Dirent M_M3u
  S_Lookup S_Cmds S_Tag23 S_Tagset S_Read S_Dirent S_M3u L_Fs L_M3u L_M3u2 L_M3u3 L_M3u4 L_Charset P_Mp3 P_Cmds P_Dirent.
From Coq Require Import Sorting.Permutation.
#[local] Open Scope N_scope.

(** The files for the examples: a song with an artist, a title and an Xing tag, one
    with an ID3v1 tag only, and a playlist. *)
Definition ex_song : bytes := ex_tag1 ++ ex_xing.
Definition ex_old : bytes := B "other.mp3" ++ [10].
Definition ex_tree : fsys := [([B "m"], Dir); ([B "m"; B "a.mp3"], File ex_song); ([B "m"; B "b.mp3"], File ex_v1); ([B "l"], File ex_old)].
Definition ex_list (p : bytes) : list bytes := map (join p) (names_in (opened ex_tree [B "l"]) (resolve (B "/") p)).
Definition ex_opts : m3u_opts := mkM3u None E_UTF_8 NoFail.
Example ex_song_fine : let s := ex_set ex_song in read_tagset no_zlib 3 ex_song = Ok s /\ fine ex_world E_UTF_8 ex_opts (fst s) (snd s) = true /\
  exists v2 p q e, read_all_id3v2 no_zlib 3 (open_file ex_song goodbit) = (Ok v2, mkIs ex_song p goodbit 0) /\
    get_mp3_duration (mkIs ex_song p goodbit 0) = (Ok (1152000, 44100), mkIs ex_song q e 0).
Proof. split; [vm_compute; reflexivity|]. split; [vm_compute; reflexivity|]. 
  pose (r := read_all_id3v2 no_zlib 3 (open_file ex_song goodbit)). pose (d := get_mp3_duration (mkIs ex_song (s_pos (snd r)) goodbit 0)).
  exists (match fst r with Ok v => v | _ => [] end), (s_pos (snd r)), (s_pos (snd d)), (s_exc (snd d)). split; vm_compute; reflexivity.
Qed.
Example ex_v1_fine : let s := ex_set ex_v1 in read_tagset no_zlib 3 ex_v1 = Ok s /\ fine ex_world E_UTF_8 ex_opts (fst s) (snd s) = true /\
  exists v2 p q e, read_all_id3v2 no_zlib 3 (open_file ex_v1 goodbit) = (Ok v2, mkIs ex_v1 p goodbit 0) /\
    get_mp3_duration (mkIs ex_v1 p goodbit 0) = (Ok (0, 1), mkIs ex_v1 q e 0).
Proof. split; [vm_compute; reflexivity|]. split; [vm_compute; reflexivity|]. 
  pose (r := read_all_id3v2 no_zlib 3 (open_file ex_v1 goodbit)). pose (d := get_mp3_duration (mkIs ex_v1 (s_pos (snd r)) goodbit 0)).
  exists (match fst r with Ok v => v | _ => [] end), (s_pos (snd r)), (s_pos (snd d)), (s_exc (snd d)). split; vm_compute; reflexivity.
Qed.

(** ** C69: what is in the playlist *)

(** Whatever the directory tree and the arguments, into a new file, over an old one
    or appended to one that ends in a line end: if the files found can be read,
    none is the playlist itself, and titles and paths are such as a playlist can
    hold, then the playlist read back is the old one followed by one entry for
    each file at or below the arguments, in order, with the file's duration to the
    nearest second and its title, and no other file has changed. *)
Theorem C69_playlist_partial : forall z passes w src rsp cwd entries s fs out app utf8 args dst,
  cwd <> [] -> tree fs -> opens fs (resolve cwd out) -> m3u_dst (Ok src) utf8 = Ok dst -> char_unit dst = true ->
  (forall p, is_dir (opened fs (resolve cwd out)) (resolve cwd p) = true -> lists_entries cwd (opened fs (resolve cwd out)) p (entries p)) ->
  Forall (fun p => p <> []) args -> ended (kept app fs (resolve cwd out)) ->
  exists ls, Forall2 (files_below cwd (opened fs (resolve cwd out))) args ls /\
    ((forall p, In p (concat ls) -> resolve cwd p <> resolve cwd out /\
        forall data, find_node (resolve cwd p) fs = Some (File data) -> tellable z passes w (mkM3u None dst rsp) data /\
          forall n t, tells_file z passes w src (mkM3u None dst rsp) p data n t -> listable t p) ->
     exists st fs' text new, m3u_to_file z passes w (Ok src) rsp cwd entries s out app utf8 args fs = (st, (Ok tt, fs')) /\
       only (resolve cwd out) fs fs' /\ find_node (resolve cwd out) fs' = Some (File text) /\
       playlist text = playlist (kept app fs (resolve cwd out)) ++ new /\
       Forall2 (fun p x => exists data n t, find_node (resolve cwd p) fs = Some (File data) /\
                  tells_file z passes w src (mkM3u None dst rsp) p data n t /\ x = (Some (n, t), p)) (concat ls) new).
Proof. exact run_playlist. Qed.
Print Assumptions C69_playlist_partial.
Example C69_playlist_nontrivial :
  (forall p, is_dir (opened ex_tree [B "l"]) (resolve (B "/") p) = true -> lists_entries (B "/") (opened ex_tree [B "l"]) p (ex_list p)) /\
  tree ex_tree /\ opens ex_tree (resolve (B "/") (B "l")) /\ ended (kept true ex_tree (resolve (B "/") (B "l"))) /\
  (tellable no_zlib 3 ex_world ex_opts ex_song /\ forall n t, tells_file no_zlib 3 ex_world E_UTF_8 ex_opts (B "m/a.mp3") ex_song n t -> listable t (B "m/a.mp3")) /\
  (tellable no_zlib 3 ex_world ex_opts ex_v1 /\ forall n t, tells_file no_zlib 3 ex_world E_UTF_8 ex_opts (B "m/b.mp3") ex_v1 n t -> listable t (B "m/b.mp3")) /\
  match m3u_to_file no_zlib 3 ex_world (Ok E_UTF_8) NoFail (B "/") ex_list None (B "l") true false [B "m"] ex_tree with
  | (_, (Ok _, fs')) => match find_node [B "l"] fs' with
                        | Some (File text) => map snd (playlist text) = [B "other.mp3"; B "m/a.mp3"; B "m/b.mp3"] /\
                            nth 1 (map fst (playlist text)) None = Some (26, B "Band - Song")
                        | _ => False
                        end
  | _ => False
  end.
Proof.
  split; [intros p _; unfold lists_entries; apply Permutation_refl|]. split; [|split; [|split; [|split; [|split]]]].
  - split; [|split; [|split]].
    + cbn [map fst ex_tree]. repeat (constructor; [cbn; intuition discriminate|]). constructor.
    + cbn [map fst ex_tree]. cbn. intuition discriminate.
    + cbn [map fst ex_tree]. repeat (constructor; [repeat (constructor; [repeat split; try discriminate; cbn; intuition discriminate|]); constructor|]). constructor.
    + intros d n H. assert (G : Forall (fun k => is_dir ex_tree (removelast k) = true) (map fst ex_tree)) by (repeat constructor).
      rewrite Forall_forall in G. apply G in H. now rewrite removelast_last in H.
  - split; [reflexivity|]. left. eexists. reflexivity.
  - right. exists (B "other.mp3"). reflexivity.
  - destruct ex_song_fine as (E & H & v2 & p & q & e & RA & GD). rewrite (surjective_pairing (ex_set ex_song)) in E.
    apply (fine_file _ _ _ _ _ _ _ _ _ _ E (lasts_by _ _ _ _ _ _ _ _ RA GD) H); vm_compute; intuition discriminate.
  - destruct ex_v1_fine as (E & H & v2 & p & q & e & RA & GD). rewrite (surjective_pairing (ex_set ex_v1)) in E.
    apply (fine_file _ _ _ _ _ _ _ _ _ _ E (lasts_by _ _ _ _ _ _ _ _ RA GD) H); vm_compute; intuition discriminate.
  - vm_compute. split; reflexivity.
Qed.

(** Whatever the files and wherever it stops: nothing but the playlist is ever
    changed; it always holds what was kept of it and then a beginning of the
    header and the complete entries of the files before the first that fails,
    or nothing yet. *)
Theorem C69_crash : forall z passes w loc rsp cwd entries src fs out app utf8 args dst,
  cwd <> [] -> tree fs -> opens fs (resolve cwd out) -> m3u_dst loc utf8 = Ok dst ->
  (forall p, is_dir (opened fs (resolve cwd out)) (resolve cwd p) = true -> lists_entries cwd (opened fs (resolve cwd out)) p (entries p)) ->
  Forall (fun p => p <> []) args ->
  exists ls, Forall2 (files_below cwd (opened fs (resolve cwd out))) args ls /\
    ((forall p, In p (concat ls) -> resolve cwd p <> resolve cwd out) ->
     exists st r fs' done rest ss, m3u_to_file z passes w loc rsp cwd entries src out app utf8 args fs = (st, (r, fs')) /\
       concat ls = done ++ rest /\
       Forall2 (fun p s => exists data, find_node (resolve cwd p) fs = Some (File data) /\ m3u_text z passes w loc (mkM3u None dst rsp) p data = Ok s) done ss /\
       find_node (resolve cwd out) fs' = Some (File (kept app fs (resolve cwd out) ++ B "#EXTM3U" ++ [10] ++ concat ss)) /\
       match rest with
       | [] => r = Ok tt
       | p :: _ => exists data x, find_node (resolve cwd p) fs = Some (File data) /\
                     m3u_text z passes w loc (mkM3u None dst rsp) p data = x /\ (forall s, x <> Ok s) /\ r = (let* _ := x in Ok tt)
       end /\
       Forall (fun s => only (resolve cwd out) fs s /\ exists text, find_node (resolve cwd out) s = Some (File text) /\
          (text = [] \/ exists i, text = kept app fs (resolve cwd out) ++ firstn i (B "#EXTM3U" ++ [10] ++ concat ss))) (fs' :: st)).
Proof. exact run_crash. Qed.
Print Assumptions C69_crash.
(** The second file has a text in no known encoding. *)
Definition ex_bad : bytes := B "ID3" ++ [3; 0; 0; 0; 0; 0; 30] ++ B "TPE1" ++ [0; 0; 0; 5; 0; 0; 9] ++ B "Band" ++ B "TIT2" ++ [0; 0; 0; 5; 0; 0; 0] ++ B "Song".
Definition ex_bad_tree : fsys := [([B "b"], File ex_bad); ([B "v"], File ex_v1)].
Example C69_crash_nontrivial :
  match m3u_to_file no_zlib 3 ex_world (Ok E_UTF_8) NoFail (B "/") (fun _ => []) None (B "l") false true [B "v"; B "b"; B "v"] ex_bad_tree with
  | (st, (Throw RangeError, fs')) => List.length st = 35%nat /\ find_node [B "l"] fs' = Some (File (B "#EXTM3U" ++ [10] ++ B "#EXTINF:0,Band - Song" ++ [10] ++ B "v" ++ [10]))
  | _ => False
  end.
Proof. vm_compute. auto. Qed.

(** A title with a line end: what follows it is listed as a file, and the entry's
    own path without a title. *)
Theorem C69_newline_refuted : forall z passes w loc rsp cwd entries src fs out app utf8 p data dst d a b,
  opens fs (resolve cwd out) -> m3u_dst loc utf8 = Ok dst ->
  ended (kept app fs (resolve cwd out)) -> resolve cwd p <> resolve cwd out -> resolve cwd p <> [] -> find_node (resolve cwd p) fs = Some (File data) ->
  m3u_text z passes w loc (mkM3u None dst rsp) p data = Ok (m3u_entry d (a ++ [10] ++ b) p) ->
  listable a b -> ~ In 10 p -> p <> [] -> hd 0 p <> 35 ->
  exists fs' text, snd (m3u_to_file z passes w loc rsp cwd entries src out app utf8 [p] fs) = (Ok tt, fs') /\
    find_node (resolve cwd out) fs' = Some (File text) /\
    playlist text = playlist (kept app fs (resolve cwd out)) ++ [(Some (whole_seconds d, a), b); (None, p)].
Proof. exact newline_l. Qed.
Print Assumptions C69_newline_refuted.
Definition ex_trick : bytes := B "ID3" ++ [3; 0; 0; 0; 0; 0; 30] ++ B "TPE1" ++ [0; 0; 0; 5; 0; 0; 0] ++ B "Band" ++ B "TIT2" ++ [0; 0; 0; 5; 0; 0; 0] ++ B "S" ++ [10] ++ B "/x".
Example C69_newline_nontrivial : m3u_text no_zlib 3 ex_world (Ok E_UTF_8) ex_opts (B "t") ex_trick = Ok (m3u_entry (0, 1) (B "Band - S" ++ [10] ++ B "/x") (B "t")) /\
  listable (B "Band - S") (B "/x").
Proof. split; [vm_compute; reflexivity|]. vm_compute. intuition discriminate. Qed.

(** A path that starts with # is lost. *)
Theorem C69_comment_refuted : forall z passes w loc rsp cwd entries src fs out app utf8 p data dst d t,
  opens fs (resolve cwd out) -> m3u_dst loc utf8 = Ok dst ->
  ended (kept app fs (resolve cwd out)) -> resolve cwd p <> resolve cwd out -> resolve cwd p <> [] -> find_node (resolve cwd p) fs = Some (File data) ->
  m3u_text z passes w loc (mkM3u None dst rsp) p data = Ok (m3u_entry d t p) ->
  ~ In 10 t -> ~ In 10 p -> hd 0 p = 35 ->
  exists fs' text, snd (m3u_to_file z passes w loc rsp cwd entries src out app utf8 [p] fs) = (Ok tt, fs') /\
    find_node (resolve cwd out) fs' = Some (File text) /\ playlist text = playlist (kept app fs (resolve cwd out)).
Proof. exact comment_l. Qed.
Print Assumptions C69_comment_refuted.
Example C69_comment_nontrivial : m3u_text no_zlib 3 ex_world (Ok E_UTF_8) ex_opts (B "#1 hit.mp3") ex_v1 = Ok (m3u_entry (0, 1) (B "Band - Song") (B "#1 hit.mp3")) /\
  resolve (B "/") (B "#1 hit.mp3") = [B "#1 hit.mp3"].
Proof. split; vm_compute; reflexivity. Qed.

(** Appending to a playlist whose last line has no line end spoils the last entry,
    even when no file is added. *)
Theorem C69_append_refuted : forall z passes w loc rsp cwd entries src fs out utf8 dst x l,
  is_dir fs (resolve cwd out) = false -> find_node (resolve cwd out) fs = Some (File (x ++ l)) -> m3u_dst loc utf8 = Ok dst ->
  ended x -> l <> [] -> ~ In 10 l -> hd 0 l <> 35 ->
  exists fs' text i, snd (m3u_to_file z passes w loc rsp cwd entries src out true utf8 [] fs) = (Ok tt, fs') /\
    find_node (resolve cwd out) fs' = Some (File text) /\
    playlist (x ++ l) = playlist x ++ [(i, l)] /\ playlist text = playlist x ++ [(i, l ++ B "#EXTM3U")].
Proof. exact append_l. Qed.
Print Assumptions C69_append_refuted.
Example C69_append_nontrivial :
  playlist (B "a" ++ [10] ++ B "b") = [(None, B "a"); (None, B "b")] /\
  match snd (m3u_to_file no_zlib 3 ex_world (Ok E_UTF_8) NoFail (B "/") (fun _ => []) None (B "l") true false [] [([B "l"], File (B "a" ++ [10] ++ B "b"))]) with
  | (Ok _, fs') => find_node [B "l"] fs' = Some (File (B "a" ++ [10] ++ B "b#EXTM3U" ++ [10]))
  | _ => False
  end.
Proof. split; vm_compute; reflexivity. Qed.

(** The playlist itself is listed if it is among the files. *)
Theorem C69_itself_refuted : forall z passes w loc rsp cwd entries src fs out utf8 dst,
  opens fs (resolve cwd out) -> m3u_dst loc utf8 = Ok dst -> listable (stem out) out ->
  exists fs' text, snd (m3u_to_file z passes w loc rsp cwd entries src out false utf8 [out] fs) = (Ok tt, fs') /\
    find_node (resolve cwd out) fs' = Some (File text) /\ playlist text = [(Some (0, stem out), out)].
Proof. exact itself_l. Qed.
Print Assumptions C69_itself_refuted.
Example C69_itself_nontrivial : opens [([B "m"], Dir)] (resolve (B "/") (B "m/all.m3u")) /\ listable (stem (B "m/all.m3u")) (B "m/all.m3u").
Proof. split; [split; [reflexivity|right; split; reflexivity]|]. vm_compute. intuition discriminate. Qed.

(** Under a locale that names its encoding, as most do, the command does nothing
    unless asked for UTF-8; the source encoding asked for is never used. *)
Theorem C69_locale_refuted : forall z passes w global system rsp cwd entries src out app args fs,
  existsb (N.eqb 46) global = true -> existsb (N.eqb 46) system = true ->
  m3u_to_file z passes w (enc_of_locale global system) rsp cwd entries src out app false args fs = ([], (Throw RangeError, fs)).
Proof. exact locale_fails. Qed.
Print Assumptions C69_locale_refuted.
Example C69_locale_nontrivial : existsb (N.eqb 46) (B "en_US.UTF-8") = true /\ existsb (N.eqb 46) (B "C") = false.
Proof. split; reflexivity. Qed.
Theorem C69_source_refuted : forall z passes w loc rsp cwd entries e out app utf8 args fs,
  m3u_to_file z passes w loc rsp cwd entries (Some e) out app utf8 args fs = m3u_to_file z passes w loc rsp cwd entries None out app utf8 args fs.
Proof. reflexivity. Qed.
Print Assumptions C69_source_refuted.
Example C69_source_nontrivial : exists t, snd (ex_set ex_v1) = Some t /\ v_artist t <> [].
Proof. eexists. split; [vm_compute; reflexivity|]. discriminate. Qed.

(** ** C70: what is told of a file *)

(** An entry, if there is one, tells the nearest second and the artist and title:
    by the first ID3v2 tag with both, else the ID3v1 tag, else the file's name. *)
Theorem C70_entry : forall z passes w o src path data s, char_unit (m3_dst o) = true ->
  m3u_text z passes w (Ok src) o path data = Ok s -> m3_src o = None ->
  exists n title, s = B "#EXTINF:" ++ decimal n ++ B "," ++ title ++ [10] ++ path ++ [10] /\ tells_file z passes w src o path data n title.
Proof. exact entry_l. Qed.
Print Assumptions C70_entry.
Example C70_entry_nontrivial : m3u_text no_zlib 3 ex_world (Ok E_UTF_8) ex_opts (B "m/a.mp3") ex_song = Ok (B "#EXTINF:26,Band - Song" ++ [10] ++ B "m/a.mp3" ++ [10]).
Proof. vm_compute. reflexivity. Qed.

(** There is one for every file whose tags and duration can be read and whose texts
    are in encodings that are known, whatever else is in them. *)
Theorem C70_total : forall z passes w o src path data, char_unit (m3_dst o) = true -> m3_src o = None ->
  tellable z passes w o data -> exists s, m3u_text z passes w (Ok src) o path data = Ok s.
Proof. exact total_l. Qed.
Print Assumptions C70_total.
Example C70_total_nontrivial : tellable no_zlib 3 ex_world ex_opts ex_song.
Proof. exact (proj1 (proj1 (proj2 (proj2 (proj2 (proj2 C69_playlist_nontrivial)))))). Qed.

(** The nearest second is what it says. *)
Theorem C70_nearest : forall n m d, 0 < snd d -> nearest n d -> nearest m d -> n = m.
Proof. exact nearest_one. Qed.
Print Assumptions C70_nearest.
Example C70_nearest_nontrivial : nearest 26 (1152000, 44100) /\ nearest 2 (3, 2).
Proof. repeat split; vm_compute; congruence. Qed.

(** A text in an encoding that is not known: no entry, and the run ends there. *)
Theorem C70_encoding_refuted : forall z passes w loc o path data v2 v1 d t e, read_tagset z passes data = Ok (v2, v1) -> lasts data d -> first_with_both v2 t ->
  (forall f, In f (with_id (artist_id (any_version t)) (shown t)) -> told w o (any_version t) f (Throw e)) -> e <> IconvError ->
  m3u_text z passes w loc o path data = Throw e.
Proof. exact unknown_l. Qed.
Print Assumptions C70_encoding_refuted.
Example C70_encoding_nontrivial : m3u_text no_zlib 3 ex_world (Ok E_UTF_8) ex_opts (B "b") ex_bad = Throw RangeError /\
  exists t f g, fst (ex_set ex_bad) = [t] /\ with_id (B "TPE1") (shown t) = [f] /\ with_id (B "TIT2") (shown t) = [g] /\ told ex_world ex_opts V23 f (Throw RangeError).
Proof. split; [vm_compute; reflexivity|]. eexists. eexists. eexists. split; [vm_compute; reflexivity|]. split; [vm_compute; reflexivity|]. split; [vm_compute; reflexivity|]. eexists. split; vm_compute; reflexivity. Qed.

(** A text that cannot be converted: the name of the file, although the ID3v1 tag
    may have an artist and a title. *)
Theorem C70_fallback_refuted : forall z passes w loc o path data v2 v1 d t, read_tagset z passes data = Ok (v2, v1) -> lasts data d -> first_with_both v2 t ->
  (forall f, In f (with_id (artist_id (any_version t)) (shown t)) -> told w o (any_version t) f (Throw IconvError)) ->
  m3u_text z passes w loc o path data = Ok (m3u_entry d (stem path) path).
Proof. exact garbled_l. Qed.
Print Assumptions C70_fallback_refuted.
Definition ex_deaf : world := mkWorld (fun src _ _ b => match src with E_UCS_2 => None | _ => Some b end) (fun _ _ => 0) (fun _ _ => 0) (fun t => Ok t) (Ok (B "eng")).
Definition ex_wide : bytes := B "ID3" ++ [3; 0; 0; 0; 0; 0; 30] ++ B "TPE1" ++ [0; 0; 0; 5; 0; 0; 1] ++ B "Band" ++ B "TIT2" ++ [0; 0; 0; 5; 0; 0; 0] ++ B "Song" ++ ex_v1.
Example C70_fallback_nontrivial :
  m3u_text no_zlib 3 ex_deaf (Ok E_UTF_8) ex_opts (B "w.mp3") ex_wide = Ok (m3u_entry (0, 1) (B "w") (B "w.mp3")) /\
  m3u_text no_zlib 3 ex_deaf (Ok E_UTF_8) ex_opts (B "w.mp3") ex_v1 = Ok (m3u_entry (0, 1) (B "Band - Song") (B "w.mp3")).
Proof. split; vm_compute; reflexivity. Qed.
