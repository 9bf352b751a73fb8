(** * Properties: what a file holds after a command (C90). *)
From Verif Require Import Base M_Ints M_Stream M_Id3v1 M_Payload M_Frame M_Tag22 M_Tag23 M_Tag24 M_Charset M_TextId M_Lookup M_Genres M_Read M_Fs M_Tagset M_Process M_Popm M_Cmds M_Options
  S_Ints S_Id3v1 S_Read S_Tag S_Tag23 S_Tag24 S_Tagset S_Saved S_Process S_Popm S_Cmds S_Options S_Effect L_Cmds4 L_Effect L_Effect2 L_Effect3 L_Effect4 L_Effect5 L_M3u2 L_Cmds9 P_Tagset P_Cmds P_Options.
#[local] Open Scope N_scope.

(** ** C90.  After a command that changes a file has succeeded, reading the file
    gives the tags as the command left them; the ID3v1 tag is as the command left
    it, and the audio is the same, byte for byte.

    For every command: *)
Theorem C90_command_partial : forall S z passes e (P : processor S) p path d n fs data l a v2 v1 s v2' v1' s' st o fs', let k := resolve (e_cwd e) path in
  crc_range z -> (0 < passes)%nat -> file_at e path d n ->
  find_node k fs = Some (File data) -> read_tagset z passes data = Ok (v2, v1) -> holds_audio data l v1 a -> 355 <= len a ->
  p_dry p = false -> process_tagset P p v2 v1 s = Ok (true, v2', v1', s') ->
  Forall (S_Saved.storable z (mode p)) v2' -> v1_fits a v1' -> can_be_written z p (tags_end 0 l) v2' ->
  process_file z passes e P p path s fs = (st, (Ok o, fs')) -> moderate k fs' ->
  exists data' v2'' v1'' l'', find_node k fs' = Some (File data') /\ read_tagset z passes data' = Ok (v2'', v1'') /\
    Forall2 S_Saved.same_tag v2' v2'' /\ Forall2 (marked (mode p)) v2' v2'' /\ Forall v24_unpadded v2'' /\
    same_v1 v1' v1'' /\ holds_audio data' l'' v1'' a.
Proof. intros S. exact command_effect. Qed.
Print Assumptions C90_command_partial.

(** [popm] run any number of times, keeping backups: every count that the options
    name has gone up that many times, ratings are as asked for, and all else is the
    same.  The file is in order again. *)
Theorem C90_plays_partial : forall z passes e entries w vm o p path d n a, let k := resolve (e_cwd e) path in
  crc_range z -> (0 < passes)%nat -> file_at e path d n -> 355 <= len a ->
  popm_options vm = Handled (Ok (o, false, p)) -> o_increment o = true -> pv_dry vm = false -> pv_adjust vm = false -> pv_backups vm = true -> pv_args vm = [path] ->
  forall times fs fs' v2 v1, (0 < times)%nat -> in_order z passes k a fs v2 v1 -> Forall (room_for (w_ic w) o (N.of_nat times * o_count o)) v2 ->
  in_turn times (run_popm z passes e entries w vm) (moderate k) fs fs' ->
  exists v2' v1', in_order z passes k a fs' v2' v1' /\ Forall2 (tag_plays_added (w_ic w) o (N.of_nat times * o_count o)) v2 v2' /\ same_v1 v1 v1'.
Proof. exact popm_history. Qed.
Print Assumptions C90_plays_partial.

(** Once, also without backups, where the tags can be written in place. *)
Theorem C90_play_partial : forall z passes e entries w vm o p path d n fs st fs' a v2 v1, let k := resolve (e_cwd e) path in
  crc_range z -> (0 < passes)%nat -> file_at e path d n -> 355 <= len a ->
  popm_options vm = Handled (Ok (o, false, p)) -> o_increment o = true -> pv_dry vm = false -> pv_adjust vm = false -> pv_args vm = [path] ->
  in_order z passes k a fs v2 v1 -> Forall (room_for (w_ic w) o (o_count o)) v2 ->
  (forall data l d1 ts u1 s1, find_node k fs = Some (File data) -> tags_from data 0 l ->
     process_tagset (popm_processor w o false) p v2 v1 tt = Ok (d1, ts, u1, s1) -> can_be_written z p (tags_end 0 l) ts) ->
  run_popm z passes e entries w vm fs = (st, (Ok 0, fs')) -> moderate k fs' ->
  exists v2' v1', in_order z passes k a fs' v2' v1' /\ Forall2 (tag_plays_added (w_ic w) o (o_count o)) v2 v2' /\ same_v1 v1 v1'.
Proof.
  intros z passes e entries w vm o p path d n fs st fs' a v2 v1 k Hz Hp FA LA EO OI VD VA VG IO RM CW RUN HM. rewrite <- (N.add_0_r (o_count o)) in RM.
  destruct (popm_once z passes e entries w vm o p path d n fs st fs' 0 a v2 v1 Hz Hp FA LA EO OI VD VA VG IO RM CW RUN HM) as (v2' & v1' & A & _ & C & D). eauto.
Qed.
Print Assumptions C90_play_partial.

(** [text]: the frames deleted are gone, the texts are there to be read, all other
    frames are the same. *)
Theorem C90_texts_partial : forall z passes e entries w loc vm o p path d n fs st fs' a v2 v1, let k := resolve (e_cwd e) path in
  crc_range z -> (0 < passes)%nat -> file_at e path d n ->
  text_options loc vm = Handled (Ok (o, p)) -> given (tv_tag vm) = [] -> tv_adjust vm = false -> tv_args vm = [path] ->
  NoDup (to_dels o) -> NoDup (map fst (to_sets o)) ->
  in_order z passes k a fs v2 v1 -> 355 <= len a -> Forall (text_takes (w_ic w) o) v2 ->
  (forall data l d1 ts u1 s1, find_node k fs = Some (File data) -> tags_from data 0 l ->
     process_tagset (text_processor w o) p v2 v1 tt = Ok (d1, ts, u1, s1) -> can_be_written z p (tags_end 0 l) ts) ->
  run_text z passes e entries w loc vm fs = (st, (Ok 0, fs')) -> moderate k fs' ->
  exists v2' v1', in_order z passes k a fs' v2' v1' /\ Forall2 (tag_texts_read (w_ic w) o) v2 v2' /\ same_v1 v1 v1'.
Proof. exact text_once. Qed.
Print Assumptions C90_texts_partial.

(** [genre]: the tags in scope have the genre, and so has the ID3v1 tag. *)
Theorem C90_genres_partial : forall z passes e entries w vm g p path d n fs st fs' a v2 v1 name, let k := resolve (e_cwd e) path in let ic := w_ic w in
  crc_range z -> (0 < passes)%nat -> file_at e path d n -> 355 <= len a ->
  genre_options w vm = Handled (Ok (Some (g, p))) -> gv_dry vm = false -> gv_adjust vm = false -> gv_args vm = [path] ->
  in_order z passes k a fs v2 v1 -> scope_fits p v2 -> (v1 = None -> p_v1_creation p = V1Never) ->
  (forall i t, In (i, t) (with_index v2) -> in_scope p i = true -> has_genre ic t /\ S_Cmds.storable ic (any_version t) E_UTF_8 (gc_text g)) ->
  text_for_genre (gc_number g) = Some name -> to_bytes ic name E_UTF_8 E_ASCII false NoFail = Ok name ->
  (forall data l d1 ts u1 s1, find_node k fs = Some (File data) -> tags_from data 0 l ->
     process_tagset (genre_processor w g) p v2 v1 tt = Ok (d1, ts, u1, s1) -> can_be_written z p (tags_end 0 l) ts) ->
  run_genre z passes e entries w vm fs = (st, (Ok 0, fs')) -> moderate k fs' ->
  exists v2' v1' v1m, in_order z passes k a fs' v2' v1' /\ Forall2 (genre_read ic (gc_text g) p) (with_index v2) v2' /\
    v1_genre_set (gc_number g) name p v1 v1m /\ same_v1 v1m v1'.
Proof. exact genre_once. Qed.
Print Assumptions C90_genres_partial.

(** A file with a play count, 400 bytes of audio and an ID3v1 tag. *)
Definition ex_audio : bytes := repeatN 7 400.
Definition ex_playing (n : N) : fsys := [([B "m"], Dir); ([B "m"; B "f"], File (ex_counted n ++ ex_audio ++ ex_v1))].
Definition ex_plays (n : option N) : popm_vm := mkPopmVm false false true false false false false false n None None None None [B "f"].
Definition ex_fs_key : key := [B "m"; B "f"].
Definition ex_v2 (n : N) : list anytag := [A23 (mkTag23 (Some false) false None 3 [new_frame (mkFrame (B "PCNT") no_flags (BCount [n]))])].
Definition ex_trailing : id3v1_tag :=
  mkV1 false true (repeatN 0 30) (B "Band" ++ repeatN 32 26) (B "fine" ++ repeatN 0 24) 17 [] None None None (B "Song" ++ repeatN 0 26) (Some 7) (B "1999").
Example C90_file_nontrivial : crc_range no_zlib /\ file_at (ex_env RenameOk) (B "f") (B "/m") (B "f") /\ resolve (e_cwd (ex_env RenameOk)) (B "f") = ex_fs_key /\ len ex_audio = 400.
Proof.
  split; [intros n b; reflexivity|]. split; [|split; reflexivity]. unfold file_at.
  split; [discriminate|]. split; [reflexivity|]. split; [right; split; [reflexivity|discriminate]|]. split; [repeat split; try discriminate; intros [H|[]]; discriminate H|].
  split; [reflexivity|]. split; [intros [H|[]]; discriminate H|discriminate].
Qed.
Example ex_in_order : in_order no_zlib 3 ex_fs_key ex_audio (ex_playing 4) (ex_v2 4) (Some ex_trailing).
Proof.
  exists (ex_counted 4 ++ ex_audio ++ ex_v1), [mkHead 0 3 0 0 14]. split; [reflexivity|]. split; [vm_compute; reflexivity|]. split; [discriminate|].
  assert (NT : ~ In 84 ex_audio).
  { assert (X : forallb (fun c => negb (c =? 84)) ex_audio = true) by (vm_compute; reflexivity). rewrite forallb_forall in X. intros H. apply X in H. discriminate H. }
  split; [|split; [|split]].
  - split; [split; [reflexivity|]; split|].
    + exists 0, 0, 0, 14. eexists. split; [vm_compute; reflexivity|]. repeat split; try discriminate; repeat constructor.
    + intros v r f sz (z0 & z1 & z2 & z3 & rest & E & _). apply (f_equal (fun l => nth 0 l 0)) in E. vm_compute in E. discriminate E.
    + split; [vm_compute; discriminate|]. exists ex_v1. split; vm_compute; reflexivity.
  - intros t H. apply (f_equal (fun x => match x with Some y => y | None => t end)) in H. cbv beta iota in H. subst t. split; [constructor; try reflexivity; try discriminate|].
    + intros _. exists 7. split; [reflexivity|discriminate].
    + intros _ (pre & blk & E & _ & TK). apply NT. rewrite E. apply in_or_app. right. destruct blk as [|c blk]; [discriminate TK|].
      apply (f_equal (fun l => nth 0 l 0)) in TK. change (c = 84) in TK. left. exact TK.
  - constructor; [|constructor]. split; [|split; [repeat constructor|split; [reflexivity|discriminate]]]. split; [|exact Logic.I].
    repeat constructor; cbn; try discriminate; try (exists false, false, false; reflexivity); auto.
  - constructor; [discriminate|constructor].
Qed.
Definition ex_run (vm : popm_vm) : FS N := run_popm no_zlib 3 (ex_env RenameOk) (fun _ => []) ex_world vm.
Lemma ran (c : FS N) fs : fst (snd (c fs)) = Ok 0 -> c fs = (fst (c fs), (Ok 0, snd (snd (c fs)))).
Proof. destruct (c fs) as [st [r fs']]. cbn [fst snd]. now intros ->. Qed.
Lemma moderate_in k fs : match find_node k fs with Some (File d) => len d <? 2 ^ 64 | _ => true end = true -> moderate k fs.
Proof. intros H data E. rewrite E in H. now apply N.ltb_lt. Qed.
Example C90_plays_nontrivial : exists o p fs', popm_options (ex_plays None) = Handled (Ok (o, false, p)) /\ o_increment o = true /\ o_count o = 1 /\
  Forall (room_for (w_ic ex_world) o (3 * o_count o)) (ex_v2 4) /\
  in_turn 3 (ex_run (ex_plays None)) (moderate ex_fs_key) (ex_playing 4) fs' /\
  find_node ex_fs_key fs' = Some (File (ex_counted 7 ++ ex_audio ++ ex_v1)).
Proof.
  eexists _, _, (let c := fun fs => snd (snd (ex_run (ex_plays None) fs)) in c (c (c (ex_playing 4)))).
  split; [reflexivity|]. split; [reflexivity|]. split; [reflexivity|]. split; [|split].
  - constructor; [|constructor]. intros f b [<-|[]] _ E. injection E as <-. split; [repeat constructor|reflexivity].
  - cbn [in_turn]. do 2 eexists. split; [apply ran; vm_compute; reflexivity|]. split; [apply moderate_in; vm_compute; reflexivity|].
    do 2 eexists. split; [apply ran; vm_compute; reflexivity|]. split; [apply moderate_in; vm_compute; reflexivity|].
    do 2 eexists. split; [apply ran; vm_compute; reflexivity|]. split; [apply moderate_in; vm_compute; reflexivity|]. reflexivity.
  - vm_compute. reflexivity.
Qed.
Definition ex_plain_plays : popm_vm := mkPopmVm false false false false false false false false (Some 5) None None None None [B "f"].
Lemma ex_written T ts : T = 24 -> ts = ex_v2 9 -> forall p, p_adjust p = false -> can_be_written no_zlib p T ts.
Proof.
  intros -> -> p PA. right. split; [reflexivity|]. split; [constructor; [reflexivity|constructor]|]. split; [left; constructor; [reflexivity|constructor]|].
  unfold mode. rewrite PA. do 3 eexists. split; [vm_compute; reflexivity|]. split; [reflexivity|].
  intros (t & r & _ & L & _). discriminate L.
Qed.
Lemma ex_end n l : tags_from (ex_counted n ++ ex_audio ++ ex_v1) 0 l -> n < 128 -> tags_end 0 l = 24.
Proof.
  intros H L. rewrite (tags_from_fun _ _ _ [mkHead 0 3 0 0 14] H); [reflexivity|].
  split; [reflexivity|]. split.
  - exists 0, 0, 0, 14. eexists. split; [reflexivity|]. repeat split; try discriminate; repeat constructor.
  - intros v r f sz (z0 & z1 & z2 & z3 & rest & E & _). apply (f_equal (fun l => nth 0 l 0)) in E. vm_compute in E. discriminate E.
Qed.
Example C90_play_nontrivial : exists o p st fs', popm_options ex_plain_plays = Handled (Ok (o, false, p)) /\ o_increment o = true /\ p_backups p = false /\
  (forall data l d1 ts u1 s1, find_node ex_fs_key (ex_playing 4) = Some (File data) -> tags_from data 0 l ->
     process_tagset (popm_processor ex_world o false) p (ex_v2 4) (Some ex_trailing) tt = Ok (d1, ts, u1, s1) -> can_be_written no_zlib p (tags_end 0 l) ts) /\
  ex_run ex_plain_plays (ex_playing 4) = (st, (Ok 0, fs')) /\ moderate ex_fs_key fs' /\
  find_node ex_fs_key fs' = Some (File (ex_counted 9 ++ ex_audio ++ ex_v1)).
Proof.
  eexists _, _, (fst (ex_run ex_plain_plays (ex_playing 4))), (snd (snd (ex_run ex_plain_plays (ex_playing 4)))).
  split; [reflexivity|]. split; [reflexivity|]. split; [reflexivity|]. split; [|split; [|split]].
  - intros data l d1 ts u1 s1 E T H. apply ex_written; [|vm_compute in H; injection H as <- <- <- <-; reflexivity|reflexivity].
    apply (f_equal (fun x => match x with Some (File y) => y | _ => data end)) in E. cbv beta iota in E. change (find_node ex_fs_key (ex_playing 4)) with (Some (File (ex_counted 4 ++ ex_audio ++ ex_v1))) in E.
    cbv iota in E. subst data. exact (ex_end 4 l T eq_refl).
  - apply ran. vm_compute. reflexivity.
  - apply moderate_in. vm_compute. reflexivity.
  - vm_compute. reflexivity.
Qed.
Definition ex_named (a t : bytes) : bytes := B "ID3" ++ [3; 0; 0; 0; 0; 0; 30] ++ B "TPE1" ++ [0; 0; 0; 5; 0; 0; 0] ++ a ++ B "TIT2" ++ [0; 0; 0; 5; 0; 0; 0] ++ t.
Definition ex_songs (a t : bytes) : fsys := [([B "m"], Dir); ([B "m"; B "f"], File (ex_named a t ++ ex_audio ++ ex_v1))].
Definition ex_names2 (a t : bytes) : list anytag :=
  [A23 (mkTag23 (Some false) false None 0 [new_frame (mkFrame (B "TPE1") no_flags (BText (mkText 0 a))); new_frame (mkFrame (B "TIT2") no_flags (BText (mkText 0 t)))])].
Definition ex_text_vm : text_vm := mkTextVm false false false true None None None None (Some (B "Jazz")) (Some (B "Tune")) None None (Some [B "artist"]) None [B "f"].
Definition ex_run_text (vm : text_vm) : FS N := run_text no_zlib 3 (ex_env RenameOk) (fun _ => []) ex_world (Ok E_UTF_8) vm.
Example ex_songs_in_order : in_order no_zlib 3 ex_fs_key ex_audio (ex_songs (B "Band") (B "Song")) (ex_names2 (B "Band") (B "Song")) (Some ex_trailing).
Proof.
  exists (ex_named (B "Band") (B "Song") ++ ex_audio ++ ex_v1), [mkHead 0 3 0 0 30]. split; [reflexivity|]. split; [vm_compute; reflexivity|]. split; [discriminate|].
  split; [|split; [|split]].
  - split; [split; [reflexivity|]; split|].
    + exists 0, 0, 0, 30. eexists. split; [vm_compute; reflexivity|]. repeat split; try discriminate; repeat constructor.
    + intros v r f sz (z0 & z1 & z2 & z3 & rest & E & _). apply (f_equal (fun l => nth 0 l 0)) in E. vm_compute in E. discriminate E.
    + split; [vm_compute; discriminate|]. exists ex_v1. split; vm_compute; reflexivity.
  - destruct ex_in_order as (? & ? & _ & _ & _ & _ & X & _). exact X.
  - constructor; [|constructor]. split; [|split; [repeat constructor|split; [reflexivity|discriminate]]]. split; [|exact Logic.I].
    repeat constructor; cbn; try discriminate; try (exists false, false, false; reflexivity); auto.
  - constructor; [discriminate|constructor].
Qed.
Example C90_texts_nontrivial : exists o p st fs', text_options (Ok E_UTF_8) ex_text_vm = Handled (Ok (o, p)) /\
  Forall (text_takes (w_ic ex_world) o) (ex_names2 (B "Band") (B "Song")) /\ p_backups p = true /\
  ex_run_text ex_text_vm (ex_songs (B "Band") (B "Song")) = (st, (Ok 0, fs')) /\ moderate ex_fs_key fs' /\
  exists data', find_node ex_fs_key fs' = Some (File data') /\ takeN 40 data' = B "ID3" ++ [3; 0; 0; 0; 0; 0; 30] ++ B "TIT2" ++ [0; 0; 0; 5; 0; 0; 0] ++ B "Tune" ++ B "TCON" ++ [0; 0; 0; 5; 0; 0; 0] ++ B "Jazz".
Proof.
  eexists _, _, (fst (ex_run_text ex_text_vm _)), (snd (snd (ex_run_text ex_text_vm _))).
  split; [reflexivity|]. split; [|split; [reflexivity|split; [|split; [|eexists; split]]]].
  - constructor; [|constructor]. split; [|split; [|split]].
    + intros k M. cbn [to_dels to_sets map fst app In] in M. vm_compute in M. destruct M as [<-|[<-|[<-|[]]]]; eexists; (split; [reflexivity|reflexivity]).
    + intros id M. vm_compute in M. destruct M as [<-|[]]. vm_compute. apply le_n.
    + intros i j a b p q f g A C L. assert (Z : i = 0%nat /\ j = 0%nat); [|lia].
      split; [destruct i as [|[|i]]; [reflexivity| |]; vm_compute in A; discriminate A|destruct j as [|[|j]]; [reflexivity| |]; vm_compute in C; discriminate C].
    + apply Forall_cons; [|apply Forall_cons; [|apply Forall_nil]]; cbn [snd]; (apply ascii_storable; [apply ex_ascii|apply ex_ascii|discriminate]).
  - apply ran. vm_compute. reflexivity.
  - apply moderate_in. vm_compute. reflexivity.
  - vm_compute. reflexivity.
  - vm_compute. reflexivity.
Qed.
Example C90_command_nontrivial : exists o p r fs' st, popm_options ex_plain_plays = Handled (Ok (o, false, p)) /\ p_dry p = false /\
  process_tagset (popm_processor ex_world o false) p (ex_v2 4) (Some ex_trailing) tt = Ok (true, ex_v2 9, Some ex_trailing, tt) /\
  Forall (S_Saved.storable no_zlib (mode p)) (ex_v2 9) /\ v1_fits ex_audio (Some ex_trailing) /\ can_be_written no_zlib p 24 (ex_v2 9) /\
  process_file no_zlib 3 (ex_env RenameOk) (popm_processor ex_world o false) p (B "f") tt (ex_playing 4) = (st, (Ok r, fs')) /\ moderate ex_fs_key fs'.
Proof.
  destruct (popm_options ex_plain_plays) as [|[[[o []] p]| | |]] eqn:E; try discriminate E. exists o, p.
  vm_compute in E. injection E as <- <-.
  match goal with |- exists r fs' st, _ /\ _ /\ _ /\ _ /\ _ /\ _ /\ ?c ?fs = _ /\ _ => eexists _, (snd (snd (c fs))), (fst (c fs)) end.
  split; [reflexivity|]. split; [reflexivity|]. split; [vm_compute; reflexivity|]. split; [|split; [|split; [|split]]].
  - constructor; [|constructor]. split; [|split; [repeat constructor|split; [reflexivity|discriminate]]]. split; [|exact Logic.I].
    repeat constructor; cbn; try discriminate; try (exists false, false, false; reflexivity); auto.
  - destruct ex_in_order as (? & ? & _ & _ & _ & _ & X & _). exact X.
  - apply ex_written; reflexivity.
  - vm_compute. reflexivity.
  - apply moderate_in. vm_compute. reflexivity.
Qed.

(** Any commands in any order, with anything in between that leaves the file alone:
    the audio stays. *)
Theorem C90_audio_partial : forall z passes e path d n a fs fs', crc_range z -> (0 < passes)%nat -> file_at e path d n -> 355 <= len a ->
  audio_there z passes (resolve (e_cwd e) path) a fs -> sound_runs z passes e path a fs fs' -> audio_there z passes (resolve (e_cwd e) path) a fs'.
Proof. exact runs_keep. Qed.
Print Assumptions C90_audio_partial.
Example C90_audio_nontrivial : exists fs', audio_there no_zlib 3 ex_fs_key ex_audio (ex_playing 4) /\
  sound_runs no_zlib 3 (ex_env RenameOk) (B "f") ex_audio (ex_playing 4) fs' /\ find_node ex_fs_key fs' <> find_node ex_fs_key (ex_playing 4).
Proof.
  destruct C90_command_nontrivial as (o & p & r & fs' & st & EO & DR & HT & HS & HV & HW & HF & HM). exists fs'. split; [|split].
  - destruct ex_in_order as (data & l & H1 & H2 & _ & H3 & _). exists data, l, (ex_v2 4), (Some ex_trailing). auto.
  - eapply OneMore; [|reflexivity|apply NoRuns]. eapply SoundRun; [exact HF|exact HM|].
    intros data l v2 v1 v2' v1' s' Hk T HR _ HT'.
    change (find_node ex_fs_key (ex_playing 4) = Some (File data)) in Hk.
    destruct ex_in_order as (data0 & l0 & H1 & H2 & _ & (H3 & H4 & _) & _). assert (data0 = data) by congruence. subst data0.
    rewrite H2 in HR. apply Ok_inj in HR. injection HR as <- <-. rewrite HT in HT'. apply Ok_inj in HT'. injection HT' as <- <- <-.
    split; [exact HS|]. split; [exact HV|]. rewrite (tags_from_fun _ _ _ _ T H3). rewrite (ex_end 4 l0); [exact HW| |reflexivity].
    apply (f_equal (fun x => match x with Some (File y) => y | _ => [] end)) in Hk. cbv beta iota in Hk. subst data. exact H3.
  - vm_compute in EO. injection EO as <- <-.
    match type of HF with ?c ?fs = _ => assert (X : find_node ex_fs_key (snd (snd (c fs))) = Some (File (ex_counted 9 ++ ex_audio ++ ex_v1))) by (vm_compute; reflexivity) end.
    rewrite HF in X. cbn [snd] in X. rewrite X. intros E. apply (f_equal (fun x => match x with Some (File y) => nth 20 y 0 | _ => 0 end)) in E. vm_compute in E. discriminate E.
Qed.
Definition ex_jazz : genre_vm := mkGenreVm false false false true false false false false false false (Some 8) None None None None [B "f"].
Definition ex_rock : list anytag :=
  [A23 (mkTag23 (Some false) false None 0 [new_frame (mkFrame (B "TPE1") no_flags (BText (mkText 0 (B "Band")))); new_frame (mkFrame (B "TCON") no_flags (BText (mkText 0 (B "Rock"))));
                                           new_frame (mkFrame (B "TIT2") no_flags (BText (mkText 0 (B "Song"))))])].
Definition ex_rocking : fsys := [([B "m"], Dir); ([B "m"; B "f"], File (ex_tag1 ++ ex_audio ++ ex_v1))].
Definition ex_run_genre (vm : genre_vm) : FS N := run_genre no_zlib 3 (ex_env RenameOk) (fun _ => []) ex_world vm.
Example C90_genres_nontrivial : in_order no_zlib 3 ex_fs_key ex_audio ex_rocking ex_rock (Some ex_trailing) /\
  exists g p st fs', genre_options ex_world ex_jazz = Handled (Ok (Some (g, p))) /\ scope_fits p ex_rock /\ p_v1_scope p = true /\
  (forall i t, In (i, t) (with_index ex_rock) -> in_scope p i = true -> has_genre (w_ic ex_world) t /\ S_Cmds.storable (w_ic ex_world) (any_version t) E_UTF_8 (gc_text g)) /\
  text_for_genre (gc_number g) = Some (B "Jazz") /\ to_bytes (w_ic ex_world) (B "Jazz") E_UTF_8 E_ASCII false NoFail = Ok (B "Jazz") /\ p_backups p = true /\
  ex_run_genre ex_jazz ex_rocking = (st, (Ok 0, fs')) /\ moderate ex_fs_key fs' /\
  exists data', find_node ex_fs_key fs' = Some (File data') /\ takeN 55 data' = B "ID3" ++ [3; 0; 0; 0; 0; 0; 45] ++
    B "TPE1" ++ [0; 0; 0; 5; 0; 0; 0] ++ B "Band" ++ B "TCON" ++ [0; 0; 0; 5; 0; 0; 0] ++ B "Jazz" ++ B "TIT2" ++ [0; 0; 0; 5; 0; 0; 0] ++ B "Song" /\ last data' 0 = 8.
Proof.
  split.
  { exists (ex_tag1 ++ ex_audio ++ ex_v1), [mkHead 0 3 0 0 45]. split; [reflexivity|]. split; [vm_compute; reflexivity|]. split; [discriminate|].
    split; [|split; [|split]].
    - split; [split; [reflexivity|]; split|].
      + exists 0, 0, 0, 45. eexists. split; [vm_compute; reflexivity|]. repeat split; try discriminate; repeat constructor.
      + intros v r f sz (z0 & z1 & z2 & z3 & rest & E & _). apply (f_equal (fun l => nth 0 l 0)) in E. vm_compute in E. discriminate E.
      + split; [vm_compute; discriminate|]. exists ex_v1. split; vm_compute; reflexivity.
    - destruct ex_in_order as (? & ? & _ & _ & _ & _ & X & _). exact X.
    - constructor; [|constructor]. split; [|split; [repeat constructor|split; [reflexivity|discriminate]]]. split; [|exact Logic.I].
      repeat constructor; cbn; try discriminate; try (exists false, false, false; reflexivity); auto.
    - constructor; [discriminate|constructor]. }
  assert (EO : exists g p, genre_options ex_world ex_jazz = Handled (Ok (Some (g, p))) /\ gc_text g = B "Jazz" /\ gc_number g = 8 /\ p_v2_scope p = TagsAll /\ p_v1_scope p = true /\ p_backups p = true).
  { eexists _, _. split; [vm_compute; reflexivity|]. repeat split. }
  destruct EO as (g & p & EO & GT & GN & P2 & P1 & PB).
  exists g, p, (fst (ex_run_genre ex_jazz ex_rocking)), (snd (snd (ex_run_genre ex_jazz ex_rocking))).
  split; [exact EO|]. split; [unfold scope_fits; now rewrite P2|]. split; [exact P1|]. rewrite GT, GN. split; [|split; [reflexivity|split; [reflexivity|split; [exact PB|split; [|split; [|eexists; split; [|split]]]]]]].
  - intros i t M _. destruct M as [M|[]]. injection M as _ <-. split; [|apply ascii_storable; [apply ex_ascii|apply ex_ascii|discriminate]].
    split; [vm_compute; discriminate|]. intros f M. vm_compute in M. destruct M as [<-|[]]. exists (B "Rock"). eexists. split; reflexivity.
  - apply ran. vm_compute. reflexivity.
  - apply moderate_in. vm_compute. reflexivity.
  - vm_compute. reflexivity.
  - vm_compute. reflexivity.
  - vm_compute. reflexivity.
Qed.
