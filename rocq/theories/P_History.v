(** * Properties: a file after any history of commands (C98). *)
From Verif Require Import Base M_Ints M_Stream M_Id3v1 M_Payload M_Url M_Cloud M_Frame M_Tag22 M_Tag23 M_Tag24 M_Charset M_TextId M_Lookup M_Genres M_Read M_Fs M_Tagset M_Process M_Popm M_Cmds M_Xtag M_Options
  S_Ints S_Id3v1 S_Url S_Cloud S_Read S_Tag S_Tag23 S_Tag24 S_Tagset S_Saved S_Process S_Popm S_Cmds S_Xtag S_Options S_Lookup S_Effect S_EffectX S_History
  L_M3u2 L_Cmds9 L_Effect2 L_EffectX L_History P_Tagset P_Cmds P_Xtag P_Effect P_EffectX.
#[local] Open Scope N_scope.

(** ** C98.  A file to which popm, text, genre and xtag are applied, any number of times and
    in any order, has the tags that the requests ask for, one after the other: each works
    on what the one before has left, as it can be read from the file. *)
Theorem C98_history_partial : forall z passes e entries w loc path d n a, let k := resolve (e_cwd e) path in
  crc_range z -> (0 < passes)%nat -> file_at e path d n -> 355 <= len a ->
  forall rs fs fs', history z passes e entries w loc path a rs fs fs' -> forall v2 v1, in_order z passes k a fs v2 v1 ->
  exists v2' v1', in_order z passes k a fs' v2' v1' /\ effects (w_ic w) rs v2 v1 v2' v1'.
Proof. exact history_effects. Qed.
Print Assumptions C98_history_partial.

(** Frames that none of the requests is about are in the file as they were, in the same
    order. *)
Theorem C98_rest_partial : forall z passes e entries w loc path d n a, let k := resolve (e_cwd e) path in
  crc_range z -> (0 < passes)%nat -> file_at e path d n -> 355 <= len a ->
  forall rs fs fs', history z passes e entries w loc path a rs fs fs' -> forall v2 v1, in_order z passes k a fs v2 v1 ->
  exists v2' v1', in_order z passes k a fs' v2' v1' /\ Forall2 (rest_same rs) v2 v2'.
Proof. exact history_rest. Qed.
Print Assumptions C98_rest_partial.

(** Every counter has been raised by the plays asked for in all of the runs, whatever the
    other runs did; the rating is the last one asked for. *)
Theorem C98_plays_partial : forall z passes e entries w loc path d n a, let k := resolve (e_cwd e) path in
  crc_range z -> (0 < passes)%nat -> file_at e path d n -> 355 <= len a ->
  forall rs fs fs', history z passes e entries w loc path a rs fs fs' -> forall v2 v1, in_order z passes k a fs v2 v1 ->
  exists v2' v1', in_order z passes k a fs' v2' v1' /\ Forall2 (all_played (w_ic w) rs) v2 v2'.
Proof. exact history_played. Qed.
Print Assumptions C98_plays_partial.

(** A text that was set is what all tags tell in the end, if no later request is about it;
    and so is a genre. *)
Theorem C98_last_text_partial : forall z passes e entries w loc path d n a before vm o after fs fs' v2 v1 k0 s, let k := resolve (e_cwd e) path in
  crc_range z -> (0 < passes)%nat -> file_at e path d n -> 355 <= len a ->
  history z passes e entries w loc path a (before ++ Texts vm o :: after) fs fs' -> in_order z passes k a fs v2 v1 -> In (k0, s) (to_sets o) ->
  (forall v r id, In r after -> frame_id_of v k0 = Ok id -> ~ about v r id) ->
  exists v2' v1', in_order z passes k a fs' v2' v1' /\ Forall2 (fun t t' => any_version t' = any_version t) v2 v2' /\
    Forall (fun t => exists id f, frame_id_of (any_version t) k0 = Ok id /\ In f (shown t) /\ f_id f = id /\ reads (w_ic w) (any_version t) (to_enc o) f s) v2'.
Proof. exact last_text. Qed.
Print Assumptions C98_last_text_partial.
Theorem C98_last_genre_partial : forall z passes e entries w loc path d n a before vm g p after fs fs' v2 v1, let k := resolve (e_cwd e) path in
  crc_range z -> (0 < passes)%nat -> file_at e path d n -> 355 <= len a ->
  history z passes e entries w loc path a (before ++ Genre vm g p :: after) fs fs' -> in_order z passes k a fs v2 v1 ->
  (forall v r, In r after -> ~ about v r (tcon_id v)) ->
  exists v2' v1', in_order z passes k a fs' v2' v1' /\ Forall2 (fun t t' => any_version t' = any_version t) v2 v2' /\
    forall i t, In (i, t) (with_index v2') -> in_scope p i = true -> exists f, In f (shown t) /\ f_id f = tcon_id (any_version t) /\ reads (w_ic w) (any_version t) E_UTF_8 f (gc_text g).
Proof. exact last_genre. Qed.
Print Assumptions C98_last_genre_partial.

(** With --create-backups the tags can always be saved. *)
Theorem C98_backups : forall z w loc path k fs r v2 v1, asks w loc path r -> with_backups r = true -> can_be_saved z w loc k fs r v2 v1.
Proof. exact saved_backed. Qed.
Print Assumptions C98_backups.

(** A file with a title, a genre and a play count; a play, another title, another genre, a
    tag cloud, all with backups, and five plays more, in place. *)
Definition ex_life (t g : bytes) (n : N) (rest : list frame) : list anytag :=
  [A23 (mkTag23 (Some false) false None 0
     (map new_frame ([mkFrame (B "TIT2") no_flags (BText (mkText 0 t)); mkFrame (B "TCON") no_flags (BText (mkText 0 g)); mkFrame (B "PCNT") no_flags (BCount [n])] ++ rest)))].
Definition ex_life_fs : fsys := [([B "m"], Dir); ([B "m"; B "f"], File ((B "ID3" ++ [3; 0; 0; 0; 0; 0; 41] ++
  B "TIT2" ++ [0; 0; 0; 5; 0; 0; 0] ++ B "Song" ++ B "TCON" ++ [0; 0; 0; 5; 0; 0; 0] ++ B "Rock" ++ B "PCNT" ++ [0; 0; 0; 1; 0; 0; 4]) ++ ex_audio ++ ex_v1))].
Definition ex_title_vm : text_vm := mkTextVm false false false true None None None None None (Some (B "Tune")) None None None None [B "f"].
Definition popm_part (vm : popm_vm) : popm_opts := match popm_options vm with Handled (Ok (o, _, _)) => o | _ => mkPopmOpts None PcntOnly None 0 false false end.
Definition text_part (vm : text_vm) : text_opts := match text_options (Ok E_UTF_8) vm with Handled (Ok (o, _)) => o | _ => mkTextOpts [] [] E_UTF_8 end.
Definition genre_part (vm : genre_vm) : genre_choice * policies := match genre_options ex_world vm with Handled (Ok (Some x)) => x | _ => (mkGenre 0 [], P_Cmds.ex_all) end.
Definition xtag_part (vm : xtag_vm) : policies := match xtag_options vm with Handled (Ok (_, p)) => p | _ => P_Cmds.ex_all end.
Definition ex_requests : list request :=
  [Plays (ex_plays None) (popm_part (ex_plays None)); Texts ex_title_vm (text_part ex_title_vm);
   Genre ex_jazz (fst (genre_part ex_jazz)) (snd (genre_part ex_jazz)); Clouds (to_put ex_merge ex_more) (xtag_part (to_put ex_merge ex_more)) ex_more;
   Plays ex_plain_plays (popm_part ex_plain_plays)].
Definition ex_step (r : request) (fs : fsys) : fsys := snd (snd (run_request no_zlib 3 (ex_env RenameOk) (fun _ => []) ex_world (Ok E_UTF_8) r fs)).
Definition ex_states : list fsys := fold_left (fun l r => l ++ [ex_step r (last l [])]) ex_requests [ex_life_fs].
Definition read_at (fs : fsys) : list anytag * option id3v1_tag := match find_node ex_fs_key fs with Some (File d) => ex_set d | _ => ([], None) end.
Lemma order_read a fs v2 v1 : in_order no_zlib 3 ex_fs_key a fs v2 v1 -> read_at fs = (v2, v1).
Proof. intros (data & l & H1 & H2 & _). unfold read_at. rewrite H1. unfold ex_set. now rewrite H2. Qed.
Lemma ex_then r rs fs fs' x2 : asks ex_world (Ok E_UTF_8) (B "f") r -> fst (read_at fs) = x2 -> (forall v1, fits (w_ic ex_world) r x2 v1) ->
  with_backups r = true \/ can_be_saved no_zlib ex_world (Ok E_UTF_8) ex_fs_key fs r x2 (snd (read_at fs)) ->
  fst (snd (run_request no_zlib 3 (ex_env RenameOk) (fun _ => []) ex_world (Ok E_UTF_8) r fs)) = Ok 0 ->
  match find_node ex_fs_key (ex_step r fs) with Some (File d) => len d <? 2 ^ 64 | _ => true end = true ->
  history no_zlib 3 (ex_env RenameOk) (fun _ => []) ex_world (Ok E_UTF_8) (B "f") ex_audio rs (ex_step r fs) fs' ->
  history no_zlib 3 (ex_env RenameOk) (fun _ => []) ex_world (Ok E_UTF_8) (B "f") ex_audio (r :: rs) fs fs'.
Proof.
  intros AS RD FT CS R0 M H. eapply Then; [exact AS| |apply ran; exact R0|apply moderate_in; exact M|reflexivity|exact H].
  intros v2 v1 IO. apply order_read in IO. rewrite IO in RD, CS. cbn [fst snd] in RD, CS. subst x2. split; [apply FT|].
  destruct CS as [WB|CS]; [exact (saved_backed _ _ _ _ _ _ _ _ _ AS WB)|exact CS].
Qed.
Example ex_life_order : in_order no_zlib 3 ex_fs_key ex_audio ex_life_fs (ex_life (B "Song") (B "Rock") 4 []) (Some ex_trailing).
Proof.
  eexists _, [mkHead 0 3 0 0 41]. split; [reflexivity|]. split; [vm_compute; reflexivity|]. split; [discriminate|].
  split; [|split; [|split]].
  - split; [split; [reflexivity|]; split|].
    + exists 0, 0, 0, 41. eexists. split; [vm_compute; reflexivity|]. repeat split; try discriminate; repeat constructor.
    + intros v r f sz (z0 & z1 & z2 & z3 & rest & E & _). apply (f_equal (fun l => nth 0 l 0)) in E. vm_compute in E. discriminate E.
    + split; [vm_compute; discriminate|]. exists ex_v1. split; vm_compute; reflexivity.
  - destruct ex_in_order as (? & ? & _ & _ & _ & _ & X & _). exact X.
  - constructor; [|constructor]. split; [|split; [repeat constructor|split; [reflexivity|discriminate]]]. split; [|exact Logic.I].
    repeat constructor; cbn; try discriminate; try (exists false, false, false; reflexivity); auto.
  - constructor; [discriminate|constructor].
Qed.
Definition ex_cloud_new : frame := mkFrame (B "XTAG") no_flags (BCloud (mkCloud (B "me") [(B "mood", [B "glad"])])).
Lemma ex_room o t g m x : m <= 5 -> o_count o < 100 -> x = [] \/ x = [ex_cloud_new] -> Forall (room_for (w_ic ex_world) o (o_count o)) (ex_life t g m x).
Proof.
  intros Hm L X. apply Forall_cons; [|apply Forall_nil]. intros f b I _ E.
  assert (Y : b = [m]). { destruct X as [-> | ->]; cbn in I; intuition (subst; cbn in E; congruence). }
  subst b. split; [constructor; [unfold is_byte; lia|constructor]|]. unfold positional. cbn [fold_left]. lia.
Qed.
Definition ex_head_ok (fs : fsys) : bool :=
  match find_node ex_fs_key fs with
  | Some (File d) => bytes_eqb (takeN 10 d) (B "ID3" ++ [3; 0; 0; 0; 0; 0; 69]) && bytes_eqb (takeN 3 (dropN 79 d)) [7; 7; 7]
  | _ => false
  end.
Lemma ex_saved fs : fst (read_at fs) = ex_life (B "Tune") (B "Jazz") 5 [ex_cloud_new] -> ex_head_ok fs = true ->
  can_be_saved no_zlib ex_world (Ok E_UTF_8) ex_fs_key fs (Plays ex_plain_plays (popm_part ex_plain_plays)) (ex_life (B "Tune") (B "Jazz") 5 [ex_cloud_new]) (snd (read_at fs)).
Proof.
  intros _ HK data l p ts FN TF [EO (d & u & s & PT)]. unfold ex_head_ok in HK. rewrite FN in HK. apply andb_true_iff in HK as [H1 H2]. apply bytes_eqb_eq in H1, H2.
  assert (E : tags_end 0 l = 79).
  { rewrite (tags_from_fun _ _ _ [mkHead 0 3 0 0 69] TF); [reflexivity|]. split; [reflexivity|]. split.
    - exists 0, 0, 0, 69, (dropN 10 data). split; [|repeat split; try discriminate; repeat constructor]. rewrite dropN_0. etransitivity; [symmetry; exact (takeN_dropN 10 data)|]. rewrite H1. reflexivity.
    - intros v r f sz (z0 & z1 & z2 & z3 & rest & X & _). change (0 + 10 + hd_size (mkHead 0 3 0 0 69)) with 79 in X. rewrite X in H2. discriminate H2. }
  rewrite E. clear - EO PT. injection EO as <-. destruct (snd (read_at fs)) as [v|]; vm_compute in PT; injection PT as _ <- _ _; right;
    (split; [reflexivity|]; split; [constructor; [reflexivity|constructor]|]; split; [left; constructor; [reflexivity|constructor]|];
     do 3 eexists; split; [vm_compute; reflexivity|]; split; [reflexivity|]; intros (t & r & _ & L & _); discriminate L).
Qed.
Example C98_history_nontrivial : exists fs',
  history no_zlib 3 (ex_env RenameOk) (fun _ => []) ex_world (Ok E_UTF_8) (B "f") ex_audio ex_requests ex_life_fs fs' /\
  fst (read_at fs') = ex_life (B "Tune") (B "Jazz") 10 [ex_cloud_new].
Proof.
  set (r1 := Plays (ex_plays None) (popm_part (ex_plays None))). set (r2 := Texts ex_title_vm (text_part ex_title_vm)).
  set (r3 := Genre ex_jazz (fst (genre_part ex_jazz)) (snd (genre_part ex_jazz))).
  set (r4 := Clouds (to_put ex_merge ex_more) (xtag_part (to_put ex_merge ex_more)) ex_more). set (r5 := Plays ex_plain_plays (popm_part ex_plain_plays)).
  change ex_requests with [r1; r2; r3; r4; r5].
  set (f0 := ex_life_fs). set (f1 := ex_step r1 f0). set (f2 := ex_step r2 f1). set (f3 := ex_step r3 f2). set (f4 := ex_step r4 f3). set (f5 := ex_step r5 f4).
  assert (R0 : fst (read_at f0) = ex_life (B "Song") (B "Rock") 4 []) by (vm_compute; reflexivity).
  assert (R1 : fst (read_at f1) = ex_life (B "Song") (B "Rock") 5 []) by (vm_compute; reflexivity).
  assert (R2 : fst (read_at f2) = ex_life (B "Tune") (B "Rock") 5 []) by (vm_compute; reflexivity).
  assert (R3 : fst (read_at f3) = ex_life (B "Tune") (B "Jazz") 5 []) by (vm_compute; reflexivity).
  assert (R4 : fst (read_at f4) = ex_life (B "Tune") (B "Jazz") 5 [ex_cloud_new]) by (vm_compute; reflexivity).
  assert (R5 : fst (read_at f5) = ex_life (B "Tune") (B "Jazz") 10 [ex_cloud_new]) by (vm_compute; reflexivity).
  assert (H4 : ex_head_ok f4 = true) by (vm_compute; reflexivity).
  exists f5. split; [|exact R5].
  apply (ex_then r1 _ _ _ _) with (2 := R0).
  { split; [eexists; reflexivity|]. repeat split. }
  { intros v1. apply ex_room; [discriminate|reflexivity|now left]. }
  { left. reflexivity. }
  { vm_compute. reflexivity. }
  { vm_compute. reflexivity. }
  fold f1. apply (ex_then r2 _ _ _ _) with (2 := R1).
  { split; [eexists; reflexivity|]. repeat split; vm_compute; repeat constructor; intuition discriminate. }
  { intros v1. constructor; [|constructor]. split; [|split; [|split]].
    - intros k M. vm_compute in M. destruct M as [<-|[]]; eexists; (split; [reflexivity|reflexivity]).
    - intros id M. vm_compute in M. destruct M.
    - intros i j a b p q f g A _ _. vm_compute in A. destruct i; discriminate A.
    - apply Forall_cons; [|apply Forall_nil]; cbn [snd]; (apply ascii_storable; [apply ex_ascii|apply ex_ascii|discriminate]). }
  { left. reflexivity. }
  { vm_compute. reflexivity. }
  { vm_compute. reflexivity. }
  fold f2. apply (ex_then r3 _ _ _ _) with (2 := R2).
  { split; [vm_compute; reflexivity|]. repeat split. exists (B "Jazz"). split; vm_compute; reflexivity. }
  { intros v1. split; [exact Logic.I|]. split; [intros _; vm_compute; reflexivity|].
    intros i t M _. destruct M as [M|[]]. injection M as _ <-. split; [|apply ascii_storable; [apply ex_ascii|apply ex_ascii|discriminate]].
    split; [vm_compute; discriminate|]. intros f M. vm_compute in M. destruct M as [<-|[]]. exists (B "Rock"). eexists. split; reflexivity. }
  { left. reflexivity. }
  { vm_compute. reflexivity. }
  { vm_compute. reflexivity. }
  fold f3. apply (ex_then r4 _ _ _ _) with (2 := R3).
  { split; [eexists; vm_compute; reflexivity|]. destruct C90_merges_nontrivial as (_ & FL & _ & OW & _). apply Forall_cons_iff in FL as [_ FL]. apply Forall_cons_iff in FL as [(A & C & D & E) _].
    repeat (split; [reflexivity || assumption|]). exact OW. }
  { intros v1. split; [exact Logic.I|]. intros i t M _. destruct M as [M|[]]. injection M as _ <-. split; [reflexivity|]. intros f c k s I X J. cbn in I. destruct I as [<-|[<-|[<-|[]]]]; destruct X as (X & _); discriminate X. }
  { left. reflexivity. }
  { vm_compute. reflexivity. }
  { vm_compute. reflexivity. }
  fold f4. apply (ex_then r5 _ _ _ _) with (2 := R4).
  { split; [eexists; reflexivity|]. repeat split. }
  { intros v1. apply ex_room; [discriminate|reflexivity|now right]. }
  { right. exact (ex_saved f4 R4 H4). }
  { vm_compute. reflexivity. }
  { vm_compute. reflexivity. }
  fold f5. apply Begun.
Qed.
Example C98_last_nontrivial :
  (exists vm o after, ex_requests = firstn 1 ex_requests ++ Texts vm o :: after /\ In (tf_tit2, B "Tune") (to_sets o) /\
     forall v r id, In r after -> frame_id_of v tf_tit2 = Ok id -> ~ about v r id) /\
  (exists vm g p after, ex_requests = firstn 2 ex_requests ++ Genre vm g p :: after /\ gc_text g = B "Jazz" /\ in_scope p 0 = true /\
     forall v r, In r after -> ~ about v r (tcon_id v)).
Proof.
  split.
  - eexists _, _, _. split; [reflexivity|]. split; [left; vm_compute; reflexivity|]. intros v r id I E. destruct I as [<-|[<-|[<-|[]]]]; destruct v; vm_compute in E; injection E as <-; vm_compute; intuition discriminate.
  - eexists _, _, _, _. split; [reflexivity|]. split; [vm_compute; reflexivity|]. split; [vm_compute; reflexivity|].
    intros v r I. destruct I as [<-|[<-|[]]]; destruct v; vm_compute; intuition discriminate.
Qed.
Example C98_plays_nontrivial : played (w_ic ex_world) V23 (mkFrame (B "PCNT") no_flags (BCount [4])) ex_requests 6 None /\
  counters (nth 0 (ex_life (B "Song") (B "Rock") 4 []) (A23 (mkTag23 None false None 0 []))) = [mkFrame (B "PCNT") no_flags (BCount [4])] /\
  counters (nth 0 (ex_life (B "Tune") (B "Jazz") 10 [ex_cloud_new]) (A23 (mkTag23 None false None 0 []))) = [mkFrame (B "PCNT") no_flags (BCount [10])].
Proof.
  split; [|split; reflexivity]. assert (Nm : forall n, named (w_ic ex_world) V23 (popm_part (ex_plays n)) (mkFrame (B "PCNT") no_flags (BCount [4]))).
  { intros n. left. split; [reflexivity|]. destruct n; vm_compute; discriminate. }
  assert (Np : named (w_ic ex_world) V23 (popm_part ex_plain_plays) (mkFrame (B "PCNT") no_flags (BCount [4]))) by (left; split; [reflexivity|vm_compute; discriminate]).
  assert (P5 := PlayedMore (w_ic ex_world) V23 (mkFrame (B "PCNT") no_flags (BCount [4])) ex_plain_plays (popm_part ex_plain_plays) [] 0 None Np (Unplayed _ _ _)).
  change (o_count (popm_part ex_plain_plays) + 0) with 5 in P5. change (o_rating (popm_part ex_plain_plays)) with (@None N) in P5. cbv iota in P5.
  refine (PlayedMore _ _ _ _ _ _ 5 None (Nm None) _). apply NotPlays; [discriminate|]. apply NotPlays; [discriminate|]. apply NotPlays; [discriminate|]. exact P5.
Qed.
