(** * Properties: commands applied to several files at once (C104). *)
From Verif Require Import Base M_Ints M_Stream M_Id3v1 M_Payload M_Url M_Cloud M_Frame M_Tag22 M_Tag23 M_Tag24 M_Charset M_TextId M_Lookup M_Genres M_Read M_Fs M_Tagset M_Process M_Popm M_Cmds M_Xtag M_Options M_Split
  S_Ints S_Id3v1 S_Url S_Cloud S_Read S_Tag S_Tag23 S_Tag24 S_Tagset S_Saved S_Process S_Popm S_Cmds S_Xtag S_Options S_Lookup S_Effect S_EffectX S_History S_Many
  L_Fs L_Backup L_Tagset L_Tagset5 L_M3u2 L_Cmds9 L_Effect2 L_EffectX L_History L_Many P_Tagset P_Cmds P_Xtag P_Effect P_EffectX P_History.
#[local] Open Scope N_scope.

(** ** C104.  popm, text, genre and xtag, whatever their options, whatever comes of the run
    and wherever it is interrupted, change nothing but the files among their arguments, and
    in the directories among these; a temporary file; and backups of these files. *)
Theorem C104_only_these : forall z passes e entries w loc r fs j s',
  (forall p, files e entries (arguments r) fs p -> well_named e p /\ ~ may_touch e p j) ->
  (forall p d, files e entries (arguments r) fs p -> dirs e entries (arguments r) fs d -> ~ may_touch e p (resolve (e_cwd e) d)) ->
  In s' (snd (snd (run_request z passes e entries w loc r fs)) :: fst (run_request z passes e entries w loc r fs)) -> find_node j s' = find_node j fs.
Proof. exact request_elsewhere. Qed.
Print Assumptions C104_only_these.

(** A run over several files does to each what is asked for, as if it were the only one. *)
Theorem C104_among_partial : forall z passes e entries w loc r fs st fs' path d n a v2 v1, let k := resolve (e_cwd e) path in
  crc_range z -> (0 < passes)%nat -> file_at e path d n -> 355 <= len a ->
  In path (arguments r) -> apart e fs (arguments r) -> asks w loc path (only path r) ->
  in_order z passes k a fs v2 v1 -> fits (w_ic w) r v2 v1 -> can_be_saved z w loc k fs (only path r) v2 v1 ->
  run_request z passes e entries w loc r fs = (st, (Ok 0, fs')) -> moderate k fs' ->
  exists v2' v1', in_order z passes k a fs' v2' v1' /\ effect (w_ic w) r v2 v1 v2' v1'.
Proof. exact request_among. Qed.
Print Assumptions C104_among_partial.

(** Any number of such runs, some of them for other files: the file has what those that are
    for it, among others, ask for. *)
Theorem C104_rounds_partial : forall z passes e entries w loc path d n a, let k := resolve (e_cwd e) path in
  crc_range z -> (0 < passes)%nat -> file_at e path d n -> 355 <= len a ->
  forall rs fs fs', rounds z passes e entries w loc path a rs fs fs' -> forall v2 v1, in_order z passes k a fs v2 v1 ->
  exists v2' v1', in_order z passes k a fs' v2' v1' /\ effects (w_ic w) rs v2 v1 v2' v1'.
Proof. exact rounds_effects. Qed.
Print Assumptions C104_rounds_partial.

(** ** Two songs, in the working directory *)
Definition ex_song : bytes := match find_node ex_fs_key ex_life_fs with Some (File d) => d | _ => [] end.
Definition ex_two : fsys := [([B "m"], Dir); ([B "m"; B "f"], File ex_song); ([B "m"; B "g"], File ex_song); ([B "m"; B "note"], File (B "milk"))].
Definition ex_both_vm : popm_vm := mkPopmVm false false true false false false false false None None None None None [B "f"; B "g"].
Definition ex_both_plays : request := Plays ex_both_vm (popm_part ex_both_vm).
Definition ex_ran (r : request) (fs : fsys) := run_request no_zlib 3 (ex_env RenameOk) (fun _ => []) ex_world (Ok E_UTF_8) r fs.

Lemma ex_triple {A C D} (x : A * (C * D)) : x = (fst x, (fst (snd x), snd (snd x))).
Proof. now destruct x as (? & ? & ?). Qed.
Lemma ex_named n : plain_name n -> hd 0 n <> 47 -> well_named (ex_env RenameOk) n.
Proof.
  intros PN H. split; [apply PN|]. split; [reflexivity|]. exists (B "/m"), n. split; [right; split; [reflexivity|discriminate]|]. split; [exact PN|].
  cbn [e_cwd ex_env]. unfold absolute. destruct n as [|c n]; [destruct PN as (_ & X & _); now elim X|]. cbn [hd] in H. apply N.eqb_neq in H. rewrite H. reflexivity.
Qed.
Lemma ex_plain c : c <> 47 -> c <> 46 -> plain_name [c].
Proof. intros A C. split; [intros [X|[]]; congruence|]. split; [discriminate|]. split; [congruence|discriminate]. Qed.
(** What may be changed on behalf of an entry of the working directory. *)
Lemma ex_touch n j : plain_name n -> hd 0 n <> 47 -> may_touch (ex_env RenameOk) n j ->
  j = [B "m"; n] \/ j = [B "tmp"; B "x"] \/ exists ds, ds <> [] /\ j = [B "m"; n ++ [46] ++ ds].
Proof.
  intros PN H T. pose proof (ex_named n PN H) as (_ & _ & d & n' & DP & PN' & AB).
  assert (E : absolute (B "/m") n = spelled (B "/m") n).
  { unfold absolute. destruct n as [|c n]; [destruct PN as (_ & X & _); now elim X|]. cbn [hd] in H. apply N.eqb_neq in H. rewrite H. reflexivity. }
  destruct T as [->|[->|(ds & D1 & D2 & ->)]].
  - left. unfold resolve. cbn [e_cwd ex_env]. rewrite E, (resolve_spelled (B "/m") n PN). reflexivity.
  - right. now left.
  - right. right. cbn [e_cwd ex_env]. rewrite E. destruct (is_backup_key (B "/m") n _ PN (ex_intro _ ds (conj D1 (conj D2 eq_refl)))) as (ds' & X & Y).
    exists ds'. split; [exact X|exact Y].
Qed.
Lemma ex_f_file : file_at (ex_env RenameOk) (B "g") (B "/m") (B "g").
Proof.
  split; [discriminate|]. split; [reflexivity|]. split; [right; split; [reflexivity|discriminate]|]. split; [apply ex_plain; discriminate|]. split; [reflexivity|].
  split; [cbn; intuition discriminate|discriminate].
Qed.
Lemma ex_apart fs data data' : find_node [B "m"; B "f"] fs = Some (File data) -> find_node [B "m"; B "g"] fs = Some (File data') -> apart (ex_env RenameOk) fs [B "f"; B "g"].
Proof.
  intros F G. split.
  - constructor; [|constructor; [|constructor]]; (split; [apply ex_named; [apply ex_plain; discriminate|discriminate]|eauto]).
  - constructor; [|constructor; constructor]. constructor; [|constructor].
    split; intros T; apply ex_touch in T; try (apply ex_plain; discriminate); try discriminate; destruct T as [T|[T|(ds & D & T)]]; discriminate T.
Qed.
Lemma ex_g_order fs : find_node [B "m"; B "g"] fs = Some (File ex_song) ->
  in_order no_zlib 3 [B "m"; B "g"] ex_audio fs (ex_life (B "Song") (B "Rock") 4 []) (Some ex_trailing).
Proof.
  intros F. destruct ex_life_order as (data & l & H & R). exists data, l. split; [|exact R]. rewrite F.
  change (find_node ex_fs_key ex_life_fs) with (Some (File ex_song)) in H. exact H.
Qed.
Example C104_among_nontrivial : exists st fs',
  In (B "g") (arguments ex_both_plays) /\ apart (ex_env RenameOk) ex_two (arguments ex_both_plays) /\
  asks ex_world (Ok E_UTF_8) (B "g") (only (B "g") ex_both_plays) /\
  in_order no_zlib 3 [B "m"; B "g"] ex_audio ex_two (ex_life (B "Song") (B "Rock") 4 []) (Some ex_trailing) /\
  fits (w_ic ex_world) ex_both_plays (ex_life (B "Song") (B "Rock") 4 []) (Some ex_trailing) /\
  can_be_saved no_zlib ex_world (Ok E_UTF_8) [B "m"; B "g"] ex_two (only (B "g") ex_both_plays) (ex_life (B "Song") (B "Rock") 4 []) (Some ex_trailing) /\
  ex_ran ex_both_plays ex_two = (st, (Ok 0, fs')) /\ moderate [B "m"; B "g"] fs' /\
  find_node [B "m"; B "f"] fs' <> Some (File ex_song) /\ find_node [B "m"; B "g"] fs' = find_node [B "m"; B "f"] fs' /\
  find_node [B "m"; B "g.1"] fs' = Some (File ex_song).
Proof.
  assert (AS : asks ex_world (Ok E_UTF_8) (B "g") (only (B "g") ex_both_plays)) by (split; [eexists; reflexivity|]; repeat split).
  set (r := ex_ran ex_both_plays ex_two). exists (fst r), (snd (snd r)).
  split; [right; now left|]. split; [exact (ex_apart ex_two _ _ eq_refl eq_refl)|]. split; [exact AS|]. split; [exact (ex_g_order ex_two eq_refl)|].
  split; [apply ex_room; [discriminate|reflexivity|now left]|]. split; [exact (saved_backed _ _ _ _ _ _ _ _ _ AS eq_refl)|].
  split; [|split; [|split; [|split]]].
  - assert (E : fst (snd r) = Ok 0) by (vm_compute; reflexivity). change (r = (fst r, (Ok 0, snd (snd r)))). rewrite <- E. now destruct r as (? & ? & ?).
  - apply moderate_in. vm_compute. reflexivity.
  - intros X. apply (f_equal (fun o => match o with Some (File d) => N.eqb (nth 50 d 0) 4 | _ => true end)) in X. vm_compute in X. discriminate X.
  - vm_compute. reflexivity.
  - vm_compute. reflexivity.
Qed.
(** The note next to them is left alone, whatever comes of the run. *)
Example C104_only_these_nontrivial :
  (forall p, files (ex_env RenameOk) (fun _ => []) (arguments ex_both_plays) ex_two p -> well_named (ex_env RenameOk) p /\ ~ may_touch (ex_env RenameOk) p [B "m"; B "note"]) /\
  (forall p d, files (ex_env RenameOk) (fun _ => []) (arguments ex_both_plays) ex_two p -> dirs (ex_env RenameOk) (fun _ => []) (arguments ex_both_plays) ex_two d -> ~ may_touch (ex_env RenameOk) p (resolve (B "/m") d)) /\
  find_node [B "m"; B "note"] ex_two = Some (File (B "milk")).
Proof.
  assert (V : forall p, visited (fun _ => []) [B "f"; B "g"] p -> p = B "f" \/ p = B "g").
  { intros p [q I|q q' _ I]; [destruct I as [<-|[<-|[]]]; auto|destruct I]. }
  split; [|split; [|reflexivity]].
  - intros p [Vp _]. apply V in Vp as [-> | ->]; (split; [apply ex_named; [apply ex_plain; discriminate|discriminate]|]);
      intros T; apply ex_touch in T; try (apply ex_plain; discriminate); try discriminate; destruct T as [T|[T|(ds & D & T)]]; discriminate T.
  - intros p d _ [Vd D]. apply V in Vd as [-> | ->]; vm_compute in D; discriminate D.
Qed.
(** A play for both, one for the first only, another one for both. *)
Definition ex_first : request := Plays (ex_plays None) (popm_part (ex_plays None)).
Lemma ex_first_files fs p : files (ex_env RenameOk) (fun _ => []) (arguments ex_first) fs p -> well_named (ex_env RenameOk) p /\ ~ may_touch (ex_env RenameOk) p [B "m"; B "g"].
Proof.
  intros [Vp _]. destruct Vp as [q I|q q' _ []]. destruct I as [<-|[]]. split; [apply ex_named; [apply ex_plain; discriminate|discriminate]|].
  intros T; apply ex_touch in T; try (apply ex_plain; discriminate); try discriminate; destruct T as [T|[T|(ds & D & T)]]; discriminate T.
Qed.
Lemma ex_first_dirs fs : is_dir fs [B "m"; B "f"] = false -> forall p d, files (ex_env RenameOk) (fun _ => []) (arguments ex_first) fs p ->
  dirs (ex_env RenameOk) (fun _ => []) (arguments ex_first) fs d -> ~ may_touch (ex_env RenameOk) p (resolve (B "/m") d).
Proof.
  intros H p d _ [Vd D]. destruct Vd as [q I|q q' _ []]. destruct I as [<-|[]]. change (is_dir fs [B "m"; B "f"] = true) in D. congruence.
Qed.
Example C104_rounds_nontrivial : exists fs', rounds no_zlib 3 (ex_env RenameOk) (fun _ => []) ex_world (Ok E_UTF_8) (B "g") ex_audio [ex_both_plays; ex_both_plays] ex_two fs' /\
  find_node [B "m"; B "g"] fs' <> find_node [B "m"; B "f"] fs'.
Proof.
  set (f1 := snd (snd (ex_ran ex_both_plays ex_two))). set (f2 := snd (snd (ex_ran ex_first f1))). set (f3 := snd (snd (ex_ran ex_both_plays f2))).
  assert (AS : asks ex_world (Ok E_UTF_8) (B "g") (only (B "g") ex_both_plays)) by (split; [eexists; reflexivity|]; repeat split).
  assert (RD : forall fs n v2 v1, match find_node [B "m"; B "g"] fs with Some (File d) => fst (ex_set d) | _ => [] end = ex_life (B "Song") (B "Rock") n [] ->
    in_order no_zlib 3 [B "m"; B "g"] ex_audio fs v2 v1 -> v2 = ex_life (B "Song") (B "Rock") n []).
  { intros fs n v2 v1 H (data & l & F & R & _). rewrite F in H. unfold ex_set in H. rewrite R in H. exact H. }
  assert (OK : forall r fs, fst (snd (ex_ran r fs)) = Ok 0 -> ex_ran r fs = (fst (ex_ran r fs), (Ok 0, snd (snd (ex_ran r fs))))).
  { intros r fs <-. now destruct (ex_ran r fs) as (? & ? & ?). }
  assert (S1 : match find_node [B "m"; B "g"] f2 with Some (File d) => fst (ex_set d) | _ => [] end = ex_life (B "Song") (B "Rock") 5 []) by (vm_compute; reflexivity).
  exists f3. split.
  - eapply Among with (fs1 := f1) (st := fst (ex_ran ex_both_plays ex_two)); [right; now left|exact (ex_apart ex_two _ _ eq_refl eq_refl)|exact AS| |apply OK; vm_compute; reflexivity|apply moderate_in; vm_compute; reflexivity|].
    { intros v2 v1 IO. rewrite (RD ex_two 4 v2 v1 eq_refl IO). split; [apply ex_room; [discriminate|reflexivity|now left]|exact (saved_backed _ _ _ _ _ _ _ _ _ AS eq_refl)]. }
    eapply Elsewhere with (r := ex_first) (fs1 := f2) (st := fst (ex_ran ex_first f1)) (o := fst (snd (ex_ran ex_first f1))).
    { exact (ex_first_files f1). }
    { apply ex_first_dirs. vm_compute. reflexivity. }
    { exact (ex_triple (ex_ran ex_first f1)). }
    assert (AP : exists d d', find_node [B "m"; B "f"] f2 = Some (File d) /\ find_node [B "m"; B "g"] f2 = Some (File d')) by (do 2 eexists; split; vm_compute; reflexivity).
    destruct AP as (d & d' & A1 & A2).
    eapply Among with (fs1 := f3) (st := fst (ex_ran ex_both_plays f2)); [right; now left|exact (ex_apart f2 _ _ A1 A2)|exact AS| |apply OK; vm_compute; reflexivity|apply moderate_in; vm_compute; reflexivity|].
    { intros v2 v1 IO. rewrite (RD f2 5 v2 v1 S1 IO). split; [apply ex_room; [discriminate|reflexivity|now left]|exact (saved_backed _ _ _ _ _ _ _ _ _ AS eq_refl)]. }
    apply NoRound. reflexivity.
  - intros X. apply (f_equal (fun o => match o with Some (File d) => Some (takeN 60 d) | _ => None end)) in X. vm_compute in X. discriminate X.
Qed.

(** ** Files do get in each other's way *)

(** In the working directory, a song "f" and another one, "f.1": the backup of the first is
    written over the second, which is then taken for it. *)
Definition ex_other : bytes := takeN 51 ex_song ++ repeatN 9 400.
Definition ex_clash : fsys := [([B "m"], Dir); ([B "m"; B "f"], File ex_song); ([B "m"; B "f.1"], File ex_other)].
Definition ex_clash_vm : popm_vm := mkPopmVm false false true false false false false false None None None None None [B "f"; B "f.1"].
Theorem C104_clash_refuted : exists st fs', ex_ran (Plays ex_clash_vm (popm_part ex_clash_vm)) ex_clash = (st, (Ok 0, fs')) /\
  find_node [B "m"; B "f.1"] ex_clash = Some (File ex_other) /\ In 9 ex_other /\
  Forall (fun x => match snd x with File d => ~ In 9 d | Dir => True end) fs'.
Proof.
  set (r := ex_ran (Plays ex_clash_vm (popm_part ex_clash_vm)) ex_clash). exists (fst r), (snd (snd r)). split; [|split; [reflexivity|split]].
  - assert (E : fst (snd r) = Ok 0) by (vm_compute; reflexivity). change (r = (fst r, (Ok 0, snd (snd r)))). rewrite <- E. now destruct r as (? & ? & ?).
  - unfold ex_other. apply in_or_app. right. vm_compute. now left.
  - assert (C : forallb (fun x => match snd x with File d => negb (existsb (fun c => c =? 9) d) | Dir => true end) (snd (snd r)) = true) by (vm_compute; reflexivity).
    rewrite forallb_forall in C. apply Forall_forall. intros x I. specialize (C x I). destruct (snd x) as [d|]; [|exact Logic.I].
    intros J. apply negb_true_iff in C. assert (Y : existsb (fun c => c =? 9) d = true) by (apply existsb_exists; exists 9; split; [exact J|reflexivity]). congruence.
Qed.
Print Assumptions C104_clash_refuted.
