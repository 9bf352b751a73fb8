(** * Properties: sessions of command lines on a file (C102). *)
From Verif Require Import Base M_Ints S_Ints M_Stream M_Id3v1 M_Payload M_Cloud M_Frame M_Tag22 M_Tag23 M_Tag24 M_Charset M_TextId M_Lookup M_Genres M_Mp3 M_Track M_Read M_Fs M_Tagset M_Process M_Popm M_Cmds M_Xtag M_Options M_Main M_Split
  M_Csv M_Report M_Tbt M_Rename M_M3u M_Dump M_Outputs M_Naming
  M_Po S_Po M_Program S_Program L_Program S_Asked L_Asked S_Cloud S_Read S_Tagset S_Process S_Lookup S_Popm S_Cmds S_Xtag S_Options S_Effect S_EffectX S_History L_Cmds9 L_History S_Many L_Many S_Session S_Saved S_Tag S_Tag23 P_Program P_Po P_Tagset P_Cmds P_Effect P_EffectX P_AskedFiles P_History P_Many.
#[local] Open Scope N_scope.

Section Session.
Context (z : zlib) (passes : nat) (md5 : bytes -> bytes) (e : env) (entries below : bytes -> list bytes) (w : world) (ct : ctype)
        (broken : bytes -> option nat) (blind : rfile -> outcome unit) (loc : outcome enc) (stamp : bytes -> bytes)
        (regex : bytes -> outcome (bytes -> bool)) (helped : help_level * option verbose_flavor -> N)
        (page : bytes -> N) (guile : list bytes -> FS N) (prog : bytes).
Notation program := (program z passes md5 e entries below w ct broken blind loc stamp regex helped page guile prog).
Notation cwd := (e_cwd e).
Notation sessions := (session program z passes e entries w loc).
Notation histories := (history z passes e entries w loc).
Notation runs_as := (C96_runs z passes md5 e entries below w ct broken blind loc stamp regex helped page guile).

(** A line for a request runs the request. *)
Lemma line_runs argv vars r fs : means argv vars r -> program argv vars fs = run_request z passes e entries w loc r fs.
Proof.
  destruct r as [vm o|vm o|vm g p|vm p l]; intros (rest & cl & Ru & O & A); cbn [run_request].
  - rewrite (runs_as "popm"%string (popm_command z passes e entries w helped) prog rest argv vars fs); [|cbn; tauto|exact Ru].
    exact (popm_goes z passes e entries w helped rest cl vars vm fs O A).
  - rewrite (runs_as "text"%string (text_command z passes e entries w helped loc) prog rest argv vars fs); [|cbn; tauto|exact Ru].
    exact (text_goes z passes e entries w loc helped rest cl vars vm fs O A).
  - rewrite (runs_as "genre"%string (genre_command z passes e entries w helped) prog rest argv vars fs); [|cbn; tauto|exact Ru].
    exact (genre_goes z passes e entries w helped rest cl vars vm fs O A).
  - rewrite (runs_as "xtag"%string (xtag_command z passes e entries w helped) prog rest argv vars fs); [|cbn; tauto|exact Ru].
    exact (xtag_goes z passes e entries w helped rest cl vars vm fs O A).
Qed.
(** Lines that only look leave the file as it is, whatever comes of them. *)
Lemma looked_same path argv vars fs st o fs1 : looks cwd path argv vars fs -> program argv vars fs = (st, (o, fs1)) ->
  find_node (resolve cwd path) fs1 = find_node (resolve cwd path) fs.
Proof.
  intros L P.
  assert (U : untouched (program argv vars fs) fs -> fs1 = fs) by (rewrite P; intros (_ & E); exact E).
  assert (Sp : forall Q : key -> Prop, spared Q (program argv vars fs) fs -> Q (resolve cwd path) -> find_node (resolve cwd path) fs1 = find_node (resolve cwd path) fs).
  { intros Q H Hq. rewrite P in H. apply (H fs1); [now left|exact Hq]. }
  destruct L as [name rest I R|rest cl R L N1|name T rest I R D|name T rest cl p I R L J N1 N2 N3 N4|rest cl s data R O Wp Ws F Ld Ns Np].
  - rewrite U; [reflexivity|]. exact (C96_reading z passes md5 e entries below w ct broken blind loc stamp regex helped page guile name prog rest argv vars fs I R).
  - rewrite U; [reflexivity|]. exact (C96_stdout z passes md5 e entries below w ct broken blind loc stamp regex helped page guile prog rest cl argv vars fs R L N1).
  - rewrite U; [reflexivity|]. exact (C96_dry_run z passes md5 e entries below w ct broken blind loc stamp regex helped page guile name T prog rest argv vars fs I R D).
  - apply (Sp (fun k => k <> resolve cwd p)); [|exact N4].
    exact (C96_one_file z passes md5 e entries below w ct broken blind loc stamp regex helped page guile name T prog rest cl argv vars fs p I R L J N1 N2 N3).
  - apply (Sp (fun k => k = resolve cwd path \/ S_Split.no_piece cwd s k)); [|now left].
    exact (proj1 (C96_split z passes md5 e entries below w ct broken blind loc stamp regex helped page guile prog rest cl argv vars fs path s data R O Wp Ws F Ld Ns Np)).
Qed.
Lemma sub_command name : In name sub_commands -> exists f, In (B name, f) (handlers z passes md5 e entries below w ct broken blind loc stamp regex helped).
Proof. intros I. cbn in I. repeat (destruct I as [<-|I]; [eexists; cbn; tauto|]). destruct I. Qed.
(** Nor do lines that are refused. *)
Lemma refused_same name rest argv vars fs st fs1 : (forall h, helped h <= 1) -> (forall p, page p <= 1) -> In name sub_commands -> runs name rest argv ->
  program argv vars fs = (st, (Ok 2, fs1)) -> fs1 = fs.
Proof.
  intros Hh Hp I R P. destruct (sub_command name I) as (f & If).
  destruct (C96_status z passes md5 e entries below w ct broken blind loc stamp regex helped page guile prog argv vars fs Hh Hp) as [T|(_ & T)].
  - rewrite P in T. destruct (T 2 eq_refl) as (_ & E). destruct (E eq_refl) as (_ & E'). exact E'.
  - exfalso. exact (T name rest f R If).
Qed.

(** A session is a history of its requests. *)
Lemma session_history path a ls rs fs fs' : (forall h, helped h <= 1) -> (forall p, page p <= 1) -> sessions path a ls rs fs fs' ->
  exists f f', find_node (resolve cwd path) f = find_node (resolve cwd path) fs /\ find_node (resolve cwd path) f' = find_node (resolve cwd path) fs' /\
    histories path a rs f f'.
Proof.
  intros Hh Hp H.
  induction H as [fs|ls rs fs fs1 fs' Sn H IH|argv vars r ls rs fs st fs1 fs' M A F P Md H IH|argv vars r ls rs fs st fs1 fs' M J Ap A F P Md H IH|argv vars r ls rs fs st o fs1 fs' M F D P H IH|argv vars ls rs fs st o fs1 fs' L P H IH|argv vars name rest ls rs fs st fs1 fs' I R P H IH].
  - exists fs, fs. repeat split. constructor.
  - destruct IH as (f & f' & E & E' & IH). exists f, f'. rewrite E. auto.
  - destruct IH as (f & f' & E & E' & IH). exists fs, f'. split; [reflexivity|]. split; [exact E'|].
    rewrite (line_runs argv vars r fs M) in P. exact (Then z passes e entries w loc path a r rs fs st fs1 f f' A F P Md E IH).
  - destruct IH as (f & f' & E & E' & IH). rewrite (line_runs argv vars r fs M) in P.
    destruct (among z passes e entries w loc r fs st fs1 path Ap J P A) as (f0 & st' & f1 & E1 & E2 & E3).
    exists f0, f'. split; [exact E1|]. split; [exact E'|]. refine (Then z passes e entries w loc path a (only path r) rs f0 st' f1 f f' A _ E2 _ _ IH).
    + intros v2 v1 IO. destruct (F v2 v1) as [X C]; [exact (order_same _ _ _ _ _ _ _ _ (eq_sym E1) IO)|].
      split; [now apply fits_only|exact (saved_node _ _ _ _ _ _ _ _ _ E1 C)].
    + exact (moderate_node _ _ _ (eq_sym E3) Md).
    + rewrite E. exact E3.
  - destruct IH as (f & f' & E & E' & IH). exists f, f'. split; [|auto]. rewrite E. rewrite (line_runs argv vars r fs M) in P.
    apply (request_elsewhere z passes e entries w loc r fs (resolve cwd path) fs1 F D). rewrite P. now left.
  - destruct IH as (f & f' & E & E' & IH). exists f, f'. rewrite E, (looked_same path argv vars fs st o fs1 L P). auto.
  - destruct IH as (f & f' & E & E' & IH). exists f, f'. rewrite E, (refused_same name rest argv vars fs st fs1 Hh Hp I R P). auto.
Qed.
Lemma order_node k a fs fs1 v2 v1 : find_node k fs1 = find_node k fs -> S_Effect.in_order z passes k a fs v2 v1 -> S_Effect.in_order z passes k a fs1 v2 v1.
Proof. intros E (data & l & F & H). exists data, l. rewrite E. auto. Qed.

Section One.
Context (path d a : bytes) (n : bytes) (Hh : forall h, helped h <= 1) (Hp : forall p, page p <= 1)
        (Cr : crc_range z) (Ps : (0 < passes)%nat) (Fa : file_at e path d n) (La : 355 <= len a).
Notation k := (resolve cwd path).
Notation ordered := (S_Effect.in_order z passes k a).

Lemma session_through (Q : list anytag -> option id3v1_tag -> Prop) rs fs fs' ls v2 v1 : sessions path a ls rs fs fs' -> ordered fs v2 v1 ->
  (forall f f', histories path a rs f f' -> ordered f v2 v1 -> exists v2' v1', ordered f' v2' v1' /\ Q v2' v1') ->
  exists v2' v1', ordered fs' v2' v1' /\ Q v2' v1'.
Proof.
  intros S0 O H. destruct (session_history path a ls rs fs fs' Hh Hp S0) as (f & f' & E & E' & Hi).
  destruct (H f f' Hi (order_node _ _ _ _ _ _ E O)) as (v2' & v1' & O' & R). exists v2', v1'. split; [|exact R].
  exact (order_node _ _ _ _ _ _ (eq_sym E') O').
Qed.

(** What becomes of the tags is what the requests ask for, one after the other, and nothing
    else, whatever other lines there are. *)
Theorem C102_session_partial : forall ls rs fs fs', sessions path a ls rs fs fs' -> forall v2 v1, ordered fs v2 v1 ->
  exists v2' v1', ordered fs' v2' v1' /\ effects (w_ic w) rs v2 v1 v2' v1'.
Proof.
  intros ls rs fs fs' H v2 v1 O. apply (session_through _ rs fs fs' ls v2 v1 H O). intros f f' Hi Of.
  exact (C98_history_partial z passes e entries w loc path d n a Cr Ps Fa La rs f f' Hi v2 v1 Of).
Qed.
Theorem C102_rest_partial : forall ls rs fs fs', sessions path a ls rs fs fs' -> forall v2 v1, ordered fs v2 v1 ->
  exists v2' v1', ordered fs' v2' v1' /\ Forall2 (rest_same rs) v2 v2'.
Proof.
  intros ls rs fs fs' H v2 v1 O. apply (session_through (fun v2' _ => Forall2 (rest_same rs) v2 v2') rs fs fs' ls v2 v1 H O). intros f f' Hi Of.
  exact (C98_rest_partial z passes e entries w loc path d n a Cr Ps Fa La rs f f' Hi v2 v1 Of).
Qed.
Theorem C102_plays_partial : forall ls rs fs fs', sessions path a ls rs fs fs' -> forall v2 v1, ordered fs v2 v1 ->
  exists v2' v1', ordered fs' v2' v1' /\ Forall2 (all_played (w_ic w) rs) v2 v2'.
Proof.
  intros ls rs fs fs' H v2 v1 O. apply (session_through (fun v2' _ => Forall2 (all_played (w_ic w) rs) v2 v2') rs fs fs' ls v2 v1 H O). intros f f' Hi Of.
  exact (C98_plays_partial z passes e entries w loc path d n a Cr Ps Fa La rs f f' Hi v2 v1 Of).
Qed.
Theorem C102_last_text_partial : forall ls before vm o after fs fs' v2 v1 k0 s,
  sessions path a ls (before ++ Texts vm o :: after) fs fs' -> ordered fs v2 v1 -> In (k0, s) (to_sets o) ->
  (forall v r id, In r after -> frame_id_of v k0 = Ok id -> ~ about v r id) ->
  exists v2' v1', ordered fs' v2' v1' /\ Forall2 (fun t t' => any_version t' = any_version t) v2 v2' /\
    Forall (fun t => exists id f, frame_id_of (any_version t) k0 = Ok id /\ In f (shown t) /\ f_id f = id /\ reads (w_ic w) (any_version t) (to_enc o) f s) v2'.
Proof.
  intros ls before vm o after fs fs' v2 v1 k0 s H O I Ab.
  apply (session_through (fun v2' _ => Forall2 (fun t t' => any_version t' = any_version t) v2 v2' /\
    Forall (fun t => exists id f, frame_id_of (any_version t) k0 = Ok id /\ In f (shown t) /\ f_id f = id /\ reads (w_ic w) (any_version t) (to_enc o) f s) v2') _ fs fs' ls v2 v1 H O).
  intros f f' Hi Of. exact (C98_last_text_partial z passes e entries w loc path d n a before vm o after f f' v2 v1 k0 s Cr Ps Fa La Hi Of I Ab).
Qed.
Theorem C102_last_genre_partial : forall ls before vm g p after fs fs' v2 v1,
  sessions path a ls (before ++ Genre vm g p :: after) fs fs' -> ordered fs v2 v1 ->
  (forall v r, In r after -> ~ about v r (tcon_id v)) ->
  exists v2' v1', ordered fs' v2' v1' /\ Forall2 (fun t t' => any_version t' = any_version t) v2 v2' /\
    forall i t, In (i, t) (with_index v2') -> in_scope p i = true -> exists f, In f (shown t) /\ f_id f = tcon_id (any_version t) /\ reads (w_ic w) (any_version t) E_UTF_8 f (gc_text g).
Proof.
  intros ls before vm g p after fs fs' v2 v1 H O Ab.
  apply (session_through (fun v2' _ => Forall2 (fun t t' => any_version t' = any_version t) v2 v2' /\
    forall i t, In (i, t) (with_index v2') -> in_scope p i = true -> exists f, In f (shown t) /\ f_id f = tcon_id (any_version t) /\ reads (w_ic w) (any_version t) E_UTF_8 f (gc_text g)) _ fs fs' ls v2 v1 H O).
  intros f f' Hi Of. exact (C98_last_genre_partial z passes e entries w loc path d n a before vm g p after f f' v2 v1 Cr Ps Fa La Hi Of Ab).
Qed.
End One.

(** A session of lines none of which is for a request leaves the file as it was. *)
Theorem C102_only_looked : (forall h, helped h <= 1) -> (forall p, page p <= 1) -> forall path a ls fs fs', sessions path a ls [] fs fs' ->
  find_node (resolve cwd path) fs' = find_node (resolve cwd path) fs.
Proof.
  intros Hh Hp path a ls fs fs' H. destruct (session_history path a ls [] fs fs' Hh Hp H) as (f & f' & E & E' & Hi).
  inversion Hi; subst. now rewrite <- E, <- E'.
Qed.
End Session.
Print Assumptions C102_session_partial.
Print Assumptions C102_rest_partial.
Print Assumptions C102_plays_partial.
Print Assumptions C102_last_text_partial.
Print Assumptions C102_last_genre_partial.
Print Assumptions C102_only_looked.

(** A case in point: "dump f", "popm -b --increment=2 f", "split" (which is refused) and
    "text -b --title=Tune f". *)
Definition ex_lines : list (list bytes * list (bytes * bytes)) :=
  [([B "dump"; B "f"], []); ([B "popm"; B "-b"; B "--increment=2"; B "f"], []); ([B "split"], []); ([B "text"; B "-b"; B "--title=Tune"; B "f"], [])].
Definition ex_asked : list request := [Plays (ex_plays (Some 2)) (popm_part (ex_plays (Some 2))); Texts ex_title_vm (text_part ex_title_vm)].
Lemma plain_line name rest : runs name rest (B name :: rest).
Proof. exists []. split; [constructor|reflexivity]. Qed.
Lemma ex_popm_means : means [B "popm"; B "-b"; B "--increment=2"; B "f"] [] (Plays (ex_plays (Some 2)) (popm_part (ex_plays (Some 2)))).
Proof. destruct C97_plays_nontrivial as (O & A). eexists _, _. split; [apply plain_line|]. split; [exact O|exact A]. Qed.
Lemma ex_title_means : means [B "text"; B "-b"; B "--title=Tune"; B "f"] [] (Texts ex_title_vm (text_part ex_title_vm)).
Proof.
  exists [B "-b"; B "--title=Tune"; B "f"], [(B "create-backups", []); (B "title", [B "Tune"]); (B "arguments", [B "f"])]. split; [apply (plain_line "text")|]. split.
  - ordered. flag text_tables "b"%string (switch "create-backups" "b"). valued text_tables "title"%string "Tune"%string (option_of KText "title" "T"). argument text_tables "f"%string. constructor.
  - unfold text_asks, ex_title_vm. cbn [option_map tv_adjust tv_always tv_create tv_backups tv_encoding tv_album tv_artist tv_encoded_by tv_genre tv_title tv_track tv_year tv_delete tv_tag tv_args].
    repeat (split; [asked|]). asked.
Qed.
Example C102_session_nontrivial : forall md5 below ct broken blind stamp regex helped page guile prog, exists fs',
  session (program no_zlib 3 md5 (ex_env RenameOk) (fun _ => []) below ex_world ct broken blind (Ok E_UTF_8) stamp regex helped page guile prog)
    no_zlib 3 (ex_env RenameOk) (fun _ => []) ex_world (Ok E_UTF_8) (B "f") ex_audio ex_lines ex_asked ex_life_fs fs' /\
  fst (read_at fs') = ex_life (B "Tune") (B "Rock") 6 [].
Proof.
  intros md5 below ct broken blind stamp regex helped page guile prog.
  set (r1 := Plays (ex_plays (Some 2)) (popm_part (ex_plays (Some 2)))). set (r2 := Texts ex_title_vm (text_part ex_title_vm)).
  set (f0 := ex_life_fs). set (f1 := ex_step r1 f0). set (f2 := ex_step r2 f1).
  assert (R0 : fst (read_at f0) = ex_life (B "Song") (B "Rock") 4 []) by (vm_compute; reflexivity).
  assert (R1 : fst (read_at f1) = ex_life (B "Song") (B "Rock") 6 []) by (vm_compute; reflexivity).
  assert (R2 : fst (read_at f2) = ex_life (B "Tune") (B "Rock") 6 []) by (vm_compute; reflexivity).
  assert (A1 : asks ex_world (Ok E_UTF_8) (B "f") r1) by (split; [eexists; reflexivity|]; repeat split).
  assert (A2 : asks ex_world (Ok E_UTF_8) (B "f") r2).
  { split; [eexists; reflexivity|]. repeat split; vm_compute; repeat constructor; intuition discriminate. }
  assert (S1 : fst (snd (run_request no_zlib 3 (ex_env RenameOk) (fun _ => []) ex_world (Ok E_UTF_8) r1 f0)) = Ok 0) by (vm_compute; reflexivity).
  assert (S2 : fst (snd (run_request no_zlib 3 (ex_env RenameOk) (fun _ => []) ex_world (Ok E_UTF_8) r2 f1)) = Ok 0) by (vm_compute; reflexivity).
  assert (M1 : match find_node ex_fs_key f1 with Some (File d) => len d <? 2 ^ 64 | _ => true end = true) by (vm_compute; reflexivity).
  assert (M2 : match find_node ex_fs_key f2 with Some (File d) => len d <? 2 ^ 64 | _ => true end = true) by (vm_compute; reflexivity).
  exists f2. split; [|exact R2]. unfold ex_lines, ex_asked. fold r1 r2.
  set (p := program no_zlib 3 md5 (ex_env RenameOk) (fun _ => []) below ex_world ct broken blind (Ok E_UTF_8) stamp regex helped page guile prog).
  assert (D : forall fs, p [B "dump"; B "f"] [] fs = ([], (fst (snd (p [B "dump"; B "f"] [] fs)), fs))).
  { intros fs. destruct (C96_reading no_zlib 3 md5 (ex_env RenameOk) (fun _ => []) below ex_world ct broken blind (Ok E_UTF_8) stamp regex helped page guile "dump" prog [B "f"] [B "dump"; B "f"] [] fs ltac:(now left) (plain_line "dump" _)) as (U1 & U2).
    fold p in U1, U2. destruct (p [B "dump"; B "f"] [] fs) as [st [o fs1]]. cbn [fst snd] in *. now subst. }
  eapply Looked; [apply (Shows _ _ _ _ _ "dump" [B "f"]); [now left|apply (plain_line "dump")]|apply D|].
  eapply Changed; [exact ex_popm_means|exact A1| |unfold p; rewrite (line_runs _ _ _ _ _ _ _ _ _ _ _ _ _ _ _ _ _ _ _ _ _ ex_popm_means); apply ran; exact S1|apply moderate_in; exact M1|].
  { intros v2 v1 IO. pose proof (order_read _ _ _ _ IO) as E. rewrite E in R0. cbn [fst] in R0. subst v2. split; [|exact (C98_backups _ _ _ _ _ _ _ _ _ A1 eq_refl)].
    apply ex_room; [discriminate|reflexivity|now left]. }
  change (session p no_zlib 3 (ex_env RenameOk) (fun _ => []) ex_world (Ok E_UTF_8) (B "f") ex_audio [([B "split"], []); ([B "text"; B "-b"; B "--title=Tune"; B "f"], [])] [r2] f1 f2).
  eapply Refused; [|apply (plain_line "split")| |].
  { cbn. tauto. }
  { destruct C96_split_one_nontrivial as (L & NH & N1).
    exact (C96_split_one no_zlib 3 md5 (ex_env RenameOk) (fun _ => []) below ex_world ct broken blind (Ok E_UTF_8) stamp regex helped page guile prog [] [] [B "split"] [] f1 (plain_line "split" []) L NH N1). }
  eapply Changed; [exact ex_title_means|exact A2| |unfold p; rewrite (line_runs _ _ _ _ _ _ _ _ _ _ _ _ _ _ _ _ _ _ _ _ _ ex_title_means); apply ran; exact S2|apply moderate_in; exact M2|apply Opened].
  intros v2 v1 IO. pose proof (order_read _ _ _ _ IO) as E. rewrite E in R1. cbn [fst] in R1. subst v2. split; [|exact (C98_backups _ _ _ _ _ _ _ _ _ A2 eq_refl)].
  constructor; [|constructor]. split; [|split; [|split]].
  - intros k M. vm_compute in M. destruct M as [<-|[]]; eexists; (split; [reflexivity|reflexivity]).
  - intros id M. vm_compute in M. destruct M.
  - intros i j a b p0 q f g A _ _. vm_compute in A. destruct i; discriminate A.
  - apply Forall_cons; [|apply Forall_nil]; cbn [snd]; (apply ascii_storable; [apply ex_ascii|apply ex_ascii|discriminate]).
Qed.

(** Another one, with a second song: "popm -b f g", "popm -b f"; what they are to "g". *)
Lemma ex_both_means : means [B "popm"; B "-b"; B "f"; B "g"] [] ex_both_plays.
Proof.
  exists [B "-b"; B "f"; B "g"], [(B "create-backups", []); (B "arguments", [B "f"]); (B "arguments", [B "g"])]. split; [apply (plain_line "popm")|]. split.
  - ordered. flag popm_tables "b"%string (switch "create-backups" "b"). argument popm_tables "f"%string. argument popm_tables "g"%string. constructor.
  - unfold popm_asks, ex_both_vm. cbn [option_map pv_adjust pv_always pv_backups pv_frame pv_create pv_dry pv_pcnt_only pv_popm_only pv_increment pv_count pv_owner pv_tag pv_rating pv_args].
    repeat (split; [asked|]). asked.
Qed.
Lemma ex_first_means : means [B "popm"; B "-b"; B "f"] [] ex_first.
Proof.
  exists [B "-b"; B "f"], [(B "create-backups", []); (B "arguments", [B "f"])]. split; [apply (plain_line "popm")|]. split.
  - ordered. flag popm_tables "b"%string (switch "create-backups" "b"). argument popm_tables "f"%string. constructor.
  - unfold popm_asks, ex_plays. cbn [option_map pv_adjust pv_always pv_backups pv_frame pv_create pv_dry pv_pcnt_only pv_popm_only pv_increment pv_count pv_owner pv_tag pv_rating pv_args].
    repeat (split; [asked|]). asked.
Qed.
Example C102_shared_nontrivial : forall md5 below ct broken blind stamp regex helped page guile prog, exists fs',
  session (program no_zlib 3 md5 (ex_env RenameOk) (fun _ => []) below ex_world ct broken blind (Ok E_UTF_8) stamp regex helped page guile prog)
    no_zlib 3 (ex_env RenameOk) (fun _ => []) ex_world (Ok E_UTF_8) (B "g") ex_audio
    [([B "popm"; B "-b"; B "f"; B "g"], []); ([B "popm"; B "-b"; B "f"], [])] [only (B "g") ex_both_plays] ex_two fs'.
Proof.
  intros md5 below ct broken blind stamp regex helped page guile prog.
  set (f1 := snd (snd (ex_ran ex_both_plays ex_two))). set (f2 := snd (snd (ex_ran ex_first f1))).
  assert (A1 : asks ex_world (Ok E_UTF_8) (B "g") (only (B "g") ex_both_plays)) by (split; [eexists; reflexivity|]; repeat split).
  assert (S1 : fst (snd (ex_ran ex_both_plays ex_two)) = Ok 0) by (vm_compute; reflexivity).
  assert (D1 : M_Split.is_dir f1 [B "m"; B "f"] = false) by (vm_compute; reflexivity).
  exists f2.
  eapply Shared with (fs1 := f1) (st := fst (ex_ran ex_both_plays ex_two)); [exact ex_both_means|right; now left|exact (ex_apart ex_two _ _ eq_refl eq_refl)|exact A1| | |apply moderate_in; vm_compute; reflexivity|].
  { intros v2 v1 (data & l & F & R & _). assert (E : v2 = ex_life (B "Song") (B "Rock") 4 []).
    { apply (f_equal (fun o => match o with Some (File d) => d | _ => [] end)) in F. cbv beta iota in F. subst data.
      apply (f_equal (fun o => match o with Ok x => fst x | _ => [] end)) in R. vm_compute in R. now symmetry. }
    subst v2. split; [|exact (C98_backups _ _ _ _ _ _ _ _ _ A1 eq_refl)]. apply ex_room; [discriminate|reflexivity|now left]. }
  { rewrite (line_runs _ _ _ _ _ _ _ _ _ _ _ _ _ _ _ _ _ _ _ _ _ ex_both_means). apply ran. exact S1. }
  eapply Others with (fs1 := f2) (st := fst (ex_ran ex_first f1)) (o := fst (snd (ex_ran ex_first f1))); [exact ex_first_means|exact (ex_first_files f1)|exact (ex_first_dirs f1 D1)| |apply Opened].
  rewrite (line_runs _ _ _ _ _ _ _ _ _ _ _ _ _ _ _ _ _ _ _ _ _ ex_first_means). exact (ex_triple (ex_ran ex_first f1)).
Qed.
