(** * Properties: the other commands, from the command line to the files (C97). *)
From Verif Require Import Base S_Ints S_Stream M_Ints M_Stream M_Id3v1 M_Payload M_Frame M_Tag22 M_Tag23 M_Tag24 M_Charset M_Encodings M_TextId M_Lookup M_Genres M_Mp3 M_Track M_Read M_Fs
  M_Tagset M_Process M_Dirent M_Popm M_Cmds M_Xtag M_Options M_Split M_Csv M_Report M_Tbt M_Rename M_M3u M_Dump M_JsonDump M_CsvDump
  M_Outputs M_Naming M_Main M_Po S_Po M_Program S_Lookup S_Cmds S_Process S_Popm S_Options S_Tagset S_Tbt S_Tbt2 S_Naming S_Outputs S_Dirent S_M3u S_Id3v1 S_Read S_Tag S_Saved S_Tag23 S_Tag24 S_Effect S_Program L_Program L_Po S_Asked L_Asked S_Cloud S_Xtag S_EffectX
  P_M3u P_Outputs P_Naming P_Effect P_EffectX P_Po P_Program.
#[local] Open Scope N_scope.

Section Files.
Context (z : zlib) (passes : nat) (md5 : bytes -> bytes) (e : env) (entries below : bytes -> list bytes) (w : world) (ct : ctype)
        (broken : bytes -> option nat) (blind : rfile -> outcome unit) (loc : outcome enc) (stamp : bytes -> bytes)
        (regex : bytes -> outcome (bytes -> bool)) (helped : help_level * option verbose_flavor -> N)
        (page : bytes -> N) (guile : list bytes -> FS N).
Notation program := (program z passes md5 e entries below w ct broken blind loc stamp regex helped page guile).
Notation cwd := (e_cwd e).
Notation tokens_for T rest cl vars := (S_Program.in_order T rest cl vars).
Notation runs_as := (C96_runs z passes md5 e entries below w ct broken blind loc stamp regex helped page guile).

(** ** The file named with --output holds the report on the arguments, in the format that
    was asked for, and all else is as it was; as in C91. *)
Theorem C97_report_partial : forall prog rest cl argv vars vm fs out, runs "report" rest argv -> tokens_for report_tables rest cl vars -> report_asks cl vars vm ->
  rv_output vm = Some out -> rv_args vm <> [] -> can_open cwd fs out -> apart cwd below out (rv_args vm) ->
  let R := report (if rv_tsv vm then Tdf (rv_ascii vm) else Csv) z passes md5 w (rv_v1enc vm) (rv_no_dir vm) (rv_comments vm) (map (seen cwd fs below) (rv_args vm)) in
  exists st r fs', program prog argv vars fs = (st, (r, fs')) /\
    match snd R with Ok (ok, err) => r = Ok (if err =? 0 then 0 else 1) | Throw _ => r = Ok 1 | UB u => r = UB u | NonTerm => r = NonTerm end /\
    find_node (resolve cwd out) fs' = Some (File (fst R)) /\ all_but (resolve cwd out) fs fs' /\
    Forall (fun s => all_but (resolve cwd out) fs s /\ begun (resolve cwd out) (fst R) s) st.
Proof.
  intros prog rest cl argv vars vm fs out Ru O A Eo Na Co Ap R.
  destruct (C91_report_partial z passes md5 w blind cwd below vm fs out Eo Na Co Ap) as (st & r & fs' & E & En & Q).
  rewrite (runs_as "report"%string (report_command z passes md5 e below w blind helped) prog rest argv vars fs); [|cbn; tauto|exact Ru].
  rewrite (report_goes z passes md5 e below w blind helped rest cl vars vm fs O A). unfold fbind. rewrite E.
  change (report_format vm) with (if rv_tsv vm then Tdf (rv_ascii vm) else Csv) in En, Q. fold R in En, Q. unfold ends_with in En.
  destruct (snd R) as [[ok err]|x|u|]; subst r; cbn [fst fret];
    (eexists; eexists; exists fs'; split; [reflexivity|]; split; [reflexivity|]; rewrite ?app_nil_r; exact Q).
Qed.

(** ** The playlist named with --output holds the songs, with --append after those that
    were there; as in C69. *)
Theorem C97_playlist_partial : forall prog rest cl argv vars src rsp fs out app utf8 args dst, runs "m3u" rest argv -> tokens_for m3u_tables rest cl vars ->
  m3u_asks cl vars (Some out) app utf8 rsp args -> loc = Ok src -> out <> [] ->
  cwd <> [] -> tree fs -> opens fs (resolve cwd out) -> (if utf8 then dst = E_UTF_8 else dst = src) -> char_unit dst = true ->
  (forall p, is_dir (opened fs (resolve cwd out)) (resolve cwd p) = true -> lists_entries cwd (opened fs (resolve cwd out)) p (entries p)) ->
  Forall (fun p => p <> []) args -> ended (kept app fs (resolve cwd out)) ->
  exists ls, Forall2 (files_below cwd (opened fs (resolve cwd out))) args ls /\
    ((forall p, In p (concat ls) -> resolve cwd p <> resolve cwd out /\
        forall data, find_node (resolve cwd p) fs = Some (File data) -> tellable z passes w (mkM3u None dst rsp) data /\
          forall n t, tells_file z passes w src (mkM3u None dst rsp) p data n t -> listable t p) ->
     exists st fs' text new, program prog argv vars fs = (st, (Ok 0, fs')) /\
       only (resolve cwd out) fs fs' /\ find_node (resolve cwd out) fs' = Some (File text) /\
       playlist text = playlist (kept app fs (resolve cwd out)) ++ new /\
       Forall2 (fun p x => exists data n t, find_node (resolve cwd p) fs = Some (File data) /\
                  tells_file z passes w src (mkM3u None dst rsp) p data n t /\ x = (Some (n, t), p)) (concat ls) new).
Proof.
  intros prog rest cl argv vars src rsp fs out app utf8 args dst Ru O A L NE C T Op D Cu Le Fa Ke.
  assert (Dd : m3u_dst (Ok src) utf8 = Ok dst) by (destruct utf8; subst dst; reflexivity).
  destruct (C69_playlist_partial z passes w src rsp cwd entries None fs out app utf8 args dst C T Op Dd Cu Le Fa Ke) as (ls & F & X). exists ls. split; [exact F|].
  intros H. destruct (X H) as (st & fs' & text & new & E & Q). exists st, fs', text, new. split; [|exact Q].
  rewrite (runs_as "m3u"%string (m3u_command z passes e entries w loc helped) prog rest argv vars fs); [|cbn; tauto|exact Ru].
  rewrite (m3u_goes z passes e entries w loc helped rest cl vars (Some out) app utf8 rsp args fs O A). unfold m3u_main. cbn [mv_output mv_append mv_utf8 mv_args mv_noenc mv_source].
  destruct out as [|c out]; [congruence|]. rewrite !andb_false_r. cbn [hbind proceed]. unfold conclude_run. rewrite L. unfold proceed. cbv beta iota. rewrite E. reflexivity.
Qed.

(** ** The files are renamed, or copied, as the template has it; as in C92. *)
Theorem C97_rename_partial : forall prog rest cl argv vars vm l, runs "rename" rest argv -> tokens_for rename_tables rest cl vars -> rename_asks cl vars vm ->
  cwd <> [] -> nv_dry vm = false -> forall xs fs, nv_args vm = map rn_path xs -> xs <> [] -> fst (template_processor Init (given_template vm)) = Ok l ->
  Forall (well_placed cwd vm fs) xs -> Forall (well_named z passes md5 w ct cwd l) xs -> Forall (fun x => broken (rn_path x) = None) xs ->
  NoDup (map rn_source xs) -> NoDup (map (rn_target cwd vm) xs) ->
  exists st fs', program prog argv vars fs = (st, (Ok 0, fs')) /\
    Forall (fun x => find_node (rn_target cwd vm x) fs' = Some (File (rn_data x)) /\
                     find_node (rn_source x) fs' = if nv_rename vm then None else Some (File (rn_data x))) xs /\
    forall j, ~ In j (map rn_source xs) -> ~ In j (map (rn_target cwd vm) xs) -> find_node j fs' = find_node j fs.
Proof.
  intros prog rest cl argv vars vm l Ru O A C D xs fs Ea Nx Tp Wp Wn Br N1 N2.
  destruct (C92_several_partial z passes md5 w ct cwd broken below vm l C D xs fs Ea Nx Tp Wp Wn Br N1 N2) as (st & fs' & E & Q). exists st, fs'. split; [|exact Q].
  rewrite (runs_as "rename"%string (rename_command z passes md5 e below w ct broken helped) prog rest argv vars fs); [|cbn; tauto|exact Ru].
  rewrite (rename_goes z passes md5 e below w ct broken helped rest cl vars vm fs O A). exact E.
Qed.

(** ** popm --increment=n, any number of times: so many plays more; as in C90. *)
Theorem C97_plays_partial : forall prog rest cl argv vars path d n a, let k := resolve cwd path in
  forall only_pcnt only_popm by_ ow tg, runs "popm" rest argv -> tokens_for popm_tables rest cl vars ->
  popm_asks cl vars (mkPopmVm false false true false false false only_pcnt only_popm (Some by_) None ow tg None [path]) -> only_pcnt && only_popm = false ->
  let o := mkPopmOpts None (if only_pcnt then PcntOnly else if only_popm then PopmOnly else Both) ow by_ true false in
  crc_range z -> (0 < passes)%nat -> file_at e path d n -> 355 <= len a ->
  forall times fs fs' v2 v1, (0 < times)%nat -> S_Effect.in_order z passes k a fs v2 v1 -> Forall (room_for (w_ic w) o (N.of_nat times * by_)) v2 ->
  in_turn times (program prog argv vars) (moderate k) fs fs' ->
  exists v2' v1', S_Effect.in_order z passes k a fs' v2' v1' /\ Forall2 (tag_plays_added (w_ic w) o (N.of_nat times * by_)) v2 v2' /\ same_v1 v1 v1'.
Proof.
  intros prog rest cl argv vars path d n a k pc pp by_ ow tg Ru O A X o Cr Ps Fa La times fs fs' v2 v1 Tm Io Rm Tn.
  set (vm := mkPopmVm false false true false false false pc pp (Some by_) None ow tg None [path]) in *.
  assert (E : exists p, popm_options vm = Handled (Ok (o, false, p))).
  { unfold popm_options. subst vm o. destruct pc, pp; try discriminate X; cbn; eexists; reflexivity. }
  destruct E as (p & E).
  assert (Tn' : in_turn times (run_popm z passes e entries w vm) (moderate k) fs fs').
  { clear - Tn Ru O A. revert fs Tn. induction times as [|times IH]; intros fs Tn; [exact Tn|]. destruct Tn as (st & fs1 & R1 & M & Tn). exists st, fs1.
    split; [|split; [exact M|now apply IH]]. rewrite <- R1. symmetry.
    rewrite (runs_as "popm"%string (popm_command z passes e entries w helped) prog rest argv vars fs); [|cbn; tauto|exact Ru].
    exact (popm_goes z passes e entries w helped rest cl vars vm fs O A). }
  exact (C90_plays_partial z passes e entries w vm o p path d n a Cr Ps Fa La E eq_refl eq_refl eq_refl eq_refl eq_refl times fs fs' v2 v1 Tm Io Rm Tn').
Qed.

(** ** text: the texts that were asked for are there, those to be deleted are not; as in
    C90. *)
Theorem C97_texts_partial : forall prog rest cl argv vars vm o p path d n fs st fs' a v2 v1, let k := resolve cwd path in
  runs "text" rest argv -> tokens_for text_tables rest cl vars -> text_asks cl vars vm ->
  crc_range z -> (0 < passes)%nat -> file_at e path d n ->
  text_options loc vm = Handled (Ok (o, p)) -> given (tv_tag vm) = [] -> tv_adjust vm = false -> tv_args vm = [path] ->
  NoDup (to_dels o) -> NoDup (map fst (to_sets o)) ->
  S_Effect.in_order z passes k a fs v2 v1 -> 355 <= len a -> Forall (text_takes (w_ic w) o) v2 ->
  (forall data l d1 ts u1 s1, find_node k fs = Some (File data) -> tags_from data 0 l ->
     process_tagset (text_processor w o) p v2 v1 tt = Ok (d1, ts, u1, s1) -> can_be_written z p (tags_end 0 l) ts) ->
  program prog argv vars fs = (st, (Ok 0, fs')) -> moderate k fs' ->
  exists v2' v1', S_Effect.in_order z passes k a fs' v2' v1' /\ Forall2 (tag_texts_read (w_ic w) o) v2 v2' /\ same_v1 v1 v1'.
Proof.
  intros prog rest cl argv vars vm o p path d n fs st fs' a v2 v1 k Ru O A Cr Ps Fa E Tg Ad Ar N1 N2 Io La Tk Cw P M.
  rewrite (runs_as "text"%string (text_command z passes e entries w helped loc) prog rest argv vars fs) in P; [|cbn; tauto|exact Ru].
  rewrite (text_goes z passes e entries w loc helped rest cl vars vm fs O A) in P.
  exact (C90_texts_partial z passes e entries w loc vm o p path d n fs st fs' a v2 v1 Cr Ps Fa E Tg Ad Ar N1 N2 Io La Tk Cw P M).
Qed.

(** ** genre: the genre that was asked for is there, in the tags that were asked for; as in
    C90. *)
Theorem C97_genres_partial : forall prog rest cl argv vars vm g p path d n fs st fs' a v2 v1 name, let k := resolve cwd path in let ic := w_ic w in
  runs "genre" rest argv -> tokens_for genre_tables rest cl vars -> genre_asks cl vars vm ->
  crc_range z -> (0 < passes)%nat -> file_at e path d n -> 355 <= len a ->
  genre_options w vm = Handled (Ok (Some (g, p))) -> gv_dry vm = false -> gv_adjust vm = false -> gv_args vm = [path] ->
  S_Effect.in_order z passes k a fs v2 v1 -> scope_fits p v2 -> (v1 = None -> p_v1_creation p = V1Never) ->
  (forall i t, In (i, t) (with_index v2) -> in_scope p i = true -> has_genre ic t /\ S_Cmds.storable ic (any_version t) E_UTF_8 (gc_text g)) ->
  text_for_genre (gc_number g) = Some name -> to_bytes ic name E_UTF_8 E_ASCII false NoFail = Ok name ->
  (forall data l d1 ts u1 s1, find_node k fs = Some (File data) -> tags_from data 0 l ->
     process_tagset (genre_processor w g) p v2 v1 tt = Ok (d1, ts, u1, s1) -> can_be_written z p (tags_end 0 l) ts) ->
  program prog argv vars fs = (st, (Ok 0, fs')) -> moderate k fs' ->
  exists v2' v1' v1m, S_Effect.in_order z passes k a fs' v2' v1' /\ Forall2 (genre_read ic (gc_text g) p) (with_index v2) v2' /\
    v1_genre_set (gc_number g) name p v1 v1m /\ same_v1 v1m v1'.
Proof.
  intros prog rest cl argv vars vm g p path d n fs st fs' a v2 v1 name k ic Ru O A Cr Ps Fa La E Dr Ad Ar Io Sf Vn Hg Tx Tb Cw P M.
  rewrite (runs_as "genre"%string (genre_command z passes e entries w helped) prog rest argv vars fs) in P; [|cbn; tauto|exact Ru].
  rewrite (genre_goes z passes e entries w helped rest cl vars vm fs O A) in P.
  exact (C90_genres_partial z passes e entries w vm g p path d n fs st fs' a v2 v1 name Cr Ps Fa La E Dr Ad Ar Io Sf Vn Hg Tx Tb Cw P M).
Qed.

(** ** xtag: what was asked for is what the command runs with. *)
Theorem C97_xtag_partial : forall prog rest cl argv vars vm fs, runs "xtag" rest argv -> tokens_for xtag_tables rest cl vars -> xtag_asks cl vars vm ->
  program prog argv vars fs = run_xtag z passes e entries w vm fs.
Proof.
  intros prog rest cl argv vars vm fs Ru O A.
  rewrite (runs_as "xtag"%string (xtag_command z passes e entries w helped) prog rest argv vars fs); [|cbn; tauto|exact Ru].
  exact (xtag_goes z passes e entries w helped rest cl vars vm fs O A).
Qed.
(** The tag clouds hold the items given with --xtags; as in C90. *)
Theorem C97_clouds_partial : forall prog rest cl argv vars vm o p path d n fs st fs' a v2 v1 l, let k := resolve cwd path in
  runs "xtag" rest argv -> tokens_for xtag_tables rest cl vars -> xtag_asks cl vars vm ->
  crc_range z -> (0 < passes)%nat -> file_at e path d n -> 355 <= len a ->
  xtag_options vm = Handled (Ok (o, p)) -> xv_get vm = false -> xv_dry vm = false -> xv_adjust vm = false -> xv_args vm = [path] ->
  xv_xtags vm = Some (items_text l) -> l <> [] -> Forall item_ok l -> fresh_bare [] [] l -> plain_items l -> ~ In 0 (own vm) ->
  S_Effect.in_order z passes k a fs v2 v1 -> scope_fits p v2 -> (forall i t, In (i, t) (with_index v2) -> in_scope p i = true -> clouds_room (own vm) l t) ->
  (forall data l d1 ts u1 s1, find_node k fs = Some (File data) -> tags_from data 0 l ->
     process_tagset (xtag_processor w o) p v2 v1 [] = Ok (d1, ts, u1, s1) -> can_be_written z p (tags_end 0 l) ts) ->
  program prog argv vars fs = (st, (Ok 0, fs')) -> moderate k fs' ->
  exists v2' v1', S_Effect.in_order z passes k a fs' v2' v1' /\ Forall2 (clouds_read p (own vm) (xv_merge vm) (xv_frame vm) l) (with_index v2) v2' /\ same_v1 v1 v1'.
Proof.
  intros prog rest cl argv vars vm o p path d n fs st fs' a v2 v1 l k Ru O A Cr Ps Fa La E Vg Vd Va Vr Vx Nl Ik Fb Pi Ow Io Sf Rm Cw P M. rewrite (C97_xtag_partial prog rest cl argv vars vm fs Ru O A) in P.
  exact (C90_clouds_partial z passes e entries w vm o p path d n fs st fs' a v2 v1 l Cr Ps Fa La E Vg Vd Va Vr Vx Nl Ik Fb Pi Ow Io Sf Rm Cw P M).
Qed.
End Files.
Print Assumptions C97_report_partial.
Print Assumptions C97_playlist_partial.
Print Assumptions C97_rename_partial.
Print Assumptions C97_plays_partial.
Print Assumptions C97_texts_partial.
Print Assumptions C97_genres_partial.
Print Assumptions C97_xtag_partial.
Print Assumptions C97_clouds_partial.

(** Cases in point: lines for each, and what they ask for.  The other hypotheses are met as
    in the examples of C69, C90, C91 and C92. *)
Lemma reads_all ls l : concat ls = l -> S_Po.reads KTexts ls (VTexts l).
Proof. intros <-. constructor. Qed.
Ltac sane := repeat (constructor; [split; [let A := fresh in let C := fresh in intros (A & C); vm_compute in A, C; congruence|discriminate]|]); constructor.
Ltac read_it := first [exact reads_on | apply reads_all; reflexivity | apply reads_text
  | eapply reads_path; [discriminate|sane|discriminate] | eapply reads_size; [split; [discriminate|split; [repeat (constructor; [now split|]); constructor|reflexivity]]|reflexivity]
  | eapply reads_uint; [split; [discriminate|split; [repeat (constructor; [now split|]); constructor|reflexivity]]|reflexivity]].
Ltac worth_it := first [apply by_none; reflexivity | apply by_default; reflexivity | apply by_line; [discriminate|read_it]].
Ltac asked := eapply gives_find; [vm_compute; reflexivity|worth_it].
Ltac all_worth := let d := fresh "d" in let J := fresh "J" in intros d J; cbn in J; repeat (destruct J as [<-|J]; [eexists; worth_it|]); destruct J.
Ltac ordered := split; [|split; [exact Logic.I|split; [no_token|split; [let x := fresh in intros x ? ? []|all_worth]]]].
Ltac argument T s := apply (line_more T [B s] [(t_name T, [B s])]); [apply an_argument; left; discriminate|].
Ltac flag T s d := apply (line_more T [45 :: B s] [(d_long d, [])]); [apply (short_switches T (B s) [d]); [discriminate| |repeat constructor]; constructor; [one_option|constructor]|].
Ltac valued T k v d := apply (line_more T [B "--" ++ B k ++ B "=" ++ B v] [(B k, [B v])]); [apply (long_equals T (B k) d (B v)); [its_name|discriminate|discriminate]|].

Definition ex_report_vm : report_vm := mkReportVm 6 (Some (B "m/out.csv")) true E_CP1252 false false false [B "m"; B "one"].
Example C97_report_nontrivial : let cl := [(B "output", [B "m/out.csv"]); (B "tsv", []); (B "arguments", [B "m"]); (B "arguments", [B "one"])] in
  S_Program.in_order report_tables [B "--output=m/out.csv"; B "-t"; B "m"; B "one"] cl [] /\ report_asks cl [] ex_report_vm.
Proof.
  intros cl. subst cl. split.
  - ordered. valued report_tables "output"%string "m/out.csv"%string (demanded KPath "output" "o"). flag report_tables "t"%string (switch "tsv" "t").
    argument report_tables "m"%string. argument report_tables "one"%string. constructor.
  - unfold report_asks, ex_report_vm. cbn [rv_comments rv_output rv_tsv rv_v1enc rv_no_dir rv_ascii rv_no_summary rv_args option_map]. repeat (split; [asked|]). asked.
Qed.

Example C97_playlist_nontrivial : let cl := [(B "append", []); (B "output", [B "l"]); (B "arguments", [B "m"])] in
  S_Program.in_order m3u_tables [B "-a"; B "--output=l"; B "m"] cl [] /\ m3u_asks cl [] (Some (B "l")) true false NoFail [B "m"].
Proof.
  intros cl. subst cl. split.
  - ordered. flag m3u_tables "a"%string (switch "append" "a"). valued m3u_tables "output"%string "l"%string (option_of KPath "output" "o"). argument m3u_tables "m"%string. constructor.
  - unfold m3u_asks. cbn [option_map]. repeat (split; [asked|]). asked.
Qed.
Example C97_rename_nontrivial : let cl := [(B "rename", []); (B "arguments", [B "m/a"]); (B "arguments", [B "m/b"])] in
  S_Program.in_order rename_tables [B "-r"; B "m/a"; B "m/b"] cl [] /\ rename_asks cl [] (mkRenameVm false None true (Some (B "%A - %T.mp3")) [B "m/a"; B "m/b"]).
Proof.
  intros cl. subst cl. split.
  - ordered. flag rename_tables "r"%string (switch "rename" "r"). argument rename_tables "m/a"%string. argument rename_tables "m/b"%string. constructor.
  - unfold rename_asks. cbn [option_map nv_dry nv_output nv_rename nv_template nv_args]. repeat (split; [asked|]). asked.
Qed.
Example C97_plays_nontrivial : let cl := [(B "create-backups", []); (B "increment", [B "2"]); (B "arguments", [B "f"])] in
  S_Program.in_order popm_tables [B "-b"; B "--increment=2"; B "f"] cl [] /\
  popm_asks cl [] (mkPopmVm false false true false false false false false (Some 2) None None None None [B "f"]).
Proof.
  intros cl. subst cl. split.
  - ordered. flag popm_tables "b"%string (switch "create-backups" "b"). valued popm_tables "increment"%string "2"%string (option_of KSize "increment" "i"). argument popm_tables "f"%string. constructor.
  - unfold popm_asks. cbn [option_map pv_adjust pv_always pv_backups pv_frame pv_create pv_dry pv_pcnt_only pv_popm_only pv_increment pv_count pv_owner pv_tag pv_rating pv_args]. repeat (split; [asked|]). asked.
Qed.
Example C97_texts_nontrivial : let cl := [(B "create-backups", []); (B "genre", [B "Jazz"]); (B "title", [B "Tune"]); (B "delete", [B "artist"]); (B "arguments", [B "f"])] in
  S_Program.in_order text_tables [B "-b"; B "--genre=Jazz"; B "--title=Tune"; B "--delete=artist"; B "f"] cl [] /\ text_asks cl [] ex_text_vm.
Proof.
  intros cl. subst cl. split.
  - ordered. flag text_tables "b"%string (switch "create-backups" "b"). valued text_tables "genre"%string "Jazz"%string (option_of KText "genre" "g").
    valued text_tables "title"%string "Tune"%string (option_of KText "title" "T"). valued text_tables "delete"%string "artist"%string (option_of KTexts "delete" "d"). argument text_tables "f"%string. constructor.
  - unfold text_asks, ex_text_vm. cbn [option_map tv_adjust tv_always tv_create tv_backups tv_encoding tv_album tv_artist tv_encoded_by tv_genre tv_title tv_track tv_year tv_delete tv_tag tv_args].
    repeat (split; [asked|]). asked.
Qed.
Example C97_genres_nontrivial : let cl := [(B "create-backups", []); (B "winamp", [B "8"]); (B "arguments", [B "f"])] in
  S_Program.in_order genre_tables [B "-b"; B "--winamp=8"; B "f"] cl [] /\ genre_asks cl [] ex_jazz.
Proof.
  intros cl. subst cl. split.
  - ordered. flag genre_tables "b"%string (switch "create-backups" "b"). valued genre_tables "winamp"%string "8"%string (option_of KUint "winamp" "w"). argument genre_tables "f"%string. constructor.
  - unfold genre_asks, ex_jazz. cbn [option_map gv_adjust gv_always_v2 gv_always_v1 gv_backups gv_create_v2 gv_create_v1 gv_dry gv_list gv_v1_only gv_v2_only gv_winamp gv_genre gv_Genre gv_v1 gv_tag gv_args].
    repeat (split; [asked|]). asked.
Qed.
Example C97_clouds_nontrivial : let cl := [(B "create-backups", []); (B "create-frame", []); (B "merge", []); (B "owner", [B "me"]); (B "xtags", [items_text P_Xtag.ex_items]); (B "arguments", [B "f"])] in
  S_Program.in_order xtag_tables [B "-b"; B "-f"; B "-m"; B "--owner=me"; B "--xtags=mood=wild&live"; B "f"] cl [] /\ xtag_asks cl [] (to_put ex_merge P_Xtag.ex_items).
Proof.
  intros cl. subst cl. change (items_text P_Xtag.ex_items) with (B "mood=wild&live"). split.
  - ordered. flag xtag_tables "b"%string (switch "create-backups" "b"). flag xtag_tables "f"%string (switch "create-frame" "f"). flag xtag_tables "m"%string (switch "merge" "m").
    valued xtag_tables "owner"%string "me"%string (option_of KText "owner" "o"). valued xtag_tables "xtags"%string "mood=wild&live"%string (option_of KText "xtags" "T"). argument xtag_tables "f"%string. constructor.
  - unfold xtag_asks, to_put, ex_merge. cbn [option_map xv_adjust xv_always xv_frame xv_backups xv_create xv_dry xv_get xv_merge xv_owner xv_tag xv_xtags xv_args].
    change (items_text P_Xtag.ex_items) with (B "mood=wild&live"). repeat (split; [asked|]). asked.
Qed.
Example C97_xtag_nontrivial : let cl := [(B "get", []); (B "owner", [B "me"]); (B "arguments", [B "f"])] in
  S_Program.in_order xtag_tables [B "-g"; B "--owner=me"; B "f"] cl [] /\ xtag_asks cl [] (mkXtagVm false false false false false false true false (Some (B "me")) None None [B "f"]).
Proof.
  intros cl. subst cl. split.
  - ordered. flag xtag_tables "g"%string (switch "get" "g"). valued xtag_tables "owner"%string "me"%string (option_of KText "owner" "o"). argument xtag_tables "f"%string. constructor.
  - unfold xtag_asks. cbn [option_map xv_adjust xv_always xv_frame xv_backups xv_create xv_dry xv_get xv_merge xv_owner xv_tag xv_xtags xv_args]. repeat (split; [asked|]). asked.
Qed.
