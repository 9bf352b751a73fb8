(** * Properties: the program as a whole, from its arguments and the environment to the files and the exit status. *)
From Verif Require Import Base S_Ints S_Stream M_Ints M_Stream M_Id3v1 M_Payload M_Frame M_Tag22 M_Tag23 M_Tag24 M_Charset M_Encodings M_TextId M_Lookup M_Mp3 M_Track M_Read M_Fs
  M_Tagset M_Process M_Dirent M_Popm M_Cmds M_Xtag M_Options S_Options L_Options M_Split S_Read S_Split L_Split L_Split2 M_Csv M_Report M_Tbt M_Rename M_M3u M_Dump M_JsonDump M_CsvDump
  M_Outputs M_Naming M_Main S_Main L_Main S_Popm S_Tag23 M_Po S_Po L_Po L_Po2 L_Po3 M_Program S_Program L_Program L_Program2 L_Program3 L_Program4 P_Tagset P_Options P_Report P_Po P_Split.
#[local] Open Scope N_scope.

Section Program.
  Context (z : zlib) (passes : nat) (md5 : bytes -> bytes) (e : env) (entries below : bytes -> list bytes) (w : world) (ct : ctype)
          (broken : bytes -> option nat) (blind : rfile -> outcome unit) (loc : outcome enc) (stamp : bytes -> bytes)
          (regex : bytes -> outcome (bytes -> bool)) (helped : help_level * option verbose_flavor -> N)
          (page : bytes -> N) (guile : list bytes -> FS N).
  Notation handlers := (handlers z passes md5 e entries below w ct broken blind loc stamp regex helped).
  Notation program := (program z passes md5 e entries below w ct broken blind loc stamp regex helped page guile).

  (** ** The sub-command named is the one that is run *)
Theorem C96_runs : forall name f prog rest argv vars fs, In (B name, f) handlers -> runs name rest argv -> program prog argv vars fs = f rest vars fs.
Proof. intros name f prog rest argv vars fs I (pre & L & ->). exact (program_runs z passes md5 e entries below w ct broken blind loc stamp regex helped page guile prog pre (B name) f rest vars fs L I). Qed.

  (** ** The status is 0, 1 or 2, and if it is 2 nothing has been done; unless it is
      Guile that is run, which is where no sub-command is. *)
Theorem C96_status : forall prog argv vars fs, (forall h, helped h <= 1) -> (forall p, page p <= 1) ->
    told (program prog argv vars fs) fs \/
    (program prog argv vars fs = guile (prog :: argv) fs /\ forall name rest f, runs name rest argv -> ~ In (B name, f) handlers).
Proof. exact (program_status z passes md5 e entries below w ct broken blind loc stamp regex helped page guile). Qed.

  (** ** These never change a file, whatever they are given *)
Theorem C96_reading : forall name prog rest argv vars fs, In name ["dump"; "encodings"]%string -> runs name rest argv -> untouched (program prog argv vars fs) fs.
Proof.
    intros name prog rest argv vars fs [<-|[<-|[]]] R.
    - rewrite (C96_runs "dump" (dump_command z passes md5 e below w stamp regex helped) prog rest argv vars fs); [apply dump_quiet|cbn; tauto|exact R].
    - rewrite (C96_runs "encodings" (encodings_command helped) prog rest argv vars fs); [apply encodings_quiet|cbn; tauto|exact R].
Qed.
  (** Nor does m3u without --output. *)
Theorem C96_stdout : forall prog rest cl argv vars fs, runs "m3u" rest argv -> line m3u_tables rest cl -> ~ has_option "output" cl -> untouched (program prog argv vars fs) fs.
Proof.
    intros prog rest cl argv vars fs R L N1. rewrite (C96_runs "m3u" (m3u_command z passes e entries w loc helped) prog rest argv vars fs); [|cbn; tauto|exact R].
    apply after_untouched. intros m G. apply m3u_quiet. exact (m3u_no_output rest cl vars m L N1 G).
Qed.
  (** Nor do these, in a dry run. *)
Theorem C96_dry_run : forall name T prog rest argv vars fs,
    In (name, T) [("popm", popm_tables); ("genre", genre_tables); ("rename", rename_tables)]%string -> runs name rest argv -> dry_asked T rest vars ->
    untouched (program prog argv vars fs) fs.
Proof.
    intros name T prog rest argv vars fs I R D. destruct I as [I|[I|[I|[]]]]; injection I as <- <-.
    - rewrite (C96_runs "popm" (popm_command z passes e entries w helped) prog rest argv vars fs); [now apply C95_popm_dry_run|cbn; tauto|exact R].
    - rewrite (C96_runs "genre" (genre_command z passes e entries w helped) prog rest argv vars fs); [now apply C95_genre_dry_run|cbn; tauto|exact R].
    - rewrite (C96_runs "rename" (rename_command z passes md5 e below w ct broken helped) prog rest argv vars fs); [|cbn; tauto|exact R].
      apply after_untouched. intros m G. apply rename_quiet. unfold rename_vars. cbn [nv_dry].
      apply (dry_value rename_tables rest vars m); [apply commands_fit; cbn; tauto|cbn; tauto|discriminate|dry_table|exact D|exact G].
Qed.

  (** ** These change only the file that is named with --output, whatever happens *)
Theorem C96_one_file : forall name T prog rest cl argv vars fs p,
    In (name, T) [("report", report_tables); ("m3u", m3u_tables)]%string -> runs name rest argv -> line T rest cl ->
    In (B "output", [p]) cl -> p <> [] -> no_blank p -> hd 0 p <> 34 ->
    spared (fun k => k <> resolve (e_cwd e) p) (program prog argv vars fs) fs.
Proof. exact (one_file z passes md5 e entries below w ct broken blind loc stamp regex helped page guile). Qed.

  (** ** What is required must be given *)
Theorem C96_required : forall name T f d prog rest cl argv vars fs,
    In (name, T, f) [("popm"%string, popm_tables, popm_command z passes e entries w helped); ("xtag"%string, xtag_tables, xtag_command z passes e entries w helped);
                     ("text"%string, text_tables, text_command z passes e entries w helped loc); ("genre"%string, genre_tables, genre_command z passes e entries w helped);
                     ("rename"%string, rename_tables, rename_command z passes md5 e below w ct broken helped);
                     ("dump"%string, dump_tables, dump_command z passes md5 e below w stamp regex helped);
                     ("report"%string, report_tables, report_command z passes md5 e below w blind helped);
                     ("m3u"%string, m3u_tables, m3u_command z passes e entries w loc helped); ("split"%string, split_tables, split_command e helped)] ->
    runs name rest argv -> line T rest cl -> enough_room T cl -> no_help rest -> In d (t_all T) -> d_required d = true -> ~ In (d_long d) (map fst cl) ->
    exists n, In n [1; 2] /\ program prog argv vars fs = ([], (Ok n, fs)).
Proof.
    intros name T f d prog rest cl argv vars fs I R L Ro NH J Rq NI.
    assert (X : exists n, In n [1; 2] /\ f rest vars fs = ([], (Ok n, fs))).
    { repeat (destruct I as [I|I]; [injection I as <- <- <-; apply (lacking_ends _ helped _ rest cl vars fs d); [cbn; tauto|exact L|exact Ro|exact NH|exact J|exact Rq|exact NI]|]). destruct I. }
    destruct X as (n & In1 & E). exists n. split; [exact In1|]. rewrite (C96_runs name f prog rest argv vars fs); [exact E| |exact R].
    repeat (destruct I as [I|I]; [injection I as <- _ <-; cbn; tauto|]). destruct I.
Qed.

  (** ** split takes one file, and makes pieces of it *)
Theorem C96_split_one : forall prog rest cl argv vars fs, runs "split" rest argv -> line split_tables rest cl -> no_help rest -> arguments split_tables cl <> 1%nat ->
    program prog argv vars fs = ([], (Ok 2, fs)).
Proof.
    intros prog rest cl argv vars fs R L NH N1. rewrite (C96_runs "split" (split_command e helped) prog rest argv vars fs); [|cbn; tauto|exact R]. exact (split_one helped e rest cl vars fs L NH N1).
Qed.
Theorem C96_split : forall prog rest cl argv vars fs p s data, runs "split" rest argv -> in_order split_tables rest cl vars ->
    worth split_tables cl vars (demanded KText "argument" "") (Some (VText p)) -> worth split_tables cl vars (defaulting KText (VText []) "suffix" "") (Some (VText s)) ->
    find_node (resolve (e_cwd e) p) fs = Some (File data) -> len data < 2 ^ 63 -> ~ In 47 s -> no_piece (e_cwd e) s (resolve (e_cwd e) p) ->
    spared (fun k => k = resolve (e_cwd e) p \/ no_piece (e_cwd e) s k) (program prog argv vars fs) fs /\
    (ended_with (program prog argv vars fs) 0 ->
     exists tags track v1, data = concat tags ++ track ++ v1 /\ Forall one_tag tags /\ ~ starts_with_tag (track ++ v1) /\ len (concat tags ++ track) = v1_start data /\
       let fs' := snd (snd (program prog argv vars fs)) in
       (forall i t, nth_error tags i = Some t -> find_node (resolve (e_cwd e) (tag_piece (N.of_nat i) s)) fs' = Some (File t)) /\
       find_node (resolve (e_cwd e) (track_piece s)) fs' = Some (File track) /\
       (v1 <> [] -> find_node (resolve (e_cwd e) (v1_piece s)) fs' = Some (File v1))).
Proof.
    intros prog rest cl argv vars fs p s data R O Wp Ws F Ln Sl NP.
    rewrite (C96_runs "split" (split_command e helped) prog rest argv vars fs); [|cbn; tauto|exact R]. rewrite (split_goes helped e rest cl vars fs p s O Wp Ws).
    destruct (conclude_states (split_file (e_cwd e) p s) fs) as (E1 & E2). split.
    - pose proof (split_kept (e_cwd e) p s data fs F Ln Sl NP) as K. rewrite Forall_forall in K. intros x I k Pk. rewrite E1, E2 in I. destruct (K x I) as (A & C).
      destruct Pk as [->|Pk]; [now rewrite F|exact (C k Pk)].
    - intros E0. unfold ended_with in E0. destruct (conclude_run (proceed (split_file (e_cwd e) p s)) fs) as (st & r & fs') eqn:X. cbn [fst snd] in E0 |- *. subst r.
      apply conclude_zero in X. destruct X as ([] & X). destruct (split_pieces (e_cwd e) p s data fs st fs' F Ln Sl NP X) as (tags & track & v1 & Q). exists tags, track, v1. tauto.
Qed.

  (** ** m3u: what goes only with --output *)
Theorem C96_m3u_misuse : forall prog rest cl argv vars fs, runs "m3u" rest argv -> in_order m3u_tables rest cl vars -> ~ has_option "output" cl ->
    In (B "append", []) cl \/ In (B "use-utf8", []) cl -> program prog argv vars fs = ([], (Ok 2, fs)).
Proof.
    intros prog rest cl argv vars fs R O N1 A. rewrite (C96_runs "m3u" (m3u_command z passes e entries w loc helped) prog rest argv vars fs); [|cbn; tauto|exact R].
    exact (m3u_misused z passes e entries w loc helped rest cl vars fs O N1 A).
Qed.
  (** No arguments are not told as wrong usage, but as a failure. *)
Theorem C96_m3u_arguments_refuted : forall prog rest cl argv vars fs, runs "m3u" rest argv -> in_order m3u_tables rest cl vars -> ~ has_option "arguments" cl ->
    ~ has_option "append" cl -> ~ has_option "use-utf8" cl -> program prog argv vars fs = ([], (Ok 1, fs)).
Proof.
    intros prog rest cl argv vars fs R O N1 Na Nu. rewrite (C96_runs "m3u" (m3u_command z passes e entries w loc helped) prog rest argv vars fs); [|cbn; tauto|exact R].
    exact (m3u_no_arguments z passes e entries w loc helped rest cl vars fs O N1 Na Nu).
Qed.
  (** The encoding given with --source-encoding makes no difference. *)
Theorem C96_source_refuted : forall prog rest rest' cl cl' argv argv' vars fs, runs "m3u" rest argv -> runs "m3u" rest' argv' ->
    in_order m3u_tables rest cl vars -> in_order m3u_tables rest' cl' vars -> without "source-encoding" cl = without "source-encoding" cl' ->
    program prog argv vars fs = program prog argv' vars fs.
Proof.
    intros prog rest rest' cl cl' argv argv' vars fs R R' O O' E.
    rewrite (C96_runs "m3u" (m3u_command z passes e entries w loc helped) prog rest argv vars fs); [|cbn; tauto|exact R].
    rewrite (C96_runs "m3u" (m3u_command z passes e entries w loc helped) prog rest' argv' vars fs); [|cbn; tauto|exact R'].
    now rewrite (m3u_source z passes e entries w loc helped rest rest' cl cl' vars O O' E).
Qed.
  (** It is never found. *)
Theorem C96_source_never_refuted : forall tokens vars m, gather m3u_tables tokens vars = Handled (Ok (inr m)) -> mv_source (m3u_vars m) = None.
Proof. exact m3u_no_source. Qed.
  (** Arguments of encodings are passed over in silence. *)
Theorem C96_encodings_refuted : forall prog rest argv vars fs, runs "encodings" rest argv -> Forall no_option rest -> program prog argv vars fs = ([], (Ok 0, fs)).
Proof.
    intros prog rest argv vars fs R F. rewrite (C96_runs "encodings" (encodings_command helped) prog rest argv vars fs); [|cbn; tauto|exact R]. exact (encodings_ignored helped rest vars fs F).
Qed.
End Program.
Print Assumptions C96_runs.
Print Assumptions C96_status.
Print Assumptions C96_reading.
Print Assumptions C96_stdout.
Print Assumptions C96_dry_run.
Print Assumptions C96_one_file.
Print Assumptions C96_required.
Print Assumptions C96_split_one.
Print Assumptions C96_split.
Print Assumptions C96_m3u_misuse.
Print Assumptions C96_m3u_arguments_refuted.
Print Assumptions C96_source_refuted.
Print Assumptions C96_source_never_refuted.
Print Assumptions C96_encodings_refuted.

(** ** Cases in point *)
Lemma ex_before : leading [B "-q"; B "-L"; B "/lib"] [].
Proof. apply lead_alone; [left; cbn; auto 9|]. apply lead_value; [cbn; auto|]. constructor. Qed.
Ltac no_token := let t := fresh in let J := fresh in intros t J; apply exists_not; repeat (destruct J as [<-|J]; [vm_compute; reflexivity|]); destruct J.
Definition ex_split_line : list bytes := [B "a.mp3"; B "--suf=.x"].
Definition ex_split_means : parsed := [(B "argument", [B "a.mp3"]); (B "suffix", [B ".x"])].
Lemma ex_split_order : in_order split_tables ex_split_line ex_split_means [] /\
  worth split_tables ex_split_means [] (demanded KText "argument" "") (Some (VText (B "a.mp3"))) /\
  worth split_tables ex_split_means [] (defaulting KText (VText []) "suffix" "") (Some (VText (B ".x"))).
Proof.
  assert (W1 : worth split_tables ex_split_means [] (demanded KText "argument" "") (Some (VText (B "a.mp3")))) by (apply by_line; [discriminate|exact (reads_text (B "a.mp3"))]).
  assert (W2 : worth split_tables ex_split_means [] (defaulting KText (VText []) "suffix" "") (Some (VText (B ".x")))) by (apply by_line; [discriminate|exact (reads_text (B ".x"))]).
  split; [|split; [exact W1|exact W2]]. split; [|split; [|split; [|split]]].
  - apply (line_more split_tables [B "a.mp3"] [(B "argument", [B "a.mp3"])]). { apply an_argument. left. discriminate. }
    apply (line_more split_tables [B "--suf=.x"] [(B "suffix", [B ".x"])]); [|constructor].
    apply (long_equals split_tables (B "suf") (defaulting KText (VText []) "suffix" "") (B ".x")); [|discriminate|discriminate].
    split; [cbn; tauto|]. split; [discriminate|]. right. split; [now exists (B "fix")|]. intros d' I E.
    repeat (destruct I as [<-|I]; [first [reflexivity|destruct E as (r & E); discriminate E]|]). destruct I.
  - apply le_n.
  - no_token.
  - intros x s k [].
  - intros d I. cbn in I. destruct I as [<-|I]. { eexists. apply by_default; reflexivity. } destruct I as [<-|I]. { eexists. apply by_default; reflexivity. }
    destruct I as [<-|I]. { eexists. apply by_default; reflexivity. } destruct I as [<-|I]. { eexists. exact W2. } destruct I as [<-|[]]. eexists. exact W1.
Qed.
Example C96_split_nontrivial : forall z passes md5 entries below w ct broken blind loc stamp regex helped page guile,
  let r := program z passes md5 (ex_env RenameOk) entries below w ct broken blind loc stamp regex helped page guile (B "scribbu")
             ([B "-q"; B "-L"; B "/lib"] ++ B "split" :: ex_split_line) [] ex_fs in
  runs "split" ex_split_line ([B "-q"; B "-L"; B "/lib"] ++ B "split" :: ex_split_line) /\ ended_with r 0 /\
  find_node [B "m"; B "a.mp3"] ex_fs = Some (File ex_data) /\ find_node [B "m"; B "id3v20.x"] (snd (snd r)) = Some (File ex_tag1) /\
  find_node [B "m"; B "id3v21.x"] (snd (snd r)) = Some (File ex_tag2) /\ find_node [B "m"; B "id3v1.x"] (snd (snd r)) = Some (File ex_v1).
Proof. intros. split; [exists [B "-q"; B "-L"; B "/lib"]; split; [exact ex_before|reflexivity]|]. vm_compute. auto 9. Qed.
Example C96_split_one_nontrivial : line split_tables [] [] /\ no_help [] /\ arguments split_tables [] <> 1%nat.
Proof. split; [constructor|]. split; [intros t []|discriminate]. Qed.
Example C96_required_nontrivial : line report_tables [B "song.mp3"] [(B "arguments", [B "song.mp3"])] /\ no_help [B "song.mp3"] /\
  In (demanded KPath "output" "o") (t_all report_tables) /\ d_required (demanded KPath "output" "o") = true /\ ~ In (B "output") (map fst [(B "arguments", [B "song.mp3"])]).
Proof.
  split; [apply (line_more report_tables [B "song.mp3"] [(B "arguments", [B "song.mp3"])]); [apply an_argument; left; discriminate|constructor]|].
  split; [no_token|]. split; [cbn; tauto|]. split; [reflexivity|]. intros [E|[]]. discriminate E.
Qed.
Example C96_runs_nontrivial : runs "text" [B "-a"; B "x"] ([B "-q"; B "-L"; B "/lib"] ++ B "text" :: [B "-a"; B "x"]).
Proof. exists [B "-q"; B "-L"; B "/lib"]. split; [exact ex_before|reflexivity]. Qed.
Example C96_status_nontrivial : forall z passes md5 e entries below w ct broken blind loc stamp regex helped page guile fs,
  let r argv := program z passes md5 e entries below w ct broken blind loc stamp regex helped page guile (B "scribbu") argv [] fs in
  ended_with (r [B "--version"]) 0 /\ ended_with (r [B "-q"; B "--hepl"]) 2 /\ ended_with (r [B "popm"]) 2 /\ ended_with (r [B "encodings"]) 0 /\
  r [B "-q"; B "-s"; B "f"] = guile [B "scribbu"; B "-q"; B "-s"; B "f"] fs.
Proof. intros. repeat (split; [vm_compute; reflexivity|]). vm_compute. reflexivity. Qed.
Example C96_dry_run_nontrivial : dry_asked rename_tables [B "-n"; B "song.mp3"] [] /\ dry_asked rename_tables [B "song.mp3"] [(B "SCRIBBU_DRY_RUN", B "yes")].
Proof.
  split.
  - left. exists [(B "dry-run", []); (B "arguments", [B "song.mp3"])]. split; [|split; [exact Logic.I|now left]].
    apply (line_more rename_tables [B "-n"] [(B "dry-run", [])]).
    { apply (short_switches rename_tables (B "n") [switch "dry-run" "n"]); [discriminate| |repeat constructor]. constructor; [one_option|constructor]. }
    apply (line_more rename_tables [B "song.mp3"] [(B "arguments", [B "song.mp3"])]); [apply an_argument; left; discriminate|constructor].
  - right. split; [repeat constructor; intros []|]. exists (B "yes"). split; [now left|]. exists (B "yes"). split; [cbn; tauto|]. repeat (constructor; [now left|]). constructor.
Qed.
Definition ex_m3u_line (src : bytes) (out : list bytes) : list bytes := [B "-s"; src; B "-a"] ++ out ++ [B "song.mp3"].
Definition ex_m3u_means (src : bytes) (out : parsed) : parsed := [(B "source-encoding", [src]); (B "append", [])] ++ out ++ [(B "arguments", [B "song.mp3"])].
Lemma ex_m3u_spelt src : src <> [] -> hd 0 src <> 45 -> line m3u_tables (ex_m3u_line src []) (ex_m3u_means src []) /\
  line m3u_tables (ex_m3u_line src [B "--output=l.m3u"]) (ex_m3u_means src [(B "output", [B "l.m3u"])]).
Proof.
  intros NE ND.
  assert (X : forall t c, line m3u_tables t c -> line m3u_tables (B "-s" :: src :: B "-a" :: t) ((B "source-encoding", [src]) :: (B "append", []) :: c)).
  { intros t c L. apply (line_more m3u_tables [B "-s"; src] [(B "source-encoding", [src])]).
    { apply (short_next m3u_tables 115 (defaulting KEnc (VEnc E_CP1252) "source-encoding" "s") src); [one_option|discriminate|].
      left. exact ND. }
    apply (line_more m3u_tables [B "-a"] [(B "append", [])]); [|exact L].
    apply (short_switches m3u_tables (B "a") [switch "append" "a"]); [discriminate| |repeat constructor]. constructor; [one_option|constructor]. }
  assert (Y : line m3u_tables [B "song.mp3"] [(B "arguments", [B "song.mp3"])]).
  { apply (line_more m3u_tables [B "song.mp3"] [(B "arguments", [B "song.mp3"])]); [apply an_argument; left; discriminate|constructor]. }
  split; [exact (X _ _ Y)|]. apply (X (B "--output=l.m3u" :: [B "song.mp3"]) ((B "output", [B "l.m3u"]) :: [(B "arguments", [B "song.mp3"])])).
  apply (line_more m3u_tables [B "--output=l.m3u"] [(B "output", [B "l.m3u"])]); [|exact Y].
  apply (long_equals m3u_tables (B "output") (option_of KPath "output" "o") (B "l.m3u")); [its_name|discriminate|discriminate].
Qed.
Example C96_one_file_nontrivial : line m3u_tables (ex_m3u_line (B "UTF-8") [B "--output=l.m3u"]) (ex_m3u_means (B "UTF-8") [(B "output", [B "l.m3u"])]) /\
  In (B "output", [B "l.m3u"]) (ex_m3u_means (B "UTF-8") [(B "output", [B "l.m3u"])]) /\ no_blank (B "l.m3u") /\ hd 0 (B "l.m3u") <> 34.
Proof. split; [apply ex_m3u_spelt; discriminate|]. split; [cbn; tauto|]. split; [|discriminate]. repeat (constructor; [split; [intros (A & C); vm_compute in A, C; congruence|discriminate]|]). constructor. Qed.

(** A line of m3u with these options, all in order. *)
Lemma ex_m3u_order src : In src [B "UTF-8"; B "ISO-8859-1"] -> in_order m3u_tables (ex_m3u_line src []) (ex_m3u_means src []) [] /\
  in_order m3u_tables (ex_m3u_line src [B "--output=l.m3u"]) (ex_m3u_means src [(B "output", [B "l.m3u"])]) [].
Proof.
  intros J. assert (X : src <> [] /\ hd 0 src <> 45 /\ no_blank src /\ (exists c, enc_of_name src = Ok c) /\ no_help (ex_m3u_line src []) /\ no_help (ex_m3u_line src [B "--output=l.m3u"])).
  { destruct J as [<-|[<-|[]]]; (split; [discriminate|]; split; [discriminate|]; split;
      [repeat (constructor; [split; [intros (A & C); vm_compute in A, C; congruence|discriminate]|]); constructor|]; split; [eexists; vm_compute; reflexivity|split; no_token]). }
  destruct X as (NE & ND & NB & (c & Ec) & NH & NH'). split; (split; [now apply ex_m3u_spelt|]; split; [exact Logic.I|]; split; [assumption|]; split; [intros x s k []|];
  intros d I; cbn in I;
  repeat (destruct I as [<-|I]; [first [exists None; apply by_none; reflexivity | eexists; apply by_default; reflexivity | eexists; apply by_line; [discriminate|exact reads_on]
    | exists (Some (VEnc c)); apply by_line; [discriminate|exact (reads_enc src c Ec NB)]
    | exists (Some (VText (B "l.m3u"))); apply by_line; [discriminate|apply (reads_path (B "l.m3u")); [discriminate| |discriminate];
        repeat (constructor; [split; [intros (A & C); vm_compute in A, C; congruence|discriminate]|]); constructor]
    | exists (Some (VTexts [B "song.mp3"])); apply by_line; [discriminate|exact (reads_texts [[B "song.mp3"]])]]|]); destruct I).
Qed.
Example C96_m3u_misuse_nontrivial : in_order m3u_tables (ex_m3u_line (B "UTF-8") []) (ex_m3u_means (B "UTF-8") []) [] /\
  ~ has_option "output" (ex_m3u_means (B "UTF-8") []) /\ In (B "append", []) (ex_m3u_means (B "UTF-8") []).
Proof. split; [apply ex_m3u_order; now left|]. split; [apply exists_not; vm_compute; reflexivity|cbn; tauto]. Qed.
Example C96_source_nontrivial : in_order m3u_tables (ex_m3u_line (B "UTF-8") [B "--output=l.m3u"]) (ex_m3u_means (B "UTF-8") [(B "output", [B "l.m3u"])]) [] /\
  in_order m3u_tables (ex_m3u_line (B "ISO-8859-1") [B "--output=l.m3u"]) (ex_m3u_means (B "ISO-8859-1") [(B "output", [B "l.m3u"])]) [] /\
  without "source-encoding" (ex_m3u_means (B "UTF-8") [(B "output", [B "l.m3u"])]) = without "source-encoding" (ex_m3u_means (B "ISO-8859-1") [(B "output", [B "l.m3u"])]).
Proof. split; [apply ex_m3u_order; now left|]. split; [apply ex_m3u_order; right; now left|reflexivity]. Qed.
Example C96_m3u_arguments_nontrivial : in_order m3u_tables [B "-v"] [(B "verbose", [])] [] /\ ~ has_option "arguments" [(B "verbose", [])] /\
  ~ has_option "append" [(B "verbose", [])] /\ ~ has_option "use-utf8" [(B "verbose", [])] /\ ~ has_option "output" [(B "verbose", [])].
Proof.
  split; [|repeat split; apply exists_not; vm_compute; reflexivity]. split.
  { apply (line_more m3u_tables [B "-v"] [(B "verbose", [])]); [|constructor]. apply (short_switches m3u_tables (B "v") [switch "verbose" "v"]); [discriminate| |repeat constructor].
    constructor; [one_option|constructor]. }
  split; [exact Logic.I|]. split; [no_token|]. split; [intros x s k []|]. intros d I. cbn in I.
  repeat (destruct I as [<-|I]; [first [exists None; apply by_none; reflexivity | eexists; apply by_default; reflexivity | eexists; apply by_line; [discriminate|exact reads_on]]|]). destruct I.
Qed.
Example C96_encodings_nontrivial : Forall no_option [B "UTF-8"; B "latin1"].
Proof. repeat (constructor; [left; discriminate|]). constructor. Qed.
