(** * Properties: options from the command line and the environment to the commands. *)
From Verif Require Import Base S_Ints M_Ints M_Stream M_Id3v1 M_Payload M_Frame M_Tag22 M_Tag23 M_Tag24 M_Charset M_Encodings M_TextId M_Lookup M_Read M_Fs M_Split
  M_Tagset M_Process M_Dirent M_Popm M_Cmds M_Xtag M_Options S_Options L_Options M_Main S_Main L_Main S_Popm S_Tag23 M_Po S_Po L_Po L_Po2 L_Po3 P_Cmds P_Tagset P_Options.
#[local] Open Scope N_scope.

(** ** Spelling: however the options are written -- with their long names, those cut
    short, letters, letters put together, values joined or apart, in any order with
    the arguments -- they are understood as meant. *)
Theorem C95_spelling : forall T tokens cl, In T commands -> line T tokens cl -> enough_room T cl ->
  exists os, parse_line (t_all T) (t_name T) (t_room T) tokens = Handled (Ok os) /\ map (fun o => (q_key o, q_words o)) os = cl.
Proof.
  intros T tokens cl I L R. destruct (line_meant T tokens cl (f_all _ (commands_fit T I)) L R) as (os & E & N1 & _). now exists os.
Qed.
Print Assumptions C95_spelling.
Definition ex_tokens : list bytes := [B "-nf"; B "song.mp3"; B "--own=me"; B "-i"; B "3"; B "--rating"; B "***"; B "-t1"; B "-t"; B "0"; B "--"; B "-odd.mp3"].
Definition ex_meaning : parsed :=
  [(B "dry-run", []); (B "create-frame", []); (B "arguments", [B "song.mp3"]); (B "owner", [B "me"]); (B "increment", [B "3"]); (B "rating", [B "***"]);
   (B "tag", [B "1"]); (B "tag", [B "0"]); (B "arguments", [B "-odd.mp3"])].
Ltac one_option := split; [cbn; tauto|]; split; [reflexivity|]; let d' := fresh in let I := fresh in let E := fresh in intros d' I E;
  repeat (destruct I as [<-|I]; [first [reflexivity|discriminate E]|]); destruct I.
Ltac its_name := split; [cbn; tauto|]; split; [discriminate|]; now left.
Lemma ex_line : line popm_tables ex_tokens ex_meaning.
Proof.
  apply (line_more popm_tables [B "-nf"] [(B "dry-run", []); (B "create-frame", [])]).
  { apply (short_switches popm_tables (B "nf") [switch "dry-run" "n"; switch "create-frame" "f"]); [discriminate| |repeat constructor].
    constructor; [one_option|]. constructor; [one_option|constructor]. }
  apply (line_more popm_tables [B "song.mp3"] [(B "arguments", [B "song.mp3"])]). { apply an_argument. left. discriminate. }
  apply (line_more popm_tables [B "--own=me"] [(B "owner", [B "me"])]).
  { apply (long_equals popm_tables (B "own") (option_of KText "owner" "o") (B "me")); [|discriminate|discriminate].
    split; [cbn; tauto|]. split; [discriminate|]. right. split; [now exists (B "er")|]. intros d' I E.
    repeat (destruct I as [<-|I]; [first [reflexivity|destruct E as (r & E); discriminate E]|]). destruct I. }
  apply (line_more popm_tables [B "-i"; B "3"] [(B "increment", [B "3"])]).
  { apply (short_next popm_tables 105 (option_of KSize "increment" "i") (B "3")); [one_option|discriminate|left; discriminate]. }
  apply (line_more popm_tables [B "--rating"; B "***"] [(B "rating", [B "***"])]).
  { apply (long_next popm_tables (B "rating") (option_of KText "rating" "r") (B "***")); [its_name|discriminate|left; discriminate]. }
  apply (line_more popm_tables [B "-t1"] [(B "tag", [B "1"])]).
  { apply (short_joined popm_tables 116 (option_of KSizes "tag" "t") (B "1")); [one_option|discriminate|discriminate]. }
  apply (line_more popm_tables [B "-t"; B "0"] [(B "tag", [B "0"])]).
  { apply (short_next popm_tables 116 (option_of KSizes "tag" "t") (B "0")); [one_option|discriminate|left; discriminate]. }
  apply (line_dashes popm_tables [B "-odd.mp3"]).
Qed.
Example C95_spelling_nontrivial : exists os, parse_line popm_all (B "arguments") None ex_tokens = Handled (Ok os) /\ map (fun o => (q_key o, q_words o)) os = ex_meaning.
Proof. apply (C95_spelling popm_tables ex_tokens ex_meaning); [now left|exact ex_line|exact Logic.I]. Qed.

(** ** Each option of each command goes by its own name, and by its own letter, but
    for one letter of the genre command. *)
Theorem C95_names : forall T d, In T commands -> In d (t_all T) ->
  stands_for (t_all T) (d_long d) d /\ forall c, d_short d = Some c -> letter (t_all T) c d \/ (T = genre_tables /\ c = 118).
Proof.
  intros T d I J. pose proof (commands_fit T I) as Ft. split; [split; [exact J|split; [exact (long_ne _ _ (f_all _ Ft) J)|now left]]|].
  intros c E. destruct (letters_told T I) as [->|H]; [|left; now apply H]. destruct (N.eq_dec c 118) as [->|N1]; [right; now split|left; now apply genre_letters].
Qed.
Print Assumptions C95_names.
Example C95_names_nontrivial : letter text_all 65 (option_of KText "artist" "A") /\ letter text_all 97 (option_of KText "album" "a").
Proof. split; one_option. Qed.
(** The letter v was given to both --v1 and --verbose of the genre command: it can
    be used for neither. *)
Theorem C95_genre_v_refuted : forall pre rest vars, words_before pre -> gather genre_tables (pre ++ B "-v" :: rest) vars = UsageError.
Proof. exact genre_v. Qed.
Print Assumptions C95_genre_v_refuted.
Example C95_genre_v_nontrivial_refuted : forall z passes e entries w helped fs,
  ended_with (genre_command z passes e entries w helped [B "song.mp3"; B "-w"; B "17"; B "-v"] [] fs) 2.
Proof.
  intros. vm_compute. reflexivity.
Qed.

(** ** Values: what the command line has goes before what the environment has, and
    that before the default. *)
Theorem C95_values : forall T tokens cl vars, In T commands -> line T tokens cl -> enough_room T cl -> no_help tokens -> known_vars T vars ->
  (forall d, In d (t_all T) -> exists v, worth T cl vars d v) ->
  exists m, gather T tokens vars = Handled (Ok (inr m)) /\
    forall d, In d (t_all T) -> forall v, worth T cl vars d v -> value_of m (d_long d) = v.
Proof. exact command_values. Qed.
Print Assumptions C95_values.
Definition ex_vars : list (bytes * bytes) := [(B "HOME", B "/home/me"); (B "SCRIBBU_OWNER", B "you"); (B "SCRIBBU_ADJUST_UNSYNC", B "Yes")].

Lemma ex_worth : forall d, In d (t_all popm_tables) -> exists v, worth popm_tables ex_meaning ex_vars d v.
Proof.
  assert (U : worth popm_tables ex_meaning ex_vars (switch "adjust-unsync" "u") (Some (VSwitch true))).
  { apply by_env; [reflexivity|discriminate|]. apply (reads_yes (B "Yes")). exists (B "yes"). split; [cbn; tauto|].
    constructor; [right; now split; [split|]|]. constructor; [now left|]. constructor; [now left|constructor]. }
  assert (F : forall k, worth popm_tables ex_meaning ex_vars (option_of KText k "") None -> True) by trivial. clear F.
  intros d I. cbn in I. destruct I as [<-|I].
  { eexists. apply by_default; reflexivity. }
  destruct I as [<-|I]. { eexists. apply by_default; reflexivity. }
  destruct I as [<-|I]. { eexists. apply by_default; reflexivity. }
  destruct I as [<-|I]. { eexists. exact U. }
  destruct I as [<-|I]. { eexists. apply by_default; reflexivity. }
  destruct I as [<-|I]. { exists None. apply by_none; reflexivity. }
  destruct I as [<-|I]. { eexists. apply by_default; reflexivity. }
  destruct I as [<-|I]. { eexists. apply by_line; [discriminate|exact reads_on]. }
  destruct I as [<-|I]. { eexists. apply by_default; reflexivity. }
  destruct I as [<-|I]. { eexists. apply by_line; [discriminate|exact reads_on]. }
  destruct I as [<-|I].
  { eexists. apply by_line; [discriminate|]. apply (reads_size (B "3") 3); [|reflexivity]. split; [discriminate|]. split; [|reflexivity]. constructor; [now split|constructor]. }
  destruct I as [<-|I]. { eexists. apply by_line; [discriminate|exact (reads_text (B "me"))]. }
  destruct I as [<-|I]. { eexists. apply by_default; reflexivity. }
  destruct I as [<-|I]. { eexists. apply by_default; reflexivity. }
  destruct I as [<-|I]. { eexists. apply by_line; [discriminate|exact (reads_text (B "***"))]. }
  destruct I as [<-|I].
  { eexists. apply by_line; [discriminate|]. apply (reads_sizes [[B "1"]; [B "0"]] [1; 0]).
    constructor; [split; [split; [discriminate|split; [constructor; [now split|constructor]|reflexivity]]|reflexivity]|].
    constructor; [split; [split; [discriminate|split; [constructor; [now split|constructor]|reflexivity]]|reflexivity]|constructor]. }
  destruct I as [<-|I]. { eexists. apply by_default; reflexivity. }
  destruct I as [<-|[]]. eexists. apply by_line; [discriminate|exact (reads_texts [[B "song.mp3"]; [B "-odd.mp3"]])].
Qed.
(** The owner is that of the command line, and not that of the environment. *)
Example C95_values_nontrivial : exists m, gather popm_tables ex_tokens ex_vars = Handled (Ok (inr m)) /\
  popm_vars m = mkPopmVm true false false true false true false false (Some 3) None (Some (B "me")) (Some [1; 0]) (Some (B "***")) [B "song.mp3"; B "-odd.mp3"].
Proof.
  destruct (C95_values popm_tables ex_tokens ex_meaning ex_vars) as (m & E & _).
  - now left.
  - exact ex_line.
  - exact Logic.I.
  - intros t I. apply exists_not. unfold ex_tokens in I. repeat (destruct I as [<-|I]; [vm_compute; reflexivity|]). destruct I.
  - intros x s k I J. apply (get_in popm_env (f_env popm_tables (commands_fit popm_tables (or_introl eq_refl)))) in J.
    destruct I as [I|[I|[I|[]]]]; injection I as <- <-; vm_compute in J; [discriminate J| |]; injection J as <-.
    + exists (option_of KText "owner" "o"). split; [cbn; tauto|reflexivity].
    + exists (switch "adjust-unsync" "u"). split; [cbn; tauto|reflexivity].
  - exact ex_worth.
  - exists m. split; [exact E|]. assert (X : gather popm_tables ex_tokens ex_vars = Handled (Ok (inr m))) by exact E. vm_compute in X. injection X as <-. reflexivity.
Qed.
(** The same, for any words, where the command goes on. *)
Theorem C95_precedence : forall T tokens vars m os, In T commands -> gather T tokens vars = Handled (Ok (inr m)) ->
  parse_line (t_all T) (t_name T) (t_room T) tokens = Handled (Ok os) ->
  forall d v, In d (t_all T) -> worth T (map (fun o => (q_key o, q_words o)) os) vars d v -> value_of m (d_long d) = v.
Proof.
  intros T tokens vars m os I G P d v J W. pose proof (commands_fit T I) as Ft. destruct (line_delivered T tokens os Ft P) as (Kn & _).
  exact (gather_sound T tokens vars os m Ft P G Kn d J v W).
Qed.
Print Assumptions C95_precedence.

(** ** How it can end *)
Theorem C95_outcome : forall T tokens vars, In T commands ->
  refused (gather T tokens vars) \/ ends_well (gather T tokens vars) \/ exists e, gather T tokens vars = Handled (Throw e).
Proof. intros T tokens vars _. exact (gather_proper T tokens vars). Qed.
Print Assumptions C95_outcome.
(** For these, all that is wrong with the options is told as such. *)
Theorem C95_misuse_partial : forall T tokens vars, In T [popm_tables; xtag_tables; genre_tables; rename_tables; split_tables] ->
  refused (gather T tokens vars) \/ ends_well (gather T tokens vars).
Proof.
  intros T tokens vars I. apply gather_strict; [apply commands_fit; cbn in I |- *; tauto|]. intros d J. apply (no_throwers T I). now apply in_map.
Qed.
Print Assumptions C95_misuse_partial.
Example C95_misuse_nontrivial : refused (gather popm_tables [B "--count"; B "many"; B "f"] []) /\ refused (gather split_tables [B "a"; B "b"] []) /\
  ends_well (gather popm_tables [B "--count"; B "7"; B "f"] []).
Proof. split; [reflexivity|]. split; [reflexivity|]. eexists. vm_compute. reflexivity. Qed.
(** An encoding that is not known is not told as wrong usage. *)
Theorem C95_encoding_refuted : forall s f, s <> [] -> no_option f -> (forall e, enc_of_name (fst (word s)) <> Ok e) ->
  gather text_tables [B "--encoding=" ++ s; f] [] = Handled (Throw OutOfRange) /\
  forall z passes e entries w helped loc fs, ended_with (text_command z passes e entries w helped loc [B "--encoding=" ++ s; f] [] fs) 1.
Proof.
  intros s f NE F H. pose proof (text_encoding s f NE F H) as E. split; [exact E|]. intros. unfold text_command, after_options. rewrite E. reflexivity.
Qed.
Print Assumptions C95_encoding_refuted.
Example C95_encoding_nontrivial_refuted : forall e, enc_of_name (fst (word (B "latin1"))) <> Ok e.
Proof. intros e. vm_compute. discriminate. Qed.

(** ** Nothing is done unless the options are in order *)
Theorem C95_untouched : forall T helped go tokens vars fs, (forall m, gather T tokens vars <> Handled (Ok (inr m))) ->
  untouched (after_options T helped go tokens vars fs) fs.
Proof. intros T helped go tokens vars fs H. apply after_untouched. intros m E. now destruct (H m). Qed.
Print Assumptions C95_untouched.
Example C95_untouched_nontrivial : forall m, gather popm_tables [B "-f"] [] <> Handled (Ok (inr m)).
Proof. intros m. vm_compute. discriminate. Qed.

(** ** A dry run changes nothing, by whichever way it is asked for *)
Theorem C95_popm_dry_run : forall z passes e entries w helped tokens vars fs, dry_asked popm_tables tokens vars ->
  untouched (popm_command z passes e entries w helped tokens vars fs) fs.
Proof. exact popm_dry_line. Qed.
Print Assumptions C95_popm_dry_run.
Theorem C95_genre_dry_run : forall z passes e entries w helped tokens vars fs, dry_asked genre_tables tokens vars ->
  untouched (genre_command z passes e entries w helped tokens vars fs) fs.
Proof. exact genre_dry_line. Qed.
Print Assumptions C95_genre_dry_run.
Theorem C95_xtag_dry_run_partial : forall z passes e entries w helped tokens cl vars fs, dry_asked xtag_tables tokens vars ->
  line xtag_tables tokens cl -> ~ In (B "get", []) cl -> untouched (xtag_command z passes e entries w helped tokens vars fs) fs.
Proof. exact xtag_dry_line. Qed.
Print Assumptions C95_xtag_dry_run_partial.
Example C95_dry_run_nontrivial :
  let gone tokens vars := genre_command no_zlib 3 (ex_env RenameOk) (fun _ => []) ex_world (fun _ => 0) tokens vars ex_files in
  dry_asked genre_tables [B "-w3"; B "f"] [(B "SCRIBBU_DRY_RUN", B "True")] /\
  ended_with (gone [B "-w3"; B "f"] [(B "SCRIBBU_DRY_RUN", B "True")]) 0 /\ ended_with (gone [B "-w3"; B "f"] []) 0 /\
  find_node [B "m"; B "f"] (snd (snd (gone [B "-w3"; B "f"] []))) <> find_node [B "m"; B "f"] ex_files.
Proof.
  split; [|split; [|split]].
  - right. split; [constructor; [intros []|constructor]|]. exists (B "True"). split; [now left|]. exists (B "true"). split; [cbn; tauto|].
    constructor; [right; now split; [split|]|]. constructor; [now left|]. constructor; [now left|]. constructor; [now left|constructor].
  - vm_compute. reflexivity.
  - vm_compute. reflexivity.
  - vm_compute. discriminate.
Qed.

(** ** What does not do what it says *)

(** With SCRIBBU_CREATE in the environment neither popm nor xtag does anything. *)
Theorem C95_create_refuted : forall s vars, In (B "SCRIBBU_CREATE", s) vars -> forall z passes e entries w helped tokens fs,
  untouched (popm_command z passes e entries w helped tokens vars fs) fs /\ untouched (xtag_command z passes e entries w helped tokens vars fs) fs.
Proof.
  intros s vars I z passes e entries w helped tokens fs. split; apply C95_untouched.
  - apply (unknown_var popm_tables tokens vars (B "SCRIBBU_CREATE") s (B "create")); [apply commands_fit; cbn; tauto|exact I|cbn; tauto|].
    apply exists_not. vm_compute. reflexivity.
  - apply (unknown_var xtag_tables tokens vars (B "SCRIBBU_CREATE") s (B "create")); [apply commands_fit; cbn; tauto|exact I|cbn; tauto|].
    apply exists_not. vm_compute. reflexivity.
Qed.
Print Assumptions C95_create_refuted.
Example C95_create_nontrivial_refuted : forall z passes e entries w helped fs,
  ended_with (popm_command z passes e entries w helped [B "-fp"; B "f"] [(B "SCRIBBU_CREATE", B "1")] fs) 2.
Proof. intros. vm_compute. reflexivity. Qed.

(** No output can be named with a blank, although the shell passes it on as one word. *)
Theorem C95_blank_path_refuted : forall T tokens cl vars s, In T [rename_tables; report_tables; m3u_tables] -> line T tokens cl ->
  In (B "output", [s]) cl -> hd 0 s <> 34 -> (exists c, In c s /\ blank c = true) -> forall m, gather T tokens vars <> Handled (Ok (inr m)).
Proof.
  intros T tokens cl vars s I L J H E. exact (blank_output T tokens cl vars s I L J H E).
Qed.
Print Assumptions C95_blank_path_refuted.
Example C95_blank_path_nontrivial_refuted : refused (gather report_tables [B "--output"; B "my report.csv"; B "music"] []) /\
  ends_well (gather report_tables [B "--output"; B "report.csv"; B "music"] []).
Proof. split; [vm_compute; reflexivity|]. eexists. vm_compute. reflexivity. Qed.

(** A play count below zero is taken, as one that is next to the largest there can be. *)
Theorem C95_negative_refuted : forall s n f, numeral s n -> 0 < n < 2 ^ 64 -> no_option f ->
  exists m, gather popm_tables [B "--count=-" ++ s; f] [] = Handled (Ok (inr m)) /\ pv_count (popm_vars m) = Some (2 ^ 64 - n).
Proof. exact popm_negative. Qed.
Print Assumptions C95_negative_refuted.
Example C95_negative_nontrivial_refuted : numeral (B "5") 5 /\ exists m, gather popm_tables [B "--count=-5"; B "f"] [] = Handled (Ok (inr m)).
Proof. split; [split; [discriminate|split; [constructor; [now split|constructor]|reflexivity]]|]. eexists. vm_compute. reflexivity. Qed.

(** Help is found by the words and not by their meaning: a name that is cut short runs
    the command, and an argument that looks like it does not. *)
Theorem C95_help_refuted :
  (forall f, no_option f -> exists m, gather popm_tables [B "--hel"; f] [] = Handled (Ok (inr m)) /\ pv_args (popm_vars m) = [f]) /\
  forall T l h vars, In T commands -> In h help_words -> In h l -> match t_room T with None => True | Some n => (List.length l <= n)%nat end ->
    exists x, gather T (B "--" :: l) vars = Handled (Ok (inl x)).
Proof. split; [exact abbreviated_help|exact dashes_help]. Qed.
Print Assumptions C95_help_refuted.
Example C95_help_nontrivial_refuted : exists x, gather rename_tables [B "--"; B "-h"] [] = Handled (Ok (inl x)).
Proof. eexists. vm_compute. reflexivity. Qed.
