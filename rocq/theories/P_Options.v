(** * Properties: options of the sub-commands that change files (C89). *)
From Verif Require Import Base M_Ints M_Stream M_Id3v1 M_Payload M_Frame M_Tag23 S_Tag23 M_Charset M_TextId M_Lookup M_Read M_Fs M_Split M_Rename M_Tagset M_Process M_Dirent M_Popm M_Cmds M_Xtag S_Popm M_Options S_Options L_Options P_Tagset P_Cmds.
#[local] Open Scope N_scope.

(** ** C89.  Wrong usage is told by status 2 with nothing touched, dry runs touch
    nothing, and options mean what they say.

    The status is 2 exactly for wrong usage: *)
Theorem C89_popm_usage : forall z passes e entries w vm fs, ended_with (run_popm z passes e entries w vm fs) 2 <-> popm_misuse vm.
Proof. exact popm_run_usage. Qed.
Print Assumptions C89_popm_usage.
Theorem C89_xtag_usage : forall z passes e entries w vm fs, ended_with (run_xtag z passes e entries w vm fs) 2 <-> xtag_misuse vm.
Proof. exact xtag_run_usage. Qed.
Print Assumptions C89_xtag_usage.
Theorem C89_genre_usage : forall z passes e entries w vm fs, ended_with (run_genre z passes e entries w vm fs) 2 <-> genre_misuse vm.
Proof. exact genre_run_usage. Qed.
Print Assumptions C89_genre_usage.
(** For the text command, a name of a frame that is not known counts for something
    else (status 1). *)
Theorem C89_text_usage_partial : forall z passes e entries w loc vm fs, ended_with (run_text z passes e entries w loc vm fs) 2 <->
  tv_args vm = [] \/ ((tv_create vm = true /\ tv_always vm = true) /\ (exists src, tv_encoding vm = Some src \/ (tv_encoding vm = None /\ loc = Ok src)) /\
                      exists ks, text_dels (given (tv_delete vm)) = Ok ks).
Proof. exact text_run_usage. Qed.
Print Assumptions C89_text_usage_partial.

(** Whatever the command, then nothing has been touched. *)
Theorem C89_usage_untouched : forall r fs, ended_with (conclude_run r fs) 2 -> untouched (conclude_run r fs) fs.
Proof. intros r fs H. apply conclude_two in H. rewrite H. exact (conclude_usage fs). Qed.
Print Assumptions C89_usage_untouched.

Definition ex_popm : popm_vm := mkPopmVm false false false true false false false false None None (Some (B "me")) (Some [1]) (Some (B "***")) [B "f"].
Definition ex_genre (number : option N) (text : option bytes) (dry : bool) : genre_vm :=
  mkGenreVm false false false false false false dry false false false number text None None None [B "f"].
Definition ex_text : text_vm :=
  mkTextVm false false false false None (Some (B "A")) None None None (Some (B "T")) None None (Some [B "artist"; B "TCOM"]) None [B "f"].
Example C89_usage_nontrivial : forall z passes e entries w fs,
  ended_with (run_genre z passes e entries w (ex_genre (Some 17) (Some (B "Rock")) false) fs) 2 /\
  ~ ended_with (run_genre z passes e entries w (ex_genre (Some 17) None false) fs) 2 /\
  ~ ended_with (run_popm z passes e entries w ex_popm fs) 2.
Proof.
  intros. rewrite !C89_genre_usage, C89_popm_usage. split; [|split].
  - right. split; [reflexivity|]. right. left. discriminate.
  - intros [(n & E & G)|[_ [H|[H|[[H _]|[[H _]|[H _]]]]]]]; try discriminate H; [injection E as <-; lia|]. now destruct H.
  - intros [H|[(s & E & H)|[[H _]|[[H _]|[H _]]]]]; try discriminate H; [|now destruct H]. injection E as <-. vm_compute in H. discriminate H.
Qed.

(** --dry-run touches nothing at all, for all files and directories. *)
Theorem C89_popm_dry_run : forall z passes e entries w vm fs, pv_dry vm = true -> untouched (run_popm z passes e entries w vm fs) fs.
Proof. exact popm_dry. Qed.
Print Assumptions C89_popm_dry_run.
Theorem C89_genre_dry_run : forall z passes e entries w vm fs, gv_dry vm = true -> untouched (run_genre z passes e entries w vm fs) fs.
Proof. exact genre_dry. Qed.
Print Assumptions C89_genre_dry_run.
Theorem C89_xtag_dry_run_partial : forall z passes e entries w vm fs, xv_dry vm = true -> xv_get vm = false -> untouched (run_xtag z passes e entries w vm fs) fs.
Proof. exact xtag_dry. Qed.
Print Assumptions C89_xtag_dry_run_partial.
Definition ex_files : fsys := [([B "m"], Dir); ([B "m"; B "f"], File (ex_tag1 ++ B "audio")); ([B "m"; B "g"], File (B "audio"))].
Example C89_dry_run_nontrivial :
  let r dry := run_genre no_zlib 3 (ex_env RenameOk) (fun _ => []) ex_world (ex_genre (Some 3) None dry) ex_files in
  untouched (r true) ex_files /\ ended_with (r true) 0 /\ ended_with (r false) 0 /\
  find_node [B "m"; B "f"] (snd (snd (r false))) <> find_node [B "m"; B "f"] ex_files.
Proof.
  split; [|split; [|split]].
  - now apply C89_genre_dry_run.
  - vm_compute. reflexivity.
  - vm_compute. reflexivity.
  - vm_compute. discriminate.
Qed.

(** popm's --tag makes no difference: all ID3v2 tags are dealt with. *)
Theorem C89_popm_tag_refuted : forall z passes e entries w vm fs,
  run_popm z passes e entries w vm fs = run_popm z passes e entries w (without_tag vm) fs /\
  forall o create p, popm_options vm = Handled (Ok (o, create, p)) -> p_v2_scope p = TagsAll.
Proof. intros. split; [reflexivity|]. exact (popm_all_tags vm). Qed.
Print Assumptions C89_popm_tag_refuted.
(** The counts in both tags go up, although only the second was to be changed. *)
Definition ex_counted (n : N) : bytes := B "ID3" ++ [3; 0; 0; 0; 0; 0; 14] ++ B "PCNT" ++ [0; 0; 0; 1; 0; 0; n; 0; 0; 0].
Example C89_popm_tag_nontrivial_refuted :
  let r := run_popm no_zlib 3 (ex_env RenameOk) (fun _ => []) ex_world
             (mkPopmVm false false false false false false true false None None None (Some [1]) None [B "f"])
             [([B "m"], Dir); ([B "m"; B "f"], File (ex_counted 4 ++ ex_counted 7 ++ B "audio"))] in
  ended_with r 0 /\ find_node [B "m"; B "f"] (snd (snd r)) = Some (File (ex_counted 5 ++ ex_counted 8 ++ B "audio")).
Proof. split; vm_compute; reflexivity. Qed.

(** Without --increment and --count, popm counts one more. *)
Theorem C89_popm_default : forall vm o create p, popm_options vm = Handled (Ok (o, create, p)) ->
  match pv_increment vm, pv_count vm with
  | Some n, _ => o_increment o = true /\ o_count o = n
  | None, Some n => o_increment o = false /\ o_count o = n
  | None, None => o_increment o = true /\ o_count o = 1
  end.
Proof. exact popm_default. Qed.
Print Assumptions C89_popm_default.
Example C89_popm_default_nontrivial : exists o create p, popm_options ex_popm = Handled (Ok (o, create, p)) /\ o_rating o = Some 128.
Proof. do 3 eexists. split; reflexivity. Qed.

(** The text command sets the frames for which there is an option, deletes those
    named, and works on the tags given. *)
Theorem C89_text_options : forall loc vm o p, text_options loc vm = Handled (Ok (o, p)) ->
  (forall k s, In (k, s) (to_sets o) <-> text_option vm k = Some s) /\ NoDup (map fst (to_sets o)) /\
  Forall2 (fun s k => tframe_of_name s = Ok k) (given (tv_delete vm)) (to_dels o) /\
  p_v2_scope p = match given (tv_tag vm) with [] => TagsAll | l => TagsSome l end.
Proof. exact text_sets. Qed.
Print Assumptions C89_text_options.
Example C89_text_options_nontrivial : exists o p, text_options (Ok E_UTF_8) ex_text = Handled (Ok (o, p)) /\
  to_sets o = [(tf_talb, B "A"); (tf_tit2, B "T")] /\ to_dels o = [tf_tpe1; tf_tcom].
Proof. do 2 eexists. split; [reflexivity|]. split; reflexivity. Qed.

(** The number of a genre cannot be given with --v1: no numeral stands for its
    value there. *)
Theorem C89_genre_v1_refuted : forall l n, numeral l n -> lex_uchar l <> Some n.
Proof. exact v1_number. Qed.
Print Assumptions C89_genre_v1_refuted.
Example C89_genre_v1_nontrivial_refuted : numeral (B "17") 17 /\ lex_uchar (B "17") = None /\ numeral (B "7") 7 /\ lex_uchar (B "7") = Some 55.
Proof.
  unfold numeral, digit. split; [|split; [|split]]; [|reflexivity| |reflexivity];
    (split; [discriminate|]; split; [cbv [B]; cbn; repeat (constructor; [lia|]); constructor|reflexivity]).
Qed.

(** One file that cannot be dealt with keeps those named after it from being. *)
Theorem C89_stops_refuted : forall S z passes e entries (P : processor S) s p path rest fs x t fs1,
  is_regular (e_cwd e) fs path = true -> is_dir fs (resolve (e_cwd e) path) = false ->
  process_file z passes e P p path s fs = (t, (Throw x, fs1)) ->
  over_files z passes e entries P s p (path :: rest) fs = (t, (Throw x, fs1)).
Proof. exact @stops. Qed.
Print Assumptions C89_stops_refuted.
Example C89_stops_nontrivial_refuted :
  let fs := [([B "m"], Dir); ([B "m"; B "f"], File (B "ID3" ++ [3; 0; 0; 0; 0; 0; 100])); ([B "m"; B "g"], File (ex_counted 4 ++ B "audio"))] in
  let vm args := mkPopmVm false false false false false false true false None None None None None args in
  let r args := run_popm no_zlib 3 (ex_env RenameOk) (fun _ => []) ex_world (vm args) fs in
  ended_with (r [B "f"; B "g"]) 1 /\ snd (snd (r [B "f"; B "g"])) = fs /\ ended_with (r [B "g"]) 0 /\
  find_node [B "m"; B "g"] (snd (snd (r [B "g"]))) = Some (File (ex_counted 5 ++ B "audio")).
Proof. split; [|split; [|split]]; vm_compute; reflexivity. Qed.
