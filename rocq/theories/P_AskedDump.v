(** * Properties: the dump command, from the command line to what is printed (C97). *)
From Verif Require Import Base S_Ints S_Stream M_Ints M_Stream M_Id3v1 M_Payload M_Frame M_Tag22 M_Tag23 M_Tag24 M_Charset M_Encodings M_TextId M_Lookup M_Mp3 M_Track M_Read M_Fs
  M_Tagset M_Process M_Dirent M_Popm M_Cmds M_Xtag M_Options M_Csv M_Report M_Tbt M_Rename M_M3u M_Dump M_JsonDump M_CsvDump
  M_Outputs M_Naming M_Main M_Po S_Po M_Program S_Program L_Program S_Csv S_Report S_Json S_Dump S_CsvDump S_JsonDump S_Asked L_Asked L_Po S_Tag23 P_Cmds P_Po P_Dump P_JsonDump P_CsvDump P_Program.
#[local] Open Scope N_scope.

Section Dumping.
Context (z : zlib) (passes : nat) (md5 : bytes -> bytes) (e : env) (entries below : bytes -> list bytes) (w : world) (ct : ctype)
        (broken : bytes -> option nat) (blind : rfile -> outcome unit) (loc : outcome enc) (stamp : bytes -> bytes)
        (regex : bytes -> outcome (bytes -> bool)) (helped : help_level * option verbose_flavor -> N)
        (page : bytes -> N) (guile : list bytes -> FS N).
Notation program := (program z passes md5 e entries below w ct broken blind loc stamp regex helped page guile).
Notation dump_says := (dump_says z passes md5 e below w stamp regex).
(** The paths that the expression matches. *)
Notation expression vm := (match dv_expression vm with None => Ok (fun _ => true) | Some x => regex x end).

(** With --format=json, what is said of the files that were asked for can be read back
    from what is printed, in the order of the files; the status is 0 and no file has
    changed.  (As in C93, of files of which everything can be said.) *)
Theorem C97_json_partial : forall prog rest cl argv vars vm matches args fs, runs "dump" rest argv ->
  in_order dump_tables rest cl vars -> dump_asks cl vars vm -> dv_format vm = FJson -> expression vm = Ok matches ->
  Forall2 (stands_at (e_cwd e) stamp below fs) (dv_args vm) args -> Forall (fine (dv_v1enc vm) z passes md5 w (dv_parts vm)) (listed matches args) ->
  program prog argv vars fs = ([], (Ok 0, fs)) /\
  exists s jss, dump_says rest vars fs = (s, Ok tt) /\ json_stream s = Some (concat jss) /\
    Forall2 (says (dv_v1enc vm) z passes md5 w (dv_parts vm)) (listed matches args) jss.
Proof.
  intros prog rest cl argv vars vm matches args fs R O A Fm X F Fi.
  destruct (stand_there e below stamp fs _ _ F) as (_ & NM).
  destruct (C93_run_partial (dv_v1enc vm) z passes md5 w (dv_parts vm) matches args NM Fi) as (s & jss & D & J & Sa).
  destruct (dump_runs z passes md5 e below w stamp regex helped rest cl vars vm fs matches args s O A X F) as (Sd & C).
  { unfold dump_one. now rewrite Fm. }
  split; [|exists s, jss; split; [exact Sd|split; [exact J|exact Sa]]].
  rewrite (C96_runs z passes md5 e entries below w ct broken blind loc stamp regex helped page guile "dump" (dump_command z passes md5 e below w stamp regex helped) prog rest argv vars fs);
    [exact C|cbn; tauto|exact R].
Qed.

(** By default, the lines that are to be printed of each file, indented as asked for. *)
Theorem C97_lines_partial : forall prog rest cl argv vars vm matches args fs, runs "dump" rest argv ->
  in_order dump_tables rest cl vars -> dump_asks cl vars vm -> dv_format vm = FStandard -> expression vm = Ok matches ->
  let lines_of := file_lines (repeatN 32 (dv_indent vm)) (negb (dv_no_expand vm)) (dv_v1enc vm) z passes md5 (w_ic w)
                    (p_v2 (all_parts (dv_parts vm))) (p_track (all_parts (dv_parts vm))) (p_v1 (all_parts (dv_parts vm))) in
  Forall2 (stands_at (e_cwd e) stamp below fs) (dv_args vm) args ->
  Forall (fun f => (exists r, dump_read z passes md5 (df_data f) = Ok r) /\ exists ls, lines_of f ls) (listed matches args) ->
  program prog argv vars fs = ([], (Ok 0, fs)) /\
  exists lss, dump_says rest vars fs = (unlines (concat lss), Ok tt) /\ Forall2 lines_of (listed matches args) lss.
Proof.
  intros prog rest cl argv vars vm matches args fs R O A Fm X lines_of F Fi. destruct (stand_there e below stamp fs _ _ F) as (_ & NM).
  set (d := mkDs (N.to_nat (dv_indent vm)) (negb (dv_no_expand vm)) (dv_v1enc vm)).
  assert (Si : sin d = repeatN 32 (dv_indent vm)) by reflexivity.
  assert (One : forall f, In f (listed matches args) -> exists ls, dump_file d z passes md5 w (dv_parts vm) f = (unlines ls, Ok true) /\ lines_of f ls).
  { intros f I. rewrite Forall_forall in Fi. destruct (Fi f I) as ((r & Rd) & ls & L). subst lines_of. cbv beta in L. rewrite <- Si in *.
    destruct (C84_dumped d z passes md5 w (dv_parts vm) f r ls Rd L) as (s & Ds). destruct (C84_dump d z passes md5 w (dv_parts vm) f s Ds) as (ls' & L' & ->). exists ls'. split; [exact Ds|exact L']. }
  destruct (C84_run (dump_file d z passes md5 w (dv_parts vm)) matches args NM) as (Ru & _).
  { intros a f Ia If M. destruct (One f) as (ls & -> & _); [|now exists true]. unfold listed. apply in_flat_map. exists (Some f). split; [apply in_flat_map; now exists a|rewrite M; now left]. }
  assert (Y : exists lss, flat_map (fun o => match o with Some f => if matches (df_path f) then fst (dump_file d z passes md5 w (dv_parts vm) f) else [] | None => [] end) (flat_map arg_files args) =
              unlines (concat lss) /\ Forall2 lines_of (listed matches args) lss).
  { clear Ru Fi NM F. unfold listed in *. induction (flat_map arg_files args) as [|[f|] r IH]; [exists []; split; [reflexivity|constructor]| |].
    - cbn [flat_map] in *. destruct (matches (df_path f)) eqn:M.
      + destruct IH as (lss & E & Fl). { intros g I. apply One. now right. } destruct (One f (or_introl eq_refl)) as (ls & D & L). exists (ls :: lss). cbn [concat List.app]. split; [|constructor; [exact L|exact Fl]].
        rewrite D, E. cbn [fst]. unfold unlines. now rewrite flat_map_app.
      + exact (IH One).
    - exact (IH One). }
  destruct Y as (lss & E & Fl). rewrite E in Ru.
  destruct (dump_runs z passes md5 e below w stamp regex helped rest cl vars vm fs matches args (unlines (concat lss)) O A X F) as (Sd & C).
  { unfold dump_one. now rewrite Fm. }
  split; [|exists lss; split; [exact Sd|exact Fl]].
  rewrite (C96_runs z passes md5 e entries below w ct broken blind loc stamp regex helped page guile "dump" (dump_command z passes md5 e below w stamp regex helped) prog rest argv vars fs);
    [exact C|cbn; tauto|exact R].
Qed.

(** With --format=csv, a heading and a row of each file, with as many comments as asked
    for.  Missing: which files can be dumped. *)
Theorem C97_csv_partial : forall prog rest cl argv vars vm matches args fs, runs "dump" rest argv ->
  in_order dump_tables rest cl vars -> dump_asks cl vars vm -> dv_format vm = FCsv -> expression vm = Ok matches ->
  let n := N.to_nat (dv_comments vm) in let p := all_parts (dv_parts vm) in
  Forall2 (stands_at (e_cwd e) stamp below fs) (dv_args vm) args ->
  Forall (fun f => snd (dump_csv_file (dv_v1enc vm) z passes md5 w n (dv_parts vm) f) = Ok true) (listed matches args) ->
  program prog argv vars fs = ([], (Ok 0, fs)) /\
  exists ss, dump_says rest vars fs = (concat ss, Ok tt) /\
    Forall2 (fun f s => exists Vs size sum W, views (dv_v1enc vm) z passes md5 (w_ic w) n (p_v2 p) (p_v1 p) (df_data f) Vs size sum W /\
                          s = heading f ++ flat_map row_text (row_parts n (p_track p) Vs size sum W) ++ [10]) (listed matches args) ss.
Proof.
  intros prog rest cl argv vars vm matches args fs R O A Fm X n p F Fi. destruct (stand_there e below stamp fs _ _ F) as (_ & NM). rewrite Forall_forall in Fi.
  set (one := dump_csv_file (dv_v1enc vm) z passes md5 w n (dv_parts vm)) in *.
  destruct (C84_run one matches args NM) as (Ru & _).
  { intros a f Ia If M. exists true. apply Fi. unfold listed. apply in_flat_map. exists (Some f). split; [apply in_flat_map; now exists a|rewrite M; now left]. }
  assert (Y : flat_map (fun o => match o with Some f => if matches (df_path f) then fst (one f) else [] | None => [] end) (flat_map arg_files args) =
              concat (map (fun f => fst (one f)) (listed matches args))).
  { clear. unfold listed. induction (flat_map arg_files args) as [|[f|] r IH]; [reflexivity| |exact IH]. cbn [flat_map]. rewrite map_app, concat_app, <- IH.
    destruct (matches (df_path f)); [cbn [map concat]; now rewrite app_nil_r|reflexivity]. }
  rewrite Y in Ru. set (ss := map (fun f => fst (one f)) (listed matches args)) in *.
  destruct (dump_runs z passes md5 e below w stamp regex helped rest cl vars vm fs matches args (concat ss) O A X F) as (Sd & C).
  { unfold dump_one. now rewrite Fm. }
  split; [rewrite (C96_runs z passes md5 e entries below w ct broken blind loc stamp regex helped page guile "dump" (dump_command z passes md5 e below w stamp regex helped) prog rest argv vars fs);
    [exact C|cbn; tauto|exact R]|].
  exists ss. split; [exact Sd|]. subst ss. clear -Fi. induction (listed matches args) as [|f l IH]; [constructor|]. cbn [map]. constructor; [|apply IH; intros g I; apply Fi; now right].
  specialize (Fi f (or_introl eq_refl)). destruct (one f) as (s, o) eqn:D. cbn [snd] in Fi. subst o.
  destruct (C94_row_partial true (dv_v1enc vm) z passes md5 w n (dv_parts vm) f s D) as (Vs & size & sum & W & row & V & E1 & E2 & _). exists Vs, size, sum, W. split; [exact V|]. cbn [fst]. now rewrite E1, E2.
Qed.
End Dumping.
Print Assumptions C97_csv_partial.
Print Assumptions C97_json_partial.
Print Assumptions C97_lines_partial.

(** Cases in point: a file, dumped in each format. *)
Ltac by_hand := first [apply by_none; reflexivity | apply by_default; reflexivity | apply by_line; [discriminate|first [exact reads_on | apply reads_text | apply reads_texts]]].
Ltac asked := eapply gives_find; [vm_compute; reflexivity|by_hand].
Definition ex_dump_line (fmt : bytes) : list bytes := [B "--format"; fmt; B "-c"; B "ISO-8859-1"; B "a.mp3"].
Definition ex_dump_means (fmt : bytes) : parsed := [(B "format", [fmt]); (B "v1-encoding", [B "ISO-8859-1"]); (B "arguments", [B "a.mp3"])].
Definition ex_dump_vm (x : M_Po.format) : dump_vm := mkDumpVm None x ex_all 0 false E_ISO_8859_1 6 [B "a.mp3"].
Lemma ex_dump_order fmt x : In (fmt, x) [(B "json", FJson); (B "csv", FCsv); (B "standard", FStandard)] ->
  in_order dump_tables (ex_dump_line fmt) (ex_dump_means fmt) [] /\ dump_asks (ex_dump_means fmt) [] (ex_dump_vm x).
Proof.
  intros I.
  assert (W1 : worth dump_tables (ex_dump_means fmt) [] (defaulting KFormat (VFormat FStandard) "format" "f") (Some (VFormat x))).
  { apply by_line; [discriminate|]. apply (reads_format fmt x). destruct I as [I|[I|[I|[]]]]; injection I as <- <-; cbn; tauto. }
  assert (W2 : worth dump_tables (ex_dump_means fmt) [] (defaulting KEnc (VEnc E_CP1252) "v1-encoding" "c") (Some (VEnc E_ISO_8859_1))).
  { apply by_line; [discriminate|]. apply (reads_enc (B "ISO-8859-1")); [reflexivity|].
    repeat (constructor; [split; [intros (A & C); vm_compute in A, C; congruence|discriminate]|]). constructor. }
  split.
  - split; [|split; [exact Logic.I|split; [|split; [intros y s k []|]]]].
    + apply (line_more dump_tables [B "--format"; fmt] [(B "format", [fmt])]).
      { apply (long_next dump_tables (B "format") (defaulting KFormat (VFormat FStandard) "format" "f") fmt); [its_name|discriminate|].
        destruct I as [I|[I|[I|[]]]]; injection I as <- _; left; discriminate. }
      apply (line_more dump_tables [B "-c"; B "ISO-8859-1"] [(B "v1-encoding", [B "ISO-8859-1"])]).
      { apply (short_next dump_tables 99 (defaulting KEnc (VEnc E_CP1252) "v1-encoding" "c") (B "ISO-8859-1")); [one_option|discriminate|left; discriminate]. }
      apply (line_more dump_tables [B "a.mp3"] [(B "arguments", [B "a.mp3"])]); [apply an_argument; left; discriminate|constructor].
    + destruct I as [I|[I|[I|[]]]]; injection I as <- _; no_token.
    + intros d J. cbn in J.
      repeat (destruct J as [<-|J]; [first [eexists; exact W1 | eexists; exact W2 | eexists; apply by_none; reflexivity | eexists; apply by_default; reflexivity
        | eexists; apply by_line; [discriminate|first [exact reads_on|apply (reads_texts [[B "a.mp3"]])]]]|]). destruct J.
  - unfold dump_asks, ex_dump_vm, ex_all. cbn [dv_expression dv_format dv_parts dv_indent dv_no_expand dv_v1enc dv_comments dv_args p_v2 p_track p_v1 option_map].
    split; [asked|]. split; [eapply gives_find; [vm_compute; reflexivity|exact W1]|]. split; [asked|]. split; [asked|]. split; [asked|]. split; [asked|]. split; [asked|].
    split; [eapply gives_find; [vm_compute; reflexivity|exact W2]|]. split; [asked|]. eapply gives_find; [vm_compute; reflexivity|]. apply by_line; [discriminate|apply (reads_texts [[B "a.mp3"]])].
Qed.
Definition ex_shelf (data : bytes) : fsys := [([B "m"], Dir); ([B "m"; B "a.mp3"], File data)].
Lemma ex_stands data : Forall2 (stands_at (B "/m") (fun _ => B "Thu") (fun _ => []) (ex_shelf data)) [B "a.mp3"] [DFile (ex_dfile data)].
Proof. constructor; [|constructor]. apply there_file; reflexivity. Qed.
Example C97_json_nontrivial : in_order dump_tables (ex_dump_line (B "json")) (ex_dump_means (B "json")) [] /\ dump_asks (ex_dump_means (B "json")) [] (ex_dump_vm FJson) /\
  Forall2 (stands_at (B "/m") (fun _ => B "Thu") (fun _ => []) (ex_shelf ex_told)) (dv_args (ex_dump_vm FJson)) [DFile (ex_dfile ex_told)] /\
  Forall (fine E_ISO_8859_1 no_zlib 3 ex_sum ex_world ex_all) (listed (fun _ => true) [DFile (ex_dfile ex_told)]).
Proof.
  destruct (ex_dump_order (B "json") FJson ltac:(cbn; tauto)) as (O & A). split; [exact O|]. split; [exact A|]. split; [apply ex_stands|]. constructor; [exact ex_fine|constructor].
Qed.
Example C97_lines_nontrivial : in_order dump_tables (ex_dump_line (B "standard")) (ex_dump_means (B "standard")) [] /\ dump_asks (ex_dump_means (B "standard")) [] (ex_dump_vm FStandard) /\
  Forall2 (stands_at (B "/m") (fun _ => B "Thu") (fun _ => []) (ex_shelf ex_mp3)) (dv_args (ex_dump_vm FStandard)) [DFile (ex_dfile ex_mp3)] /\
  Forall (fun f => (exists r, dump_read no_zlib 3 ex_sum (df_data f) = Ok r) /\
                   exists ls, file_lines (repeatN 32 0) true E_ISO_8859_1 no_zlib 3 ex_sum (w_ic ex_world) true true true f ls) (listed (fun _ => true) [DFile (ex_dfile ex_mp3)]).
Proof.
  destruct (ex_dump_order (B "standard") FStandard ltac:(cbn; tauto)) as (O & A). split; [exact O|]. split; [exact A|]. split; [apply ex_stands|]. constructor; [|constructor].
  pose (r := dump_read no_zlib 3 ex_sum ex_mp3). split; [exists (match r with Ok x => x | _ => ([], mkTrack [] 0 None, None) end); vm_compute; reflexivity|].
  pose (d := mkDs 0 true E_ISO_8859_1). pose (out := dump_file d no_zlib 3 ex_sum ex_world ex_all (ex_dfile ex_mp3)).
  destruct (C84_dump d no_zlib 3 ex_sum ex_world ex_all (ex_dfile ex_mp3) (fst out)) as (ls & F & _); [vm_compute; reflexivity|]. exists ls. exact F.
Qed.
Example C97_csv_nontrivial : in_order dump_tables (ex_dump_line (B "csv")) (ex_dump_means (B "csv")) [] /\ dump_asks (ex_dump_means (B "csv")) [] (ex_dump_vm FCsv) /\
  Forall2 (stands_at (B "/m") (fun _ => B "Thu") (fun _ => []) (ex_shelf ex_mp3)) (dv_args (ex_dump_vm FCsv)) [DFile (ex_dfile ex_mp3)] /\
  Forall (fun f => snd (dump_csv_file E_ISO_8859_1 no_zlib 3 ex_sum ex_world 6 ex_all f) = Ok true) (listed (fun _ => true) [DFile (ex_dfile ex_mp3)]).
Proof.
  destruct (ex_dump_order (B "csv") FCsv ltac:(cbn; tauto)) as (O & A). split; [exact O|]. split; [exact A|]. split; [apply ex_stands|]. constructor; [vm_compute; reflexivity|constructor].
Qed.
