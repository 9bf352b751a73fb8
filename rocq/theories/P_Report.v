(** * Theorems: reports on files (C54, C71, C72). *)
From Verif Require Import Base M_Ints M_Stream M_Id3v1 M_Payload M_Frame M_Tag22 M_Tag23 M_Tag24 M_Charset M_Lookup M_Mp3 M_Track M_Read
  M_Tagset M_Process M_Cmds M_Csv S_Lookup S_Cmds S_Csv S_Report L_Csv2 L_Csv3 M_Report S_Tdf L_Report2 L_Report3 L_Report4 L_Report5 S_Tag23 P_Cmds.
#[local] Open Scope N_scope.

(** Files for the examples: with tags at both ends, with a tabulator in the title,
    with an ID3v2.4 play count, with an ID3v2.2 year, and one whose artist cannot
    be converted. *)
Definition ex_md5 (b : bytes) : bytes := [len b mod 256; 7].
Definition ex_both : rfile := mkRf (B "/m") (B "a.mp3") ex_file.
Definition ex_tab : rfile := mkRf (B "/m") (B "b.mp3")
  (B "ID3" ++ [3; 0; 0; 0; 0; 0; 15] ++ B "TIT2" ++ [0; 0; 0; 5; 0; 0; 0] ++ B "A" ++ [9] ++ B "BC" ++ B "music").
Definition ex_count24 : rfile := mkRf (B "/m") (B "c.mp3")
  (B "ID3" ++ [4; 0; 0; 0; 0; 0; 14] ++ B "PCNT" ++ [0; 0; 0; 4; 0; 0] ++ [0; 0; 0; 37] ++ B "music").
Definition ex_year22 : rfile := mkRf (B "/m") (B "d.mp3")
  (B "ID3" ++ [2; 0; 0; 0; 0; 0; 22] ++ B "TYE" ++ [0; 0; 5; 0] ++ B "1999" ++ B "TYR" ++ [0; 0; 5; 0] ++ B "2001" ++ B "music").
Definition ex_deaf : world := mkWorld (fun src _ _ b => match src with E_UCS_2 => None | _ => Some b end) (fun _ _ => 0) (fun _ _ => 0) (fun t => Ok t) (Ok (B "eng")).
Definition ex_broken : rfile := mkRf (B "/m") (B "e.mp3")
  (B "ID3" ++ [3; 0; 0; 0; 0; 0; 15] ++ B "TIT2" ++ [0; 0; 0; 5; 0; 0; 1] ++ B "Song" ++ B "music").


(** ** C54: CSV rows of files *)

(** Whatever is in the file, whatever the conversions, the digest and the number of
    comments: if the file is reported, its row is that of a description of the
    file, so that what C54 and C55 say of rows is said of files. *)
Theorem C54_files : forall z passes md5 w v1enc no_dir ncomm f s,
  report_file csv_style z passes md5 w v1enc no_dir ncomm f = (s, Ok true) ->
  exists x, describes z passes md5 w v1enc ncomm f x /\ megabytes (mb_text (len (rf_data f))) /\
    (forall T, e_v2 x = Some T -> length (tv_texts T) = 7%nat) /\
    s = report_row no_dir ncomm (rf_dir f) (rf_name f) (mb_text (len (rf_data f))) (e_v2 x) (e_size x) (e_md5 x) (e_v1 x).
Proof. exact file_csv. Qed.
Print Assumptions C54_files.
Example C54_files_nontrivial : exists s fs, report_file csv_style no_zlib 3 ex_md5 ex_world E_UTF_8 false 1 ex_both = (s, Ok true) /\
  read_record true comma s = Some (fs, []) /\ column (B "ID3v2 Artist") (headings false 1) fs = Some (B "Band") /\
  column (B "ID3v1 Year") (headings false 1) fs = Some (B "1999").
Proof. eexists. eexists. split; [vm_compute; reflexivity|]. split; [vm_compute; reflexivity|]. split; vm_compute; reflexivity. Qed.

(** The size is given to the nearest thousandth of a megabyte. *)
Theorem C54_size : forall size, exists k, nearest_thousandth k size /\
  mb_text size = number 10 (k / 1000) ++ B "." ++ [48 + k / 100 mod 10; 48 + k / 10 mod 10; 48 + k mod 10].
Proof. intros size. exists (thousandths size). split; [apply thousandths_nearest|reflexivity]. Qed.
Print Assumptions C54_size.
Example C54_size_nontrivial : mb_text 1048576 = B "1.000" /\ mb_text 5000000 = B "4.768" /\ nearest_thousandth 4768 5000000.
Proof. vm_compute. repeat split; discriminate. Qed.

(** False: the year of an ID3v2.2 tag.  The column asks for TYR where the year is
    TYE: it is empty, or, of a frame called TYR, it holds the name of the frame. *)
Theorem C54_year_refuted : forall z passes md5 w v1enc ncomm f x rev t tr v1 T,
  report_read z passes md5 (rf_data f) = Ok (Some (rev, t), tr, v1) -> any_version t = V22 ->
  describes z passes md5 w v1enc ncomm f x -> e_v2 x = Some T ->
  nth 5 (tv_texts T) None = None \/ nth 5 (tv_texts T) None = Some (B "TYR").
Proof. exact year22_described. Qed.
Print Assumptions C54_year_refuted.
Example C54_year_nontrivial_refuted : (exists rev t tr v1, report_read no_zlib 3 ex_md5 (rf_data ex_year22) = Ok (Some (rev, t), tr, v1) /\ any_version t = V22 /\
    length (with_id (B "TYE") (shown t)) = 1%nat) /\
  exists s fs, report_file csv_style no_zlib 3 ex_md5 ex_world E_UTF_8 false 1 ex_year22 = (s, Ok true) /\
    read_record true comma s = Some (fs, []) /\ column (B "ID3v2 Year") (headings false 1) fs = Some (B "TYR").
Proof.
  split.
  - eexists. eexists. eexists. eexists. split; [vm_compute; reflexivity|]. split; vm_compute; reflexivity.
  - eexists. eexists. split; [vm_compute; reflexivity|]. split; vm_compute; reflexivity.
Qed.

(** ** C71: delimited rows read back *)

(** Whatever is in the file: if it is reported, its row reads back as the fields of
    a description of it if and only if none of the texts in it holds the delimiter
    or a line feed. *)
Theorem C71_row_partial : forall a z passes md5 w v1enc no_dir ncomm f s rest,
  report_file (tdf_style a) z passes md5 w v1enc no_dir ncomm f = (s, Ok true) ->
  exists x, describes z passes md5 w v1enc ncomm f x /\
    (read_line (if a then 0x1f else 0x09) (s ++ rest) = Some (row_of no_dir ncomm f x, rest) <->
     Forall (plain_in (if a then 0x1f else 0x09)) (texts_in no_dir f x)).
Proof. exact file_tdf. Qed.
Print Assumptions C71_row_partial.
Example C71_row_nontrivial : exists s fs, report_file (tdf_style false) no_zlib 3 ex_md5 ex_world E_UTF_8 false 1 ex_both = (s, Ok true) /\
  read_line 9 (s ++ B "more") = Some (fs, B "more") /\ length fs = 29%nat.
Proof. eexists. eexists. split; [vm_compute; reflexivity|]. split; vm_compute; reflexivity. Qed.

(** False: texts are written as they are.  With delimiters in them and no line
    feed, the line has that many columns more. *)
Theorem C71_shifted_refuted : forall a z passes md5 w v1enc no_dir ncomm f s rest,
  report_file (tdf_style a) z passes md5 w v1enc no_dir ncomm f = (s, Ok true) ->
  exists x, describes z passes md5 w v1enc ncomm f x /\
    (Forall (fun t => ~ In 10 t) (texts_in no_dir f x) ->
     exists gs, read_line (if a then 0x1f else 0x09) (s ++ rest) = Some (gs, rest) /\
       length gs = (length (row_of no_dir ncomm f x) +
                    list_sum (map (occurrences (if a then 0x1f else 0x09)) (texts_in no_dir f x)))%nat).
Proof. exact file_shifted. Qed.
Print Assumptions C71_shifted_refuted.
Example C71_shifted_nontrivial_refuted : exists s fs, report_file (tdf_style false) no_zlib 3 ex_md5 ex_world E_UTF_8 false 1 ex_tab = (s, Ok true) /\
  read_line 9 s = Some (fs, []) /\ length fs = 30%nat /\ column (B "ID3v2 Title") (tdf_headings false 1) fs = Some (B "A") /\
  column (B "ID3v2 Album") (tdf_headings false 1) fs = Some (B "BC").
Proof. eexists. eexists. split; [vm_compute; reflexivity|]. split; [vm_compute; reflexivity|]. split; [|split]; vm_compute; reflexivity. Qed.

(** With both tags and at least one comment column, and plain texts: heading row
    and row have as many columns, and under each heading stands what it says. *)
Theorem C71_columns_partial : forall a z passes md5 w v1enc no_dir ncomm f s rest rev t tr v1,
  (0 < ncomm)%nat -> report_read z passes md5 (rf_data f) = Ok (Some (rev, t), tr, Some v1) ->
  report_file (tdf_style a) z passes md5 w v1enc no_dir ncomm f = (s, Ok true) ->
  exists T W, answers z (w_ic w) ncomm rev t T /\ answers_v1 (w_ic w) v1enc v1 W /\
  (Forall (plain_in (if a then 0x1f else 0x09)) (name_texts no_dir (rf_dir f) (rf_name f) ++ v2_texts (Some T) ++ v1_texts (Some W)) ->
   exists hs fs,
    read_line (if a then 0x1f else 0x09) (header_row false (if a then 0x1f else 0x09) no_dir ncomm) = Some (hs, []) /\
    read_line (if a then 0x1f else 0x09) (s ++ rest) = Some (fs, rest) /\
    length hs = length fs /\
    column (B "file") hs fs = Some (quoted_path (rf_name f)) /\
    column (B "ID3v2 Artist") hs fs = Some (text_field (nth 0 (tv_texts T) None)) /\
    column (B "ID3v2 Title") hs fs = Some (text_field (nth 1 (tv_texts T) None)) /\
    column (B "ID3v2 Album") hs fs = Some (text_field (nth 2 (tv_texts T) None)) /\
    column (B "ID3v2 Content Type") hs fs = Some (text_field (nth 3 (tv_texts T) None)) /\
    column (B "ID3v2 Encoded By") hs fs = Some (text_field (nth 4 (tv_texts T) None)) /\
    column (B "ID3v2 Year") hs fs = Some (text_field (nth 5 (tv_texts T) None)) /\
    column (B "ID3v2 Langauges") hs fs = Some (text_field (nth 6 (tv_texts T) None)) /\
    column (B "ID3v1 Artist") hs fs = Some (w1_artist W) /\
    column (B "ID3v1 Title") hs fs = Some (w1_title W) /\
    column (B "ID3v1 Album") hs fs = Some (w1_album W) /\
    column (B "ID3v1 Year") hs fs = Some (w1_year W) /\
    column (B "ID3v1 Comment") hs fs = Some (w1_comment W) /\
    last fs [] = number 10 (v_genre v1)).
Proof. exact file_columns. Qed.
Print Assumptions C71_columns_partial.
Example C71_columns_nontrivial : (exists rev t tr v1, report_read no_zlib 3 ex_md5 (rf_data ex_both) = Ok (Some (rev, t), tr, Some v1)) /\
  exists s fs, report_file (tdf_style true) no_zlib 3 ex_md5 ex_world E_UTF_8 true 2 ex_both = (s, Ok true) /\
    read_line 31 s = Some (fs, []) /\ column (B "ID3v2 Title") (tdf_headings true 2) fs = Some (B "Song").
Proof.
  split.
  - eexists. eexists. eexists. eexists. vm_compute. reflexivity.
  - eexists. eexists. split; [vm_compute; reflexivity|]. split; vm_compute; reflexivity.
Qed.

(** The heading row reads back as the headings. *)
Theorem C71_header : forall (a : bool) no_dir ncomm rest,
  read_line (if a then 0x1f else 0x09) (header_row false (if a then 0x1f else 0x09) no_dir ncomm ++ rest) = Some (tdf_headings no_dir ncomm, rest).
Proof. exact header_reads. Qed.
Print Assumptions C71_header.
Example C71_header_nontrivial : length (tdf_headings false 2) = 30%nat /\ nth 1 (tdf_headings false 2) [] = B "file" /\ last (tdf_headings false 2) [] = B "ID3v1 Genre".
Proof. vm_compute. repeat split. Qed.

(** Rows have as many fields as there are headings, but false when no comments are
    asked for and there is a tag: one more. *)
Theorem C71_count_refuted : forall a z passes md5 w v1enc no_dir ncomm f s,
  report_file (tdf_style a) z passes md5 w v1enc no_dir ncomm f = (s, Ok true) ->
  exists x, describes z passes md5 w v1enc ncomm f x /\
    length (row_of no_dir ncomm f x) =
    (length (tdf_headings no_dir ncomm) + match e_v2 x, ncomm with Some _, O => 1 | _, _ => 0 end)%nat.
Proof. exact file_count. Qed.
Print Assumptions C71_count_refuted.
Example C71_count_nontrivial_refuted : exists s fs, report_file (tdf_style false) no_zlib 3 ex_md5 ex_world E_UTF_8 false 0 ex_both = (s, Ok true) /\
  read_line 9 s = Some (fs, []) /\ length fs = 29%nat /\ length (tdf_headings false 0) = 28%nat.
Proof. eexists. eexists. split; [vm_compute; reflexivity|]. split; [vm_compute; reflexivity|]. split; vm_compute; reflexivity. Qed.

(** ** C72: whole reports *)

(** Every file named or found is counted once, the exit status is 0 if and only if
    all of them are reported, and what is written is the heading row and what
    comes of each file, in order. *)
Theorem C72_counts : forall (k : format) z passes md5 w v1enc no_dir ncomm args s ok err,
  report k z passes md5 w v1enc no_dir ncomm args = (s, Ok (ok, err)) ->
  exists fs, visits args fs /\ ok + err = N.of_nat (length fs) /\
    (report_status (Ok (ok, err)) = 0 <->
     Forall (fun f => exists r, report_file (style_of k) z passes md5 w v1enc no_dir ncomm f = (r, Ok true)) fs) /\
    s = header_row (match k with Csv => true | Tdf _ => false end) (st_sep (style_of k)) no_dir ncomm ++
        concat (map (fun f => fst (report_file (style_of k) z passes md5 w v1enc no_dir ncomm f)) fs).
Proof. exact report_counts. Qed.
Print Assumptions C72_counts.
Example C72_counts_nontrivial : exists s,
  report Csv no_zlib 3 ex_md5 ex_world E_UTF_8 false 1 [RFile ex_both; RDir [ex_tab; mkRf (B "/m") (B "x.txt") (B "no"); ex_count24]] = (s, Ok (2, 1)) /\
  report_status (Ok (2, 1)) = 1.
Proof. eexists. split; vm_compute; reflexivity. Qed.

(** With status 0, a CSV report is the heading row and one row for each file. *)
Theorem C72_csv : forall z passes md5 w v1enc no_dir ncomm args s ok err,
  report Csv z passes md5 w v1enc no_dir ncomm args = (s, Ok (ok, err)) -> report_status (Ok (ok, err)) = 0 ->
  exists fs xs, visits args fs /\ Forall2 (describes z passes md5 w v1enc ncomm) fs xs /\
    s = report_header no_dir ncomm ++
        concat (map (fun p => report_row no_dir ncomm (rf_dir (fst p)) (rf_name (fst p)) (mb_text (len (rf_data (fst p))))
                                (e_v2 (snd p)) (e_size (snd p)) (e_md5 (snd p)) (e_v1 (snd p))) (combine fs xs)).
Proof. exact report_csv. Qed.
Print Assumptions C72_csv.
Example C72_csv_nontrivial : exists s, report Csv no_zlib 3 ex_md5 ex_world E_UTF_8 false 1 [RFile ex_both; RDir [ex_tab; ex_year22]] = (s, Ok (3, 0)).
Proof. eexists. vm_compute. reflexivity. Qed.

(** With status 0, a delimited report with plain texts reads back line by line as
    the headings and one row for each file. *)
Theorem C72_tdf_partial : forall a z passes md5 w v1enc no_dir ncomm args s ok err,
  report (Tdf a) z passes md5 w v1enc no_dir ncomm args = (s, Ok (ok, err)) -> report_status (Ok (ok, err)) = 0 ->
  exists fs xs, visits args fs /\ Forall2 (describes z passes md5 w v1enc ncomm) fs xs /\
    (Forall2 (fun f x => Forall (plain_in (if a then 0x1f else 0x09)) (texts_in no_dir f x)) fs xs ->
     read_lines (if a then 0x1f else 0x09) s
       (tdf_headings no_dir ncomm :: map (fun p => row_of no_dir ncomm (fst p) (snd p)) (combine fs xs))).
Proof. exact report_tdf. Qed.
Print Assumptions C72_tdf_partial.
Example C72_tdf_nontrivial : exists s ls, report (Tdf true) no_zlib 3 ex_md5 ex_world E_UTF_8 false 1 [RFile ex_both; RDir [ex_tab; ex_year22]] = (s, Ok (3, 0)) /\
  read_lines 31 s ls /\ length ls = 4%nat.
Proof.
  eexists. eexists. split; [vm_compute; reflexivity|]. split.
  - do 4 (eapply rl_line; [vm_compute; reflexivity|]). constructor.
  - reflexivity.
Qed.

(** A file that can be read, all of whose texts, comments and counts can be told,
    is reported, unless it is what C72_v24_refuted speaks of. *)
Theorem C72_reported_partial : forall st z passes md5 w v1enc no_dir ncomm f v2 tr v1,
  report_read z passes md5 (rf_data f) = Ok (v2, tr, v1) ->
  (forall rev t, v2 = Some (rev, t) -> tellable z (w_ic w) ncomm t /\
     (any_version t = V24 -> length (with_id (B "PCNT") (shown t)) <> 1%nat)) ->
  if_any (tellable_v1 (w_ic w) v1enc) v1 ->
  exists s, report_file st z passes md5 w v1enc no_dir ncomm f = (s, Ok true).
Proof. exact report_file_ok. Qed.
Print Assumptions C72_reported_partial.
Example C72_reported_nontrivial : exists rev t tr v1, report_read no_zlib 3 ex_md5 (rf_data ex_both) = Ok (Some (rev, t), tr, Some v1) /\
  tellable no_zlib (w_ic ex_world) 1 t /\ any_version t = V23 /\ tellable_v1 (w_ic ex_world) E_UTF_8 v1.
Proof.
  eexists. eexists. eexists. eexists. split; [vm_compute; reflexivity|]. split; [|split; [reflexivity|]].
  - split; [eexists; vm_compute; reflexivity|]. split; [|split].
    + intros id f I J. vm_compute in I.
      assert (G : exists b, f_body f = BText b /\ exists s, text_as_str V23 (w_ic ex_world) b E_UTF_8 NoFail None = Ok s).
      { repeat (destruct I as [<- | I]; [vm_compute in J; repeat (destruct J as [<- | J]; [eexists; split; [reflexivity|]; eexists; vm_compute; reflexivity|]); destruct J|]). destruct I. }
      destruct G as (b & G & s & S1). exists s. left. exists b. split; assumption.
    + intros f Q. vm_compute in Q. discriminate Q.
    + intros f Q. vm_compute in Q. destruct Q.
  - intros field I. vm_compute in I. repeat (destruct I as [<- | I]; [eexists; vm_compute; reflexivity|]). destruct I.
Qed.

(** False: a file whose first tag is of version 2.4 and has one play count is never
    reported, whatever else is in it. *)
Theorem C72_v24_refuted : forall st z passes md5 w v1enc no_dir ncomm f rev t tr v1,
  report_read z passes md5 (rf_data f) = Ok (Some (rev, t), tr, v1) -> any_version t = V24 ->
  length (with_id (B "PCNT") (shown t)) = 1%nat ->
  forall s, report_file st z passes md5 w v1enc no_dir ncomm f <> (s, Ok true).
Proof. exact never_reported. Qed.
Print Assumptions C72_v24_refuted.
Example C72_v24_nontrivial_refuted : exists rev t tr v1, report_read no_zlib 3 ex_md5 (rf_data ex_count24) = Ok (Some (rev, t), tr, v1) /\
  any_version t = V24 /\ length (with_id (B "PCNT") (shown t)) = 1%nat.
Proof. eexists. eexists. eexists. eexists. split; [vm_compute; reflexivity|]. split; vm_compute; reflexivity. Qed.

(** A file that fails while it is being read leaves nothing in the report; one
    that fails later leaves a piece of a row that ends with the separator, and no
    line end. *)
Theorem C72_failed : forall st z passes md5 w v1enc no_dir ncomm f s,
  report_file st z passes md5 w v1enc no_dir ncomm f = (s, Ok false) ->
  s = [] /\ (exists x, report_read z passes md5 (rf_data f) = Throw x) \/
  (exists p, s = p ++ [st_sep st]) /\ exists r, report_read z passes md5 (rf_data f) = Ok r.
Proof. exact report_file_stops. Qed.
Print Assumptions C72_failed.
Example C72_failed_nontrivial : (exists s, report_file csv_style no_zlib 3 ex_md5 ex_deaf E_UTF_8 false 1 ex_broken = (s, Ok false) /\ len s = 34) /\
  report_file csv_style no_zlib 3 ex_md5 ex_deaf E_UTF_8 false 1 (mkRf (B "/m") (B "t.mp3") (B "ID3" ++ [3; 0; 0; 0; 0; 0; 99])) = ([], Ok false).
Proof. split; [eexists; split; vm_compute; reflexivity|vm_compute; reflexivity]. Qed.

(** False: that each file reported has a line of its own.  After a file that fails
    while its row is being written, the next row continues that line. *)
Theorem C72_joined_refuted : forall a z passes md5 w v1enc no_dir ncomm f g p s rest x,
  report_file (tdf_style a) z passes md5 w v1enc no_dir ncomm f = (p, Ok false) -> p <> [] -> ~ In 10 p ->
  report_file (tdf_style a) z passes md5 w v1enc no_dir ncomm g = (s, Ok true) ->
  read_line (if a then 0x1f else 0x09) (s ++ rest) = Some (x, rest) ->
  exists fs, fs <> [] /\ read_line (if a then 0x1f else 0x09) ((p ++ s) ++ rest) = Some (fs ++ x, rest).
Proof. exact joined. Qed.
Print Assumptions C72_joined_refuted.
Example C72_joined_nontrivial_refuted : exists p s x, report_file (tdf_style false) no_zlib 3 ex_md5 ex_world E_UTF_8 false 1 ex_count24 = (p, Ok false) /\
  report_file (tdf_style false) no_zlib 3 ex_md5 ex_world E_UTF_8 false 1 ex_both = (s, Ok true) /\ read_line 9 s = Some (x, []) /\
  option_map (fun r => length (fst r)) (read_line 9 (p ++ s)) = Some 45%nat.
Proof. eexists. eexists. eexists. split; [vm_compute; reflexivity|]. split; [vm_compute; reflexivity|]. split; vm_compute; reflexivity. Qed.

(** An argument that is not there: status 1. *)
Theorem C72_missing : forall (k : format) z passes md5 w v1enc no_dir ncomm args, In RMissing args ->
  report_status (snd (report k z passes md5 w v1enc no_dir ncomm args)) = 1.
Proof. exact missing_status. Qed.
Print Assumptions C72_missing.
Example C72_missing_nontrivial : exists s, report Csv no_zlib 3 ex_md5 ex_world E_UTF_8 false 1 [RFile ex_both; RMissing; RFile ex_tab] = (s, Throw InvalidArgument) /\ s <> [].
Proof. eexists. split; [vm_compute; reflexivity|]. intros Q. discriminate Q. Qed.
