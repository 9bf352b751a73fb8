(** * Properties: CSV output (C38, C54, C55). *)
From Verif Require Import Base M_Csv S_Csv S_Report L_Csv L_Csv2 L_Csv3.

(** ** C38.  Rows of fields read back. *)

(** Exactly the rows that come back: each field either has a separator or a line
    feed in it, or nothing in it that means anything to a reader. *)
Theorem C38_round_trip_partial lax sep fs rest :
  separator_ok sep = true -> sep <> quote -> fs <> [] ->
  (read_record lax sep (separated sep (map (escape sep quote) fs) ++ [newline] ++ rest) = Some (fs, rest)
   <-> readable_row lax sep fs).
Proof. intros H1 H2 H3. exact (row_exact lax sep fs rest (separator_fine sep H1 H2) H3). Qed.
Print Assumptions C38_round_trip_partial.

Example C38_round_trip_nontrivial :
  let fs := [B "one, ""two"""; []; B "three" ++ [10] ++ B "four"] in
  separator_ok 44 = true /\ readable_row false 44 fs /\
  separated 44 (map (escape 44 quote) fs) <> separated 44 fs.
Proof.
  cbn zeta. split; [reflexivity|]. split.
  - cbn [readable_row]. split; [left; cbn; tauto|]. split; [|right; left; cbn; tauto].
    right. right. repeat split; easy.
  - intros E. vm_compute in E. discriminate E.
Qed.

(** Missing from the property: a field that begins with a quote, but has no
    separator or line feed, is printed as it is, and never comes back. *)
Theorem C38_quotes_refuted lax sep f r rest :
  separator_ok sep = true -> sep <> quote -> ~ In sep f -> ~ In newline f ->
  read_record lax sep (separated sep (map (escape sep quote) ((quote :: f) :: r)) ++ [newline] ++ rest)
  <> Some ((quote :: f) :: r, rest).
Proof. exact (first_quote lax sep f r rest). Qed.
Print Assumptions C38_quotes_refuted.

(** ... and the printer accepts the quote itself as the separator. *)
Theorem C38_separator_refuted lax f :
  ~ In quote f -> ~ In newline f ->
  csv_pprinter quote = Ok quote /\
  read_record lax quote (separated quote (map (escape quote quote) [[]; f]) ++ [newline]) = None.
Proof. intros H1 H2. split; [reflexivity|]. exact (quote_separator lax f H1 H2). Qed.
Print Assumptions C38_separator_refuted.

(** ** C54.  The rows of a CSV report line up with its headings. *)
Definition view_ex : tagview :=
  mkView 3 0 1024 0 (Some false)
    [Some (B "Smith, Patti"); Some (B "Gloria"); None; None; None; Some (B "1975"); None]
    1 37 2 [B "fine"; B "very ""fine"", that"].
Definition v1_ex : v1view := mkV1 true false (B "Patti Smith") (B "Gloria") [] (B "1975") [] 17.

Theorem C54_columns_partial lax no_dir ncomm dir name mb t size md5 w rest :
  (0 < ncomm)%nat -> path_fine dir -> path_fine name -> megabytes mb ->
  length (tv_texts t) = 7%nat -> tag_readable lax comma t -> v1_readable lax comma (Some w) ->
  exists hs fs,
    read_record lax comma (report_header no_dir ncomm) = Some (hs, []) /\
    read_record lax comma (report_row no_dir ncomm dir name mb (Some t) size md5 (Some w) ++ rest) = Some (fs, rest) /\
    length hs = length fs /\
    column (B "file") hs fs = Some name /\
    column (B "ID3v2 Artist") hs fs = Some (text_field (nth 0 (tv_texts t) None)) /\
    column (B "ID3v2 Title") hs fs = Some (text_field (nth 1 (tv_texts t) None)) /\
    column (B "ID3v2 Album") hs fs = Some (text_field (nth 2 (tv_texts t) None)) /\
    column (B "ID3v2 Content Type") hs fs = Some (text_field (nth 3 (tv_texts t) None)) /\
    column (B "ID3v2 Encoded By") hs fs = Some (text_field (nth 4 (tv_texts t) None)) /\
    column (B "ID3v2 Year") hs fs = Some (text_field (nth 5 (tv_texts t) None)) /\
    column (B "ID3v2 Langauges") hs fs = Some (text_field (nth 6 (tv_texts t) None)) /\
    column (B "ID3v1 Artist") hs fs = Some (w1_artist w) /\
    column (B "ID3v1 Title") hs fs = Some (w1_title w) /\
    column (B "ID3v1 Album") hs fs = Some (w1_album w) /\
    column (B "ID3v1 Year") hs fs = Some (w1_year w) /\
    column (B "ID3v1 Comment") hs fs = Some (w1_comment w).
Proof.
  intros Hn Hd Hf Hm H7 Ht Hw.
  exists (headings no_dir ncomm), (row_fields no_dir ncomm dir name mb (Some t) size md5 (Some w)).
  split; [rewrite <- (app_nil_r (report_header no_dir ncomm)); apply header_read|].
  split; [now apply report_read|].
  split; [rewrite headings_length, (row_length _ _ _ _ _ (Some t)) by exact H7; destruct ncomm; [lia|reflexivity]|].
  destruct (tv_texts t) as [|x0 [|x1 [|x2 [|x3 [|x4 [|x5 [|x6 [|]]]]]]]] eqn:Ex; try discriminate H7. clear H7.
  repeat split;
    first [ apply column_before; [exact Hn|reflexivity|]; intros hs fs; unfold fields_before; rewrite Ex; reflexivity
          | apply column_after; [exact Hn|cbn [seven_texts]; rewrite Ex; reflexivity|reflexivity|discriminate|reflexivity|reflexivity] ].
Qed.
Print Assumptions C54_columns_partial.

Example C54_columns_nontrivial :
  path_fine (B "/music") /\ path_fine (B "a.mp3") /\ megabytes (B "3.211") /\
  length (tv_texts view_ex) = 7%nat /\ tag_readable false comma view_ex /\ v1_readable false comma (Some v1_ex).
Proof.
  assert (P : forall f, plainb f = true -> readable_field false comma false f).
  { intros f Hf. right. right.
    assert (A : forall c, In c f -> c <> 44 /\ c <> 10 /\ c <> 34 /\ c <> 13).
    { intros c Hin. apply (proj1 (forallb_forall _ _) Hf) in Hin. lia. }
    repeat split; intros Hin; apply A in Hin; unfold comma, lf, dquote, cr in Hin; lia. }
  split; [split; cbn; intros [E|[E|[E|[E|[E|[E|[]]]]]]]; discriminate E|].
  split; [split; cbn; intros [E|[E|[E|[E|[E|[]]]]]]; discriminate E|].
  split; [repeat constructor; cbn; lia|]. split; [reflexivity|]. split.
  - split; cbn [map text_field view_ex tv_texts tv_comments].
    + constructor; [left; cbn; tauto|]. repeat (constructor; [apply P; reflexivity|]). constructor.
    + constructor; [apply P; reflexivity|]. constructor; [left; cbn; tauto|]. constructor.
  - cbn [v1_readable v1_ex w1_artist w1_title w1_album w1_year w1_comment].
    repeat (constructor; [apply P; reflexivity|]). constructor.
Qed.

(** Files with only one of the tags, or neither, have as many fields too. *)
Theorem C54_count_partial lax no_dir ncomm dir name mb v2 size md5 v1 rest :
  (0 < ncomm)%nat \/ v2 = None -> path_fine dir -> path_fine name -> megabytes mb ->
  (forall t, v2 = Some t -> length (tv_texts t) = 7%nat) ->
  v2_readable lax comma v2 -> v1_readable lax comma v1 ->
  exists hs fs,
    read_record lax comma (report_header no_dir ncomm) = Some (hs, []) /\
    read_record lax comma (report_row no_dir ncomm dir name mb v2 size md5 v1 ++ rest) = Some (fs, rest) /\
    length hs = length fs.
Proof.
  intros Hn Hd Hf Hm H7 Ht Hw.
  exists (headings no_dir ncomm), (row_fields no_dir ncomm dir name mb v2 size md5 v1).
  split; [rewrite <- (app_nil_r (report_header no_dir ncomm)); apply header_read|].
  split; [now apply report_read|].
  rewrite headings_length, row_length by (destruct v2; auto).
  destruct v2; [|reflexivity]. destruct ncomm; [|reflexivity]. destruct Hn; [lia|discriminate].
Qed.
Print Assumptions C54_count_partial.

(** When no comments are asked for, a file with an ID3v2 tag has one field more
    than there are headings. *)
Theorem C54_no_comments_refuted lax no_dir dir name mb t size md5 v1 rest :
  path_fine dir -> path_fine name -> megabytes mb ->
  length (tv_texts t) = 7%nat -> tag_readable lax comma t -> v1_readable lax comma v1 ->
  exists hs fs,
    read_record lax comma (report_header no_dir 0) = Some (hs, []) /\
    read_record lax comma (report_row no_dir 0 dir name mb (Some t) size md5 v1 ++ rest) = Some (fs, rest) /\
    length fs = S (length hs).
Proof.
  intros Hd Hf Hm H7 Ht Hw.
  exists (headings no_dir 0), (row_fields no_dir 0 dir name mb (Some t) size md5 v1).
  split; [rewrite <- (app_nil_r (report_header no_dir 0)); apply header_read|].
  split; [now apply report_read|].
  rewrite headings_length, row_length by exact H7. destruct no_dir; reflexivity.
Qed.
Print Assumptions C54_no_comments_refuted.

(** A name with a backslash in it does not come back. *)
Theorem C54_names_refuted lax ncomm name mb v2 size md5 v1 rest fs :
  ~ In quote name -> In 92 name ->
  read_record lax comma (report_row true ncomm [] name mb v2 size md5 v1 ++ rest) = Some (fs, rest) ->
  hd_error fs <> Some name.
Proof.
  intros H1 H2 E. destruct (backslash_read lax ncomm name mb v2 size md5 v1 rest fs H1 H2 E) as (fs' & -> & H).
  cbn. congruence.
Qed.
Print Assumptions C54_names_refuted.

Example C54_names_nontrivial :
  let name := B "a\b.mp3" in
  ~ In quote name /\ In 92 name /\
  exists fs, read_record true comma (report_row true 1 [] name (B "1.000") None 5 [] None ++ []) = Some (fs, []).
Proof.
  cbn zeta. split; [cbn; intros [E|[E|[E|[E|[E|[E|[E|[]]]]]]]]; discriminate E|]. split; [cbn; tauto|].
  eexists. vm_compute. reflexivity.
Qed.

(** ** C55.  The report's numbers are decimal. *)

(** These are. *)
Theorem C55_decimal_partial lax no_dir ncomm dir name mb t size md5 w rest :
  (0 < ncomm)%nat -> path_fine dir -> path_fine name -> megabytes mb ->
  length (tv_texts t) = 7%nat -> tag_readable lax comma t -> v1_readable lax comma (Some w) ->
  exists hs fs a b c d e,
    read_record lax comma (report_header no_dir ncomm) = Some (hs, []) /\
    read_record lax comma (report_row no_dir ncomm dir name mb (Some t) size md5 (Some w) ++ rest) = Some (fs, rest) /\
    column (B "ID3v2 version") hs fs = Some a /\ as_decimal a = Some (tv_version t) /\
    column (B "ID3v2 revision") hs fs = Some b /\ as_decimal b = Some (tv_revision t) /\
    column (B "ID3v2 size(bytes)") hs fs = Some c /\ as_decimal c = Some (tv_size t) /\
    column (B "size (bytes)") hs fs = Some d /\ as_decimal d = Some size /\
    column (B "ID3v1 Genrre") hs fs = Some e /\ as_decimal e = Some (w1_genre w).
Proof.
  intros Hn Hd Hf Hm H7 Ht Hw.
  exists (headings no_dir ncomm), (row_fields no_dir ncomm dir name mb (Some t) size md5 (Some w)).
  exists (number 10 (tv_version t)), (number 10 (tv_revision t)), (number 10 (tv_size t)), (number 10 size), (number 10 (w1_genre w)).
  split; [rewrite <- (app_nil_r (report_header no_dir ncomm)); apply header_read|].
  split; [now apply report_read|].
  assert (S7 : seven_texts (Some t)) by exact H7.
  repeat split; try apply as_decimal_number;
    first [ apply column_before; [exact Hn|reflexivity|]; intros hs fs; reflexivity
          | apply column_after; [exact Hn|exact S7|reflexivity|discriminate|reflexivity|reflexivity] ].
Qed.
Print Assumptions C55_decimal_partial.

Example C55_decimal_nontrivial : as_decimal (number 10 2026) = Some 2026 /\ number 10 2026 = B "2026".
Proof. split; vm_compute; reflexivity. Qed.

(** The play count is not: from ten plays on, the column never reads as the
    number of plays. *)
Theorem C55_plays_refuted lax no_dir ncomm dir name mb t size md5 w rest :
  (0 < ncomm)%nat -> path_fine dir -> path_fine name -> megabytes mb ->
  length (tv_texts t) = 7%nat -> tag_readable lax comma t -> v1_readable lax comma (Some w) ->
  tv_pcnt t = 1 -> 10 <= tv_plays t ->
  exists hs fs a,
    read_record lax comma (report_header no_dir ncomm) = Some (hs, []) /\
    read_record lax comma (report_row no_dir ncomm dir name mb (Some t) size md5 (Some w) ++ rest) = Some (fs, rest) /\
    column (B "Play Count") hs fs = Some a /\ as_decimal a <> Some (tv_plays t).
Proof.
  intros Hn Hd Hf Hm H7 Ht Hw H1 H10.
  exists (headings no_dir ncomm), (row_fields no_dir ncomm dir name mb (Some t) size md5 (Some w)), (number 16 (tv_plays t)).
  split; [rewrite <- (app_nil_r (report_header no_dir ncomm)); apply header_read|].
  split; [now apply report_read|].
  split; [|now apply hex_wrong].
  destruct (tv_texts t) as [|x0 [|x1 [|x2 [|x3 [|x4 [|x5 [|x6 [|]]]]]]]] eqn:Ex; try discriminate H7.
  apply column_before; [exact Hn|reflexivity|]. intros hs fs. unfold fields_before, plays_field. rewrite Ex, H1. reflexivity.
Qed.
Print Assumptions C55_plays_refuted.

Example C55_plays_nontrivial :
  tv_pcnt view_ex = 1 /\ 10 <= tv_plays view_ex /\ number 16 (tv_plays view_ex) = B "25".
Proof. split; [reflexivity|]. split; [vm_compute; discriminate|reflexivity]. Qed.
