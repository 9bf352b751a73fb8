(** * Proofs about the CSV report's columns, and the ways it fails. *)
From Verif Require Import Base M_Csv S_Csv S_Report L_Csv L_Csv2.

Lemma column_skip h ps qs hs fs : length ps = length qs -> Forall (fun p => bytes_eqb h p = false) ps ->
  column h (ps ++ hs) (qs ++ fs) = column h hs fs.
Proof.
  revert qs. induction ps as [|p ps IH]; intros [|q qs] L H; try discriminate L; [reflexivity|].
  cbn [app column]. rewrite (Forall_inv H). apply IH; [now injection L|]. now apply Forall_inv_tail in H.
Qed.

Lemma column_hit h p ps q qs : bytes_eqb h p = true -> column h (p :: ps) (q :: qs) = Some q.
Proof. intros H. cbn [column]. now rewrite H. Qed.

Definition comment_headings (ncomm : nat) : list bytes :=
  map (fun i => B "comment #" ++ number 10 (N.of_nat i) ++ B " text") (seq 0 ncomm).
Lemma comment_heading_other h ncomm : (match h with c :: _ => c <> 99 | [] => True end) ->
  Forall (fun p => bytes_eqb h p = false) (comment_headings ncomm).
Proof.
  intros H. apply Forall_forall. intros p Hin. apply in_map_iff in Hin. destruct Hin as (i & <- & _).
  destruct h as [|c r]; [reflexivity|]. change (bytes_eqb (c :: r) (99 :: (B "omment #" ++ number 10 (N.of_nat i) ++ B " text")) = false).
  cbn [bytes_eqb]. now rewrite (proj2 (N.eqb_neq c 99) H).
Qed.

(** The row's fields before the comments, the comments, and after. *)
Definition fields_before (dir name mb : bytes) (v2 : option tagview) : list bytes :=
  [name; mb] ++
  match v2 with
  | None => repeat [] 15
  | Some t => [number 10 (tv_version t); number 10 (tv_revision t); number 10 (tv_size t);
               B "0x" ++ width2 (number 16 (tv_flags t)); number 16 (optional_to_uint (tv_unsync t))] ++
              map text_field (tv_texts t) ++ [number 16 (tv_pcnt t); plays_field t; number 16 (tv_ncomm t)]
  end.
Definition fields_comments (ncomm : nat) (v2 : option tagview) : list bytes :=
  match v2 with None => repeat [] ncomm | Some t => map (fun i => nth i (tv_comments t) []) (seq 0 ncomm) end.
Definition fields_after (size : N) (md5 : bytes) (v1 : option v1view) : list bytes :=
  [number 10 size; flat_map (fun x => width2 (number 16 x)) md5] ++ v1_fields v1.

Lemma row_split no_dir ncomm dir name mb v2 size md5 v1 : (0 < ncomm)%nat ->
  row_fields no_dir ncomm dir name mb v2 size md5 v1 =
  (if no_dir then [] else [dir]) ++ fields_before dir name mb v2 ++ fields_comments ncomm v2 ++ fields_after size md5 v1.
Proof.
  intros H. unfold row_fields, fields_before, fields_comments, fields_after. f_equal.
  destruct v2 as [t|]; cbn [v2_fields].
  - unfold tag_fields, comment_fields. destruct ncomm as [|k]; [lia|].
    cbn [app]. rewrite <- !app_assoc. cbn [app]. reflexivity.
  - rewrite (repeat_app _ 15 ncomm). rewrite <- !app_assoc. reflexivity.
Qed.
Lemma headings_split no_dir ncomm :
  headings no_dir ncomm = (if no_dir then [] else [B "directory"]) ++ v2_headings ++ comment_headings ncomm ++ v1_headings.
Proof. reflexivity. Qed.

Definition seven_texts (v2 : option tagview) : Prop :=
  match v2 with Some t => length (tv_texts t) = 7%nat | None => True end.

Lemma fields_before_length dir name mb v2 : seven_texts v2 -> length (fields_before dir name mb v2) = 17%nat.
Proof.
  unfold fields_before, seven_texts. destruct v2 as [t|]; intros H; [|reflexivity].
  rewrite !app_length, map_length, H. reflexivity.
Qed.

Lemma columns_skip_dir (no_dir : bool) h dir hs fs : bytes_eqb h (B "directory") = false ->
  column h ((if no_dir then [] else [B "directory"]) ++ hs) ((if no_dir then [] else [dir]) ++ fs) = column h hs fs.
Proof. intros H. apply column_skip; [now destruct no_dir|]. destruct no_dir; repeat constructor. exact H. Qed.

Lemma column_before (no_dir : bool) ncomm h dir name mb v2 size md5 v1 f : (0 < ncomm)%nat ->
  bytes_eqb h (B "directory") = false ->
  (forall hs fs, column h (v2_headings ++ hs) (fields_before dir name mb v2 ++ fs) = Some f) ->
  column h (headings no_dir ncomm) (row_fields no_dir ncomm dir name mb v2 size md5 v1) = Some f.
Proof. intros Hn Hd H. rewrite headings_split, row_split by assumption. rewrite columns_skip_dir by assumption. apply H. Qed.

Lemma column_after (no_dir : bool) ncomm h dir name mb v2 size md5 v1 f : (0 < ncomm)%nat -> seven_texts v2 ->
  bytes_eqb h (B "directory") = false -> (match h with c :: _ => c <> 99 | [] => True end) ->
  forallb (fun p => negb (bytes_eqb h p)) v2_headings = true ->
  column h v1_headings (fields_after size md5 v1) = Some f ->
  column h (headings no_dir ncomm) (row_fields no_dir ncomm dir name mb v2 size md5 v1) = Some f.
Proof.
  intros Hn H7 Hd Hc Hf H. rewrite headings_split, row_split by assumption. rewrite columns_skip_dir by assumption.
  rewrite column_skip.
  - rewrite column_skip; [exact H| |now apply comment_heading_other].
    unfold comment_headings, fields_comments. rewrite map_length, seq_length.
    destruct v2; [now rewrite map_length, seq_length|now rewrite repeat_length].
  - rewrite fields_before_length by assumption. reflexivity.
  - apply Forall_forall. intros p Hin. apply (proj1 (forallb_forall _ _) Hf) in Hin. now destruct (bytes_eqb h p).
Qed.

(** ** Failures *)
(** A name with a backslash in it is read back with two. *)
Definition doubled_backslashes (p : bytes) : bytes := flat_map (fun c => if c =? 92 then [92; 92] else [c]) p.

Lemma backslash_form p : ~ In quote p -> quoted_path p = [quote] ++ doubled quote (doubled_backslashes p) ++ [quote].
Proof.
  intros H. unfold quoted_path. f_equal. f_equal. unfold doubled_backslashes.
  induction p as [|c r IH]; [reflexivity|]. cbn [flat_map].
  assert (Hc : c <> quote) by (intros ->; apply H; now left).
  rewrite (proj2 (N.eqb_neq c quote) Hc). cbn [orb].
  assert (Hr : ~ In quote r) by (intros Hin; apply H; now right).
  rewrite (IH Hr). destruct (N.eqb_spec c 92) as [-> | Hb].
  - reflexivity.
  - cbn [app doubled]. now rewrite (proj2 (N.eqb_neq c quote) Hc).
Qed.
Lemma doubled_longer p : (length p <= length (doubled_backslashes p))%nat /\
  (In 92 p -> (length p < length (doubled_backslashes p))%nat).
Proof.
  unfold doubled_backslashes. induction p as [|c r (IH1 & IH2)]; [split; [cbn; lia|easy]|].
  cbn [flat_map]. rewrite app_length. destruct (N.eqb_spec c 92) as [-> | Hb]; cbn [List.length].
  - split; lia.
  - split; [lia|]. intros [E | E]; [congruence|]. apply IH2 in E. lia.
Qed.

Lemma backslash_read lax ncomm name mb v2 size md5 v1 rest fs : ~ In quote name -> In 92 name ->
  read_record lax comma (report_row true ncomm [] name mb v2 size md5 v1 ++ rest) = Some (fs, rest) ->
  exists fs', fs = doubled_backslashes name :: fs' /\ doubled_backslashes name <> name.
Proof.
  intros Hq Hb E. unfold report_row in E. cbn [app] in E. rewrite backslash_form in E by assumption.
  rewrite <- !app_assoc in E.
  assert (Hs : sep_fine comma) by (repeat split; discriminate).
  assert (E' : forall t, csv_read lax comma AtStart ([quote] ++ doubled quote (doubled_backslashes name) ++ [quote] ++ [comma] ++ t)
             = finish lax comma false (doubled_backslashes name) t).
  { intros t. pose proof (reads_quoted lax comma false (doubled_backslashes name) Hs t) as R.
    rewrite <- !app_assoc in R. exact R. }
  unfold read_record in E. cbn [app] in E, E'. rewrite E' in E. unfold finish in E.
  destruct (csv_read _ _ _ _) as [[fs' rest']|]; [|discriminate]. injection E as <- _.
  exists fs'. split; [reflexivity|]. intros E2. pose proof (proj2 (doubled_longer name) Hb) as L. rewrite E2 in L. lia.
Qed.

(** The quote itself is taken for a separator. *)
Lemma quote_separator lax f : ~ In quote f -> ~ In lf f ->
  read_record lax quote (printed quote [[]; f] ++ [newline]) = None.
Proof.
  intros H Hl. unfold printed. cbn [map separated].
  change (escape quote quote []) with (@nil N). rewrite escape_plain by assumption. cbn [app].
  unfold read_record. cbn [csv_read]. change (quote =? dquote) with true. cbn iota.
  assert (G : forall l a, ~ In quote l -> csv_read lax quote (InQuotes a) l = None).
  { induction l as [|c r IH]; intros a Hin; [reflexivity|]. cbn [csv_read].
    rewrite (proj2 (N.eqb_neq c dquote)) by (intros ->; apply Hin; now left). apply IH. intros Hr. apply Hin. now right. }
  apply G. intros Hin. apply in_app_or in Hin. destruct Hin as [Hin | [Hin | []]]; [tauto|discriminate].
Qed.

(** A field that begins with a quote, and needs no quotes of its own, is never
    read back. *)
Lemma first_quote lax sep f r rest : separator_ok sep = true -> sep <> quote -> ~ In sep f -> ~ In newline f ->
  read_record lax sep (printed sep ((quote :: f) :: r) ++ [newline] ++ rest) <> Some ((quote :: f) :: r, rest).
Proof.
  intros H1 H2 Hs Hl E. pose proof (separator_fine sep H1 H2) as Hf.
  apply row_exact in E; [|assumption|discriminate].
  assert (B1 : ~ In sep (quote :: f)) by (intros [X | X]; [congruence|tauto]).
  assert (B2 : ~ In lf (quote :: f)) by (intros [X | X]; [discriminate|tauto]).
  assert (B3 : forall last, ~ plain_field lax sep last (quote :: f)).
  { intros last (_ & _ & X). destruct lax; [now apply (proj1 X)|]. apply (proj1 X). now left. }
  destruct r as [|g r]; cbn [readable_row] in E.
  - destruct E as [E | [E | E]]; try tauto. now apply B3 in E.
  - destruct E as ([E | [E | E]] & _); try tauto. now apply B3 in E.
Qed.
