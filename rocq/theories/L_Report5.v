(** * Proofs: the statements about reports. *)
From Verif Require Import Base M_Ints M_Stream M_Id3v1 M_Payload M_Frame M_Tag22 M_Tag23 M_Tag24 M_Charset M_Lookup M_Mp3 M_Track M_Read
  M_Tagset M_Process M_Cmds M_Csv S_Lookup S_Cmds S_Csv S_Report L_Lookup L_Cmds L_Csv L_Csv2 L_Csv3 M_Report S_Tdf L_Report L_Report2 L_Report3 L_Report4.
#[local] Open Scope N_scope.

(** ** The files visited *)
Lemma is_mp3_iff f : is_mp3 f = true <-> named_mp3 f.
Proof.
  unfold is_mp3, named_mp3. set (n := rf_name f). destruct (bytes_eqb_spec (dropN (len n - 4) n) (B ".mp3")) as [E|E].
  - split; [|reflexivity]. intros _. exists (takeN (len n - 4) n). rewrite <- E. symmetry. apply takeN_dropN.
  - split; [discriminate|]. intros (p & Q). destruct E. rewrite Q. rewrite len_app. change (len (B ".mp3")) with 4.
    replace (len p + 4 - 4) with (len p) by lia. apply dropN_app_exact; reflexivity.
Qed.
Lemma keeps_filter fs : keeps named_mp3 fs (filter is_mp3 fs).
Proof.
  induction fs as [|f r IH]; [constructor|]. cbn [filter]. destruct (is_mp3 f) eqn:E.
  - constructor; [apply is_mp3_iff; exact E|exact IH].
  - constructor; [|exact IH]. intros Q. apply is_mp3_iff in Q. congruence.
Qed.
Lemma visits_visited args : ~ In RMissing args -> visits args (visited args).
Proof.
  unfold visited. induction args as [|a r IH]; intros NI; [constructor|]. assert (IH' : visits r (flat_map arg_files r)) by (apply IH; intros Q; apply NI; right; exact Q).
  destruct a as [|f|fs]; cbn [flat_map arg_files].
  - destruct NI. left. reflexivity.
  - cbn [app]. constructor. exact IH'.
  - constructor; [apply keeps_filter|exact IH'].
Qed.
Lemma keeps_unique {A} (P : A -> Prop) fs l l' : keeps P fs l -> keeps P fs l' -> l = l'.
Proof.
  intros H. revert l'. induction H; intros l' H'; inversion H'; subst; try contradiction; [reflexivity|f_equal|]; auto.
Qed.
Lemma visits_unique args l l' : visits args l -> visits args l' -> l = l'.
Proof.
  intros H. revert l'. induction H; intros l' H'; inversion H'; subst; [reflexivity|f_equal; auto|].
  f_equal; [eapply keeps_unique; eassumption|auto].
Qed.

(** ** One file *)
Lemma describes_fields z passes md5 w e ncomm f x : describes z passes md5 w e ncomm f x ->
  forall T, e_v2 x = Some T -> length (tv_texts T) = 7%nat /\ (length (tv_comments T) <= ncomm)%nat.
Proof.
  intros (v2 & tr & v1 & _ & A & _) T Q. rewrite Q in A. destruct v2 as [(rev, t)|]; [|destruct A]. cbn [optionally fst snd] in A.
  eapply answers_seven. exact A.
Qed.
Definition grow_of (st : style) (no_dir : bool) (ncomm : nat) (f : rfile) (x : entry) : bytes :=
  grow st no_dir ncomm (rf_dir f) (rf_name f) (mb_text (len (rf_data f))) (e_v2 x) (e_size x) (e_md5 x) (e_v1 x).
Lemma file_described st z passes md5 w e no_dir ncomm f s :
  report_file st z passes md5 w e no_dir ncomm f = (s, Ok true) ->
  exists x, describes z passes md5 w e ncomm f x /\ s = grow_of st no_dir ncomm f x.
Proof.
  intros E. apply report_file_told in E as (v2 & tr & v1 & V & W & R & A & C & ->).
  exists (mkEntry V (tr_size tr) (tr_md5 tr) W). split; [|reflexivity]. exists v2, tr, v1. repeat split; assumption.
Qed.
Lemma file_csv z passes md5 w e no_dir ncomm f s :
  report_file csv_style z passes md5 w e no_dir ncomm f = (s, Ok true) ->
  exists x, describes z passes md5 w e ncomm f x /\ megabytes (mb_text (len (rf_data f))) /\
    (forall T, e_v2 x = Some T -> length (tv_texts T) = 7%nat) /\
    s = report_row no_dir ncomm (rf_dir f) (rf_name f) (mb_text (len (rf_data f))) (e_v2 x) (e_size x) (e_md5 x) (e_v1 x).
Proof.
  intros E. apply file_described in E as (x & D & ->). exists x. split; [exact D|]. split; [apply mb_megabytes|]. split.
  - intros T Q. eapply describes_fields; eassumption.
  - unfold grow_of. apply grow_csv.
Qed.
Lemma row_of_nil no_dir ncomm f x : row_of no_dir ncomm f x <> [].
Proof. unfold row_of, row_fields. destruct no_dir; discriminate. Qed.
Lemma row_made a z passes md5 w e no_dir ncomm f x : describes z passes md5 w e ncomm f x ->
  made_of (st_sep (tdf_style a)) (row_of no_dir ncomm f x) (texts_in no_dir f x).
Proof. intros D. apply made_row. intros T Q. eapply describes_fields; eassumption. Qed.
Lemma grow_of_tdf a no_dir ncomm f x rest : grow_of (tdf_style a) no_dir ncomm f x ++ rest =
  separated (st_sep (tdf_style a)) (row_of no_dir ncomm f x) ++ [10] ++ rest.
Proof. unfold grow_of. rewrite grow_tdf, <- app_assoc. reflexivity. Qed.
Lemma file_tdf a z passes md5 w e no_dir ncomm f s rest :
  report_file (tdf_style a) z passes md5 w e no_dir ncomm f = (s, Ok true) ->
  exists x, describes z passes md5 w e ncomm f x /\
    (read_line (if a then 0x1f else 0x09) (s ++ rest) = Some (row_of no_dir ncomm f x, rest) <->
     Forall (plain_in (if a then 0x1f else 0x09)) (texts_in no_dir f x)).
Proof.
  change (if a then 0x1f else 0x09) with (st_sep (tdf_style a)).
  intros E. apply file_described in E as (x & D & ->). exists x. split; [exact D|]. rewrite grow_of_tdf.
  rewrite read_line_iff by (apply tdf_sep || apply row_of_nil).
  destruct (row_made a _ _ _ _ _ no_dir _ _ _ D) as (H & _). exact H.
Qed.
Lemma file_shifted a z passes md5 w e no_dir ncomm f s rest :
  report_file (tdf_style a) z passes md5 w e no_dir ncomm f = (s, Ok true) ->
  exists x, describes z passes md5 w e ncomm f x /\
    (Forall (fun t => ~ In 10 t) (texts_in no_dir f x) ->
     exists gs, read_line (if a then 0x1f else 0x09) (s ++ rest) = Some (gs, rest) /\
       length gs = (length (row_of no_dir ncomm f x) +
                    list_sum (map (occurrences (if a then 0x1f else 0x09)) (texts_in no_dir f x)))%nat).
Proof.
  change (if a then 0x1f else 0x09) with (st_sep (tdf_style a)).
  intros E. apply file_described in E as (x & D & ->). exists x. split; [exact D|]. intros NL. rewrite grow_of_tdf.
  destruct (row_made a _ _ _ _ _ no_dir _ _ _ D) as (_ & H2 & H3).
  destruct (read_line_more (st_sep (tdf_style a)) (row_of no_dir ncomm f x) rest (tdf_sep a) (row_of_nil _ _ _ _)) as (gs & G & L).
  { apply H2. exact NL. }
  exists gs. split; [exact G|]. rewrite L, H3. reflexivity.
Qed.

(** ** Columns *)
Lemma column_last h hs y y' fs : bytes_eqb h y = false -> bytes_eqb h y' = false -> column h (hs ++ [y]) fs = column h (hs ++ [y']) fs.
Proof.
  intros H H'. revert fs. induction hs as [|x hs IH]; intros [|f fs]; try reflexivity; cbn [app column].
  - rewrite H, H'. reflexivity.
  - destruct (bytes_eqb h x); [reflexivity|apply IH].
Qed.
Lemma tdf_column h no_dir ncomm fs : bytes_eqb h (B "ID3v1 Genre") = false -> bytes_eqb h (B "ID3v1 Genrre") = false ->
  column h (tdf_headings no_dir ncomm) fs = column h (headings no_dir ncomm) fs.
Proof.
  intros H1 H2. rewrite headings_split. rewrite tdf_headings_split. fold (comment_headings ncomm).
  change v1_headings with (removelast v1_headings ++ [B "ID3v1 Genrre"]) at 2.
  rewrite !app_assoc. apply column_last; assumption.
Qed.
Lemma tdf_headings_length no_dir ncomm : length (tdf_headings no_dir ncomm) = length (headings no_dir ncomm).
Proof.
  rewrite tdf_headings_split, headings_split. rewrite !app_length. unfold comment_headings. rewrite !map_length. reflexivity.
Qed.
Lemma header_reads0 a no_dir ncomm :
  read_line (st_sep (tdf_style a)) (header_row false (st_sep (tdf_style a)) no_dir ncomm) = Some (tdf_headings no_dir ncomm, []).
Proof. rewrite <- (app_nil_r (header_row _ _ _ _)). apply header_reads. Qed.
Lemma file_columns a z passes md5 w e no_dir ncomm f s rest rev t tr v1 :
  (0 < ncomm)%nat -> report_read z passes md5 (rf_data f) = Ok (Some (rev, t), tr, Some v1) ->
  report_file (tdf_style a) z passes md5 w e no_dir ncomm f = (s, Ok true) ->
  exists T W, answers z (w_ic w) ncomm rev t T /\ answers_v1 (w_ic w) e v1 W /\
  (Forall (plain_in (if a then 0x1f else 0x09)) (name_texts no_dir (rf_dir f) (rf_name f) ++ v2_texts (Some T) ++ v1_texts (Some W)) ->
   exists hs fs,
    read_line (if a then 0x1f else 0x09) (header_row false (if a then 0x1f else 0x09) no_dir ncomm) = Some (hs, []) /\
    read_line (if a then 0x1f else 0x09) (s ++ rest) = Some (fs, rest) /\
    length hs = length fs /\
    column (B "file") hs fs = Some (quoted_path (rf_name f)) /\
    column (B "ID3v2 Artist") hs fs = Some (text_field (nth 0 (tv_texts T) None)) /\
    column (B "ID3v2 Title") hs fs = Some (text_field (nth 1 (tv_texts T) None)) /\
    column (B "ID3v2 Album") hs fs = Some (text_field (nth 2 (tv_texts T) None)) /\
    column (B "ID3v2 Content Type") hs fs = Some (text_field (nth 3 (tv_texts T) None)) /\
    column (B "ID3v2 Encoded By") hs fs = Some (text_field (nth 4 (tv_texts T) None)) /\
    column (B "ID3v2 Year") hs fs = Some (text_field (nth 5 (tv_texts T) None)) /\
    column (B "ID3v2 Langauges") hs fs = Some (text_field (nth 6 (tv_texts T) None)) /\
    column (B "ID3v1 Artist") hs fs = Some (w1_artist W) /\
    column (B "ID3v1 Title") hs fs = Some (w1_title W) /\
    column (B "ID3v1 Album") hs fs = Some (w1_album W) /\
    column (B "ID3v1 Year") hs fs = Some (w1_year W) /\
    column (B "ID3v1 Comment") hs fs = Some (w1_comment W) /\
    last fs [] = number 10 (v_genre v1)).
Proof.
  change (if a then 0x1f else 0x09) with (st_sep (tdf_style a)). intros NC R E.
  apply file_described in E as (x & D & ->). pose proof D as (v2' & tr' & v1' & R' & A & C & Z & M).
  rewrite R in R'. apply Ok_inj in R'. assert (v2' = Some (rev, t)) by congruence. assert (v1' = Some v1) by congruence. subst v2' v1'.
  destruct x as [v2x sz md5x v1x]. cbn [e_v2 e_v1 e_size e_md5] in *.
  destruct v2x as [T|]; [|destruct A]. destruct v1x as [W|]; [|destruct C]. cbn [optionally fst snd] in A, C.
  exists T, W. split; [exact A|]. split; [exact C|]. intros P.
  exists (tdf_headings no_dir ncomm), (row_of no_dir ncomm f (mkEntry (Some T) sz md5x (Some W))).
  split; [apply header_reads0|]. split.
  { rewrite grow_of_tdf. apply read_line_fields; [apply tdf_sep|apply row_of_nil|].
    destruct (row_made a _ _ _ _ _ no_dir _ _ _ D) as (H & _). apply H. exact P. }
  destruct (answers_seven _ _ _ _ _ _ A) as (H7 & _). split.
  { rewrite tdf_headings_length, headings_length. unfold row_of. rewrite row_length by exact H7. cbn [e_v2]. destruct ncomm; [lia|reflexivity]. }
  unfold row_of. cbn [e_v2 e_v1 e_size e_md5].
  destruct (tv_texts T) as [|x0 [|x1 [|x2 [|x3 [|x4 [|x5 [|x6 [|]]]]]]]] eqn:Ex; try discriminate H7. clear H7.
  do 13 (split;
    [rewrite tdf_column by reflexivity;
     first [ apply column_before; [exact NC|reflexivity|]; intros hs fs; unfold fields_before; rewrite Ex; reflexivity
           | apply column_after; [exact NC|cbn [seven_texts]; rewrite Ex; reflexivity|reflexivity|discriminate|reflexivity|reflexivity] ]|]).
  destruct C as (_ & _ & G & _). rewrite <- G. unfold row_fields. rewrite !app_assoc.
  change (v1_fields (Some W)) with ([number 16 (if w1_1 W then 1 else 0); number 16 (if w1_ext W then 1 else 0); w1_artist W; w1_title W; w1_album W; w1_year W; w1_comment W] ++ [number 10 (w1_genre W)]).
  rewrite !app_assoc. apply last_last.
Qed.
Lemma file_count a z passes md5 w e no_dir ncomm f s :
  report_file (tdf_style a) z passes md5 w e no_dir ncomm f = (s, Ok true) ->
  exists x, describes z passes md5 w e ncomm f x /\
    length (row_of no_dir ncomm f x) =
    (length (tdf_headings no_dir ncomm) + match e_v2 x, ncomm with Some _, O => 1 | _, _ => 0 end)%nat.
Proof.
  intros E. apply file_described in E as (x & D & _). exists x. split; [exact D|].
  rewrite tdf_headings_length, headings_length. unfold row_of. rewrite row_length.
  - destruct (e_v2 x), ncomm; lia.
  - pose proof (describes_fields _ _ _ _ _ _ _ _ D) as H. destruct (e_v2 x) as [T|]; [|constructor]. apply H. reflexivity.
Qed.

(** ** Whole reports *)
Lemma report_counts k z passes md5 w e no_dir ncomm args s ok err :
  report k z passes md5 w e no_dir ncomm args = (s, Ok (ok, err)) ->
  exists fs, visits args fs /\ ok + err = N.of_nat (length fs) /\
    (report_status (Ok (ok, err)) = 0 <->
     Forall (fun f => exists r, report_file (style_of k) z passes md5 w e no_dir ncomm f = (r, Ok true)) fs) /\
    s = header_row (match k with Csv => true | Tdf _ => false end) (st_sep (style_of k)) no_dir ncomm ++
        concat (map (fun f => fst (report_file (style_of k) z passes md5 w e no_dir ncomm f)) fs).
Proof.
  intros E. apply report_split in E as (s' & E & ->). apply report_args_all in E as (A1 & A2 & A3 & A4 & A5).
  exists (visited args). split; [apply visits_visited; exact A5|]. split; [exact A4|]. split; [|rewrite A1; reflexivity].
  unfold report_status. split.
  - intros Q. destruct (N.eqb_spec err 0) as [Z|_]; [|discriminate Q]. apply done_all; [|exact A2]. lia.
  - intros F. assert (L : length (filter (done (report_file (style_of k) z passes md5 w e no_dir ncomm)) (visited args)) = length (visited args)).
    { clear -F. induction F as [|f r (q & O) F IH]; [reflexivity|]. cbn [filter]. unfold done at 1. rewrite O. cbn [snd length]. f_equal. exact IH. }
    destruct (N.eqb_spec err 0) as [Z|Z]; [reflexivity|]. lia.
Qed.
Lemma all_described st z passes md5 w e no_dir ncomm fs :
  Forall (fun f => exists r, report_file st z passes md5 w e no_dir ncomm f = (r, Ok true)) fs ->
  exists xs, Forall2 (describes z passes md5 w e ncomm) fs xs /\
    concat (map (fun f => fst (report_file st z passes md5 w e no_dir ncomm f)) fs) =
    concat (map (fun p => grow_of st no_dir ncomm (fst p) (snd p)) (combine fs xs)).
Proof.
  induction 1 as [|f r (q & O) F (xs & D & IH)]; [exists []; split; [constructor|reflexivity]|].
  pose proof O as O'. apply file_described in O' as (x & DX & ->). exists (x :: xs). split; [constructor; assumption|].
  cbn [map combine concat fst snd]. rewrite O, IH. reflexivity.
Qed.
Lemma report_csv z passes md5 w e no_dir ncomm args s ok err :
  report Csv z passes md5 w e no_dir ncomm args = (s, Ok (ok, err)) -> report_status (Ok (ok, err)) = 0 ->
  exists fs xs, visits args fs /\ Forall2 (describes z passes md5 w e ncomm) fs xs /\
    s = report_header no_dir ncomm ++
        concat (map (fun p => report_row no_dir ncomm (rf_dir (fst p)) (rf_name (fst p)) (mb_text (len (rf_data (fst p))))
                                (e_v2 (snd p)) (e_size (snd p)) (e_md5 (snd p)) (e_v1 (snd p))) (combine fs xs)).
Proof.
  intros E Q. apply report_counts in E as (fs & V & _ & (H & _) & ->). specialize (H Q). apply all_described in H as (xs & D & C).
  exists fs, xs. split; [exact V|]. split; [exact D|]. cbn [style_of] in *. change (st_sep csv_style) with comma. rewrite header_csv, C. reflexivity.
Qed.
Lemma report_tdf a z passes md5 w e no_dir ncomm args s ok err :
  report (Tdf a) z passes md5 w e no_dir ncomm args = (s, Ok (ok, err)) -> report_status (Ok (ok, err)) = 0 ->
  exists fs xs, visits args fs /\ Forall2 (describes z passes md5 w e ncomm) fs xs /\
    (Forall2 (fun f x => Forall (plain_in (if a then 0x1f else 0x09)) (texts_in no_dir f x)) fs xs ->
     read_lines (if a then 0x1f else 0x09) s
       (tdf_headings no_dir ncomm :: map (fun p => row_of no_dir ncomm (fst p) (snd p)) (combine fs xs))).
Proof.
  change (if a then 0x1f else 0x09) with (st_sep (tdf_style a)).
  intros E Q. apply report_counts in E as (fs & V & _ & (H & _) & ->). specialize (H Q). apply all_described in H as (xs & D & C).
  exists fs, xs. split; [exact V|]. split; [exact D|]. intros P. cbn [style_of] in *. rewrite C.
  eapply rl_line; [apply header_reads|]. clear -D P. induction D as [|f x fs xs D DS IH]; [constructor|].
  inversion P as [|? ? ? ? P1 P2]; subst. cbn [combine map concat fst snd].
  eapply rl_line; [|apply IH; exact P2]. rewrite grow_of_tdf. apply read_line_fields; [apply tdf_sep|apply row_of_nil|].
  destruct (row_made a _ _ _ _ _ no_dir _ _ _ D) as (H & _). apply H. exact P1.
Qed.
Lemma missing_status k z passes md5 w e no_dir ncomm args : In RMissing args ->
  report_status (snd (report k z passes md5 w e no_dir ncomm args)) = 1.
Proof.
  intros H. unfold report. destruct (report_args _ args) as (s, o) eqn:E. cbn [snd]. unfold report_status. destruct o as [(ok, err)|x|u|]; try reflexivity.
  apply report_args_all in E as (_ & _ & _ & _ & N1). contradiction.
Qed.
(** A failure, then a row. *)
Lemma joined a z passes md5 w e no_dir ncomm f g p s rest x :
  report_file (tdf_style a) z passes md5 w e no_dir ncomm f = (p, Ok false) -> p <> [] -> ~ In 10 p ->
  report_file (tdf_style a) z passes md5 w e no_dir ncomm g = (s, Ok true) ->
  read_line (if a then 0x1f else 0x09) (s ++ rest) = Some (x, rest) ->
  exists fs, fs <> [] /\ read_line (if a then 0x1f else 0x09) ((p ++ s) ++ rest) = Some (fs ++ x, rest).
Proof.
  change (if a then 0x1f else 0x09) with (st_sep (tdf_style a)). intros F NP NL G R.
  apply report_file_stops in F as [(-> & _)|((q & ->) & _)]; [congruence|].
  assert (NQ : ~ In 10 q) by (intros I; apply NL; apply in_or_app; left; exact I).
  rewrite <- !app_assoc. eapply read_line_joined; [apply tdf_sep|exact NQ|exact R|reflexivity].
Qed.

Lemma year22_described z passes md5 w e ncomm f x rev t tr v1 T :
  report_read z passes md5 (rf_data f) = Ok (Some (rev, t), tr, v1) -> any_version t = V22 ->
  describes z passes md5 w e ncomm f x -> e_v2 x = Some T ->
  nth 5 (tv_texts T) None = None \/ nth 5 (tv_texts T) None = Some (B "TYR").
Proof.
  intros R V (v2' & tr' & v1' & R' & A & _) Q. rewrite R in R'. apply Ok_inj in R'. assert (v2' = Some (rev, t)) by congruence. subst v2'.
  rewrite Q in A. cbn [optionally fst snd] in A. eapply year22_answers; [|exact V|exact A]. eapply report_read_fresh; [exact R|reflexivity].
Qed.
