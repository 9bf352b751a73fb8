(** * Proofs about the CSV report's rows. *)
From Verif Require Import Base M_Csv S_Csv S_Report L_Csv.

(** A text none of whose bytes means anything to a reader. *)
Lemma hexdigits_plain lax sep last l : separator_ok sep = true -> Forall hexdigit l -> plain_field lax sep last l.
Proof.
  intros Hs H.
  assert (A : forall c, In c l -> hexdigit c) by now apply Forall_forall.
  assert (N1 : ~ In sep l).
  { intros Hin. apply A in Hin. clear A H. unfold hexdigit, separator_ok in *. lia. }
  assert (N2 : ~ In lf l) by (intros Hin; apply A in Hin; unfold hexdigit, lf in Hin; lia).
  assert (N3 : ~ In dquote l) by (intros Hin; apply A in Hin; unfold hexdigit, dquote in Hin; lia).
  assert (N4 : ~ In cr l) by (intros Hin; apply A in Hin; unfold hexdigit, cr in Hin; lia).
  split; [exact N1|]. split; [exact N2|]. destruct lax.
  - split.
    + destruct l as [|c r]; [discriminate|]. cbn. intros E. injection E as ->. apply N3. now left.
    + intros _ g ->. apply N4. apply in_or_app. right. now left.
  - now split.
Qed.

Lemma plain_app_x lax sep last l : separator_ok sep = true -> Forall hexdigit l -> plain_field lax sep last (B "0x" ++ l).
Proof.
  intros Hs H.
  assert (A : forall c, In c (B "0x" ++ l) -> hexdigit c \/ c = 120).
  { intros c Hin. apply in_app_or in Hin. destruct Hin as [Hin | Hin].
    - cbn in Hin. destruct Hin as [<- | [<- | []]]; [left; unfold hexdigit; lia|now right].
    - left. now apply (proj1 (Forall_forall _ _) H). }
  assert (N1 : ~ In sep (B "0x" ++ l)).
  { intros Hin. apply A in Hin. clear A H. unfold hexdigit, separator_ok in *. lia. }
  assert (N2 : ~ In lf (B "0x" ++ l)) by (intros Hin; apply A in Hin; unfold hexdigit, lf in Hin; lia).
  assert (N3 : ~ In dquote (B "0x" ++ l)) by (intros Hin; apply A in Hin; unfold hexdigit, dquote in Hin; lia).
  assert (N4 : ~ In cr (B "0x" ++ l)) by (intros Hin; apply A in Hin; unfold hexdigit, cr in Hin; lia).
  split; [exact N1|]. split; [exact N2|]. destruct lax.
  - split; [cbn; discriminate|]. intros _ g E. apply N4. rewrite E. apply in_or_app. right. now left.
  - now split.
Qed.

Lemma reads_hex lax sep last l : separator_ok sep = true -> sep <> quote -> Forall hexdigit l -> reads_as lax sep last l l.
Proof. intros H1 H2 H. apply reads_plain; [now apply separator_fine|]. now apply hexdigits_plain. Qed.
Lemma reads_number lax sep last base n : separator_ok sep = true -> sep <> quote -> 2 <= base -> base <= 16 ->
  reads_as lax sep last (number base n) (number base n).
Proof. intros. apply reads_hex; auto. now apply number_hex. Qed.
Lemma reads_empty lax sep last : separator_ok sep = true -> sep <> quote -> reads_as lax sep last [] [].
Proof. intros. apply reads_hex; auto. Qed.

Lemma width2_hex l : Forall hexdigit l -> Forall hexdigit (width2 l).
Proof.
  intros H. unfold width2. destruct l as [|a [|b r]].
  - repeat constructor; unfold hexdigit; cbn; lia.
  - inversion H; subst. constructor; [unfold hexdigit; lia|]. now constructor.
  - assumption.
Qed.

(** The printed forms of those fields. *)
Definition comment_forms (sep : N) (ncomm : nat) (l : list bytes) : list bytes :=
  map (fun i => match nth_error l i with Some s => escape sep quote s | None => [] end) (seq 0 ncomm).
Definition tag_forms (sep : N) (t : tagview) : list bytes :=
  [number 10 (tv_version t); number 10 (tv_revision t); number 10 (tv_size t);
   B "0x" ++ width2 (number 16 (tv_flags t)); number 16 (optional_to_uint (tv_unsync t))] ++
  map (fun t => match t with Some s => escape sep quote s | None => [] end) (tv_texts t) ++
  [number 16 (tv_pcnt t); plays_field t; number 16 (tv_ncomm t)].

Lemma comment_columns_forms sep ncomm l : comment_columns sep ncomm l = separated sep (comment_forms sep ncomm l).
Proof.
  unfold comment_columns, comment_forms.
  assert (G : forall k i, (i + k = ncomm)%nat ->
    flat_map (fun i => (match nth_error l i with Some s => escape sep quote s | None => [] end) ++
                     (if Nat.eqb i (ncomm - 1) then [] else [sep])) (seq i k) =
    separated sep (map (fun i => match nth_error l i with Some s => escape sep quote s | None => [] end) (seq i k))).
  { induction k as [|k IH]; intros i Hi; [reflexivity|].
    cbn [seq flat_map map].
    destruct k as [|k].
    - cbn [seq flat_map map separated]. rewrite (proj2 (Nat.eqb_eq i (ncomm - 1))) by lia. now rewrite !app_nil_r.
    - rewrite IH by lia. rewrite (proj2 (Nat.eqb_neq i (ncomm - 1))) by lia.
      cbn [seq map separated]. now rewrite <- app_assoc. }
  apply G. lia.
Qed.

Lemma flat_map_map {A B C} (f : A -> B) (g : B -> list C) l : flat_map g (map f l) = flat_map (fun x => g (f x)) l.
Proof. induction l as [|x r IH]; [reflexivity|]. cbn. now rewrite IH. Qed.

Lemma pprint_forms sep ncomm t :
  pprint_v2_tag sep ncomm t =
  flat_map (fun p : bytes => p ++ [sep]) (tag_forms sep t) ++ separated sep (comment_forms sep ncomm (tv_comments t)).
Proof.
  unfold pprint_v2_tag, tag_forms, text_columns, plays_field. rewrite comment_columns_forms.
  rewrite !flat_map_app. cbn [flat_map]. rewrite flat_map_map.
  repeat rewrite <- app_assoc. repeat rewrite app_nil_r. cbn [app].
  repeat (rewrite <- app_assoc || rewrite app_nil_r || cbn [app]). reflexivity.
Qed.

Lemma tag_forms_read lax sep t : separator_ok sep = true -> sep <> quote -> sep <> 42 -> tag_readable lax sep t ->
  Forall2 (reads_as lax sep false) (tag_forms sep t)
    ([number 10 (tv_version t); number 10 (tv_revision t); number 10 (tv_size t);
      B "0x" ++ width2 (number 16 (tv_flags t)); number 16 (optional_to_uint (tv_unsync t))] ++
     map text_field (tv_texts t) ++
     [number 16 (tv_pcnt t); plays_field t; number 16 (tv_ncomm t)]).
Proof.
  intros H1 H2 H42 (Ht & _). unfold tag_forms. pose proof (separator_fine sep H1 H2) as Hs.
  apply Forall2_app.
  { repeat apply Forall2_cons; try apply Forall2_nil; try (apply reads_number; auto; lia).
    apply reads_plain; [assumption|]. apply plain_app_x; auto. apply width2_hex. apply number_hex; lia. }
  apply Forall2_app.
  { clear - Ht H1 H2 Hs. induction (tv_texts t) as [|x r IH]; cbn [map]; [constructor|].
    cbn [map] in Ht. apply Forall_inv in Ht as Hx. apply Forall_inv_tail in Ht. constructor; [|auto].
    destruct x as [s|]; cbn [text_field] in *; [now apply reads_escape|now apply reads_empty]. }
  repeat apply Forall2_cons; try apply Forall2_nil; try (apply reads_number; auto; lia).
  unfold plays_field. destruct (tv_pcnt t =? 1); [apply reads_number; auto; lia|].
  destruct (1 <? tv_pcnt t); [|now apply reads_empty].
  apply reads_plain; [assumption|]. split; [|split].
  - cbn. intros [E | []]. congruence.
  - cbn. intros [E | []]. discriminate.
  - destruct lax.
    + split; [cbn; discriminate|]. discriminate.
    + split; cbn; intros [E | []]; discriminate.
Qed.

Lemma comment_forms_read lax sep ncomm l : separator_ok sep = true -> sep <> quote ->
  Forall (readable_field lax sep false) l ->
  Forall2 (reads_as lax sep false) (comment_forms sep ncomm l) (map (fun i => nth i l []) (seq 0 ncomm)).
Proof.
  intros H1 H2 H. unfold comment_forms. pose proof (separator_fine sep H1 H2) as Hs.
  induction (seq 0 ncomm) as [|i r IH]; cbn [map]; [constructor|]. constructor; [|exact IH].
  destruct (nth_error l i) as [s|] eqn:E.
  - rewrite (nth_error_nth _ _ _ E). apply reads_escape; [assumption|].
    apply (proj1 (Forall_forall _ _) H). now apply nth_error_In with i.
  - apply nth_error_None in E. rewrite nth_overflow by assumption. now apply reads_empty.
Qed.

Lemma flat_sep_last sep (l : list bytes) : l <> [] -> flat_map (fun p : bytes => p ++ [sep]) l = separated sep l ++ [sep].
Proof.
  intros H. induction l as [|x r IH]; [easy|]. destruct r as [|y r].
  - cbn. now rewrite app_nil_r.
  - change (flat_map (fun p : bytes => p ++ [sep]) (x :: y :: r)) with ((x ++ [sep]) ++ flat_map (fun p : bytes => p ++ [sep]) (y :: r)).
    rewrite IH by discriminate.
    change (separated sep (x :: y :: r)) with (x ++ [sep] ++ separated sep (y :: r)). now rewrite <- !app_assoc.
Qed.

(** A tag's columns, with more columns after them. *)
Lemma pprint_v2_then sep ncomm t : exists ps,
  Forall (fun p => True) ps /\
  pprint_v2_tag sep ncomm t ++ [sep] = flat_map (fun p : bytes => p ++ [sep]) ps /\
  ps = tag_forms sep t ++ (match ncomm with O => [[]] | _ => comment_forms sep ncomm (tv_comments t) end).
Proof.
  eexists. split; [|split; [|reflexivity]]; [apply Forall_forall; auto|].
  rewrite pprint_forms, flat_map_app, <- app_assoc. f_equal.
  destruct ncomm as [|k]; [reflexivity|].
  set (l := comment_forms sep (S k) (tv_comments t)).
  assert (Hl : l <> []) by (unfold l, comment_forms; cbn [seq map]; discriminate).
  now rewrite flat_sep_last.
Qed.

Lemma tag_fields_read lax sep ncomm t : separator_ok sep = true -> sep <> quote -> sep <> 42 -> tag_readable lax sep t ->
  Forall2 (reads_as lax sep false)
    (tag_forms sep t ++ match ncomm with O => [[]] | _ => comment_forms sep ncomm (tv_comments t) end)
    (tag_fields ncomm t).
Proof.
  intros H1 H2 H42 Ht. unfold tag_fields. rewrite !app_assoc. apply Forall2_app.
  - rewrite <- !app_assoc. now apply tag_forms_read.
  - destruct ncomm as [|k].
    + repeat constructor. now apply reads_empty.
    + apply comment_forms_read; auto. apply Ht.
Qed.

(** ** A file's row *)
Lemma quoted_fine p : path_fine p -> quoted_path p = [quote] ++ doubled quote p ++ [quote].
Proof.
  intros (H1 & H2). unfold quoted_path. f_equal. f_equal. induction p as [|c r IH]; [reflexivity|].
  cbn [flat_map doubled].
  rewrite (proj2 (N.eqb_neq c quote)) by (intros ->; apply H1; now left).
  rewrite (proj2 (N.eqb_neq c 92)) by (intros ->; apply H2; now left).
  cbn [orb app]. f_equal. apply IH; intros Hin; [apply H1|apply H2]; now right.
Qed.

Lemma megabytes_reads lax mb : megabytes mb -> reads_as lax comma false mb mb.
Proof.
  intros H. apply reads_plain; [repeat split; discriminate|].
  assert (A : forall c, In c mb -> (48 <= c /\ c <= 57) \/ c = 46) by now apply Forall_forall.
  assert (N1 : ~ In comma mb) by (intros Hin; apply A in Hin; unfold comma in Hin; lia).
  assert (N2 : ~ In lf mb) by (intros Hin; apply A in Hin; unfold lf in Hin; lia).
  assert (N3 : ~ In dquote mb) by (intros Hin; apply A in Hin; unfold dquote in Hin; lia).
  assert (N4 : ~ In cr mb) by (intros Hin; apply A in Hin; unfold cr in Hin; lia).
  split; [exact N1|]. split; [exact N2|]. destruct lax; [|now split]. split; [|discriminate].
  destruct mb as [|c r]; [discriminate|]. cbn. intros E. injection E as ->. apply N3. now left.
Qed.

Lemma separated_repeat sep n : separated sep (repeat [] (S n)) = repeat sep n.
Proof.
  induction n as [|n IH]; [reflexivity|].
  change (repeat [] (S (S n))) with (@nil N :: repeat [] (S n)). cbn [repeat separated] in *. cbn [app]. f_equal. exact IH.
Qed.

Lemma md5_hex md5 : Forall hexdigit (flat_map (fun x => width2 (number 16 x)) md5).
Proof.
  induction md5 as [|x r IH]; [constructor|]. cbn [flat_map]. apply Forall_app. split; [|exact IH].
  apply width2_hex, number_hex; lia.
Qed.

Lemma report_read lax no_dir ncomm dir name mb v2 size md5 v1 rest :
  path_fine dir -> path_fine name -> megabytes mb ->
  v2_readable lax comma v2 -> v1_readable lax comma v1 ->
  read_record lax comma (report_row no_dir ncomm dir name mb v2 size md5 v1 ++ rest) =
  Some (row_fields no_dir ncomm dir name mb v2 size md5 v1, rest).
Proof.
  intros Hd Hn Hm H2 H1.
  assert (Hc : separator_ok comma = true) by reflexivity.
  assert (Hq : comma <> quote) by discriminate.
  pose proof (separator_fine comma Hc Hq) as Hs.
  set (A := (if no_dir then [] else [quoted_path dir]) ++ [quoted_path name; mb]).
  set (V2 := match v2 with
             | None => repeat [] (15 + ncomm)
             | Some t => tag_forms comma t ++ match ncomm with O => [[]] | _ => comment_forms comma ncomm (tv_comments t) end
             end).
  set (T := [number 10 size; flat_map (fun x => width2 (number 16 x)) md5]).
  set (V1 := match v1 with
             | None => repeat [] 8
             | Some t => [number 16 (if w1_1 t then 1 else 0); number 16 (if w1_ext t then 1 else 0);
                          escape comma quote (w1_artist t); escape comma quote (w1_title t);
                          escape comma quote (w1_album t); escape comma quote (w1_year t);
                          escape comma quote (w1_comment t); number 10 (w1_genre t)]
             end).
  assert (E : report_row no_dir ncomm dir name mb v2 size md5 v1 =
              separated comma ((A ++ V2 ++ T) ++ V1) ++ [newline]).
  { rewrite separated_app by (unfold V1; destruct v1; discriminate).
    rewrite (flat_map_app _ A), (flat_map_app _ V2). unfold report_row.
    assert (EA : flat_map (fun p : bytes => p ++ [comma]) A =
                 (if no_dir then [] else quoted_path dir ++ [comma]) ++ quoted_path name ++ [comma] ++ mb ++ [comma]).
    { unfold A. rewrite flat_map_app. cbn [flat_map]. rewrite app_nil_r. rewrite <- app_assoc.
      destruct no_dir; cbn [flat_map]; [reflexivity|]. now rewrite app_nil_r. }
    assert (EV2 : flat_map (fun p : bytes => p ++ [comma]) V2 =
                 (match v2 with
                  | Some t => pprint_v2_tag comma ncomm t
                  | None => repeat comma 14 ++ repeat comma ncomm
                  end) ++ [comma]).
    { unfold V2. destruct v2 as [t|].
      - destruct (pprint_v2_then comma ncomm t) as (ps & _ & E & ->). now rewrite E.
      - rewrite flat_sep_last by discriminate. f_equal.
        change (15 + ncomm)%nat with (S (14 + ncomm)). rewrite separated_repeat. apply repeat_app. }
    assert (ET : flat_map (fun p : bytes => p ++ [comma]) T = pprint_track_data comma size md5 ++ [comma]).
    { unfold T, pprint_track_data. cbn [flat_map]. rewrite app_nil_r. now rewrite <- !app_assoc. }
    assert (EV1 : separated comma V1 = match v1 with Some t => pprint_v1_tag comma t | None => repeat comma 7 end).
    { unfold V1. destruct v1 as [t|]; [|reflexivity]. unfold pprint_v1_tag. cbn [separated]. reflexivity. }
    rewrite EA, EV2, ET, EV1. repeat rewrite <- app_assoc. reflexivity. }
  rewrite E, <- app_assoc. apply reads_row_read. unfold row_fields.
  rewrite !app_assoc. rewrite <- (app_assoc _ V2 T). rewrite (app_assoc A V2 T).
  apply reads_row_app.
  - apply Forall2_app; [apply Forall2_app|].
    + unfold A. apply Forall2_app.
      * destruct no_dir; [constructor|]. constructor; [|constructor]. rewrite quoted_fine by assumption. now apply reads_quoted.
      * constructor; [rewrite quoted_fine by assumption; now apply reads_quoted|]. constructor; [|constructor].
        now apply megabytes_reads.
    + unfold V2, v2_fields. destruct v2 as [t|].
      * apply tag_fields_read; auto. discriminate.
      * clear. induction (15 + ncomm)%nat as [|k IH]; cbn [repeat]; [constructor|]. constructor; [|exact IH].
        now apply reads_empty.
    + unfold T. constructor; [apply reads_number; auto; lia|]. constructor; [|constructor].
      apply reads_hex; auto. apply md5_hex.
  - unfold V1, v1_fields. destruct v1 as [t|].
    + cbn [v1_readable] in H1.
      inversion H1 as [|? ? G1 R1]; subst. inversion R1 as [|? ? G2 R2]; subst.
      inversion R2 as [|? ? G3 R3]; subst. inversion R3 as [|? ? G4 R4]; subst. inversion R4 as [|? ? G5 R5]; subst.
      do 7 (apply reads_cons; [first [now apply reads_escape | apply reads_number; auto; lia]|]).
      apply reads_one. apply reads_number; auto; lia.
    + cbn [repeat]. do 7 (apply reads_cons; [now apply reads_empty|]). apply reads_one. now apply reads_empty.
Qed.

(** ** The header *)
Definition plainb (f : bytes) : bool := forallb (fun c => negb ((c =? 44) || (c =? 10) || (c =? 34) || (c =? 13))) f.
Lemma plainb_reads lax last f : plainb f = true -> reads_as lax comma last f f.
Proof.
  intros H. apply reads_plain; [repeat split; discriminate|].
  assert (A : forall c, In c f -> c <> 44 /\ c <> 10 /\ c <> 34 /\ c <> 13).
  { intros c Hin. apply (proj1 (forallb_forall _ _) H) in Hin. lia. }
  assert (N1 : ~ In comma f) by (intros Hin; apply A in Hin; unfold comma in Hin; lia).
  assert (N2 : ~ In lf f) by (intros Hin; apply A in Hin; unfold lf in Hin; lia).
  assert (N3 : ~ In dquote f) by (intros Hin; apply A in Hin; unfold dquote in Hin; lia).
  assert (N4 : ~ In cr f) by (intros Hin; apply A in Hin; unfold cr in Hin; lia).
  split; [exact N1|]. split; [exact N2|]. destruct lax; [|now split]. split.
  - destruct f as [|c r]; [discriminate|]. cbn. intros E. injection E as ->. apply N3. now left.
  - intros _ g ->. apply N4. apply in_or_app. right. now left.
Qed.

Lemma plainb_app f g : plainb (f ++ g) = plainb f && plainb g.
Proof. apply forallb_app. Qed.
Lemma plainb_number base n : 2 <= base -> base <= 16 -> plainb (number base n) = true.
Proof.
  intros H1 H2. apply forallb_forall. intros c Hin.
  pose proof (number_hex base n H1 H2) as H. apply (proj1 (Forall_forall _ _) H) in Hin. unfold hexdigit in Hin.
  clear H. lia.
Qed.

Lemma plainb_row lax (fs : list bytes) : fs <> [] -> forallb plainb fs = true -> reads_row lax comma fs fs.
Proof.
  induction fs as [|f r IH]; [easy|]. intros _ H. cbn [forallb] in H. apply andb_true_iff in H. destruct H as (H1 & H2).
  destruct r as [|g r]; [apply reads_one; now apply plainb_reads|].
  apply reads_cons; [now apply plainb_reads|]. apply IH; [discriminate|assumption].
Qed.

Lemma flat_lead sep (g : nat -> bytes) l (qs : list bytes) : qs <> [] ->
  flat_map (fun i => [sep] ++ g i) l ++ [sep] ++ separated sep qs =
  [sep] ++ separated sep (map g l ++ qs).
Proof.
  intros Hq. induction l as [|i r IH]; [reflexivity|].
  change (flat_map (fun i => [sep] ++ g i) (i :: r)) with (([sep] ++ g i) ++ flat_map (fun i => [sep] ++ g i) r).
  rewrite <- app_assoc. rewrite IH. change (map g (i :: r) ++ qs) with (g i :: (map g r ++ qs)).
  rewrite <- app_assoc. f_equal.
  destruct (map g r ++ qs) as [|x y] eqn:E; [apply app_eq_nil in E; tauto|]. reflexivity.
Qed.

Lemma header_read lax no_dir ncomm rest :
  read_record lax comma (report_header no_dir ncomm ++ rest) = Some (headings no_dir ncomm, rest).
Proof.
  assert (E : report_header no_dir ncomm = separated comma (headings no_dir ncomm) ++ [newline]).
  { unfold report_header, headings.
    rewrite (app_assoc (if no_dir then [] else B "directory" ++ [comma])).
    assert (E1 : forall qs, qs <> [] ->
      separated comma ((if no_dir then [] else [B "directory"]) ++ v2_headings ++ qs) =
      ((if no_dir then [] else B "directory" ++ [comma]) ++ separated comma v2_headings) ++ [comma] ++ separated comma qs).
    { intros qs Hq. rewrite app_assoc, separated_app by assumption.
      rewrite flat_sep_last by (destruct no_dir; discriminate).
      rewrite <- !app_assoc. cbn [app].
      destruct no_dir; [reflexivity|]. cbn [app].
      change (separated comma (B "directory" :: v2_headings)) with (B "directory" ++ [comma] ++ separated comma v2_headings).
      now rewrite <- !app_assoc. }
    rewrite E1 by (destruct (map _ _); discriminate).
    rewrite <- !app_assoc. f_equal. f_equal.
    assert (E2 : forall X Y Z : bytes, X ++ [comma] ++ Y ++ Z = (X ++ [comma] ++ Y) ++ Z).
    { intros. now rewrite <- !app_assoc. }
    rewrite E2. rewrite (flat_lead comma (fun i => B "comment #" ++ number 10 (N.of_nat i) ++ B " text")) by discriminate.
    now rewrite <- app_assoc. }
  rewrite E, <- app_assoc. apply reads_row_read. apply plainb_row.
  - unfold headings. destruct no_dir; discriminate.
  - unfold headings. rewrite !forallb_app. apply andb_true_iff. split; [now destruct no_dir|].
    apply andb_true_iff. split; [reflexivity|]. apply andb_true_iff. split; [|reflexivity].
    apply forallb_forall. intros f Hin. apply in_map_iff in Hin. destruct Hin as (i & <- & _).
    rewrite !plainb_app. rewrite plainb_number by lia. reflexivity.
Qed.

Lemma headings_length no_dir ncomm : length (headings no_dir ncomm) = ((if no_dir then 27 else 28) + ncomm)%nat.
Proof. unfold headings. rewrite !app_length, map_length, seq_length. destruct no_dir; cbn [List.length v2_headings v1_headings]; lia. Qed.

Lemma row_length no_dir ncomm dir name mb v2 size md5 v1 :
  (match v2 with Some t => length (tv_texts t) = 7%nat | None => True end) ->
  length (row_fields no_dir ncomm dir name mb v2 size md5 v1) =
  ((if no_dir then 27 else 28) + (match v2, ncomm with Some _, O => 1 | _, _ => ncomm end))%nat.
Proof.
  intros H. unfold row_fields. rewrite !app_length.
  assert (L1 : length (v1_fields v1) = 8%nat) by (destruct v1; reflexivity).
  assert (L2 : length (v2_fields ncomm v2) = (15 + match v2, ncomm with Some _, O => 1 | _, _ => ncomm end)%nat).
  { destruct v2 as [t|]; cbn [v2_fields]; [|now rewrite repeat_length].
    unfold tag_fields. rewrite !app_length, map_length, H. unfold comment_fields.
    destruct ncomm as [|k]; [reflexivity|]. rewrite map_length, seq_length. cbn [List.length]. lia. }
  rewrite L1, L2. destruct no_dir; cbn [List.length]; lia.
Qed.
