(** * Proofs: rows of the delimited report read back. *)
From Verif Require Import Base M_Ints M_Stream M_Id3v1 M_Payload M_Frame M_Charset M_Lookup M_Mp3 M_Read
  M_Tagset M_Process M_Cmds M_Csv M_Report S_Lookup S_Cmds S_Csv S_Report S_Tdf L_Csv L_Csv2 L_Report L_Report2.
#[local] Open Scope N_scope.

(** ** Lines *)
Lemma read_line_plain sep l : forall fs rest, read_line sep l = Some (fs, rest) -> fs <> [] /\ Forall (plain_in sep) fs.
Proof.
  induction l as [|c r IH]; intros fs rest E; [discriminate E|]. cbn [read_line] in E.
  destruct (N.eqb_spec c 10) as [->|NL].
  - injection E as <- _. split; [discriminate|]. constructor; [split; intros []|constructor].
  - destruct (read_line sep r) as [([|f fs1], rest1)|] eqn:R; try discriminate E.
    destruct (IH _ _ eq_refl) as (_ & F). inversion F as [|? ? (P1 & P2) F']; subst.
    destruct (N.eqb_spec c sep) as [->|NS]; injection E as <- _; (split; [discriminate|]); constructor; auto.
    + split; intros [].
    + split; intros [Q|Q]; auto.
Qed.
Lemma read_line_field sep f : plain_in sep f -> forall l g gs rest, read_line sep l = Some (g :: gs, rest) ->
  read_line sep (f ++ l) = Some ((f ++ g) :: gs, rest).
Proof.
  intros (P1 & P2). induction f as [|c f IH]; intros l g gs rest E; [exact E|]. cbn [app read_line].
  destruct (N.eqb_spec c 10) as [->|_]; [destruct P2; left; reflexivity|].
  rewrite (IH (fun Q => P1 (or_intror Q)) (fun Q => P2 (or_intror Q)) _ _ _ _ E).
  destruct (N.eqb_spec c sep) as [->|_]; [destruct P1; left; reflexivity|]. reflexivity.
Qed.
Lemma read_line_sep sep l g gs rest : sep <> 10 -> read_line sep l = Some (g :: gs, rest) ->
  read_line sep (sep :: l) = Some ([] :: g :: gs, rest).
Proof.
  intros NE E. cbn [read_line]. destruct (N.eqb_spec sep 10); [contradiction|]. rewrite E, N.eqb_refl. reflexivity.
Qed.
Lemma read_line_fields sep fs rest : sep <> 10 -> fs <> [] -> Forall (plain_in sep) fs ->
  read_line sep (separated sep fs ++ [10] ++ rest) = Some (fs, rest).
Proof.
  intros NE. induction fs as [|f r IH]; intros NF F; [congruence|]. inversion F as [|? ? P F']; subst.
  destruct r as [|g r].
  - cbn [separated]. rewrite (read_line_field sep f P ([10] ++ rest) [] [] rest) by reflexivity. rewrite app_nil_r. reflexivity.
  - change (separated sep (f :: g :: r)) with (f ++ [sep] ++ separated sep (g :: r)). rewrite <- !app_assoc.
    rewrite (read_line_field sep f P _ [] (g :: r) rest); [rewrite app_nil_r; reflexivity|].
    apply (read_line_sep sep); [exact NE|]. apply IH; [discriminate|exact F'].
Qed.
Lemma read_line_iff sep fs rest : sep <> 10 -> fs <> [] ->
  (read_line sep (separated sep fs ++ [10] ++ rest) = Some (fs, rest) <-> Forall (plain_in sep) fs).
Proof.
  intros NE NF. split; [intros E; eapply read_line_plain; exact E|]. apply read_line_fields; assumption.
Qed.

Lemma read_line_count sep l rest : sep <> 10 -> ~ In 10 l ->
  exists gs, read_line sep (l ++ [10] ++ rest) = Some (gs, rest) /\ length gs = S (occurrences sep l).
Proof.
  intros NE. unfold occurrences. induction l as [|c r IH]; intros NI.
  - exists [[]]. split; reflexivity.
  - destruct IH as (gs & E & L); [intros Q; apply NI; right; exact Q|]. cbn [app read_line].
    destruct (N.eqb_spec c 10) as [->|_]; [destruct NI; left; reflexivity|]. cbn [app] in E. rewrite E.
    destruct gs as [|g gs]; [discriminate L|].
    destruct (N.eqb_spec c sep) as [->|NS].
    + exists ([] :: g :: gs). split; [reflexivity|]. cbn [length] in *. rewrite count_occ_cons_eq by reflexivity. lia.
    + exists ((c :: g) :: gs). split; [reflexivity|]. cbn [length] in *. rewrite count_occ_cons_neq by exact NS. lia.
Qed.
Definition total (sep : N) (fs : list bytes) : nat := list_sum (map (occurrences sep) fs).
Lemma total_app sep a b : total sep (a ++ b) = (total sep a + total sep b)%nat.
Proof. unfold total. rewrite map_app. apply list_sum_app. Qed.
Lemma occurrences_app c a b : occurrences c (a ++ b) = (occurrences c a + occurrences c b)%nat.
Proof. apply count_occ_app. Qed.
Lemma occurrences_separated sep fs : fs <> [] -> S (occurrences sep (separated sep fs)) = (length fs + total sep fs)%nat.
Proof.
  induction fs as [|f r IH]; intros NF; [congruence|]. destruct r as [|g r].
  - unfold total. cbn [separated map list_sum fold_right length]. lia.
  - change (separated sep (f :: g :: r)) with (f ++ [sep] ++ separated sep (g :: r)).
    rewrite !occurrences_app. assert (O : occurrences sep [sep] = 1%nat) by (unfold occurrences; rewrite count_occ_cons_eq; reflexivity).
    rewrite O. specialize (IH ltac:(discriminate)). change (total sep (f :: g :: r)) with (occurrences sep f + total sep (g :: r))%nat.
    cbn [length] in *. lia.
Qed.
Lemma in_separated c sep fs : In c (separated sep fs) -> c = sep \/ exists f, In f fs /\ In c f.
Proof.
  induction fs as [|f r IH]; intros H; [destruct H|]. destruct r as [|g r].
  - cbn [separated] in H. right. exists f. split; [left; reflexivity|exact H].
  - change (separated sep (f :: g :: r)) with (f ++ [sep] ++ separated sep (g :: r)) in H.
    rewrite !in_app_iff in H. destruct H as [H|[H|H]].
    + right. exists f. split; [left; reflexivity|exact H].
    + destruct H as [<-|[]]. left. reflexivity.
    + destruct (IH H) as [A|(h & A & C)]; [left; exact A|]. right. exists h. split; [right; exact A|exact C].
Qed.
Lemma read_line_more sep fs rest : sep <> 10 -> fs <> [] -> Forall (fun f => ~ In 10 f) fs ->
  exists gs, read_line sep (separated sep fs ++ [10] ++ rest) = Some (gs, rest) /\ length gs = (length fs + total sep fs)%nat.
Proof.
  intros NE NF F. destruct (read_line_count sep (separated sep fs) rest NE) as (gs & E & L).
  { intros Q. apply in_separated in Q as [Q|(f & Q1 & Q2)]; [congruence|]. rewrite Forall_forall in F. exact (F f Q1 Q2). }
  exists gs. split; [exact E|]. rewrite L. apply occurrences_separated. exact NF.
Qed.

(** ** The row as fields *)
Definition ended_by (sep : N) (l : list bytes) : bytes := flat_map (fun p : bytes => p ++ [sep]) l.
Lemma ended_app sep a b : ended_by sep (a ++ b) = ended_by sep a ++ ended_by sep b.
Proof. unfold ended_by. apply flat_map_app. Qed.
Lemma ended_cons sep f r : ended_by sep (f :: r) = f ++ [sep] ++ ended_by sep r.
Proof. unfold ended_by. cbn [flat_map]. rewrite <- app_assoc. reflexivity. Qed.
Lemma ended_nil sep : ended_by sep [] = [].
Proof. reflexivity. Qed.
Lemma separated_app sep a b : b <> [] -> separated sep (a ++ b) = ended_by sep a ++ separated sep b.
Proof.
  intros NB. induction a as [|f r IH]; [reflexivity|]. cbn [app].
  destruct (r ++ b) as [|g l] eqn:Q; [apply app_eq_nil in Q; destruct Q; contradiction|].
  change (separated sep (f :: g :: l)) with (f ++ [sep] ++ separated sep (g :: l)). rewrite <- Q in *. rewrite IH.
  cbn [ended_by flat_map]. rewrite <- !app_assoc. reflexivity.
Qed.
Lemma ended_repeat sep n : ended_by sep (repeat [] n) = repeat sep n.
Proof. induction n as [|n IH]; [reflexivity|]. cbn [repeat ended_by flat_map]. cbn. unfold ended_by in IH. rewrite IH. reflexivity. Qed.
Lemma gtexts_ended a l : gtexts (tdf_style a) l = ended_by (st_sep (tdf_style a)) (map text_field l).
Proof.
  unfold gtexts, ended_by. induction l as [|x r IH]; [reflexivity|]. cbn [flat_map map]. rewrite IH. destruct x; reflexivity.
Qed.
Lemma gopt_nth a (l : list bytes) i : gopt (tdf_style a) (nth_error l i) = nth i l [].
Proof.
  revert i. induction l as [|x r IH]; intros [|i]; try reflexivity. cbn [nth_error nth]. apply IH.
Qed.
Lemma gcomments_separated a ncomm l : gcomments (tdf_style a) ncomm l = separated (st_sep (tdf_style a)) (map (fun i => nth i l []) (seq 0 ncomm)).
Proof.
  unfold gcomments. set (sep := st_sep (tdf_style a)).
  assert (G : forall k i, (i + k = ncomm)%nat ->
    flat_map (fun i => gopt (tdf_style a) (nth_error l i) ++ (if Nat.eqb i (ncomm - 1) then [] else [sep])) (seq i k) =
    separated sep (map (fun i => nth i l []) (seq i k))).
  { induction k as [|k IH]; intros i E; [reflexivity|]. cbn [seq flat_map map]. rewrite IH by lia. rewrite gopt_nth.
    destruct k as [|k].
    - cbn [seq map separated]. destruct (Nat.eqb_spec i (ncomm - 1)); [|lia]. rewrite !app_nil_r. reflexivity.
    - destruct (Nat.eqb_spec i (ncomm - 1)); [lia|].
      change (separated sep (nth i l [] :: map (fun i => nth i l []) (seq (S i) (S k)))) with
        (nth i l [] ++ [sep] ++ separated sep (map (fun i => nth i l []) (seq (S i) (S k)))).
      rewrite <- app_assoc. reflexivity. }
  apply G. lia.
Qed.
Lemma gtag_ended a ncomm V : gtag (tdf_style a) ncomm V ++ [st_sep (tdf_style a)] = ended_by (st_sep (tdf_style a)) (tag_fields ncomm V).
Proof.
  unfold gtag, tag_fields. rewrite gtexts_ended, gcomments_separated. set (sep := st_sep (tdf_style a)).
  rewrite !ended_app.
  assert (C : separated sep (map (fun i => nth i (tv_comments V) []) (seq 0 ncomm)) ++ [sep] = ended_by sep (comment_fields ncomm (tv_comments V))).
  { unfold comment_fields. destruct ncomm as [|n]; [reflexivity|]. symmetry. apply flat_sep_last. discriminate. }
  rewrite <- C. rewrite !ended_cons, !ended_nil. change (plays_field V) with (gplays V). rewrite ?app_nil_r. rewrite <- ?app_assoc. reflexivity.
Qed.
Lemma gv1_separated a W : gv1 (tdf_style a) W = separated (st_sep (tdf_style a)) (v1_fields (Some W)).
Proof. unfold gv1, v1_fields. cbn [separated]. rewrite <- ?app_assoc. reflexivity. Qed.

Lemma grow_tdf a no_dir ncomm dir name mb V size md5 W :
  grow (tdf_style a) no_dir ncomm dir name mb V size md5 W =
  separated (st_sep (tdf_style a)) (row_fields no_dir ncomm (quoted_path dir) (quoted_path name) mb V size md5 W) ++ [newline].
Proof.
  unfold grow, row_fields. set (sep := st_sep (tdf_style a)).
  assert (NW : v1_fields W <> []) by (destruct W; discriminate).
  rewrite !app_assoc. rewrite separated_app by exact NW. rewrite !ended_app.
  assert (A : (match V with Some V => gtag (tdf_style a) ncomm V | None => repeat sep 14 ++ repeat sep ncomm end) ++ [sep] = ended_by sep (v2_fields ncomm V)).
  { destruct V as [V|]; [apply gtag_ended|]. unfold v2_fields. rewrite ended_repeat. rewrite <- repeat_app.
    change [sep] with (repeat sep 1). rewrite <- repeat_app. f_equal. lia. }
  assert (C : match W with Some W => gv1 (tdf_style a) W | None => repeat sep 7 end = separated sep (v1_fields W)).
  { destruct W as [W|]; [apply gv1_separated|reflexivity]. }
  rewrite <- C, <- A. unfold pprint_track_data. fold sep. destruct no_dir; rewrite ?ended_cons, ?ended_nil; rewrite ?app_nil_r; rewrite <- ?app_assoc; reflexivity.
Qed.

(** ** Which fields can be in the way *)
Definition quiet (sep : N) (c : N) : Prop := c <> sep /\ c <> 10.
Lemma hex_quiet a l : Forall hexdigit l -> plain_in (st_sep (tdf_style a)) l.
Proof.
  intros H. rewrite Forall_forall in H. split; intros Q; apply H in Q; unfold hexdigit in Q; destruct a; cbn in Q; lia.
Qed.
Lemma number_plain a base n : 2 <= base -> base <= 16 -> plain_in (st_sep (tdf_style a)) (number base n).
Proof. intros H1 H2. apply hex_quiet, number_hex; assumption. Qed.
Lemma occurrences_plain sep f : plain_in sep f -> occurrences sep f = 0%nat.
Proof. intros (P & _). apply count_occ_not_In. exact P. Qed.

Lemma mb_plain a size : plain_in (st_sep (tdf_style a)) (mb_text size).
Proof.
  assert (D : forall k, k mod 10 < 10) by (intros k; apply N.mod_lt; lia).
  assert (G : Forall (fun c => (48 <= c /\ c <= 57) \/ (97 <= c /\ c <= 102) \/ c = 46) (mb_text size)).
  { unfold mb_text. apply Forall_app. split.
    - eapply Forall_impl; [|apply (number_hex 10 (thousandths size / 1000)); lia]. unfold hexdigit. intros c H. tauto.
    - change (B ".") with [46]. apply Forall_app. split; [constructor; [lia|constructor]|].
      pose proof (D (thousandths size / 100)). pose proof (D (thousandths size / 10)). pose proof (D (thousandths size)).
      repeat constructor; lia. }
  rewrite Forall_forall in G. split; intros Q; apply G in Q; destruct a; cbn in Q; lia.
Qed.

(** Fields that hold no text from the file. *)
Lemma plain_iff (P : bytes -> Prop) sep a b : (forall f, In f a -> plain_in sep f) ->
  (Forall (plain_in sep) (a ++ b) <-> Forall (plain_in sep) b).
Proof.
  intros H. rewrite Forall_app. split; [tauto|]. intros F. split; [|exact F]. apply Forall_forall. exact H.
Qed.

Lemma total_plain sep fs : Forall (plain_in sep) fs -> total sep fs = 0%nat.
Proof. unfold total. induction 1 as [|f r P F IH]; [reflexivity|]. cbn [map list_sum fold_right]. rewrite (occurrences_plain _ _ P). exact IH. Qed.

(** Both statements about rows come down to this: a row is made of the texts and
    plain fields. *)
Definition made_of (sep : N) (fs ts : list bytes) : Prop :=
  (Forall (plain_in sep) fs <-> Forall (plain_in sep) ts) /\
  (Forall (fun f => ~ In 10 f) fs <-> Forall (fun f => ~ In 10 f) ts) /\
  total sep fs = total sep ts.
Lemma made_app sep a b x y : made_of sep a x -> made_of sep b y -> made_of sep (a ++ b) (x ++ y).
Proof.
  intros (A1 & A2 & A3) (B1 & B2 & B3). unfold made_of. rewrite !Forall_app, !total_app. split; [tauto|]. split; [tauto|lia].
Qed.
Lemma made_self sep a : made_of sep a a.
Proof. unfold made_of. tauto. Qed.
Lemma made_plain sep a : Forall (plain_in sep) a -> made_of sep a [].
Proof.
  intros H. split; [|split].
  - split; [constructor|auto].
  - split; [constructor|]. intros _. eapply Forall_impl; [|exact H]. intros f (_ & P). exact P.
  - rewrite (total_plain _ _ H). reflexivity.
Qed.

Lemma made_comments sep ncomm l : (length l <= ncomm)%nat -> made_of sep (comment_fields ncomm l) l.
Proof.
  intros L. destruct ncomm as [|n].
  - destruct l; [|cbn in L; lia]. apply made_plain. constructor; [split; intros []|constructor].
  - unfold comment_fields. set (m := S n) in *. clearbody m.
    assert (E : map (fun i => nth i l []) (seq 0 m) = l ++ repeat [] (m - length l)).
    { clear n. revert m L. induction l as [|x r IH]; intros m L.
      - cbn [length] in *. rewrite Nat.sub_0_r. cbn [app]. clear. generalize 0%nat as i. induction m as [|m IH]; intros i; [reflexivity|].
        cbn [seq map repeat]. rewrite IH. destruct i; reflexivity.
      - destruct m as [|m]; [cbn in L; lia|]. cbn [seq map]. rewrite <- seq_shift, map_map. cbn [nth length app Nat.sub]. f_equal.
        apply IH. cbn in L. lia. }
    rewrite E. replace l with (l ++ []) at 3 by apply app_nil_r. apply made_app; [apply made_self|]. apply made_plain.
    apply Forall_forall. intros f Q. apply repeat_spec in Q. subst f. split; intros [].
Qed.
Lemma made_v2 a ncomm V : (length (tv_comments V) <= ncomm)%nat ->
  made_of (st_sep (tdf_style a)) (tag_fields ncomm V) (map text_field (tv_texts V) ++ tv_comments V).
Proof.
  intros L. unfold tag_fields.
  change (map text_field (tv_texts V) ++ tv_comments V) with ([] ++ map text_field (tv_texts V) ++ [] ++ tv_comments V).
  apply made_app; [|apply made_app; [apply made_self|apply made_app; [|apply made_comments; exact L]]].
  - apply made_plain. do 3 (constructor; [apply number_plain; lia|]). constructor; [|constructor; [apply number_plain; lia|constructor]].
    pose proof (width2_hex _ (number_hex 16 (tv_flags V) ltac:(lia) ltac:(lia))) as H. rewrite Forall_forall in H.
    split; intros Q; apply in_app_or in Q as [Q|Q];
      [destruct a; cbn in Q; lia|apply H in Q; unfold hexdigit in Q; destruct a; cbn in Q; lia|cbn in Q; lia|apply H in Q; unfold hexdigit in Q; lia].
  - apply made_plain. constructor; [apply number_plain; lia|]. constructor; [|constructor; [apply number_plain; lia|constructor]].
    unfold plays_field. destruct (tv_pcnt V =? 1); [apply number_plain; lia|]. destruct (1 <? tv_pcnt V); [|split; intros []].
    split; intros [Q|[]]; destruct a; discriminate Q.
Qed.
Lemma made_row a no_dir ncomm dir name size0 V size md5 W :
  (forall T, V = Some T -> (length (tv_comments T) <= ncomm)%nat) ->
  made_of (st_sep (tdf_style a)) (row_fields no_dir ncomm (quoted_path dir) (quoted_path name) (mb_text size0) V size md5 W)
    (name_texts no_dir dir name ++ v2_texts V ++ v1_texts W).
Proof.
  intros L. unfold row_fields, name_texts.
  replace (((if no_dir then [] else [quoted_path dir]) ++ [quoted_path name]) ++ v2_texts V ++ v1_texts W)
    with ((if no_dir then [] else [quoted_path dir]) ++ [quoted_path name] ++ v2_texts V ++ [] ++ v1_texts W) by (rewrite <- !app_assoc; reflexivity).
  apply made_app; [apply made_self|].
  change ([quoted_path name; mb_text size0] ++ v2_fields ncomm V ++ [number 10 size; flat_map (fun x => width2 (number 16 x)) md5] ++ v1_fields W)
    with ([quoted_path name] ++ ([mb_text size0] ++ v2_fields ncomm V) ++ [number 10 size; flat_map (fun x => width2 (number 16 x)) md5] ++ v1_fields W).
  apply made_app; [apply made_self|]. apply made_app.
  - change (v2_texts V) with ([] ++ v2_texts V). apply made_app; [apply made_plain; constructor; [apply mb_plain|constructor]|].
    destruct V as [T|]; [apply made_v2; apply L; reflexivity|]. apply made_plain. apply Forall_forall. intros f Q. cbn [v2_fields] in Q. apply repeat_spec in Q. subst f. split; intros [].
  - apply made_app.
    + apply made_plain. constructor; [apply number_plain; lia|]. constructor; [apply hex_quiet, md5_hex|constructor].
    + destruct W as [T|]; [|apply made_plain; apply Forall_forall; intros f Q; cbn [v1_fields] in Q; apply (repeat_spec 8) in Q; subst f; split; intros []].
      cbn [v1_fields v1_texts].
      change [number 16 (if w1_1 T then 1 else 0); number 16 (if w1_ext T then 1 else 0); w1_artist T; w1_title T; w1_album T; w1_year T; w1_comment T; number 10 (w1_genre T)]
        with ([number 16 (if w1_1 T then 1 else 0); number 16 (if w1_ext T then 1 else 0)] ++ [w1_artist T; w1_title T; w1_album T; w1_year T; w1_comment T] ++ [number 10 (w1_genre T)]).
      rewrite <- (app_nil_r [w1_artist T; w1_title T; w1_album T; w1_year T; w1_comment T]) at 2.
      change ([w1_artist T; w1_title T; w1_album T; w1_year T; w1_comment T] ++ []) with ([] ++ [w1_artist T; w1_title T; w1_album T; w1_year T; w1_comment T] ++ []).
      apply made_app; [apply made_plain; repeat (constructor; [apply number_plain; lia|]); constructor|].
      apply made_app; [apply made_self|]. apply made_plain. constructor; [apply number_plain; lia|constructor].
Qed.

(** ** The headings *)
Lemma header_csv no_dir ncomm : header_row true comma no_dir ncomm = report_header no_dir ncomm.
Proof. reflexivity. Qed.
Lemma tdf_headings_split no_dir ncomm : tdf_headings no_dir ncomm =
  (if no_dir then [] else [B "directory"]) ++ v2_headings ++
  map (fun i => B "comment #" ++ number 10 (N.of_nat i) ++ B " text") (seq 0 ncomm) ++ removelast v1_headings ++ [B "ID3v1 Genre"].
Proof.
  unfold tdf_headings, headings. rewrite !removelast_app; [|discriminate|..].
  - rewrite <- !app_assoc. reflexivity.
  - intros Q. apply app_eq_nil in Q as (_ & Q). discriminate Q.
  - discriminate.
Qed.
Lemma header_tdf sep no_dir ncomm : header_row false sep no_dir ncomm = separated sep (tdf_headings no_dir ncomm) ++ [newline].
Proof.
  rewrite tdf_headings_split. unfold header_row, last_heading.
  set (last := removelast v1_headings ++ [B "ID3v1 Genre"]). assert (NL : last <> []) by discriminate. clearbody last.
  assert (NR : forall x : list bytes, x ++ last <> []) by (intros x Q; apply app_eq_nil in Q; tauto).
  rewrite (separated_app sep (if no_dir then [] else [B "directory"])) by (rewrite app_assoc; apply NR).
  rewrite (separated_app sep v2_headings) by apply NR. rewrite (separated_app sep _ last) by exact NL.
  assert (E : flat_map (fun i => [sep] ++ B "comment #" ++ number 10 (N.of_nat i) ++ B " text") (seq 0 ncomm) ++ [sep] =
              [sep] ++ ended_by sep (map (fun i => B "comment #" ++ number 10 (N.of_nat i) ++ B " text") (seq 0 ncomm))).
  { induction (seq 0 ncomm) as [|i r IH]; [reflexivity|]. cbn [flat_map map ended_by]. rewrite <- app_assoc, IH. unfold ended_by. rewrite <- ?app_assoc. reflexivity. }
  rewrite (app_assoc (flat_map _ _)), E.
  assert (E2 : ended_by sep v2_headings = separated sep v2_headings ++ [sep]) by (apply flat_sep_last; discriminate).
  rewrite E2. destruct no_dir; rewrite ?ended_cons, ?ended_nil; rewrite ?app_nil_r, <- ?app_assoc; reflexivity.
Qed.
Definition printable (f : bytes) : bool := forallb (fun c => 32 <=? c) f.
Lemma printable_plain a f : printable f = true -> plain_in (st_sep (tdf_style a)) f.
Proof.
  intros H. unfold printable in H. rewrite forallb_forall in H. split; intros Q; apply H, N.leb_le in Q; destruct a; cbn in Q; lia.
Qed.
Lemma headings_plain a no_dir ncomm : Forall (plain_in (st_sep (tdf_style a))) (tdf_headings no_dir ncomm).
Proof.
  rewrite tdf_headings_split. repeat (apply Forall_app; split).
  - destruct no_dir; [constructor|]. constructor; [apply printable_plain; reflexivity|constructor].
  - apply Forall_forall. intros f Q. apply printable_plain.
    assert (G : forallb printable v2_headings = true) by reflexivity. rewrite forallb_forall in G. apply G. exact Q.
  - apply Forall_forall. intros f Q. apply in_map_iff in Q as (i & <- & _). apply printable_plain.
    unfold printable. rewrite !forallb_app. change (forallb (fun c => 32 <=? c) (B "comment #")) with true.
    change (forallb (fun c => 32 <=? c) (B " text")) with true. rewrite andb_true_r. cbn [andb]. apply forallb_forall. intros c C.
    pose proof (number_hex 10 (N.of_nat i) ltac:(lia) ltac:(lia)) as H. rewrite Forall_forall in H. apply H in C. unfold hexdigit in C. apply N.leb_le. lia.
  - apply Forall_forall. intros f Q. apply printable_plain.
    assert (G : forallb printable (removelast v1_headings) = true) by reflexivity. rewrite forallb_forall in G. apply G. exact Q.
  - constructor; [apply printable_plain; reflexivity|constructor].
Qed.
Lemma tdf_sep a : st_sep (tdf_style a) <> 10.
Proof. destruct a; discriminate. Qed.
Lemma header_reads a no_dir ncomm rest :
  read_line (st_sep (tdf_style a)) (header_row false (st_sep (tdf_style a)) no_dir ncomm ++ rest) = Some (tdf_headings no_dir ncomm, rest).
Proof.
  rewrite header_tdf, <- app_assoc. apply read_line_fields; [apply tdf_sep| |apply headings_plain].
  unfold tdf_headings. intros Q. apply app_eq_nil in Q as (_ & Q). discriminate Q.
Qed.

(** ** Megabytes *)
Lemma thousandths_nearest size : nearest_thousandth (thousandths size) size.
Proof.
  unfold nearest_thousandth, thousandths. set (a := size * 1000). set (m := 2 ^ 20). set (h := 2 ^ 19).
  assert (M : m = 2 * h) by reflexivity. assert (H0 : 0 < h) by reflexivity.
  pose proof (N.div_mod a m ltac:(lia)) as D. pose proof (N.mod_lt a m ltac:(lia)) as L.
  set (q := a / m) in *. set (r := a mod m) in *.
  replace (2 * size * 1000) with (2 * a) by (unfold a; lia). clearbody q r a m h. clear size.
  destruct ((h <? r) || ((r =? h) && N.odd q)) eqn:C.
  - assert (h <= r). { apply orb_true_iff in C as [C|C]; [apply N.ltb_lt in C; lia|]. apply andb_true_iff in C as (C & _). apply N.eqb_eq in C. lia. }
    split; nia.
  - assert (r <= h). { apply orb_false_iff in C as (C & _). apply N.ltb_ge in C. exact C. }
    split; nia.
Qed.
Lemma mb_megabytes size : megabytes (mb_text size).
Proof.
  unfold megabytes, mb_text. assert (D : forall k, k mod 10 < 10) by (intros k; apply N.mod_lt; lia).
  apply Forall_app. split.
  - unfold number. generalize (S (N.to_nat (N.log2 (thousandths size / 1000)))) as fuel. generalize (thousandths size / 1000) as n.
    intros n fuel. revert n. induction fuel as [|fuel IH]; intros n; [constructor|]. cbn [number_loop].
    destruct (N.ltb_spec n 10) as [L|L].
    + constructor; [|constructor]. unfold digit. destruct (N.ltb_spec n 10); lia.
    + apply Forall_app. split; [apply IH|]. constructor; [|constructor]. unfold digit. pose proof (D n). destruct (N.ltb_spec (n mod 10) 10); lia.
  - change (B ".") with [46]. apply Forall_app. split; [constructor; [lia|constructor]|].
    pose proof (D (thousandths size / 100)). pose proof (D (thousandths size / 10)). pose proof (D (thousandths size)).
    repeat constructor; lia.
Qed.
