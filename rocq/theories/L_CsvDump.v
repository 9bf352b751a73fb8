(** * Proofs about the dump command in CSV. *)
From Verif Require Import Base M_Ints M_Stream M_Id3v1 M_Payload M_Frame M_Tag22 M_Tag23 M_Tag24 M_Charset M_Lookup M_Mp3 M_Track M_Read
  M_Tagset M_Process M_Cmds M_Csv M_Report M_Dump M_CsvDump S_Ints S_Lookup S_Cmds S_Csv S_Report S_Tdf S_Lang S_Read S_Dump S_CsvDump
  L_Cmds L_Csv L_Csv2 L_Report L_Report2 L_Report4 L_Dump.
#[local] Open Scope N_scope.

Lemma esc_hex l : Forall hexdigit l -> escape comma quote l = l.
Proof.
  intros H. apply escape_plain; intros I1; apply (proj1 (Forall_forall _ _) H) in I1; unfold hexdigit, comma, lf in I1; clear - I1; lia.
Qed.
Lemma esc_number base n : 2 <= base -> base <= 16 -> escape comma quote (number base n) = number base n.
Proof. intros. apply esc_hex. now apply number_hex. Qed.
Lemma esc_nil : escape comma quote [] = [].
Proof. reflexivity. Qed.
Lemma esc_flags n : escape comma quote (B "0x" ++ width2 (number 16 n)) = B "0x" ++ width2 (number 16 n).
Proof.
  assert (H : Forall hexdigit (width2 (number 16 n))) by (apply width2_hex, number_hex; discriminate).
  apply escape_plain; intros I1; apply in_app_or in I1 as [I1|I1]; try (destruct I1 as [I1|[I1|[]]]; discriminate I1);
    apply (proj1 (Forall_forall _ _) H) in I1; unfold hexdigit, comma, lf in I1; clear - I1; lia.
Qed.
Lemma tag_text ncomm V : gtag csv_style ncomm V = row_text (tag_fields ncomm V).
Proof.
  transitivity (pprint_v2_tag comma ncomm V); [reflexivity|]. rewrite pprint_forms. unfold row_text, tag_fields.
  assert (E : map (escape comma quote) ([number 10 (tv_version V); number 10 (tv_revision V); number 10 (tv_size V);
   B "0x" ++ width2 (number 16 (tv_flags V)); number 16 (optional_to_uint (tv_unsync V))] ++ map text_field (tv_texts V) ++
  [number 16 (tv_pcnt V); plays_field V; number 16 (tv_ncomm V)]) = tag_forms comma V).
  { unfold tag_forms. rewrite !map_app. cbn [map]. rewrite !esc_number by discriminate. rewrite esc_flags. f_equal. f_equal.
    - rewrite map_map. apply map_ext. intros [t|]; reflexivity.
    - f_equal. f_equal. unfold plays_field. destruct (tv_pcnt V =? 1); [now apply esc_number|]. destruct (1 <? tv_pcnt V); reflexivity. }
  rewrite !app_assoc, map_app. rewrite <- !app_assoc, E.
  rewrite separated_app.
  - f_equal. unfold comment_fields, comment_forms. destruct ncomm as [|n]; [reflexivity|]. f_equal. rewrite map_map. apply map_ext. intros i.
    destruct (nth_error (tv_comments V) i) as [s|] eqn:N1; [now rewrite (nth_error_nth _ _ _ N1)|]. rewrite nth_overflow by now apply nth_error_None. reflexivity.
  - unfold comment_fields. destruct ncomm; discriminate.
Qed.
Lemma v1_text W : gv1 csv_style W = row_text (v1_fields (Some W)).
Proof.
  unfold gv1, row_text, v1_fields. cbn [map M_Csv.separated csv_style st_sep st_esc]. rewrite !esc_number by discriminate. now rewrite <- ?app_assoc.
Qed.
Lemma md5_esc sum : escape comma quote (flat_map (fun x => width2 (number 16 x)) sum) = flat_map (fun x => width2 (number 16 x)) sum.
Proof. apply esc_hex, md5_hex. Qed.
Lemma track_text size sum : pprint_track_data comma size sum = row_text [number 10 size; flat_map (fun x => width2 (number 16 x)) sum].
Proof. unfold row_text. cbn [map M_Csv.separated]. rewrite md5_esc, esc_number by discriminate. reflexivity. Qed.

(** ** What is printed for a file *)
Lemma tags_text z w ncomm (ps : list (N * anytag)) : Forall (fun p => fresh (snd p)) ps -> forall s,
  pall (map (fun rt => print_tag2 csv_style z w ncomm (fst rt) (snd rt)) ps) = (s, Ok tt) ->
  exists Vs, Forall2 (fun p V => answers z (w_ic w) ncomm (fst p) (snd p) V) ps Vs /\ s = flat_map row_text (map (tag_fields ncomm) Vs).
Proof.
  intros F s E. apply pall_ok_inv in E as (ss & G & ->). induction G as [|(rev, t) b ps ss E G IH]; [exists []; split; [constructor|reflexivity]|].
  inversion F as [|? ? F1 F2]; subst. destruct (IH F2) as (Vs & A & E2). cbn [fst snd] in *.
  destruct (print_tag2_told csv_style z w ncomm rev t F1) as (V & AV & EV); [now rewrite E|]. exists (V :: Vs). split; [constructor; assumption|].
  cbn [concat map flat_map]. rewrite E2. f_equal. rewrite E in EV. injection EV as ->. apply tag_text.
Qed.
Lemma combine_fresh {A B} (Q : B -> Prop) (g : A -> N) : forall (l : list A) (ts : list B), Forall Q ts ->
  Forall (fun p => Q (snd p)) (map (fun ht => (g (fst ht), snd ht)) (combine l ts)).
Proof. induction l as [|a l IH]; intros [|b ts] F; try (constructor; fail). cbn [combine map]. inversion F; subst. constructor; [assumption|]. now apply IH. Qed.
Lemma F2_map_l {A B C} (Q : B -> C -> Prop) (g : A -> B) l cs : Forall2 Q (map g l) cs <-> Forall2 (fun a c => Q (g a) c) l cs.
Proof.
  split; intros H.
  - remember (map g l) as m eqn:E. revert l E. induction H as [|b c m cs H _ IH]; intros [|a l] E; try discriminate E; [constructor|]. injection E as -> ->. constructor; auto.
  - induction H; constructor; auto.
Qed.
Lemma csv_file_told e z passes md5 w ncomm p f s : dump_csv_file e z passes md5 w ncomm p f = (s, Ok true) ->
  exists Vs size sum W, views e z passes md5 (w_ic w) ncomm (p_v2 (all_parts p)) (p_v1 (all_parts p)) (df_data f) Vs size sum W /\
    s = heading f ++ flat_map row_text (row_parts ncomm (p_track (all_parts p)) Vs size sum W) ++ [10].
Proof.
  unfold dump_csv_file. destruct (dump_read z passes md5 (df_data f)) as [((rts, tr), v1)|x|u|] eqn:R; try discriminate.
  destruct (dump_csv_parts e z w ncomm (all_parts p) f rts tr v1) as (s0, o) eqn:D. intros E.
  assert (Q : o = Ok tt /\ s0 = s) by (destruct o as [[]|x|u|]; inversion E; auto). destruct Q as (-> & ->). clear E.
  apply dump_read_inv in R as (l & ts & T & FR & -> & TR & V1). unfold dump_csv_parts in D.
  apply pthen_ok_inv in D as (s1 & r1 & D1 & D & ->). apply put_inv in D1. subst s1.
  apply pthen_ok_inv in D as (s2 & r2 & D2 & D & ->). apply pthen_ok_inv in D as (s3 & r3 & D3 & D & ->). apply pthen_ok_inv in D as (s4 & s5 & D4 & D5 & ->).
  apply put_inv in D5. subst s5.
  assert (Q2 : exists Vs, (if p_v2 (all_parts p) then Forall2 (fun ht V => answers z (w_ic w) ncomm (hd_rev (fst ht)) (snd ht) V) (combine l ts) Vs else Vs = []) /\
                          s2 = flat_map row_text (map (tag_fields ncomm) Vs)).
  { destruct (p_v2 (all_parts p)).
    - apply tags_text in D2 as (Vs & A & ->); [|now apply combine_fresh]. exists Vs. split; [|reflexivity]. apply F2_map_l in A. exact A.
    - apply put_inv in D2. subst s2. exists []. split; reflexivity. }
  assert (Q3 : s3 = flat_map row_text (if p_track (all_parts p) then [[number 10 (tr_size tr); flat_map (fun x => width2 (number 16 x)) (tr_md5 tr)]] else [])).
  { destruct (p_track (all_parts p)); apply put_inv in D3; subst s3; [|reflexivity]. cbn [flat_map]. rewrite app_nil_r. apply track_text. }
  assert (Q4 : exists W, (if p_v1 (all_parts p) then optionally (answers_v1 (w_ic w) e) v1 W else W = None) /\
                         s4 = flat_map row_text (match W with Some W => [v1_fields (Some W)] | None => [] end)).
  { destruct v1 as [t|].
    - destruct (p_v1 (all_parts p)).
      + destruct (print_tag1_told csv_style w e t) as (W & A & E); [now rewrite D4|]. exists (Some W). split; [exact A|]. rewrite D4 in E. injection E as ->.
        cbn [flat_map]. rewrite app_nil_r. apply v1_text.
      + apply put_inv in D4. subst s4. exists None. split; reflexivity.
    - apply put_inv in D4. subst s4. exists None. split; [destruct (p_v1 (all_parts p)); exact eq_refl || exact Logic.I|reflexivity]. }
  destruct Q2 as (Vs & A2 & ->), Q4 as (W & A4 & ->). subst s3. exists Vs, (tr_size tr), (tr_md5 tr), W. split.
  - exists l, ts, v1. repeat split; assumption || apply T || apply TR || idtac.
  - unfold row_parts, heading. rewrite !flat_map_app, <- !app_assoc. reflexivity.
Qed.

(** ** Reading it *)
Definition numbered (p : list bytes) : Prop := exists f r, p = f :: r /\ f <> [] /\ Forall hexdigit f.
Lemma parts_numbered ncomm track Vs size sum W : Forall numbered (row_parts ncomm track Vs size sum W).
Proof.
  assert (NN : forall base n, 2 <= base -> base <= 16 -> number base n <> [] /\ Forall hexdigit (number base n)).
  { intros base n H1 H2. split; [|now apply number_hex]. unfold number. destruct (N.to_nat (N.log2 n)); apply number_loop_not_nil. }
  unfold row_parts. rewrite !Forall_app. split; [|split].
  - apply Forall_forall. intros x I1. apply in_map_iff in I1 as (V & <- & _). unfold tag_fields. eexists. eexists. split; [reflexivity|]. apply NN; discriminate.
  - destruct track; [|constructor]. constructor; [|constructor]. eexists. eexists. split; [reflexivity|]. apply NN; discriminate.
  - destruct W as [W|]; [|constructor]. constructor; [|constructor]. eexists. eexists. split; [reflexivity|]. apply NN; discriminate.
Qed.
Lemma joined_plain lax last x d : plain_field lax comma false x -> d <> [] -> Forall hexdigit d -> plain_field lax comma last (x ++ d).
Proof.
  intros (A & C & D) NE H. assert (HD : forall c, In c d -> hexdigit c) by now apply Forall_forall.
  assert (N1 : forall c, c = comma \/ c = lf \/ c = dquote \/ c = cr -> ~ In c d).
  { intros c HC I1. apply HD in I1. unfold hexdigit, comma, lf, dquote, cr in *. clear - HC I1. lia. }
  split; [intros I1; apply in_app_or in I1 as [I1|I1]; [auto|exact (N1 _ (or_introl eq_refl) I1)]|].
  split; [intros I1; apply in_app_or in I1 as [I1|I1]; [auto|exact (N1 lf (or_intror (or_introl eq_refl)) I1)]|].
  destruct lax.
  - split.
    + destruct x as [|c x]; [|exact (proj1 D)]. destruct d as [|c d]; [congruence|]. cbn [app hd_error]. intros Q. injection Q as ->.
      exact (N1 dquote (or_intror (or_intror (or_introl eq_refl))) (or_introl eq_refl)).
    + intros _ g E. destruct (exists_last NE) as (d' & c & ->). rewrite app_assoc in E. apply app_inj_tail in E as (_ & ->).
      apply (N1 cr); [right; right; now right|]. apply in_or_app. right. now left.
  - split; intros I1; apply in_app_or in I1 as [I1|I1]; try (now apply D).
    + exact (N1 dquote (or_intror (or_intror (or_introl eq_refl))) I1).
    + apply (N1 cr); [right; right; now right|exact I1].
Qed.
Lemma readable_row_app lax fs g gs : Forall (readable_field lax comma false) fs -> readable_row lax comma (g :: gs) -> readable_row lax comma (fs ++ g :: gs).
Proof.
  intros F R. induction F as [|f fs H F IH]; [exact R|]. cbn [app]. destruct (fs ++ g :: gs) as [|h t] eqn:E; [destruct fs; discriminate E|].
  split; assumption.
Qed.
Lemma text_app fs g gs : row_text (fs ++ g :: gs) = flat_map (fun f => escape comma quote f ++ [comma]) fs ++ row_text (g :: gs).
Proof. unfold row_text. rewrite map_app, separated_app by discriminate. now rewrite flat_map_map. Qed.
Lemma text_head x g gs : escape comma quote (x ++ g) = x ++ g -> escape comma quote x = x -> escape comma quote g = g ->
  row_text ((x ++ g) :: gs) = row_text [x] ++ row_text (g :: gs).
Proof.
  intros E1 E2 E3. unfold row_text. cbn [map M_Csv.separated]. rewrite E1, E2, E3. destruct (map (escape comma quote) gs); [reflexivity|]. now rewrite <- app_assoc.
Qed.
Lemma plain_esc lax last x : plain_field lax comma last x -> escape comma quote x = x.
Proof. intros (A & C & _). now apply escape_plain. Qed.
Lemma readable_head lax g h gs : plain_field lax comma false g \/ readable_field lax comma false g -> (forall last, readable_field lax comma last h) ->
  readable_row lax comma (g :: gs) -> readable_row lax comma (h :: gs).
Proof. intros _ H R. destruct gs as [|x gs]; [apply H|]. split; [apply H|exact (proj2 R)]. Qed.
Lemma together_clean lax ps : ps <> [] -> Forall numbered ps -> clean lax ps ->
  exists g gs, run_together ps = g :: gs /\ g <> [] /\ Forall hexdigit g /\ readable_row lax comma (g :: gs) /\ row_text (g :: gs) = flat_map row_text ps.
Proof.
  induction ps as [|p ps IH]; intros NE F C; [congruence|]. inversion F as [|? ? (d & r & -> & ND & HD) F2]; subst.
  destruct ps as [|q ps].
  - exists d, r. split; [reflexivity|]. split; [exact ND|]. split; [exact HD|]. split; [exact C|symmetry; apply app_nil_r].
  - destruct C as (C1 & C2 & C3). destruct IH as (g & gs & E & NG & HG & R & T); [discriminate|exact F2|exact C3|].
    change (run_together ((d :: r) :: q :: ps)) with (match run_together (q :: ps) with [] => d :: r | f :: fs => removelast (d :: r) ++ (last (d :: r) [] ++ f) :: fs end).
    rewrite E. set (x := last (d :: r) []) in *.
    assert (P : forall last, plain_field lax comma last (x ++ g)) by (intros last; now apply joined_plain).
    assert (RR : readable_row lax comma ((x ++ g) :: gs)).
    { destruct gs as [|y gs]; [right; right; apply P|]. split; [right; right; apply P|exact (proj2 R)]. }
    assert (TT : row_text ((d :: r)) ++ row_text (g :: gs) = row_text (removelast (d :: r) ++ (x ++ g) :: gs)).
    { assert (DR : d :: r = removelast (d :: r) ++ [x]) by (apply app_removelast_last; discriminate). rewrite DR at 1. rewrite !text_app, <- app_assoc. f_equal.
      symmetry. apply text_head; [exact (plain_esc _ _ _ (P false))|exact (plain_esc _ _ _ C2)|now apply esc_hex]. }
    assert (RA : readable_row lax comma (removelast (d :: r) ++ (x ++ g) :: gs)) by now apply readable_row_app.
    cbn [flat_map] in T |- *. rewrite <- T, TT. destruct r as [|y r].
    + cbn [removelast app] in *. exists (x ++ g), gs. split; [reflexivity|]. split; [intros Q; apply app_eq_nil in Q; tauto|]. split; [apply Forall_app; auto|]. split; [exact RA|reflexivity].
    + change (removelast (d :: y :: r)) with (d :: removelast (y :: r)) in *. cbn [app] in *. exists d. eexists. split; [reflexivity|]. split; [exact ND|]. split; [exact HD|]. split; [exact RA|reflexivity].
Qed.
Lemma csv_read_back lax ps rest : ps <> [] -> Forall numbered ps -> clean lax ps ->
  read_record lax comma (flat_map row_text ps ++ [10] ++ rest) = Some (run_together ps, rest).
Proof.
  intros NE F C. destruct (together_clean lax ps NE F C) as (g & gs & E & _ & _ & R & T). rewrite <- T, E.
  apply (row_exact lax comma (g :: gs) rest); [repeat split; discriminate|discriminate|exact R].
Qed.
Lemma together_length ps : Forall (fun p => p <> []) ps -> (List.length (run_together ps) + (List.length ps - 1) = List.length (concat ps))%nat.
Proof.
  induction ps as [|p ps IH]; intros F; [reflexivity|]. inversion F as [|? ? NE F2]; subst. destruct ps as [|q ps]; [cbn [run_together concat List.length]; rewrite app_nil_r; clear; lia|].
  specialize (IH F2). cbn [concat] in IH. change (run_together (p :: q :: ps)) with (match run_together (q :: ps) with [] => p | f :: fs => removelast p ++ (last p [] ++ f) :: fs end).
  cbn [concat]. rewrite app_length. destruct (run_together (q :: ps)) as [|f fs].
  - exfalso. inversion F2 as [|? ? NQ _]; subst. destruct q as [|q1 q]; [congruence|]. cbn [List.length app] in IH. rewrite app_length in IH. clear - IH F2.
    assert (L : (List.length ps <= List.length (concat ps))%nat).
    { inversion F2 as [|? ? _ F3]; subst. clear - F3. induction F3 as [|p ps H _ IH]; [reflexivity|]. cbn [concat List.length]. rewrite app_length. destruct p; [congruence|]. cbn [List.length]. lia. }
    lia.
  - rewrite app_length. cbn [List.length] in *. assert (L : (List.length p = List.length (removelast p) + 1)%nat).
    { rewrite (app_removelast_last [] NE) at 1. rewrite app_length. reflexivity. }
    rewrite app_length in IH |- *. clear - IH L. lia.
Qed.

(** The heading is no CSV. *)
Lemma heading_none lax f rest : path_fine (df_path f) -> read_record lax comma (heading f ++ rest) = None.
Proof.
  intros P. unfold heading. rewrite quoted_fine by exact P. rewrite <- !app_assoc. unfold read_record. cbn [app csv_read]. change (quote =? dquote) with true. cbn iota.
  rewrite quotes_run. reflexivity.
Qed.
