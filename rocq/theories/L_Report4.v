(** * Proofs: whole reports. *)
From Verif Require Import Base M_Ints M_Stream M_Id3v1 M_Payload M_Frame M_Tag22 M_Tag23 M_Tag24 M_Charset M_Lookup M_Mp3 M_Track M_Read
  M_Tagset M_Process M_Cmds M_Csv M_Report S_Lookup S_Cmds S_Csv S_Report S_Tdf L_Lookup L_Cmds L_Report L_Report2 L_Report3.
#[local] Open Scope N_scope.

(** ** Over all files *)
Definition visited (args : list rarg) : list rfile := flat_map arg_files args.
Definition done (one : rfile -> bytes * outcome bool) (f : rfile) : bool := match snd (one f) with Ok b => b | _ => false end.

Lemma report_files_all one fs s ok err : report_files one fs = (s, Ok (ok, err)) ->
  s = concat (map (fun f => fst (one f)) fs) /\ Forall (fun f => exists b, snd (one f) = Ok b) fs /\
  ok = N.of_nat (length (filter (done one) fs)) /\ ok + err = N.of_nat (length fs).
Proof.
  revert s ok err. induction fs as [|f r IH]; intros s ok err E; cbn [report_files] in E.
  - injection E as <- <- <-. repeat split; constructor.
  - destruct (one f) as (s1, o) eqn:O. destruct o as [b|e|u|]; try discriminate E.
    destruct (report_files one r) as (s2, [(ok2, err2)|e|u|]) eqn:R; try discriminate E. cbn [bind] in E.
    destruct (IH _ _ _ eq_refl) as (A & C & D & F).
    assert (SS : s = s1 ++ s2) by congruence. assert (OK : (if b then (ok2 + 1, err2) else (ok2, err2 + 1)) = (ok, err)) by congruence.
    clear E IH. cbn [map concat filter length]. unfold done at 1. rewrite O. cbn [fst snd]. rewrite SS, A. split; [reflexivity|].
    split; [constructor; [exists b; rewrite O; reflexivity|exact C]|].
    destruct b; injection OK as <- <-; cbn [length]; lia.
Qed.
Lemma report_args_all one args s ok err : report_args one args = (s, Ok (ok, err)) ->
  s = concat (map (fun f => fst (one f)) (visited args)) /\ Forall (fun f => exists b, snd (one f) = Ok b) (visited args) /\
  ok = N.of_nat (length (filter (done one) (visited args))) /\ ok + err = N.of_nat (length (visited args)) /\ ~ In RMissing args.
Proof.
  revert s ok err. induction args as [|a r IH]; intros s ok err E; cbn [report_args] in E.
  - injection E as <- <- <-. cbn. repeat split; [constructor|tauto].
  - assert (NM : a <> RMissing) by (intros ->; discriminate E).
    assert (E' : match report_files one (arg_files a) with
      | (s, Ok (ok, err)) => let '(s', o) := report_args one r in (s ++ s', let* (ok', err') := o in Ok (ok + ok', err + err'))
      | (s, Throw e) => (s, Throw e) | (s, UB u) => (s, UB u) | (s, NonTerm) => (s, NonTerm) end = (s, Ok (ok, err)))
      by (destruct a; [congruence|exact E|exact E]).
    clear E. destruct (report_files one (arg_files a)) as (s1, [(ok1, err1)|e|u|]) eqn:F; try discriminate E'.
    destruct (report_args one r) as (s2, [(ok2, err2)|e|u|]) eqn:R; try discriminate E'. cbn [bind] in E'.
    apply report_files_all in F as (A1 & A2 & A3 & A4). destruct (IH _ _ _ eq_refl) as (B1 & B2 & B3 & B4 & B5).
    assert (Q1 : s = s1 ++ s2) by congruence. assert (Q2 : ok = ok1 + ok2) by congruence. assert (Q3 : err = err1 + err2) by congruence.
    clear E' IH. unfold visited in *. cbn [flat_map]. rewrite map_app, concat_app, filter_app, !app_length.
    split; [congruence|]. split; [apply Forall_app; auto|]. split; [lia|]. split; [lia|]. intros [Q|Q]; [congruence|contradiction].
Qed.
Lemma filter_le {A} (p : A -> bool) l : (length (filter p l) <= length l)%nat.
Proof. induction l as [|x r IH]; [apply le_n|]. cbn [filter]. destruct (p x); cbn [length]; lia. Qed.
Lemma done_all one fs : length (filter (done one) fs) = length fs -> Forall (fun f => exists b, snd (one f) = Ok b) fs ->
  Forall (fun f => exists s, one f = (s, Ok true)) fs.
Proof.
  induction fs as [|f r IH]; intros L F; [constructor|]. inversion F as [|? ? (b & O) F']; subst. cbn [filter length] in L.
  unfold done at 1 in L. rewrite O in L. pose proof (filter_le (done one) r) as LE. destruct b; [|cbn [length] in L; lia].
  constructor; [|apply IH; [cbn [length] in L; lia|exact F']]. destruct (one f) as (s, o). cbn [snd] in O. subst o. eauto.
Qed.

Lemma report_split k z passes md5 w e no_dir ncomm args s ok err :
  report k z passes md5 w e no_dir ncomm args = (s, Ok (ok, err)) ->
  exists s', report_args (report_file (style_of k) z passes md5 w e no_dir ncomm) args = (s', Ok (ok, err)) /\
    s = header_row (match k with Csv => true | Tdf _ => false end) (st_sep (style_of k)) no_dir ncomm ++ s'.
Proof.
  unfold report. destruct (report_args _ args) as (s', o). intros E. exists s'. split; congruence.
Qed.

(** ** What a failing file leaves *)
Definition ends (sep : N) (s : bytes) : Prop := exists p, s = p ++ [sep].
Lemma ends_app sep p s : ends sep s -> ends sep (p ++ s).
Proof. intros (q & ->). exists (p ++ q). rewrite app_assoc. reflexivity. Qed.
Lemma ends_last sep p : ends sep (p ++ [sep]).
Proof. exists p. reflexivity. Qed.

(** [closed p]: if it does not fail, what it writes ends with the separator;
    [stops p]: if it fails, what it has written is empty or does. *)
Definition closed (sep : N) (p : pr) : Prop := snd p = Ok tt -> ends sep (fst p).
Definition stops (sep : N) (p : pr) : Prop := snd p <> Ok tt -> fst p = [] \/ ends sep (fst p).
Definition nofail (p : pr) : Prop := snd p = Ok tt.

Lemma ok_dec (o : outcome unit) : {o = Ok tt} + {o <> Ok tt}.
Proof. destruct o as [[]|e|u|]; [left; reflexivity|right; discriminate..]. Qed.
Lemma pthen_fail p q : snd p <> Ok tt -> pthen p q = p.
Proof. unfold pthen. destruct (snd p) as [[]|e|u|] eqn:E; [congruence|reflexivity..]. Qed.
Lemma stops_then sep p q : stops sep p -> closed sep p -> stops sep q -> stops sep (pthen p q).
Proof.
  intros S1 C S2 E. destruct (ok_dec (snd p)) as [O|O].
  - rewrite pthen_ok in * by exact O. cbn [fst snd] in *. right. destruct (S2 E) as [->|Q].
    + rewrite app_nil_r. apply C. exact O.
    + apply ends_app. exact Q.
  - rewrite pthen_fail in * by exact O. apply S1. exact O.
Qed.
Lemma stops_nofail sep p q : stops sep p -> nofail q -> stops sep (pthen p q).
Proof.
  intros S1 N2 E. destruct (ok_dec (snd p)) as [O|O].
  - rewrite pthen_ok in * by exact O. cbn [fst snd] in *. contradiction.
  - rewrite pthen_fail in * by exact O. apply S1. exact O.
Qed.
Lemma closed_then sep p q : closed sep q -> closed sep (pthen p q).
Proof.
  intros C E. apply pthen_inv in E as (E1 & E2). rewrite pthen_ok by exact E1. cbn [fst]. apply ends_app. apply C. exact E2.
Qed.
Lemma stops_put sep s : stops sep (put s).
Proof. intros E. destruct E. reflexivity. Qed.
Lemma stops_pput sep o : stops sep (pput o).
Proof. intros E. left. destruct o; [destruct E; reflexivity|reflexivity..]. Qed.
Lemma closed_put sep s : closed sep (put (s ++ [sep])).
Proof. intros _. apply ends_last. Qed.
Lemma nofail_put s : nofail (put s).
Proof. reflexivity. Qed.
Lemma stops_pall {A} sep (f : A -> pr) l : (forall x, In x l -> stops sep (f x) /\ closed sep (f x)) -> stops sep (pall (map f l)).
Proof.
  unfold pall. induction l as [|x r IH]; intros H; [apply stops_put|]. cbn [map fold_right].
  destruct (H x (or_introl eq_refl)). apply stops_then; [assumption|assumption|]. apply IH. intros y Y. apply H. right. exact Y.
Qed.
Lemma closed_pall {A} sep (f : A -> pr) l : l <> [] -> (forall x, In x l -> closed sep (f x)) -> closed sep (pall (map f l)).
Proof.
  unfold pall. induction l as [|x r IH]; intros NE H; [congruence|]. cbn [map fold_right]. destruct r as [|y r].
  - cbn [map fold_right]. intros E. apply pthen_inv in E as (E & _). rewrite pthen_ok by exact E. cbn [fst put]. rewrite app_nil_r. apply H; [left; reflexivity|exact E].
  - apply closed_then. apply IH; [discriminate|]. intros z Z. apply H. right. exact Z.
Qed.

Lemma text_column_stops st w v T id : stops (st_sep st) (text_column st w v T id) /\ closed (st_sep st) (text_column st w v T id).
Proof.
  unfold text_column. split.
  - apply stops_nofail; [|apply nofail_put]. destruct (has_frame T id =? 0); [apply stops_put|apply stops_pput].
  - apply closed_then. apply (closed_put _ []).
Qed.
Lemma count_stops st v T : stops (st_sep st) (count_columns st v T) /\ closed (st_sep st) (count_columns st v T).
Proof.
  unfold count_columns. split.
  - apply stops_then; [apply stops_put|apply closed_put|]. apply stops_nofail; [|apply nofail_put].
    destruct (has_frame T (count_id v) =? 1); [apply stops_pput|]. destruct (1 <? has_frame T (count_id v)); apply stops_put.
  - apply closed_then, closed_then. apply (closed_put _ []).
Qed.
Lemma comments_stops st w v ncomm T : stops (st_sep st) (comments_columns st w v ncomm T).
Proof.
  unfold comments_columns. apply stops_then; [apply stops_put|apply closed_put|].
  destruct (get_comments T) as [cs|e|u|]; try (intros _; left; reflexivity).
  assert (S1 : forall i, stops (st_sep st) (comment_column st w v ncomm cs i)).
  { intros i. unfold comment_column. apply stops_nofail; [|apply nofail_put]. destruct (nth_error cs i); [apply stops_pput|apply stops_put]. }
  assert (G : forall k i, (i + k = ncomm)%nat -> stops (st_sep st) (pall (map (comment_column st w v ncomm cs) (seq i k)))).
  { unfold pall. induction k as [|k IH]; intros i E; [apply stops_put|]. cbn [seq map fold_right]. destruct k as [|k].
    - apply stops_nofail; [apply S1|apply nofail_put].
    - apply stops_then; [apply S1| |apply IH; lia]. unfold comment_column. apply closed_then.
      destruct (Nat.eqb_spec i (ncomm - 1)); [lia|]. apply (closed_put _ []). }
  apply G. lia.
Qed.
Lemma print_tag2_stops st z w ncomm rev t : stops (st_sep st) (print_tag2 st z w ncomm rev t).
Proof.
  unfold print_tag2.
  apply stops_then; [apply stops_put| |].
  { rewrite !app_assoc. apply closed_put. }
  intros E. destruct (any_size z t false) as [(n, t')|e|u|]; cbn [bind pput] in *; try (left; reflexivity).
  revert E. rewrite pthen_ok by reflexivity. cbn [fst snd]. intros E.
  right. apply ends_app.
  match type of E with snd ?p <> _ => assert (S0 : stops (st_sep st) p) end.
  { apply stops_then; [apply stops_put| |].
    { rewrite !app_assoc. apply closed_put. }
    apply stops_then; [apply stops_pall; intros id _; apply text_column_stops| |].
    { apply closed_pall; [destruct (any_version t); discriminate|]. intros id _. apply text_column_stops. }
    apply stops_then; [apply count_stops|apply count_stops|apply comments_stops]. }
  destruct (S0 E) as [Q|Q]; [|exact Q]. exfalso. rewrite put_then in Q. cbn [fst] in Q. discriminate Q.
Qed.
Lemma print_tag1_stops st w e t : stops (st_sep st) (print_tag1 st w e t).
Proof.
  unfold print_tag1. apply stops_then; [apply stops_put| |].
  { rewrite !app_assoc. apply closed_put. }
  apply stops_nofail; [|apply nofail_put]. apply stops_pall. intros x _. unfold v1_column. split.
  - apply stops_nofail; [apply stops_pput|apply nofail_put].
  - apply closed_then. apply (closed_put _ []).
Qed.
Lemma make_entry_stops st z w e no_dir ncomm f v2 tr v1 :
  snd (make_entry st z w e no_dir ncomm f v2 tr v1) <> Ok tt -> ends (st_sep st) (fst (make_entry st z w e no_dir ncomm f v2 tr v1)).
Proof.
  unfold make_entry. rewrite put_then. cbn [fst snd]. intros E.
  match type of E with snd ?p <> _ => assert (S0 : stops (st_sep st) p) end.
  { intros E'. destruct (ok_dec (snd (match v2 with Some (rev, t) => print_tag2 st z w ncomm rev t | None => put (repeat (st_sep st) (14 + ncomm)) end))) as [O|O].
    - rewrite pthen_ok in E' |- * by exact O. cbn [fst snd] in *. right. apply ends_app.
      match type of E' with snd ?p <> _ => assert (S1 : stops (st_sep st) p) end.
      { apply stops_then; [apply stops_put| |].
        { rewrite !app_assoc. apply closed_put. }
        apply stops_nofail; [|apply nofail_put]. destruct v1; [apply print_tag1_stops|apply stops_put]. }
      destruct (S1 E') as [Q|Q]; [|exact Q]. exfalso. rewrite put_then in Q. discriminate Q.
    - rewrite pthen_fail in E' |- * by exact O. destruct v2 as [(rev, t)|]; [apply print_tag2_stops; exact E'|destruct O; reflexivity]. }
  destruct (S0 E) as [Q|Q].
  - rewrite Q, app_nil_r, !app_assoc. apply ends_last.
  - apply ends_app. exact Q.
Qed.
Lemma report_file_stops st z passes md5 w e no_dir ncomm f s :
  report_file st z passes md5 w e no_dir ncomm f = (s, Ok false) ->
  s = [] /\ (exists x, report_read z passes md5 (rf_data f) = Throw x) \/
  ends (st_sep st) s /\ exists r, report_read z passes md5 (rf_data f) = Ok r.
Proof.
  unfold report_file. destruct (report_read z passes md5 (rf_data f)) as [((v2, tr), v1)|e0|u|] eqn:R; intros E; try discriminate E.
  - right. split; [|eauto]. pose proof (make_entry_stops st z w e no_dir ncomm f v2 tr v1) as S0.
    destruct (make_entry st z w e no_dir ncomm f v2 tr v1) as (s', [x|x|u|]); try discriminate E. cbn [fst snd] in S0.
    injection E as <-. apply S0. discriminate.
  - left. injection E as <-. split; [reflexivity|eauto].
Qed.

(** The next row joins it. *)
Lemma read_line_joined sep l rest : sep <> 10 -> ~ In 10 l -> forall r gs rest', read_line sep r = Some (gs, rest') ->
  rest = sep :: r -> exists fs, fs <> [] /\ read_line sep (l ++ rest) = Some (fs ++ gs, rest').
Proof.
  intros NE NI r gs rest' E ->. pose proof (read_line_plain _ _ _ _ E) as (NG & _).
  induction l as [|c l IH].
  - exists [[]]. split; [discriminate|]. cbn [app read_line]. destruct (N.eqb_spec sep 10); [contradiction|].
    rewrite E. destruct gs as [|g gs]; [congruence|]. rewrite N.eqb_refl. reflexivity.
  - destruct IH as (fs & NF & IH); [intros Q; apply NI; right; exact Q|]. cbn [app read_line].
    destruct (N.eqb_spec c 10) as [->|_]; [destruct NI; left; reflexivity|]. cbn [app] in IH. rewrite IH.
    destruct fs as [|f fs]; [congruence|]. cbn [app]. destruct (c =? sep).
    + exists ([] :: f :: fs). split; [discriminate|reflexivity].
    + exists ((c :: f) :: fs). split; [discriminate|reflexivity].
Qed.

(** ** ID3v2.4 counts *)
Lemma frame_id24_len l id : frame_id24 l = Ok (Some id) -> length id = 4%nat.
Proof.
  unfold frame_id24. destruct ((len l <=? 3) && all_zero l); [discriminate|].
  destruct l as [|a [|b [|c [|d r]]]]; try discriminate. destruct (_ && _); [discriminate|]. intros E. apply Ok_inj in E. injection E as <-. reflexivity.
Qed.
Lemma frames24_ids z fuel : forall n ms l fs, frames24 z fuel n ms l = Ok fs -> Forall (fun f => length (f_id f) = 4%nat) fs.
Proof.
  induction fuel as [|fuel IH]; intros n ms l fs E; [discriminate E|]. cbn [frames24] in E.
  destruct l as [|x l]; [apply Ok_inj in E; subst fs; constructor|].
  apply bind_ok in E as (h & H & E). destruct h as [id|]; [|apply Ok_inj in E; subst fs; constructor].
  destruct (len _ <? 11); [discriminate E|]. apply bind_ok in E as (cb & _ & E).
  destruct (n <=? cb); [discriminate E|]. cbv zeta in E. apply bind_ok in E as (((((gid, enc), dli), pread), cbr) & _ & E).
  apply bind_ok in E as (b & PB & E). apply bind_ok in E as (r & FR & E).
  apply Ok_inj in E. subst fs. constructor; [|eapply IH; exact FR]. cbn [f_id]. eapply frame_id24_len. exact H.
Qed.
Lemma read_version_ids24 z passes H s t s' : read_version z passes H s = (Ok t, s') -> any_version t = V24 ->
  Forall (fun f => length (f_id f) = 4%nat) (shown t).
Proof.
  unfold read_version. intros E V.
  destruct (2 =? i_version H); [|destruct (3 =? i_version H); [|destruct (4 =? i_version H); [|discriminate E]]];
  apply sbind_inv in E as (u & s1 & E & Q); apply sret_inv in Q; subst t; try discriminate V; apply parse_stream_inv in E as (buf & E).
  unfold parse_body24 in E. apply bind_ok in E as ((ext, l) & _ & E).
  apply bind_ok in E as ((pad, ms) & _ & E). apply bind_ok in E as (fs & FR & E). apply Ok_inj in E. subst u.
  apply frames24_ids in FR. unfold shown. cbn [any_frames t4_frames]. rewrite map_map. cbn [new_frame c_frame]. rewrite map_id. exact FR.
Qed.
Lemma no_cnt24 z passes md5 data rev t tr v1 : report_read z passes md5 data = Ok (Some (rev, t), tr, v1) -> any_version t = V24 ->
  with_id (B "CNT") (shown t) = [].
Proof.
  unfold report_read. destruct (sbind _ _ _) as (o & s) eqn:E. cbn [fst]. intros -> V.
  apply sbind_inv in E as (h & s1 & _ & E). apply sbind_inv in E as (x & s2 & R & E).
  apply sbind_inv in E as (a & s3 & _ & E). apply sbind_inv in E as (b & s4 & _ & E). apply sret_inv in E.
  assert (X : x = Some (rev, t)) by congruence. subst x.
  destruct h as [H|]; [|apply sret_inv in R; discriminate R].
  apply sbind_inv in R as (u & s5 & R & Q). apply sret_inv in Q. assert (u = t) by congruence. subst u.
  pose proof (read_version_ids24 _ _ _ _ _ _ R V) as F. unfold with_id.
  clear -F. induction F as [|f r L F IH]; [reflexivity|]. cbn [filter]. destruct (bytes_eqb_spec (f_id f) (B "CNT")) as [Q|_]; [rewrite Q in L; discriminate L|exact IH].
Qed.
Lemma never_reported st z passes md5 w e no_dir ncomm f rev t tr v1 :
  report_read z passes md5 (rf_data f) = Ok (Some (rev, t), tr, v1) -> any_version t = V24 ->
  length (with_id (B "PCNT") (shown t)) = 1%nat ->
  forall s, report_file st z passes md5 w e no_dir ncomm f <> (s, Ok true).
Proof.
  intros R V L s E. assert (F : fresh t) by (eapply report_read_fresh; [exact R|reflexivity]).
  unfold report_file in E. rewrite R in E.
  destruct (make_entry st z w e no_dir ncomm f (Some (rev, t)) tr v1) as (s', o) eqn:M.
  assert (O : snd (make_entry st z w e no_dir ncomm f (Some (rev, t)) tr v1) = Ok tt).
  { rewrite M. cbn [snd]. destruct o as [[]|e0|u|]; [reflexivity|discriminate E..]. }
  unfold make_entry in O. apply pthen_inv in O as (_ & O). apply pthen_inv in O as (O & _).
  unfold print_tag2 in O. apply pthen_inv in O as (_ & O). apply pthen_inv in O as (_ & O). apply pthen_inv in O as (_ & O).
  apply pthen_inv in O as (_ & O). apply pthen_inv in O as (O & _).
  unfold count_columns in O. apply pthen_inv in O as (_ & O). apply pthen_inv in O as (O & _).
  rewrite has_frame_fresh in O by exact F. rewrite V in O. cbn [count_id] in O. rewrite L in O. cbn [N.of_nat Pos.of_succ_nat N.eqb Pos.eqb] in O.
  apply pput_ok in O as (x & O). apply bind_ok in O as (k & O & _). unfold plays_text in O. apply bind_ok in O as (b & O & _).
  rewrite (play_count_v24 t F V) in O; [discriminate O|]. eapply no_cnt24; eassumption.
Qed.

(** ** ID3v2.2 years *)
Lemma year22 ic t x : fresh t -> any_version t = V22 -> tag_says ic V22 (shown t) (B "TYR") x -> x = None \/ x = Some (B "TYR").
Proof.
  intros (_ & P & _) V. unfold tag_says. destruct (with_id (B "TYR") (shown t)) as [|f0 l] eqn:W; [auto|].
  intros (f & s & I & S1 & ->). right. rewrite <- W in I. unfold with_id in I. apply filter_In in I as (I & ID).
  rewrite Forall_forall in P. specialize (P f I). destruct (bytes_eqb_spec (f_id f) (B "TYR")) as [Q|_]; [|discriminate ID].
  unfold parsed_frame in P. rewrite V, Q in P. destruct S1 as [(u & BT & _)|(b & _ & ->)]; [|rewrite Q; reflexivity].
  rewrite BT in P. discriminate P.
Qed.
Lemma year22_answers z ic ncomm rev t V : fresh t -> any_version t = V22 -> answers z ic ncomm rev t V ->
  nth 5 (tv_texts V) None = None \/ nth 5 (tv_texts V) None = Some (B "TYR").
Proof.
  intros F VV (_ & _ & _ & _ & _ & T & _). rewrite VV in T. cbn [asked map] in T.
  repeat match goal with H : Forall2 _ (_ :: _) _ |- _ => inversion H; clear H; subst end.
  cbn [nth]. eapply year22; eassumption.
Qed.
Lemma both_length {A C} (R : A -> C -> Prop) l l' : Forall2 R l l' -> length l = length l'.
Proof. induction 1; cbn [length]; congruence. Qed.
Lemma answers_seven z ic ncomm rev t V : answers z ic ncomm rev t V -> length (tv_texts V) = 7%nat /\ (length (tv_comments V) <= ncomm)%nat.
Proof.
  intros (_ & _ & _ & _ & _ & T & _ & _ & _ & C). split.
  - apply both_length in T. rewrite <- T. destruct (any_version t); reflexivity.
  - apply both_length in C. rewrite <- C, firstn_length. lia.
Qed.
