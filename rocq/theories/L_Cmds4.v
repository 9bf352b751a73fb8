(** * Proofs: commands without state, on tagsets and files. *)
From Verif Require Import Base M_Ints M_Stream M_Id3v1 M_Payload M_Frame M_Tag22 M_Tag23 M_Tag24 M_Charset M_TextId M_Lookup M_Read S_Read M_Fs M_Tagset
  M_Process M_Cmds S_Tag23 S_Tagset S_Process S_Cmds L_Process.

Lemma tags_logged P v2 : forall i tags ts d s, process_tags P i tags v2 tt = Ok (ts, d, s) ->
  forall log, exists log', process_tags (logged (command_of P)) i tags v2 log = Ok (ts, d, log').
Proof.
  induction v2 as [|t r IH]; intros i tags ts d s E log; cbn [process_tags] in *.
  - apply Ok_inj in E. assert (ts = [] /\ d = false) as (-> & ->) by (split; congruence). eauto.
  - destruct tags as [|x rest]; [discriminate E|]. destruct (x =? i).
    + apply bind_ok in E as (((u, t'), s1) & E1 & E). apply bind_ok in E as (((r', d'), s2) & E2 & E). destruct s1, s2.
      cbn [logged process_v2 command_of does_v2 bind]. rewrite E1. cbn [bind].
      destruct (IH _ _ _ _ _ E2 (log ++ [ProcessV2 t])) as (log' & ->). cbn [bind].
      apply Ok_inj in E. exists log'. congruence.
    + apply bind_ok in E as (((r', d'), s2) & E2 & E). destruct s2.
      destruct (IH _ _ _ _ _ E2 log) as (log' & ->). cbn [bind]. apply Ok_inj in E. exists log'. congruence.
Qed.

Lemma tagset_logged P p v2 v1 d v2' v1' s : process_tagset P p v2 v1 tt = Ok (d, v2', v1', s) ->
  exists log, process_tagset (logged (command_of P)) p v2 v1 [] = Ok (d, v2', v1', log).
Proof.
  unfold process_tagset. intros E. apply bind_ok in E as ((((a2, pn), d1), s1) & E1 & E). destruct s1.
  apply bind_ok in E as (((a1, d2), s2) & E2 & E). destruct s2, s.
  assert (A : exists log, match v2 with
    | [] => match v1, p_v2_creation p with
        | Some t, V2WhenV1Present | Some t, V2Always => let* (q, s1) := create_v2_from (logged (command_of P)) [] t in Ok ([], q, true, s1)
        | None, V2Always => let* (q, s1) := create_v2 (logged (command_of P)) [] in Ok ([], q, true, s1)
        | _, _ => Ok ([], None, false, [])
        end
    | _ => match p_v2_scope p with
        | TagsNone => Ok (v2, None, false, [])
        | TagsAll => let* (v2', d, s1) := process_tags (logged (command_of P)) 0 (iota (List.length v2) 0) v2 [] in Ok (v2', None, d, s1)
        | TagsSome idx => let* (v2', d, s1) := process_tags (logged (command_of P)) 0 idx v2 [] in Ok (v2', None, d, s1)
        end
    end = Ok (a2, pn, d1, log)).
  { destruct v2 as [|t0 r0].
    - destruct v1 as [t|], (p_v2_creation p); try (apply Ok_inj in E1; exists []; congruence);
        (apply bind_ok in E1 as ((q, s1) & C & E1); destruct s1; cbn [logged create_v2_from create_v2 command_of makes_v2_from makes_v2 bind];
         rewrite C; cbn [bind]; apply Ok_inj in E1; eexists; assert (pn = q) as -> by congruence; assert (d1 = true) as -> by congruence;
         assert (a2 = []) as -> by congruence; reflexivity).
    - destruct (p_v2_scope p).
      + apply bind_ok in E1 as (((l, dd), s1) & C & E1). destruct (tags_logged P _ _ _ _ _ _ C []) as (log & ->). cbn [bind].
        apply Ok_inj in E1. exists log. congruence.
      + apply Ok_inj in E1. exists []. congruence.
      + apply bind_ok in E1 as (((l, dd), s1) & C & E1). destruct (tags_logged P _ _ _ _ _ _ C []) as (log & ->). cbn [bind].
        apply Ok_inj in E1. exists log. congruence. }
  destruct A as (log & ->). cbn [bind].
  assert (A : exists log', match v1 with
    | None => match a2, p_v1_creation p with
        | _ :: _, V1WhenV2Present | _ :: _, V1Always => let* (q, s2) := create_v1_from (logged (command_of P)) log a2 in Ok (q, true, s2)
        | [], V1Always => let* (q, s2) := create_v1 (logged (command_of P)) log in Ok (q, true, s2)
        | _, _ => Ok (None, false, log)
        end
    | Some t => if p_v1_scope p then let* (d, t', s2) := process_v1 (logged (command_of P)) log t in Ok (Some t', d, s2)
        else Ok (Some t, false, log)
    end = Ok (a1, d2, log')).
  { destruct v1 as [t|].
    - destruct (p_v1_scope p).
      + apply bind_ok in E2 as (((dd, t'), s2) & C & E2). destruct s2. cbn [logged process_v1 command_of does_v1 bind]. rewrite C. cbn [bind].
        apply Ok_inj in E2. eexists. assert (a1 = Some t') as -> by congruence. assert (d2 = dd) as -> by congruence. reflexivity.
      + apply Ok_inj in E2. exists log. congruence.
    - destruct a2 as [|t0 r0], (p_v1_creation p); try (apply Ok_inj in E2; exists log; congruence);
        (apply bind_ok in E2 as ((q, s2) & C & E2); destruct s2; cbn [logged create_v1_from create_v1 command_of makes_v1_from makes_v1 bind];
         rewrite C; cbn [bind]; apply Ok_inj in E2; eexists; assert (a1 = q) as -> by congruence; assert (d2 = true) as -> by congruence; reflexivity). }
  destruct A as (log' & ->). cbn [bind]. exists log'. apply Ok_inj in E. congruence.
Qed.

(** ** Files *)
Lemma file_of_tagset {S} z passes e (P : processor S) p path s fs data v2 v1 :
  find_node (resolve (e_cwd e) path) fs = Some (File data) -> read_tagset z passes data = Ok (v2, v1) ->
  (forall d v2' v1' s', process_tagset P p v2 v1 s = Ok (d, v2', v1', s') ->
     process_file z passes e P p path s fs = (run _ <- write_tagset z e p d v2' v1' path;; fret s') fs) /\
  (forall err, process_tagset P p v2 v1 s = Throw err -> process_file z passes e P p path s fs = ([], (Throw err, fs))) /\
  (forall u, process_tagset P p v2 v1 s = UB u -> process_file z passes e P p path s fs = ([], (UB u, fs))).
Proof.
  intros Hk HR. unfold process_file. rewrite Hk. unfold fbind at 1 5 9. unfold flift at 1 3 5. rewrite HR.
  split; [|split]; intros; unfold fbind at 1; unfold flift at 1; rewrite H; cbn [app]; try reflexivity.
  destruct ((run _ <- _;; fret _) fs) as [l r] eqn:E. reflexivity.
Qed.

Lemma file_logged z passes e P p path fs data v2 v1 d v2' v1' st fs' :
  find_node (resolve (e_cwd e) path) fs = Some (File data) -> read_tagset z passes data = Ok (v2, v1) ->
  process_tagset P p v2 v1 tt = Ok (d, v2', v1', tt) ->
  process_file z passes e P p path tt fs = (st, (Ok tt, fs')) ->
  exists log, process_file z passes e (logged (command_of P)) p path [] fs = (st, (Ok log, fs')).
Proof.
  intros Hk HR HT HF. destruct (tagset_logged P p v2 v1 d v2' v1' tt HT) as (log & HL). exists log.
  destruct (file_of_tagset z passes e P p path tt fs data v2 v1 Hk HR) as (A & _). rewrite (A _ _ _ _ HT) in HF.
  destruct (file_of_tagset z passes e (logged (command_of P)) p path [] fs data v2 v1 Hk HR) as (C & _). rewrite (C _ _ _ _ HL).
  unfold fbind in *. destruct (write_tagset z e p d v2' v1' path fs) as [l [[a|x|u|] f]]; try discriminate HF.
  unfold fret in *. congruence.
Qed.

Lemma file_saved z passes e P p path d n fs data l v2 v1 v2' v1' st fs' : let k := resolve (e_cwd e) path in
  path <> [] -> hd 0 (e_cwd e) = 47 -> dir_path d -> plain_name n ->
  absolute (e_cwd e) path = spelled d n -> find_node k fs = Some (File data) -> tags_from data 0 l ->
  ~ In 46 (last (e_tmp e) []) -> e_tmp e <> k ->
  read_tagset z passes data = Ok (v2, v1) -> scope_fits p v2 -> p_dry p = false -> p_backups p = true ->
  process_tagset P p v2 v1 tt = Ok (true, v2', v1', tt) ->
  process_file z passes e P p path tt fs = (st, (Ok tt, fs')) ->
  (exists w r f, emit_all z (if p_adjust p then AsNeeded else Never) v2' = (w, Ok r) /\
     saved w (dropN (tags_end 0 l) data) v1' f /\ find_node k fs' = Some (File f)) /\
  forall j, j <> k -> j <> e_tmp e -> ~ is_backup d n j -> find_node j fs' = find_node j fs.
Proof.
  intros k NP CW DP PN AB Hk TF NT NK HR SF DR BK HT HF.
  destruct (tagset_logged P p v2 v1 true v2' v1' tt HT) as (log0 & HL). rewrite (process_tagset_eq _ _ _ _ SF) in HL. apply Ok_inj in HL.
  assert (E1 : is_dirty (command_of P) p v2 v1 = true) by congruence.
  assert (E2 : new_v2 (command_of P) p v2 v1 = v2') by congruence.
  assert (E3 : new_v1 (command_of P) p v2 v1 = v1') by congruence.
  destruct (file_logged z passes e P p path fs data v2 v1 true v2' v1' st fs' Hk HR HT HF) as (log & HF').
  destruct (process_saved_backup z passes e (command_of P) p path d n fs data l NP CW DP PN AB Hk TF NT NK v2 v1 HR SF E1 DR st log fs' BK HF') as (_ & A & C).
  rewrite E2, E3 in A. auto.
Qed.
