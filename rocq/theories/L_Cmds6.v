(** * Proofs: commands without state call by call. *)
From Verif Require Import Base M_Ints M_Stream M_Id3v1 M_Payload M_Frame M_Tag22 M_Tag23 M_Tag24 M_Charset M_TextId M_Lookup M_Read S_Read M_Fs M_Tagset
  M_Process M_Cmds S_Tag23 S_Tagset S_Process S_Cmds L_Process L_Cmds4.

Lemma tags_calls P v2 : forall i tags ts d s, process_tags P i tags v2 tt = Ok (ts, d, s) ->
  forall log, exists log', process_tags (logged (command_of P)) i tags v2 log = Ok (ts, d, log ++ log') /\ Forall (succeeds P) log'.
Proof.
  induction v2 as [|t r IH]; intros i tags ts d s E log; cbn [process_tags] in *.
  - apply Ok_inj in E. assert (ts = [] /\ d = false) as (-> & ->) by (split; congruence). exists []. rewrite app_nil_r. auto.
  - destruct tags as [|x rest]; [discriminate E|]. destruct (x =? i).
    + apply bind_ok in E as (((u, t'), s1) & E1 & E). apply bind_ok in E as (((r', d'), s2) & E2 & E). destruct s1, s2.
      cbn [logged process_v2 command_of does_v2 bind]. rewrite E1. cbn [bind].
      destruct (IH _ _ _ _ _ E2 (log ++ [ProcessV2 t])) as (log' & -> & F). cbn [bind].
      apply Ok_inj in E. exists (ProcessV2 t :: log'). rewrite <- app_assoc. cbn [app].
      split; [congruence|]. constructor; [cbn; eauto|exact F].
    + apply bind_ok in E as (((r', d'), s2) & E2 & E). destruct s2.
      destruct (IH _ _ _ _ _ E2 log) as (log' & -> & F). cbn [bind]. apply Ok_inj in E. exists log'. split; [congruence|exact F].
Qed.

Lemma logged_grows P v2 : forall i tags ts d log log', process_tags (logged P) i tags v2 log = Ok (ts, d, log') ->
  exists more, log' = log ++ more.
Proof.
  induction v2 as [|t r IH]; intros i tags ts d log log' E; cbn [process_tags] in E.
  - exists []. rewrite app_nil_r. congruence.
  - destruct tags as [|x rest]; [discriminate E|]. destruct (x =? i).
    + cbn [logged process_v2 bind] in E. destruct (does_v2 P t) as (u, t'). apply bind_ok in E as (((r', d'), s2) & E2 & E).
      destruct (IH _ _ _ _ _ _ E2) as (more & ->). exists (ProcessV2 t :: more). rewrite <- app_assoc in E. cbn [app] in E. congruence.
    + apply bind_ok in E as (((r', d'), s2) & E2 & E). destruct (IH _ _ _ _ _ _ E2) as (more & ->). exists more. congruence.
Qed.

Lemma calls_tags P v2 : forall i tags ts d log log', process_tags (logged (command_of P)) i tags v2 log = Ok (ts, d, log ++ log') ->
  Forall (succeeds P) log' -> process_tags P i tags v2 tt = Ok (ts, d, tt).
Proof.
  induction v2 as [|t r IH]; intros i tags ts d log log' E F; cbn [process_tags] in *.
  - congruence.
  - destruct tags as [|x rest]; [discriminate E|]. destruct (x =? i).
    + cbn [logged process_v2 bind] in E. destruct (does_v2 (command_of P) t) as (u, t') eqn:D. apply bind_ok in E as (((r', d'), s2) & E2 & E).
      destruct (logged_grows _ _ _ _ _ _ _ _ E2) as (more & ->).
      assert (log' = ProcessV2 t :: more) as ->.
      { apply Ok_inj in E. assert (X : (log ++ [ProcessV2 t]) ++ more = log ++ log') by congruence. rewrite <- app_assoc in X. apply app_inv_head in X. auto. }
      inversion F as [|? ? F1 F2]; subst. cbn in F1. destruct F1 as (((u1, t1), []) & F1). cbn [command_of does_v2] in D. rewrite F1 in D. rewrite F1. cbn [bind].
      rewrite (IH _ _ _ _ _ _ E2 F2). cbn [bind]. congruence.
    + apply bind_ok in E as (((r', d'), s2) & E2 & E). destruct (logged_grows _ _ _ _ _ _ _ _ E2) as (more & ->).
      assert (log' = more) as -> by (apply (app_inv_head log); congruence). rewrite (IH _ _ _ _ _ _ E2 F). cbn [bind]. congruence.
Qed.

(** The ID3v1 part. *)
Definition v1_part {S} (P : processor S) (p : policies) (v1 : option id3v1_tag) (v2' : list anytag) (s1 : S) :=
  match v1 with
  | None =>
      match v2', p_v1_creation p with
      | _ :: _, V1WhenV2Present | _ :: _, V1Always => let* (q, s2) := create_v1_from P s1 v2' in Ok (q, true, s2)
      | [], V1Always => let* (q, s2) := create_v1 P s1 in Ok (q, true, s2)
      | _, _ => Ok (None, false, s1)
      end
  | Some t => if p_v1_scope p then let* (d, t', s2) := process_v1 P s1 t in Ok (Some t', d, s2) else Ok (Some t, false, s1)
  end.
Definition v2_part {S} (P : processor S) (p : policies) (v2 : list anytag) (v1 : option id3v1_tag) (s : S) :=
  match v2 with
  | [] =>
      match v1, p_v2_creation p with
      | Some t, V2WhenV1Present | Some t, V2Always => let* (q, s1) := create_v2_from P s t in Ok ([], q, true, s1)
      | None, V2Always => let* (q, s1) := create_v2 P s in Ok ([], q, true, s1)
      | _, _ => Ok ([], None, false, s)
      end
  | _ =>
      match p_v2_scope p with
      | TagsNone => Ok (v2, None, false, s)
      | TagsAll => let* (v2', d, s1) := process_tags P 0 (iota (List.length v2) 0) v2 s in Ok (v2', None, d, s1)
      | TagsSome idx => let* (v2', d, s1) := process_tags P 0 idx v2 s in Ok (v2', None, d, s1)
      end
  end.
Lemma tagset_parts {S} (P : processor S) p v2 v1 s : process_tagset P p v2 v1 s =
  let* (v2', pnv2, d1, s1) := v2_part P p v2 v1 s in
  let* (v1', d2, s2) := v1_part P p v1 v2' s1 in
  Ok (d1 || d2, v2' ++ match pnv2 with Some t => [t] | None => [] end, v1', s2).
Proof. reflexivity. Qed.

Lemma v1_calls P p v1 v2 v1' d s : v1_part P p v1 v2 tt = Ok (v1', d, s) ->
  forall log, exists log', v1_part (logged (command_of P)) p v1 v2 log = Ok (v1', d, log ++ log') /\ Forall (succeeds P) log'.
Proof.
  unfold v1_part. intros E log. destruct v1 as [t|].
  - destruct (p_v1_scope p).
    + apply bind_ok in E as (((dd, t'), s2) & C & E). cbn [logged process_v1 command_of does_v1 bind]. rewrite C. cbn [bind].
      exists [ProcessV1 t]. split; [congruence|]. repeat constructor. cbn. eauto.
    + exists []. rewrite app_nil_r. split; [congruence|constructor].
  - destruct v2 as [|t0 r0], (p_v1_creation p); try (exists []; rewrite app_nil_r; split; [congruence|constructor]);
      (apply bind_ok in E as ((q, s2) & C & E); cbn [logged create_v1_from create_v1 command_of makes_v1_from makes_v1 bind]; rewrite C; cbn [bind];
       eexists; split; [|repeat constructor]; [apply Ok_inj in E; assert (v1' = q) as -> by congruence; assert (d = true) as -> by congruence; reflexivity|cbn; eauto]).
Qed.

Lemma calls_v1 P p v1 v2 v1' d log log' : v1_part (logged (command_of P)) p v1 v2 log = Ok (v1', d, log ++ log') -> Forall (succeeds P) log' ->
  v1_part P p v1 v2 tt = Ok (v1', d, tt).
Proof.
  unfold v1_part. intros E F. destruct v1 as [t|].
  - destruct (p_v1_scope p).
    + cbn [logged process_v1 bind] in E. destruct (does_v1 (command_of P) t) as (u, t') eqn:D. apply Ok_inj in E.
      assert (log' = [ProcessV1 t]) as -> by (apply (app_inv_head log); congruence).
      inversion F as [|? ? F1 F2]; subst. cbn in F1. destruct F1 as (((u1, t1), []) & F1). cbn [command_of does_v1] in D. rewrite F1 in D. rewrite F1. cbn [bind]. congruence.
    + congruence.
  - destruct v2 as [|t0 r0], (p_v1_creation p); try congruence; cbn [logged create_v1_from create_v1 bind] in E;
      match type of E with Ok (_, _, log ++ [?c]) = _ => assert (log' = [c]) as -> by (apply (app_inv_head log); congruence) end;
      inversion F as [|? ? F1 F2]; subst; cbn in F1; destruct F1 as ((q, []) & F1); rewrite F1; cbn [bind];
      cbn [command_of makes_v1_from makes_v1] in E; rewrite F1 in E; congruence.
Qed.

Lemma v2_calls P p v2 v1 v2' q d s : v2_part P p v2 v1 tt = Ok (v2', q, d, s) ->
  exists log', v2_part (logged (command_of P)) p v2 v1 [] = Ok (v2', q, d, log') /\ Forall (succeeds P) log'.
Proof.
  unfold v2_part. intros E. destruct v2 as [|t0 r0].
  - destruct v1 as [t|], (p_v2_creation p); try (exists []; split; [congruence|constructor]);
      (apply bind_ok in E as ((q', s2) & C & E); cbn [logged create_v2_from create_v2 command_of makes_v2_from makes_v2 bind]; rewrite C; cbn [bind];
       eexists; split; [|repeat constructor]; [apply Ok_inj in E; assert (q = q') as -> by congruence; assert (v2' = []) as -> by congruence; assert (d = true) as -> by congruence; reflexivity|cbn; eauto]).
  - destruct (p_v2_scope p).
    + apply bind_ok in E as (((l, dd), s1) & C & E). destruct (tags_calls P _ _ _ _ _ _ C []) as (log & -> & F). cbn [bind app]. exists log. split; [congruence|exact F].
    + exists []. split; [congruence|constructor].
    + apply bind_ok in E as (((l, dd), s1) & C & E). destruct (tags_calls P _ _ _ _ _ _ C []) as (log & -> & F). cbn [bind app]. exists log. split; [congruence|exact F].
Qed.

Lemma calls_v2 P p v2 v1 v2' q d log : v2_part (logged (command_of P)) p v2 v1 [] = Ok (v2', q, d, log) -> Forall (succeeds P) log ->
  v2_part P p v2 v1 tt = Ok (v2', q, d, tt).
Proof.
  unfold v2_part. intros E F. destruct v2 as [|t0 r0].
  - destruct v1 as [t|], (p_v2_creation p); try congruence; cbn [logged create_v2_from create_v2 bind app] in E;
      match type of E with Ok (_, _, _, [?c]) = _ => assert (log = [c]) as -> by congruence end;
      inversion F as [|? ? F1 F2]; subst; cbn in F1; destruct F1 as ((q', []) & F1); rewrite F1; cbn [bind];
      cbn [command_of makes_v2_from makes_v2] in E; rewrite F1 in E; congruence.
  - destruct (p_v2_scope p).
    + apply bind_ok in E as (((l, dd), s1) & C & E). rewrite (calls_tags P _ _ _ _ _ [] s1 C) by (assert (s1 = log) as -> by congruence; exact F). cbn [bind]. congruence.
    + congruence.
    + apply bind_ok in E as (((l, dd), s1) & C & E). rewrite (calls_tags P _ _ _ _ _ [] s1 C) by (assert (s1 = log) as -> by congruence; exact F). cbn [bind]. congruence.
Qed.

Lemma v1_log c p v1 v2 v1' d log log' : v1_part (logged c) p v1 v2 log = Ok (v1', d, log') -> exists more, log' = log ++ more.
Proof.
  unfold v1_part. intros E. destruct v1 as [t|].
  - destruct (p_v1_scope p).
    + cbn [logged process_v1 bind] in E. destruct (does_v1 c t) as (u, t'). eexists. apply Ok_inj in E. assert (log' = log ++ [ProcessV1 t]) by congruence. eassumption.
    + exists []. rewrite app_nil_r. congruence.
  - destruct v2 as [|t0 r0], (p_v1_creation p); try (exists []; rewrite app_nil_r; congruence); cbn [logged create_v1_from create_v1 bind] in E; apply Ok_inj in E;
      eexists; assert (X := f_equal snd E); cbn in X; symmetry; exact X.
Qed.

(** A command runs through exactly if each of the calls it should make comes back. *)
Lemma tagset_calls P p v2 v1 : scope_fits p v2 -> let c := command_of P in
  (Forall (succeeds P) (wanted_calls c p v2 v1) ->
     process_tagset P p v2 v1 tt = Ok (is_dirty c p v2 v1, new_v2 c p v2 v1, new_v1 c p v2 v1, tt)) /\
  (forall x, process_tagset P p v2 v1 tt = Ok x -> Forall (succeeds P) (wanted_calls c p v2 v1)).
Proof.
  intros SF c. pose proof (process_tagset_eq c p v2 v1 SF) as L. rewrite tagset_parts in L.
  apply bind_ok in L as ((((a2, pn), d1), log1) & E1 & L). apply bind_ok in L as (((a1, d2), log2) & E2 & L). apply Ok_inj in L.
  destruct (v1_log _ _ _ _ _ _ _ _ E2) as (more & ->). assert (W : wanted_calls c p v2 v1 = log1 ++ more) by congruence.
  rewrite W. split.
  - intros F. apply Forall_app in F as (F1 & F2). rewrite tagset_parts.
    rewrite (calls_v2 P _ _ _ _ _ _ _ E1 F1). cbn [bind]. rewrite (calls_v1 P _ _ _ _ _ _ _ E2 F2). cbn [bind]. congruence.
  - intros x E. rewrite tagset_parts in E. apply bind_ok in E as ((((b2, pn'), e1), []) & G1 & E). apply bind_ok in E as (((b1, e2), s2) & G2 & E).
    destruct (v2_calls P _ _ _ _ _ _ _ G1) as (l1 & H1 & F1). fold c in H1. rewrite H1 in E1.
    assert (l1 = log1) as -> by congruence. assert (b2 = a2) as -> by congruence.
    destruct (v1_calls P _ _ _ _ _ _ G2 log1) as (l2 & H2 & F2). fold c in H2. rewrite H2 in E2.
    assert (l2 = more) as -> by (apply (app_inv_head log1); congruence). apply Forall_app; auto.
Qed.

(** So with the file. *)
Lemma file_calls z passes e P p path fs data v2 v1 : let c := command_of P in
  find_node (resolve (e_cwd e) path) fs = Some (File data) -> read_tagset z passes data = Ok (v2, v1) -> scope_fits p v2 ->
  (Forall (succeeds P) (wanted_calls c p v2 v1) ->
     process_file z passes e P p path tt fs =
       (run _ <- write_tagset z e p (is_dirty c p v2 v1) (new_v2 c p v2 v1) (new_v1 c p v2 v1) path;; fret tt) fs) /\
  (~ Forall (succeeds P) (wanted_calls c p v2 v1) ->
     exists o, process_file z passes e P p path tt fs = ([], (o, fs)) /\ o <> Ok tt).
Proof.
  intros c Hk HR SF. destruct (tagset_calls P p v2 v1 SF) as (A & C). fold c in A, C.
  destruct (file_of_tagset z passes e P p path tt fs data v2 v1 Hk HR) as (F1 & F2 & F3). split.
  - intros F. exact (F1 _ _ _ _ (A F)).
  - intros F. unfold process_file. rewrite Hk. unfold fbind at 1. unfold flift at 1. rewrite HR. unfold fbind at 1. unfold flift at 1.
    destruct (process_tagset P p v2 v1 tt) as [x|x|u|] eqn:E; [elim F; exact (C _ eq_refl)|cbn [app]; eexists; split; [reflexivity|discriminate]..].
Qed.

(** ** Tags in scope *)
Lemma with_index_In {A} (l : list A) : forall k i x, In (i, x) (combine (iota (length l) k) l) -> In x l.
Proof. intros k i x H. apply in_combine_r in H. exact H. Qed.

Lemma scope_dirty (c : command) p l :
  existsb (fun x => match x with ProcessV2 t => fst (does_v2 c t) | ProcessV1 t => fst (does_v1 c t) | _ => true end)
    (map (fun it => ProcessV2 (snd it)) (filter (fun it : N * anytag => in_scope p (fst it)) l)) =
  existsb snd (map (fun it : N * anytag => if in_scope p (fst it) then (snd (does_v2 c (snd it)), fst (does_v2 c (snd it))) else (snd it, false)) l).
Proof.
  induction l as [|it r IH]; [reflexivity|]. cbn [filter map existsb]. destruct (in_scope p (fst it)); cbn [map existsb snd]; rewrite IH; reflexivity.
Qed.

Lemma tagset_scope P p v2 v1 (R : anytag -> anytag -> bool -> Prop) (R1 : id3v1_tag -> id3v1_tag -> bool -> Prop) :
  v2 <> [] -> scope_fits p v2 -> (v1 = None -> p_v1_creation p = V1Never) ->
  (forall i t, In (i, t) (with_index v2) -> in_scope p i = true -> exists d t', process_v2 P tt t = Ok (d, t', tt) /\ R t t' d) ->
  (forall t, v1 = Some t -> p_v1_scope p = true -> exists d t', process_v1 P tt t = Ok (d, t', tt) /\ R1 t t' d) ->
  exists xs v1' d1, process_tagset P p v2 v1 tt = Ok (existsb snd xs || d1, map fst xs, v1', tt) /\
    Forall2 (fun it x => if in_scope p (fst it) then R (snd it) (fst x) (snd x) else x = (snd it, false)) (with_index v2) xs /\
    match v1, v1' with
    | None, None => d1 = false
    | Some t, Some t' => if p_v1_scope p then R1 t t' d1 else t' = t /\ d1 = false
    | _, _ => False
    end.
Proof.
  intros NE SF NC HG H1. set (c := command_of P).
  assert (V2 : forall i t, In (i, t) (with_index v2) -> in_scope p i = true ->
    succeeds P (ProcessV2 t) /\ R t (snd (does_v2 c t)) (fst (does_v2 c t))).
  { intros i t M IS. destruct (HG i t M IS) as (d & t' & E & GP). split; [cbn; eauto|]. cbn [c command_of does_v2]. rewrite E. exact GP. }
  destruct (tagset_calls P p v2 v1 SF) as (A & _). fold c in A.
  exists (map (fun it : N * anytag => if in_scope p (fst it) then (snd (does_v2 c (snd it)), fst (does_v2 c (snd it))) else (snd it, false)) (with_index v2)),
    (new_v1 c p v2 v1), (match v1 with Some t => if p_v1_scope p then fst (does_v1 c t) else false | None => false end).
  assert (WC : wanted_calls c p v2 v1 = map (fun it => ProcessV2 (snd it)) (filter (fun it => in_scope p (fst it)) (with_index v2)) ++
    match v1 with Some t => if p_v1_scope p then [ProcessV1 t] else [] | None => [] end).
  { unfold wanted_calls. destruct v2 as [|t0 r0] eqn:EV; [congruence|]. f_equal. destruct v1; [reflexivity|]. unfold wants_v1. rewrite (NC eq_refl). reflexivity. }
  split; [|split].
  - rewrite A; clear A.
    + apply f_equal. f_equal. f_equal. f_equal.
      * unfold is_dirty. rewrite WC, existsb_app, (scope_dirty c p (with_index v2)). f_equal.
        destruct v1 as [t|]; [|reflexivity]. destruct (p_v1_scope p); [|reflexivity]. cbn [existsb]. apply orb_false_r.
      * unfold new_v2. destruct v2 as [|t0 r0] eqn:EV; [congruence|]. rewrite map_map. apply map_ext. intros (i, t). cbn [fst snd]. destruct (in_scope p i); reflexivity.
    + rewrite WC. apply Forall_app. split.
      * apply Forall_forall. intros x M. apply in_map_iff in M as ((i, t) & <- & M). apply filter_In in M as (M & IS). cbn [fst snd] in *. exact (proj1 (V2 i t M IS)).
      * destruct v1 as [t|]; [|constructor]. destruct (p_v1_scope p) eqn:S1; [|constructor]. constructor; [|constructor].
        destruct (H1 t eq_refl eq_refl) as (d & t' & E & _). cbn. eauto.
  - clear A WC H1. revert V2. generalize (with_index v2). clear. intros l. induction l as [|(i, t) r IH]; intros V; [constructor|].
    cbn [map fst snd]. constructor.
    + cbn [fst snd]. destruct (in_scope p i) eqn:IS; [|reflexivity]. cbn [fst snd]. exact (proj2 (V i t (or_introl eq_refl) IS)).
    + apply IH. intros i' t' M. apply V. right. exact M.
  - unfold new_v1. destruct v1 as [t|].
    + destruct (p_v1_scope p); [|auto]. destruct (H1 t eq_refl eq_refl) as (d & t' & E & G). cbn [c command_of does_v1]. rewrite E. exact G.
    + unfold wants_v1. rewrite (NC eq_refl). reflexivity.
Qed.
