(** * Lemmas: which files are renamed, and where to. *)
From Verif Require Import Base M_Fs M_Split M_Rename S_Rename S_Tagset L_Fs L_Tagset5 L_Split L_Dirent L_Rename.

Lemma ends_mp3 p : ends_in_mp3 p = true -> exists w, p = w ++ B ".mp3".
Proof.
  unfold ends_in_mp3. intros H. apply andb_true_iff in H as [H1 H2]. apply bytes_eqb_eq in H2.
  exists (takeN (len p - 4) p). rewrite <- H2. now rewrite takeN_dropN.
Qed.

Section Only.
  Context (cwd : bytes) (tp : fsys -> bytes -> outcome bytes) (broken : bytes -> option nat) (o : ropts) (entries : bytes -> list bytes) (args : list bytes) (fs : fsys).
  Definition only (s : fsys) : Prop := forall j, find_node j s <> find_node j fs ->
    exists p, chosen entries args p /\ (ro_rename o = true /\ j = resolve cwd p \/ exists s0 out, destination tp o s0 p = Ok out /\ j = resolve cwd out).

  Lemma only_set s p s0 out b : chosen entries args p -> destination tp o s0 p = Ok out -> only s -> only (set_node (resolve cwd out) (File b) s).
  Proof.
    intros HC HD HO j Hj. destruct (key_eqb_spec j (resolve cwd out)) as [->|NE].
    - exists p. split; [exact HC|]. right. eauto.
    - rewrite find_set_other in Hj by exact NE. now apply HO.
  Qed.
  Lemma only_del s p : chosen entries args p -> ro_rename o = true -> only s -> only (del_node (resolve cwd p) s).
  Proof.
    intros HC HR HO j Hj. destruct (key_eqb_spec j (resolve cwd p)) as [->|NE].
    - exists p. split; [exact HC|]. left. auto.
    - rewrite find_del_other in Hj by exact NE. now apply HO.
  Qed.
  Lemma file_only p s : chosen entries args p -> only s -> traced only (rename_file cwd tp broken o p) (fun _ s' => only s') s.
  Proof.
    intros HC HQ. unfold rename_file, traced.
    match goal with |- context [fcatch ?x ?h s] => enough (G : traced only (fcatch x h) (fun _ s' => only s') s) by exact G end.
    apply traced_catch. apply traced_bind. apply traced_lift.
    destruct (destination tp o s p) as [out|x|u|] eqn:ED; [|destruct x; try (apply traced_throw; exact HQ); apply traced_ret; exact HQ|exact HQ|exact HQ].
    destruct (negb (ro_dry o) && negb (path_eqb p out)); [|apply traced_ret; exact HQ].
    apply traced_bind. apply copy_file_traced.
    - intros b HN. eapply only_set; eauto.
    - apply traced_throw. exact HQ.
    - intros b HF HN _. destruct (ro_rename o) eqn:ER; [|apply traced_ret; eapply only_set; eauto].
      assert (NE : resolve cwd p <> resolve cwd out) by (intros E; rewrite E in HF; congruence).
      assert (X : only (del_node (resolve cwd p) (set_node (resolve cwd out) (File b) s))) by (apply only_del; auto; eapply only_set; eauto).
      apply traced_remove; [exact X|exact X|]. rewrite find_set_other by exact NE. congruence.
    - intros b n _ HN. apply traced_throw. eapply only_set; eauto.
  Qed.
  Lemma entries_only a l : In a args -> incl l (entries a) -> forall s, only s -> traced only (rename_entries cwd tp broken o l) (fun _ s' => only s') s.
  Proof.
    intros Ha. induction l as [|p r IH]; intros HI s HQ; [apply traced_ret; exact HQ|]. cbn [rename_entries].
    unfold traced. match goal with |- context [fbind ?x ?f s] => enough (G : traced only (fbind x f) (fun _ s' => only s') s) by exact G end.
    apply traced_bind.
    assert (G : traced only (if is_regular cwd s p && ends_in_mp3 p then rename_file cwd tp broken o p else fret tt) (fun _ s' => only s') s).
    { destruct (is_regular cwd s p && ends_in_mp3 p) eqn:E; [|apply traced_ret; exact HQ]. apply andb_true_iff in E as [_ E]. apply ends_mp3 in E as (w & E).
      apply file_only; [|exact HQ]. right. exists a, w. split; [exact Ha|]. split; [|exact E]. apply HI. now left. }
    destruct G as [G1 G2]. split; [exact G1|]. destruct (fst (snd _)); try exact G2. apply IH; [|exact G2]. intros x Hx. apply HI. now right.
  Qed.
  Lemma args_only l : incl l args -> forall s, only s -> traced only (rename_args cwd tp broken o entries l) (fun _ s' => only s') s.
  Proof.
    induction l as [|p r IH]; intros HI s HQ; [apply traced_ret; exact HQ|]. cbn [rename_args]. apply traced_bind.
    assert (Hp : In p args) by (apply HI; now left).
    assert (G : traced only (rename_arg cwd tp broken o entries p) (fun _ s' => only s') s).
    { unfold traced, rename_arg. destruct (is_dir _ _); [apply (entries_only p); auto; intros x Hx; exact Hx|].
      destruct (find_node _ s); [apply file_only; auto; now left|]. split; [constructor|exact HQ]. }
    destruct G as [G1 G2]. split; [exact G1|].
    destruct (fst (snd _)); try exact G2. apply IH; [|exact G2]. intros x Hx. apply HI. now right.
  Qed.
End Only.
Lemma rename_only cwd tp broken o entries args fs :
  let r := rename_args cwd tp broken o entries args fs in
  Forall (only cwd tp o entries args fs) (snd (snd r) :: fst r).
Proof.
  cbv zeta. apply traced_all. apply args_only; [intros x Hx; exact Hx|]. intros j Hj. congruence.
Qed.

(** ** Where to *)
Lemma relative_plain n : plain_name n -> is_absolute n = false.
Proof. intros (H & _). destruct n as [|c r]; [reflexivity|]. cbn. destruct (N.eqb_spec c 47) as [->|]; [elim H; now left|reflexivity]. Qed.
Lemma parent_of_name p n : plain_name n -> ends_in_name p n ->
  (p = n /\ parent_path p = []) \/ (exists d, p = d ++ [47] ++ n /\ parent_path p = match d with [] => [47] | _ => d end /\ (d = [] \/ last d 0 <> 47)).
Proof.
  intros (H & H0 & _) [->|(d & -> & Hd)].
  - left. split; [reflexivity|]. unfold parent_path. assert (E : until_slash (rev n) = rev n).
    { assert (X : ~ In 47 (rev n)) by (now rewrite <- in_rev). revert X. generalize (rev n). induction l as [|c r IH]; [reflexivity|]. intros X. cbn [until_slash].
      destruct (N.eqb_spec c 47) as [->|]; [elim X; now left|]. f_equal. apply IH. intros Y. apply X. now right. }
    rewrite E, skipn_all. reflexivity.
  - right. exists d. split; [reflexivity|]. split; [|exact Hd]. unfold parent_path. change (d ++ [47] ++ n) with (spelled d n).
    rewrite rev_spelled, until_slash_app by (now rewrite <- in_rev).
    cbv zeta. rewrite skipn_app, skipn_all, Nat.sub_diag. cbn [skipn app strip_slashes N.eqb Pos.eqb].
    change (47 =? 47) with true. cbv iota. destruct (rev d) as [|c r] eqn:E.
    + assert (d = []) as -> by (rewrite <- (rev_involutive d), E; reflexivity). reflexivity.
    + assert (D : d = rev r ++ [c]) by (rewrite <- (rev_involutive d), E; reflexivity).
      cbn [strip_slashes]. destruct Hd as [->|Hd]; [discriminate E|]. rewrite D in Hd. rewrite last_rev in Hd.
      destruct (N.eqb_spec c 47); [contradiction|]. rewrite <- E, rev_involutive. destruct d; [discriminate E|reflexivity].
Qed.
Lemma place_here cwd tp o fs p n m : cwd <> [] -> ro_output o = [] -> ends_in_name p n -> plain_name n -> plain_name m -> tp fs p = Ok m ->
  exists out k, destination tp o fs p = Ok out /\ resolve cwd p = k ++ [n] /\ resolve cwd out = k ++ [m].
Proof.
  intros Hc HO HE Hn Hm HT. unfold destination. rewrite HT, HO. cbn [bind]. unfold append_path. rewrite (relative_plain m Hm).
  destruct (parent_of_name p n Hn HE) as [[-> ->]|(d & -> & -> & Hd)].
  - exists (join [] m), (resolve_abs cwd). split; [reflexivity|]. split; now apply resolve_plain.
  - assert (J : d ++ [47] ++ n = join (match d with [] => [47] | _ => d end) n /\ (match d with [] => [47] | _ => d end) <> []).
    { destruct d as [|a d']; [split; [reflexivity|discriminate]|]. split; [|discriminate]. destruct Hd as [Hd|Hd]; [discriminate|].
      unfold join. destruct (rev (a :: d')) as [|c r] eqn:E.
      - apply (f_equal (@rev N)) in E. rewrite rev_involutive in E. discriminate.
      - assert (D : a :: d' = rev r ++ [c]) by (rewrite <- (rev_involutive (a :: d')), E; reflexivity). rewrite D in Hd. rewrite last_rev in Hd.
        destruct (N.eqb_spec c 47); [contradiction|reflexivity]. }
    destruct J as [J1 J2]. exists (join (match d with [] => [47] | _ => d end) m), (resolve cwd (match d with [] => [47] | _ => d end)).
    split; [reflexivity|]. rewrite J1. split; now apply resolve_join.
Qed.
Lemma place_there cwd tp o fs p m : cwd <> [] -> ro_output o <> [] -> plain_name m -> tp fs p = Ok m ->
  exists out, destination tp o fs p = Ok out /\ resolve cwd out = resolve cwd (ro_output o) ++ [m].
Proof.
  intros Hc HO Hm HT. unfold destination. rewrite HT. cbn [bind]. unfold append_path. rewrite (relative_plain m Hm).
  eexists. split; [reflexivity|]. destruct (ro_output o) as [|c r]; [congruence|]. now apply resolve_join.
Qed.

Lemma place cwd tp o fs p n m : cwd <> [] -> ends_in_name p n -> plain_name n -> plain_name m -> tp fs p = Ok m ->
  exists out k, destination tp o fs p = Ok out /\ resolve cwd p = k ++ [n] /\
    resolve cwd out = (match ro_output o with [] => k | d => resolve cwd d end) ++ [m].
Proof.
  intros Hc HE Hn Hm HT. destruct (ro_output o) as [|c r] eqn:E; [now apply place_here|].
  assert (NE : ro_output o <> []) by congruence.
  destruct (place_there cwd tp o fs p m Hc NE Hm HT) as (out & O1 & O2). rewrite E in O2.
  destruct (place_here cwd tp (mkRopts [] false false) fs p n m Hc eq_refl HE Hn Hm HT) as (_ & k & _ & K & _).
  exists out, k. auto.
Qed.
