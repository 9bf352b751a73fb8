(** * Lemmas: the file the m3u command writes. *)
From Verif Require Import Base M_Ints M_Stream M_Id3v1 M_Payload M_Frame M_Charset M_TextId M_Lookup M_Mp3 M_Read M_Fs M_Tagset M_Process M_Cmds M_Split M_Rename M_Dirent M_M3u
  S_Lookup S_Cmds S_Tagset S_Read S_Dirent S_M3u L_Stream L_Fs L_Lookup L_Read L_Id3v1c L_Cmds L_Cmds5 L_Dirent L_M3u L_M3u2.
#[local] Open Scope N_scope.

Lemma del_idem k fs : del_node k (del_node k fs) = del_node k fs.
Proof.
  unfold del_node. induction fs as [|(k', n) r IH]; [reflexivity|]. cbn [filter fst]. destruct (negb (key_eqb k k')) eqn:E; [|exact IH].
  cbn [filter fst]. rewrite E, IH. reflexivity.
Qed.
Lemma set_set k n m fs : set_node k n (set_node k m fs) = set_node k n fs.
Proof.
  unfold set_node at 1 3. f_equal. unfold set_node. cbn [del_node filter fst]. rewrite key_eqb_refl. cbn [negb]. apply del_idem.
Qed.
Lemma keys_set k n m fs : map fst (set_node k n fs) = map fst (set_node k m fs).
Proof. reflexivity. Qed.
Lemma append_set k c s fs : append k s (set_node k (File c) fs) =
  (map (fun i => set_node k (File (c ++ firstn i s)) fs) (seq 0 (S (length s))), (Ok tt, set_node k (File (c ++ s)) fs)).
Proof.
  unfold append. rewrite find_set_same, set_set. f_equal. unfold append_states. apply map_ext. intros i. apply set_set.
Qed.

Section Each.
  Context (z : zlib) (passes : nat) (w : world) (loc : outcome enc) (o : m3u_opts) (cwd : bytes) (k : key) (fs : fsys).

  Definition holds (x : bytes * bytes) : Prop := resolve cwd (fst x) <> k /\ find_node (resolve cwd (fst x)) fs = Some (File (snd x)).
  Definition prefixes (c t : bytes) (st : list fsys) : Prop :=
    Forall (fun s => exists i, s = set_node k (File (c ++ firstn i t)) fs) st.

  Lemma each_lines files : Forall holds files -> forall c, exists st,
    each (m3u_file z passes w loc o cwd k) (map fst files) (set_node k (File c) fs)
    = (st, (snd (m3u_lines z passes w loc o files), set_node k (File (c ++ fst (m3u_lines z passes w loc o files))) fs))
    /\ prefixes c (fst (m3u_lines z passes w loc o files)) st.
  Proof.
    induction 1 as [|(p, data) files (NK & FD) F IH]; intros c.
    - exists []. split; [|constructor]. cbn. unfold fret. rewrite app_nil_r. reflexivity.
    - cbn [map fst each m3u_lines] in *. cbn [fst snd] in NK, FD. unfold fbind at 1. unfold m3u_file at 1. rewrite find_set_other by exact NK. rewrite FD.
      unfold fbind at 1, flift. destruct (m3u_text z passes w loc o p data) as [s|e|u|]; [|exists []; cbn [fst snd]; rewrite app_nil_r; split; [reflexivity|constructor]..].
      rewrite append_set. cbn [app]. destruct (IH (c ++ s)) as (st & E & P). rewrite E. destruct (m3u_lines z passes w loc o files) as (t, x). cbn [fst snd] in *.
      eexists. split; [rewrite <- app_assoc; reflexivity|]. unfold prefixes. apply Forall_app. split.
      + apply Forall_forall. intros q Q. apply in_map_iff in Q as (i & <- & Q). apply in_seq in Q. exists i. do 2 f_equal.
        rewrite firstn_app. replace (i - length s)%nat with O by lia. rewrite app_nil_r. reflexivity.
      + eapply Forall_impl; [|exact P]. cbv beta. intros q (i & ->). exists (length s + i)%nat. do 2 f_equal.
        rewrite <- app_assoc. f_equal. rewrite firstn_app_2. reflexivity.
  Qed.

  (** How far it comes. *)
  Lemma lines_done files : exists done rest ss, files = done ++ rest /\
    Forall2 (fun x s => m3u_text z passes w loc o (fst x) (snd x) = Ok s) done ss /\
    fst (m3u_lines z passes w loc o files) = concat ss /\
    match rest with
    | [] => snd (m3u_lines z passes w loc o files) = Ok tt
    | x :: _ => exists r, m3u_text z passes w loc o (fst x) (snd x) = r /\ (forall s, r <> Ok s) /\
                 snd (m3u_lines z passes w loc o files) = (let* _ := r in Ok tt)
    end.
  Proof.
    induction files as [|(p, data) files (done & rest & ss & E & F & T & R)]; [exists [], [], []; repeat split; constructor|].
    cbn [m3u_lines]. destruct (m3u_text z passes w loc o p data) as [s|e|u|] eqn:M.
    - exists ((p, data) :: done), rest, (s :: ss). destruct (m3u_lines z passes w loc o files) as (t, x). cbn [fst snd] in *.
      split; [rewrite E; reflexivity|]. split; [constructor; assumption|]. split; [rewrite T; reflexivity|]. exact R.
    - exists [], ((p, data) :: files), []. repeat split; [constructor|]. exists (Throw e). cbn [fst snd bind]. rewrite M. repeat split. discriminate.
    - exists [], ((p, data) :: files), []. repeat split; [constructor|]. exists (UB u). cbn [fst snd bind]. rewrite M. repeat split. discriminate.
    - exists [], ((p, data) :: files), []. repeat split; [constructor|]. exists NonTerm. cbn [fst snd bind]. rewrite M. repeat split. discriminate.
  Qed.
End Each.

(** ** Opening *)
Lemma open_append fs k app : opens fs k -> exists st,
  (run _ <- open_out k app;; append k header) fs = (st, (Ok tt, set_node k (File (kept app fs k ++ header)) fs)) /\
  Forall (fun s => s = set_node k (File []) fs \/ exists i, s = set_node k (File (kept app fs k ++ firstn i header)) fs) st.
Proof.
  intros (D & O). unfold open_out, fbind, kept. rewrite D.
  assert (PRE : forall b, Forall (fun s => s = set_node k (File []) fs \/ exists i, s = set_node k (File (b ++ firstn i header)) fs)
            (map (fun i => set_node k (File (b ++ firstn i header)) fs) (seq 0 (S (length header))))).
  { intros b. apply Forall_forall. intros q Q. apply in_map_iff in Q as (i & <- & Q). right. exists i. reflexivity. }
  destruct O as [(b & E) | (E & P)]; rewrite E.
  - destruct app.
    + unfold fret. unfold append. rewrite E. eexists. split; [reflexivity|]. cbn [List.app]. exact (PRE b).
    + unfold change. rewrite append_set. eexists. split; [reflexivity|]. apply Forall_app. split; [constructor; [left; reflexivity|constructor]|exact (PRE [])].
  - rewrite P. unfold change. rewrite append_set. eexists. split; [reflexivity|].
    apply Forall_app. split; [constructor; [left; reflexivity|constructor]|exact (PRE [])].
Qed.

(** ** Trees *)
Lemma components_noslash p : forall acc, ~ In 47 acc -> Forall (fun c => ~ In 47 c) (components acc p).
Proof.
  induction p as [|c p IH]; intros acc A; cbn [components].
  - constructor; [rewrite <- in_rev; exact A|constructor].
  - destruct (N.eqb_spec c 47) as [->|NE].
    + constructor; [rewrite <- in_rev; exact A|]. apply IH. intros [].
    + apply IH. cbn [In]. intros [Q|Q]; [congruence|exact (A Q)].
Qed.
Lemma walk_cases st c : walk st c = st \/ walk st c = tl st \/ (walk st c = c :: st /\ c <> [] /\ c <> [46] /\ c <> [46; 46]).
Proof.
  destruct (list_eq_dec N.eq_dec c []) as [->|N0]; [auto|]. destruct (list_eq_dec N.eq_dec c [46]) as [->|N1]; [auto|].
  destruct (list_eq_dec N.eq_dec c [46; 46]) as [->|N2]; [auto|]. right. right. split; [|auto].
  unfold walk. destruct c as [|a [|b [|d r]]]; [congruence|..]; repeat
    match goal with |- context [match ?x with _ => _ end] => is_var x; destruct x; try reflexivity end; congruence.
Qed.
Lemma Forall_tl {A} (P : A -> Prop) l : Forall P l -> Forall P (tl l).
Proof. intros [|]; [constructor|assumption]. Qed.
Lemma resolve_plain cwd p : Forall plain_name (resolve cwd p).
Proof.
  unfold resolve, resolve_abs. apply Forall_rev. assert (C := components_noslash (absolute cwd p) [] (fun x => x)).
  assert (G : forall st, Forall plain_name st -> Forall plain_name (fold_left walk (components [] (absolute cwd p)) st)); [|apply G; constructor].
  induction C as [|c l H C IH]; intros st F; [exact F|]. cbn [fold_left]. apply IH.
  destruct (walk_cases st c) as [-> | [-> | (-> & Q)]]; [exact F|now apply Forall_tl|]. constructor; [|exact F]. split; [exact H|exact Q].
Qed.

Lemma del_keys k fs k' : In k' (map fst (del_node k fs)) <-> In k' (map fst fs) /\ k' <> k.
Proof.
  unfold del_node. rewrite !in_map_iff. split.
  - intros (e & <- & H). apply filter_In in H as (H & Q). split; [eauto|]. intros E. rewrite E, key_eqb_refl in Q. discriminate Q.
  - intros ((e & <- & H) & Q). exists e. split; [reflexivity|]. apply filter_In. split; [exact H|].
    rewrite key_eqb_neq by congruence. reflexivity.
Qed.
Lemma del_nodup k fs : NoDup (map fst fs) -> NoDup (map fst (del_node k fs)).
Proof.
  induction fs as [|(k', n) r IH]; intros H; [constructor|]. inversion H as [|? ? H1 H2]; subst. cbn [del_node filter fst].
  destruct (negb (key_eqb k k')); [|exact (IH H2)]. cbn [map fst]. constructor; [|exact (IH H2)].
  intros Q. apply (del_keys k r k') in Q. exact (H1 (proj1 Q)).
Qed.
Lemma nonempty_last (k : key) : k <> [] -> exists d n, k = d ++ [n].
Proof. intros H. destruct (exists_last H) as (d & n & ->). eauto. Qed.
Lemma tree_set fs cwd out c : tree fs -> opens fs (resolve cwd out) -> tree (set_node (resolve cwd out) (File c) fs).
Proof.
  set (k := resolve cwd out). assert (PL : Forall plain_name k) by apply resolve_plain. intros (ND & NN & PN & PD) (D & O).
  assert (K : k <> []) by (intros E; rewrite E in D; discriminate D).
  split; [|split; [|split]]; unfold set_node; cbn [map fst].
  - constructor; [|apply del_nodup; exact ND]. intros Q. apply del_keys in Q. exact (proj2 Q eq_refl).
  - intros [Q|Q]; [congruence|]. apply del_keys in Q. exact (NN (proj1 Q)).
  - constructor; [exact PL|]. apply Forall_forall. intros q Q. apply del_keys in Q as (Q & _). rewrite Forall_forall in PN. exact (PN q Q).
  - intros d n Q.
    assert (DF : is_dir fs d = true).
    { destruct Q as [Q|Q].
      - destruct O as [(b & E) | (E & P)].
        + apply (PD d n). rewrite <- Q. exact (find_in _ _ _ E).
        + rewrite Q, removelast_last in P. exact P.
      - apply del_keys in Q as (Q & _). exact (PD d n Q). }
    assert (NK : d <> k) by (intros E; rewrite E, D in DF; discriminate DF).
    unfold is_dir in *. destruct d as [|a d]; [reflexivity|]. change ((k, File c) :: del_node k fs) with (set_node k (File c) fs).
    rewrite find_set_other by exact NK. exact DF.
Qed.

(** ** Visits *)
Lemma shape_set k c d fs s : same_shape (set_node k (File c) fs) s -> same_shape (set_node k (File c) fs) (set_node k (File d) s).
Proof.
  intros H k'. destruct (key_eqb_spec k' k) as [->|NE].
  - rewrite !find_set_same. exact I.
  - rewrite (find_set_other k' k (File d) s) by exact NE. exact (H k').
Qed.
Lemma visit_shape z passes w loc o cwd k c fs p s : same_shape (set_node k (File c) fs) s ->
  same_shape (set_node k (File c) fs) (snd (snd (m3u_file z passes w loc o cwd k p s))).
Proof.
  intros H. unfold m3u_file. destruct (find_node (resolve cwd p) s) as [[data|]|]; [|exact H|exact H].
  unfold fbind, flift. destruct (m3u_text z passes w loc o p data) as [t|e|u|]; [|exact H..]. unfold append. cbn [fst snd]. apply shape_set. exact H.
Qed.

Lemma only_set k n fs : only k fs (set_node k n fs).
Proof. intros k' H. apply find_set_other. exact H. Qed.

Lemma files_there cwd fs k c ls : Forall (fun p => exists b, find_node (resolve cwd p) (set_node k (File c) fs) = Some (File b)) ls ->
  (forall p, In p ls -> resolve cwd p <> k) -> exists files, map fst files = ls /\ Forall (holds cwd k fs) files.
Proof.
  induction 1 as [|p ls (b & E) F IH]; intros NK; [exists []; split; [reflexivity|constructor]|].
  destruct IH as (files & M & H); [intros q Q; apply NK; right; exact Q|]. exists ((p, b) :: files).
  split; [cbn [map fst]; rewrite M; reflexivity|]. constructor; [|exact H]. assert (N0 := NK p (or_introl eq_refl)). split; [exact N0|].
  cbn [fst snd]. rewrite find_set_other in E by exact N0. exact E.
Qed.
Lemma below_files cwd fs args ls : Forall2 (files_below cwd fs) args ls -> Forall (fun p => exists b, find_node (resolve cwd p) fs = Some (File b)) (concat ls).
Proof.
  induction 1 as [|p l args ls (_ & H) F IH]; [constructor|]. cbn [concat]. apply Forall_app. split; [|exact IH].
  apply Forall_forall. intros q Q. apply (in_map (resolve cwd)) in Q. apply H in Q as (Q & _). exact Q.
Qed.
Lemma below_shape cwd k c d fs p l : files_below cwd (set_node k (File c) fs) p l -> files_below cwd (set_node k (File d) fs) p l.
Proof.
  intros (ND & H). split; [exact ND|]. intros q. rewrite (H q). apply and_iff_compat_r.
  destruct (key_eqb_spec q k) as [->|NE]; [rewrite !find_set_same; split; eauto|]. rewrite !find_set_other by exact NE. reflexivity.
Qed.

Lemma run_m3u z passes w loc rsp cwd entries src fs out app utf8 args dst :
  cwd <> [] -> tree fs -> opens fs (resolve cwd out) -> m3u_dst loc utf8 = Ok dst ->
  (forall p, is_dir (opened fs (resolve cwd out)) (resolve cwd p) = true -> lists_entries cwd (opened fs (resolve cwd out)) p (entries p)) ->
  Forall (fun p => p <> []) args ->
  exists ls, Forall2 (files_below cwd (opened fs (resolve cwd out))) args ls /\
    ((forall p, In p (concat ls) -> resolve cwd p <> resolve cwd out) ->
     exists files, map fst files = concat ls /\ Forall (holds cwd (resolve cwd out) fs) files /\
     let L := m3u_lines z passes w loc (mkM3u None dst rsp) files in
     exists st, m3u_to_file z passes w loc rsp cwd entries src out app utf8 args fs
      = (st, (snd L, set_node (resolve cwd out) (File (kept app fs (resolve cwd out) ++ header ++ fst L)) fs)) /\
      Forall (fun s => s = opened fs (resolve cwd out) \/ exists i, s = set_node (resolve cwd out) (File (kept app fs (resolve cwd out) ++ firstn i (header ++ fst L))) fs) st).
Proof.
  set (k := resolve cwd out). intros CW T OP MD LE AR.
  set (c := kept app fs k ++ header). set (fs1 := set_node k (File c) fs).
  assert (T1 : tree fs1) by (apply tree_set; assumption).
  assert (LE1 : forall p, is_dir fs1 (resolve cwd p) = true -> lists_entries cwd fs1 p (entries p)).
  { intros p D. unfold lists_entries, names_in in *. apply LE. unfold is_dir in *. destruct (resolve cwd p) as [|a d]; [reflexivity|].
    unfold opened. unfold fs1 in D. destruct (key_eqb_spec (a :: d) k) as [E|NE].
    - rewrite E, find_set_same in D. discriminate D.
    - rewrite find_set_other in D |- * by exact NE. exact D. }
  destruct (args_walk cwd entries fs1 CW T1 LE1 args AR) as (ls & F & V). exists ls. split.
  { clear -F. induction F as [|p l args ls H F IH]; constructor; [|exact IH]. exact (below_shape _ _ _ _ _ _ _ H). }
  intros NK. destruct (files_there cwd fs k c (concat ls) (below_files _ _ _ _ F) NK) as (files & M & H). exists files. split; [exact M|]. split; [exact H|].
  cbv zeta. destruct (open_append fs k app OP) as (st1 & E1 & P1).
  destruct (each_lines z passes w loc (mkM3u None dst rsp) cwd k fs files H c) as (st2 & E2 & P2).
  exists (st1 ++ st2). split.
  - unfold m3u_to_file. fold k. rewrite MD.
    assert (Q : forall g : FS unit, (run _ <- open_out k app;; run _ <- append k (B "#EXTM3U" ++ [10]);; g) fs = (st1 ++ fst (g fs1), snd (g fs1))).
    { intros g. unfold fbind in *. change (B "#EXTM3U" ++ [10]) with header. destruct (open_out k app fs) as (l0, (r0, s0)). destruct r0; try discriminate E1.
      destruct (append k header s0) as (l2, (r2, s2)). injection E1 as <- -> ->. fold c fs1. destruct (g fs1) as (l3, (r3, s3)). cbn [fst snd]. rewrite app_assoc. reflexivity. }
    unfold fbind at 1, flift. rewrite Q. rewrite V by (intros p s; apply visit_shape). rewrite <- M. unfold fs1. rewrite E2. cbn [fst snd List.app].
    unfold c. rewrite <- app_assoc. reflexivity.
  - apply Forall_app. split; (eapply Forall_impl; [|eassumption]); cbv beta.
    + intros s [-> | (i & ->)]; [left; reflexivity|]. destruct (Nat.le_gt_cases i (length header)) as [L|L].
      * right. exists i. do 3 f_equal. rewrite firstn_app. replace (i - length header)%nat with O by lia. rewrite app_nil_r. reflexivity.
      * right. exists (length header). do 3 f_equal. rewrite firstn_all2 by lia. rewrite firstn_app, firstn_all, Nat.sub_diag. cbn [firstn]. rewrite app_nil_r. reflexivity.
    + intros s (i & ->). right. exists (length header + i)%nat. do 2 f_equal. rewrite firstn_app_2. unfold c. rewrite <- app_assoc. reflexivity.
Qed.
