(** * Lemmas: the names that files get from their tags. *)
From Verif Require Import Base M_Ints M_Stream M_Id3v1 M_Payload M_Frame M_Tag22 M_Tag23 M_Tag24 M_Charset M_TextId M_Lookup M_Mp3 M_Track M_Read
  M_Fs M_Tagset M_Process M_Cmds M_Csv M_Report M_Split M_Rename M_Dirent M_Options M_Tbt M_M3u M_Naming
  S_Lookup S_Cmds S_Tagset S_Rename S_M3u S_Tbt S_Tbt2 S_Naming L_Fs L_Lookup L_Cmds L_M3u L_Report L_Report2 L_Dirent L_Rename L_Rename2 L_Tbt6 L_Tbt7.
#[local] Open Scope N_scope.

(** ** What is known of a file *)
Lemma text_if_any_eq w t id : text_if_any w t id =
  if has_frame (tables t) id =? 0 then Ok None else let* s := v2_text w (mkM3u None E_UTF_8 NoFail) t id in Ok (Some s).
Proof. reflexivity. Qed.
Lemma no_frames t id : fresh t -> (has_frame (tables t) id =? 0) = match with_id id (shown t) with [] => true | _ => false end.
Proof. intros F. rewrite has_frame_fresh by exact F. destruct (with_id id (shown t)); reflexivity. Qed.
Lemma text_found w t id x : fresh t -> kind_of (any_version t) id = KText -> text_if_any w t id = Ok x -> text_under (w_ic w) t id x.
Proof.
  intros F K. rewrite text_if_any_eq, no_frames by exact F. unfold text_under. destruct (with_id id (shown t)) as [|f0 l] eqn:W; [intros H; injection H as <-; reflexivity|].
  destruct (v2_text_told w (mkM3u None E_UTF_8 NoFail) t id F K) as (f & I & u & BT & E); [congruence|]. rewrite W in I.
  destruct (v2_text w (mkM3u None E_UTF_8 NoFail) t id) as [s|e|b|]; [|discriminate..]. cbn [bind]. intros H. injection H as <-. exists f, u, s. auto.
Qed.
Lemma text_there w t id : fresh t -> kind_of (any_version t) id = KText ->
  (forall f u, In f (with_id id (shown t)) -> f_body f = BText u -> exists s, text_as_str (any_version t) (w_ic w) u E_UTF_8 NoFail None = Ok s) ->
  exists x, text_if_any w t id = Ok x.
Proof.
  intros F K H. rewrite text_if_any_eq, no_frames by exact F. destruct (with_id id (shown t)) as [|f0 l] eqn:W; [eauto|].
  destruct (v2_text_told w (mkM3u None E_UTF_8 NoFail) t id F K) as (f & I & u & BT & E); [congruence|]. rewrite W in I. cbn [m3_dst m3_rsp m3_src] in E.
  destruct (H f u I BT) as (s & S1). rewrite S1 in E. rewrite <- E. cbn [bind]. eauto.
Qed.
Lemma kinds v id : In id (looked_at v) -> kind_of v id = KText.
Proof. intros H. destruct v; repeat (destruct H as [<-|H]; [reflexivity|]); destruct H. Qed.
Lemma ids_looked_at v : looked_at v = [album_id v; performer_id v; content_id v; name_id v; encoder_id v; date_id v].
Proof. destruct v; reflexivity. Qed.
Lemma kinds6 v : kind_of v (album_id v) = KText /\ kind_of v (performer_id v) = KText /\ kind_of v (content_id v) = KText /\
  kind_of v (name_id v) = KText /\ kind_of v (encoder_id v) = KText /\ kind_of v (date_id v) = KText.
Proof. destruct v; repeat split. Qed.

Lemma texts_found w t T : fresh t -> texts_of w t = Ok T -> texts_under (w_ic w) t T.
Proof.
  intros F. destruct (kinds6 (any_version t)) as (K1 & K2 & K3 & K4 & K5 & K6). unfold texts_of. cbv zeta.
  destruct (text_if_any w t (album_id _)) as [x1|?|?|] eqn:E1; [|discriminate..]. cbn [bind].
  destruct (text_if_any w t (performer_id _)) as [x2|?|?|] eqn:E2; [|discriminate..]. cbn [bind].
  destruct (text_if_any w t (content_id _)) as [x3|?|?|] eqn:E3; [|discriminate..]. cbn [bind].
  destruct (text_if_any w t (name_id _)) as [x4|?|?|] eqn:E4; [|discriminate..]. cbn [bind].
  destruct (text_if_any w t (encoder_id _)) as [x5|?|?|] eqn:E5; [|discriminate..]. cbn [bind].
  destruct (text_if_any w t (date_id _)) as [x6|?|?|] eqn:E6; [|discriminate..]. cbn [bind].
  intros H. injection H as <-. unfold texts_under. cbv zeta. cbn [t_album t_artist t_content t_title t_encoded t_year].
  repeat split; apply text_found; assumption.
Qed.
Lemma texts_there w t : fresh t ->
  (forall id f u, In id (looked_at (any_version t)) -> In f (with_id id (shown t)) -> f_body f = BText u ->
     exists s, text_as_str (any_version t) (w_ic w) u E_UTF_8 NoFail None = Ok s) ->
  exists T, texts_of w t = Ok T.
Proof.
  intros F H. unfold texts_of. cbv zeta. rewrite ids_looked_at in H. cbn [In] in H.
  assert (G : forall id, In id (looked_at (any_version t)) -> exists x, text_if_any w t id = Ok x).
  { intros id I. apply text_there; [exact F|apply kinds; exact I|]. intros f u. rewrite ids_looked_at in I. exact (H id f u I). }
  rewrite ids_looked_at in G. cbn [In] in G.
  destruct (G (album_id (any_version t))) as (x1 & ->); [tauto|]. destruct (G (performer_id (any_version t))) as (x2 & ->); [tauto|].
  destruct (G (content_id (any_version t))) as (x3 & ->); [tauto|]. destruct (G (name_id (any_version t))) as (x4 & ->); [tauto|].
  destruct (G (encoder_id (any_version t))) as (x5 & ->); [tauto|]. destruct (G (date_id (any_version t))) as (x6 & ->); [tauto|].
  cbn [bind]. eauto.
Qed.

Lemma context_known z passes md5 w name data c : context_of z passes md5 w name data = Ok c -> known z passes md5 (w_ic w) name data c.
Proof.
  unfold context_of. destruct (report_read z passes md5 data) as [((v2, tr), v1)|e|u|] eqn:R; [|discriminate..]. cbn [bind]. intros H.
  exists v2, tr, v1. split; [exact R|]. destruct v2 as [(rev, t)|].
  - assert (F : fresh t) by (eapply report_read_fresh; [exact R|reflexivity]). destruct (texts_of w t) as [T|e|u|] eqn:E; [|discriminate..].
    cbn [bind] in H. injection H as <-. cbn [c_name c_size c_md5 c_v2 c_v1]. split; [reflexivity|]. split; [reflexivity|]. split; [reflexivity|].
    split; [apply texts_found; assumption|]. destruct v1 as [t1|]; cbn [option_map]; [repeat split|exact Logic.I].
  - cbn [bind] in H. injection H as <-. cbn [c_name c_size c_md5 c_v2 c_v1]. split; [reflexivity|]. split; [reflexivity|]. split; [reflexivity|].
    split; [exact Logic.I|]. destruct v1 as [t1|]; cbn [option_map]; [repeat split|exact Logic.I].
Qed.
Lemma context_there z passes md5 w name data v2 tr v1 : report_read z passes md5 data = Ok (v2, tr, v1) ->
  (forall rev t id f u, v2 = Some (rev, t) -> In id (looked_at (any_version t)) -> In f (with_id id (shown t)) -> f_body f = BText u ->
     exists s, text_as_str (any_version t) (w_ic w) u E_UTF_8 NoFail None = Ok s) ->
  exists c, context_of z passes md5 w name data = Ok c.
Proof.
  intros R H. unfold context_of. rewrite R. cbn [bind]. destruct v2 as [(rev, t)|]; [|cbn [bind]; eauto].
  assert (F : fresh t) by (eapply report_read_fresh; [exact R|reflexivity]).
  destruct (texts_there w t F (fun id f u => H rev t id f u eq_refl)) as (T & ->). cbn [bind]. eauto.
Qed.

(** ** Equal paths *)
Lemma key_eqb_true x y : key_eqb x y = true -> x = y.
Proof. destruct (key_eqb_spec x y) as [E|E]; [auto|discriminate]. Qed.
Definition names (l : list bytes) : list bytes := filter (fun c => negb (bytes_eqb c [])) l.
Lemma walk_names l : forall st, fold_left walk (names l) st = fold_left walk l st.
Proof.
  induction l as [|c l IH]; intros st; [reflexivity|]. cbn [names filter fold_left]. destruct c as [|a c]; [exact (IH st)|]. cbn [bytes_eqb negb fold_left]. apply IH.
Qed.
Lemma last_snoc (d : list bytes) : last (d ++ [[]]) [] = [].
Proof. apply last_last. Qed.
Lemma names_nonempty l : Forall (fun c => c <> []) (names l).
Proof. apply Forall_forall. intros c H. apply filter_In in H as (_ & H). intros ->. discriminate H. Qed.
Lemma elements_names p q : snd (elements p) = snd (elements q) -> names (components [] p) = names (components [] q).
Proof.
  unfold elements. cbv zeta. cbn [snd]. fold (names (components [] p)). fold (names (components [] q)).
  assert (FP := names_nonempty (components [] p)). assert (FQ := names_nonempty (components [] q)).
  assert (NE : forall l : list bytes, Forall (fun c => c <> []) l -> forall m, l <> m ++ [[]]).
  { intros l F m ->. apply Forall_app in F as (_ & F). inversion F as [|x y Hx]; subst. apply Hx. reflexivity. }
  destruct (names (components [] p)) as [|a l] eqn:EP, (names (components [] q)) as [|a' l'] eqn:EQ; [auto|..].
  - destruct (last q 0 =? 47); intros E; [symmetry in E; apply app_eq_nil in E as (E & _)|]; discriminate E.
  - destruct (last p 0 =? 47); intros E; [apply app_eq_nil in E as (E & _)|]; discriminate E.
  - destruct (last p 0 =? 47), (last q 0 =? 47); intros E; [apply app_inj_tail in E as (E & _); exact E|exfalso; exact (NE _ FQ _ (eq_sym E))|exfalso; exact (NE _ FP _ E)|exact E].
Qed.
Lemma path_eqb_resolve cwd p q : path_eqb p q = true -> p <> [] -> q <> [] -> cwd <> [] -> resolve cwd p = resolve cwd q.
Proof.
  intros H NP NQ NC. unfold path_eqb in H. apply Bool.andb_true_iff in H as (A & E). apply Bool.eqb_prop in A. apply key_eqb_true in E. apply elements_names in E.
  unfold elements in A. cbn [fst] in A.
  assert (R : forall p, p <> [] -> is_absolute p = false -> resolve cwd p = rev (fold_left walk (components [] p) (fold_left walk (components [] cwd) []))).
  { intros r NR AR. unfold resolve, absolute. destruct r as [|c r]; [congruence|]. cbn [is_absolute] in AR. rewrite AR. unfold resolve_abs. f_equal.
    unfold join. destruct (rev cwd) as [|b t] eqn:RC; [exfalso; apply NC; rewrite <- (rev_involutive cwd), RC; reflexivity|].
    assert (C : cwd = rev t ++ [b]) by (rewrite <- (rev_involutive cwd), RC; reflexivity). destruct (N.eqb_spec b 47) as [->|NE].
    - rewrite C, <- app_assoc. cbn [List.app]. rewrite (components_app [] (rev t) []), components_app, !fold_left_app. reflexivity.
    - cbn [List.app]. rewrite components_app, fold_left_app. reflexivity. }
  destruct (is_absolute p) eqn:AP; symmetry in A.
  - unfold resolve, absolute. destruct p as [|c p]; [congruence|]. destruct q as [|d q]; [congruence|]. cbn [is_absolute] in AP, A. rewrite AP, A.
    unfold resolve_abs. rewrite <- (walk_names (components [] (c :: p))), E, walk_names. reflexivity.
  - rewrite (R p NP AP), (R q NQ A). rewrite <- (walk_names (components [] p)), E, walk_names. reflexivity.
Qed.

(** ** One file *)
Section One.
  Context (cwd : bytes) (tp : fsys -> bytes -> outcome bytes) (broken : bytes -> option nat) (o : ropts).

  Lemma last_plain d m : plain_name m -> last (append_path d m) 47 <> 47.
  Proof.
    intros (NS & NE & _). unfold append_path. destruct (is_absolute m) eqn:A.
    - exfalso. destruct m as [|c m]; [congruence|]. apply N.eqb_eq in A. subst c. apply NS. left. reflexivity.
    - assert (L : forall x, last (x ++ m) 47 <> 47).
      { intros x. destruct (exists_last NE) as (m' & c & ->). rewrite app_assoc, last_last. intros ->. apply NS. apply in_or_app. right. left. reflexivity. }
      unfold join. destruct (rev d) as [|c t]; [exact (L [])|]. destruct (c =? 47); [apply L|]. change (d ++ [47] ++ m) with (d ++ ([47] ++ m)). rewrite app_assoc. apply L.
  Qed.

  Lemma one_renamed p n k fs data m : cwd <> [] -> ro_dry o = false -> ends_in_name p n -> plain_name n -> plain_name m -> tp fs p = Ok m ->
    resolve cwd p = k ++ [n] -> find_node (k ++ [n]) fs = Some (File data) -> broken p = None ->
    let k' := match ro_output o with [] => k | d => resolve cwd d end in
    is_dir fs k' = true -> find_node (k' ++ [m]) fs = None ->
    exists st fs', rename_file cwd tp broken o p fs = (st, (Ok tt, fs')) /\
      find_node (k' ++ [m]) fs' = Some (File data) /\ find_node (k ++ [n]) fs' = (if ro_rename o then None else Some (File data)) /\
      forall j, j <> k ++ [n] -> j <> k' ++ [m] -> find_node j fs' = find_node j fs.
  Proof.
    intros NC HD EN PN PM HT RP FD BR k' DK NF.
    destruct (place cwd tp o fs p n m NC EN PN PM HT) as (out & k0 & DE & RP' & RO).
    assert (K : k0 = k) by (rewrite RP in RP'; apply app_inj_tail in RP' as (E & _); congruence). subst k0. fold k' in RO.
    assert (NP : p <> []). { destruct EN as [-> | (d & -> & _)]; [apply PN|]. intros E. apply app_eq_nil in E as (_ & E). discriminate E. }
    assert (DE2 := DE). unfold destination in DE2. rewrite HT in DE2. cbn [bind] in DE2. injection DE2 as DE2.
    assert (LO : last out 47 <> 47) by (rewrite <- DE2; apply last_plain; exact PM).
    assert (NO : out <> []) by (intros ->; apply LO; reflexivity).
    assert (PE : path_eqb p out = false).
    { destruct (path_eqb p out) eqn:Q; [|reflexivity]. exfalso. assert (R := path_eqb_resolve cwd p out Q NP NO NC). rewrite RP, RO in R. rewrite R in FD. congruence. }
    assert (OK : fst (snd (rename_file cwd tp broken o p fs)) = Ok tt).
    { unfold rename_file, fcatch. unfold fbind at 1. unfold flift. rewrite DE, HD, PE. cbn [negb andb]. unfold fbind, copy_file. cbv zeta.
      rewrite RO, removelast_last, DK. assert (ND : is_dir fs (k' ++ [m]) = false).
      { unfold is_dir. destruct (k' ++ [m]) eqn:Q; [destruct k'; discriminate Q|]. rewrite NF. reflexivity. }
      rewrite ND. apply N.eqb_neq in LO. rewrite LO. cbn [negb orb]. unfold fcopy. rewrite RP, FD, NF, BR.
      destruct (ro_rename o); [|reflexivity]. unfold fremove. rewrite find_set_other by (intros Q; rewrite Q in FD; congruence). rewrite FD. reflexivity. }
    assert (FR : find_node (resolve cwd p) fs = Some (File data)) by (rewrite RP; exact FD).
    assert (G := rename_file_done cwd tp broken o p fs data out FR DE HD PE OK). cbv zeta in G. rewrite RO, RP in G.
    destruct (rename_file cwd tp broken o p fs) as (st, (r, fs')). cbn [fst snd] in *. subst r. exists st, fs'. split; [reflexivity|]. apply G.
  Qed.
End One.

Section Whole.
  Context (z : zlib) (passes : nat) (md5 : bytes -> bytes) (w : world) (ct : ctype) (cwd : bytes)
          (broken : bytes -> option nat) (entries : bytes -> list bytes).

  Lemma main_one vm l p fs : nv_args vm = [p] -> fst (template_processor Init (given_template vm)) = Ok l ->
    (exists d, find_node (resolve cwd p) fs = Some (File d)) -> resolve cwd p <> [] ->
    rename_main z passes md5 w ct cwd broken entries vm fs =
    match rename_file cwd (new_name z passes md5 w ct cwd l) broken (rename_options vm) p fs with
    | (st, (Ok _, fs')) => (st, (Ok 0, fs'))
    | (st, (Throw _, fs')) => (st, (Ok 1, fs'))
    | (st, (UB u, fs')) => (st, (UB u, fs'))
    | (st, (NonTerm, fs')) => (st, (NonTerm, fs'))
    end.
  Proof.
    intros EA ET (d & FD) NR. unfold rename_main. rewrite EA, ET. cbn [required hbind proceed conclude_run rename_args]. unfold fbind, rename_arg.
    assert (ND : is_dir fs (resolve cwd p) = false) by (unfold is_dir; destruct (resolve cwd p); [congruence|rewrite FD; reflexivity]).
    rewrite ND, FD. destruct (rename_file _ _ _ _ p fs) as (st, ([[]|e|u|], fs')); [unfold fret; rewrite app_nil_r|..]; reflexivity.
  Qed.

  Lemma new_name_eq l fs p data c : find_node (resolve cwd p) fs = Some (File data) ->
    context_of z passes md5 w (filename (absolute cwd p)) data = Ok c -> new_name z passes md5 w ct cwd l fs p = process ct (w_ic w) c l.
  Proof. intros FD C. unfold new_name. rewrite FD, C. reflexivity. Qed.

  Lemma renamed_l vm l p n k fs data c m : cwd <> [] -> nv_args vm = [p] -> nv_dry vm = false ->
    fst (template_processor Init (given_template vm)) = Ok l ->
    ends_in_name p n -> plain_name n -> resolve cwd p = k ++ [n] -> find_node (k ++ [n]) fs = Some (File data) ->
    context_of z passes md5 w (filename (absolute cwd p)) data = Ok c -> process ct (w_ic w) c l = Ok m -> plain_name m -> broken p = None ->
    let k' := match given_output vm with [] => k | d => resolve cwd d end in
    is_dir fs k' = true -> find_node (k' ++ [m]) fs = None ->
    exists st fs', rename_main z passes md5 w ct cwd broken entries vm fs = (st, (Ok 0, fs')) /\
      find_node (k' ++ [m]) fs' = Some (File data) /\ find_node (k ++ [n]) fs' = (if nv_rename vm then None else Some (File data)) /\
      forall j, j <> k ++ [n] -> j <> k' ++ [m] -> find_node j fs' = find_node j fs.
  Proof.
    intros NC EA ED ET EN PN RP FD CO PR PM BR k' DK NF.
    assert (FR : find_node (resolve cwd p) fs = Some (File data)) by (rewrite RP; exact FD).
    assert (NR : resolve cwd p <> []) by (rewrite RP; destruct k; discriminate).
    rewrite (main_one vm l p fs EA ET (ex_intro _ data FR) NR).
    destruct (one_renamed cwd (new_name z passes md5 w ct cwd l) broken (rename_options vm) p n k fs data m NC ED EN PN PM
                (eq_trans (new_name_eq l fs p data c FR CO) PR) RP FD BR DK NF) as (st & fs' & E & G).
    rewrite E. exists st, fs'. split; [reflexivity|exact G].
  Qed.

  (** No name. *)
  Lemma unnamed_l vm l p fs data c : nv_args vm = [p] -> fst (template_processor Init (given_template vm)) = Ok l ->
    resolve cwd p <> [] -> find_node (resolve cwd p) fs = Some (File data) ->
    context_of z passes md5 w (filename (absolute cwd p)) data = Ok c -> process ct (w_ic w) c l = Throw TemplateError ->
    rename_main z passes md5 w ct cwd broken entries vm fs = ([], (Ok 0, fs)).
  Proof.
    intros EA ET NR FR CO PR. rewrite (main_one vm l p fs EA ET (ex_intro _ data FR) NR). unfold rename_file, fcatch, fbind at 1, flift, destination.
    rewrite (new_name_eq l fs p data c FR CO), PR. reflexivity.
  Qed.
  Lemma failing_l vm l p fs data c e : nv_args vm = [p] -> fst (template_processor Init (given_template vm)) = Ok l ->
    resolve cwd p <> [] -> find_node (resolve cwd p) fs = Some (File data) ->
    context_of z passes md5 w (filename (absolute cwd p)) data = Ok c -> process ct (w_ic w) c l = Throw e -> e <> TemplateError ->
    rename_main z passes md5 w ct cwd broken entries vm fs = ([], (Ok 1, fs)).
  Proof.
    intros EA ET NR FR CO PR NE. rewrite (main_one vm l p fs EA ET (ex_intro _ data FR) NR). unfold rename_file, fcatch, fbind at 1, flift, destination.
    rewrite (new_name_eq l fs p data c FR CO), PR. cbn [bind]. destruct e; try congruence; reflexivity.
  Qed.
End Whole.

(** ** The default template *)
Definition default_terms : list term := [TAacet Artist aacet_default; TText (B " - "); TAacet Title aacet_default; TText (B ".mp3")].
Lemma default_terms_eq : fst (template_processor Init default_template) = Ok default_terms.
Proof. vm_compute. reflexivity. Qed.
Lemma spelt_eq ct ic a : a <> [] -> exists s, xform_and_encode ct ic aacet_default a = Ok s /\ spelt ct a s.
Proof.
  intros NE. assert (NU := article_nonempty ct MakeSuffix a NE). unfold xform_and_encode. cbn [a_the a_cap a_compress a_replace a_out aacet_default].
  destruct (do_the_xform ct a MakeSuffix) as [|c r] eqn:E; [congruence|]. exists (ct_upper ct c :: r). split; [reflexivity|].
  exists (c :: r). split; [apply article_iff; auto|]. apply cased_iff; [discriminate|reflexivity].
Qed.
Lemma value_eq ct ic c k : v2_value c k <> [] -> eval_term ct ic c (TAacet k aacet_default) = xform_and_encode ct ic aacet_default (v2_value c k).
Proof.
  intros NE. rewrite eval_aacet_eq. unfold source_text. rewrite v2_option_value. cbn [a_sp aacet_default].
  destruct (v2_value c k) as [|x r]; [congruence|]. reflexivity.
Qed.
Lemma default_named ct ic c : v2_value c Artist <> [] -> v2_value c Title <> [] ->
  exists a t, spelt ct (v2_value c Artist) a /\ spelt ct (v2_value c Title) t /\ process ct ic c default_terms = Ok (a ++ B " - " ++ t ++ B ".mp3").
Proof.
  intros NA NT. destruct (spelt_eq ct ic _ NA) as (a & EA & SA). destruct (spelt_eq ct ic _ NT) as (t & ET & ST). exists a, t. split; [exact SA|]. split; [exact ST|].
  unfold process, default_terms. cbn [eval_terms]. rewrite (value_eq ct ic c Artist NA), EA. cbn [bind]. cbn [eval_term bind].
  change (eval_aacet ct ic c Title aacet_default) with (eval_term ct ic c (TAacet Title aacet_default)).
  rewrite (value_eq ct ic c Title NT), ET. cbn [bind]. f_equal. rewrite <- !app_assoc. reflexivity.
Qed.
Lemma default_fails ct ic c : v2_value c Artist = [] -> v1_value c Artist <> [] -> no_bom (v1_value c Artist) -> process ct ic c default_terms = Throw InvalidArgument.
Proof.
  intros V2 V1 NB. unfold default_terms.
  change [TAacet Artist aacet_default; TText (B " - "); TAacet Title aacet_default; TText (B ".mp3")]
    with ([TAacet Artist aacet_default] ++ [TText (B " - "); TAacet Title aacet_default; TText (B ".mp3")]).
  rewrite process_app, source_automatic; [reflexivity | reflexivity | right; split; [reflexivity | exact V2] | exact V1 | exact NB].
Qed.

(** ** Names that are paths *)
Lemma join_assoc d a n : plain_name a -> join (join d a) n = join d (a ++ 47 :: n).
Proof.
  intros (NS & NE & _). destruct (exists_last NE) as (a' & c & ->).
  assert (NC : (c =? 47) = false) by (apply N.eqb_neq; intros ->; apply NS; apply in_or_app; right; left; reflexivity).
  assert (J : forall x, join (x ++ a' ++ [c]) n = x ++ (a' ++ [c]) ++ 47 :: n).
  { intros x. unfold join. rewrite app_assoc, rev_app_distr. cbn [rev List.app]. rewrite NC. rewrite <- !app_assoc. reflexivity. }
  unfold join at 2 3. destruct (rev d) as [|b t]; [exact (J [])|]. destruct (b =? 47); [apply J|].
  change (d ++ [47] ++ a' ++ [c]) with (d ++ ([47] ++ (a' ++ [c]))). rewrite app_assoc, J, <- !app_assoc. reflexivity.
Qed.
Lemma not_absolute a n : plain_name a -> is_absolute (a ++ n) = false.
Proof.
  intros (NS & NE & _). destruct a as [|c a]; [congruence|]. cbn [List.app is_absolute]. apply N.eqb_neq. intros ->. apply NS. left. reflexivity.
Qed.
Lemma join_not_nil d a : a <> [] -> join d a <> [].
Proof.
  intros NE. unfold join. destruct (rev d) as [|b t]; [exact NE|]. destruct (b =? 47); intros E; apply app_eq_nil in E as (_ & E); [congruence|discriminate E].
Qed.
Lemma deeper cwd tp o fs p n a m : cwd <> [] -> ends_in_name p n -> plain_name n -> plain_name a -> plain_name m -> tp fs p = Ok (a ++ 47 :: m) ->
  exists out k, destination tp o fs p = Ok out /\ resolve cwd p = k ++ [n] /\
    resolve cwd out = (match ro_output o with [] => k | d => resolve cwd d end) ++ [a; m].
Proof.
  intros NC EN PN PA PM HT. destruct (place cwd (fun _ _ => Ok a) o fs p n a NC EN PN PA eq_refl) as (out & k & DE & RP & RO).
  assert (PQ := not_absolute a (47 :: m) PA). assert (PQ' := not_absolute a [] PA). rewrite app_nil_r in PQ'.
  unfold destination, append_path in DE |- *. rewrite HT. cbn [bind] in DE |- *. rewrite PQ. rewrite PQ' in DE. rewrite <- join_assoc by exact PA.
  injection DE as DE. rewrite DE. exists (join out m), k. split; [reflexivity|]. split; [exact RP|].
  assert (NO : out <> []) by (rewrite <- DE; apply join_not_nil; apply PA).
  rewrite resolve_join by assumption. rewrite RO, <- app_assoc. reflexivity.
Qed.

Section Astray.
  Context (z : zlib) (passes : nat) (md5 : bytes -> bytes) (w : world) (ct : ctype) (cwd : bytes)
          (broken : bytes -> option nat) (entries : bytes -> list bytes).

  Lemma copy_fails from to fail fs : is_dir fs (removelast (resolve cwd to)) = false -> copy_file cwd from to fail fs = ([], (Throw FsError, fs)).
  Proof. intros H. unfold copy_file. cbv zeta. rewrite H. reflexivity. Qed.
  Lemma copy_taken from to fail fs x : find_node (resolve cwd to) fs = Some x -> (exists d, find_node (resolve cwd from) fs = Some (File d)) -> copy_file cwd from to fail fs = ([], (Throw FsError, fs)).
  Proof.
    intros H (d & F). unfold copy_file. cbv zeta. destruct (_ || _); [reflexivity|]. unfold fcopy. rewrite F, H. reflexivity.
  Qed.

  (** A slash in the name, and no such directory. *)
  Lemma slash_l vm l p n k fs data c a m : cwd <> [] -> nv_args vm = [p] -> nv_dry vm = false ->
    fst (template_processor Init (given_template vm)) = Ok l ->
    ends_in_name p n -> plain_name n -> resolve cwd p = k ++ [n] -> find_node (k ++ [n]) fs = Some (File data) -> is_dir fs k = true ->
    context_of z passes md5 w (filename (absolute cwd p)) data = Ok c -> process ct (w_ic w) c l = Ok (a ++ 47 :: m) -> plain_name a -> plain_name m ->
    is_dir fs (match given_output vm with [] => k | d => resolve cwd d end ++ [a]) = false ->
    rename_main z passes md5 w ct cwd broken entries vm fs = ([], (Ok 1, fs)).
  Proof.
    intros NC EA ED ET EN PN RP FD DK CO PR PA PM ND.
    assert (FR : find_node (resolve cwd p) fs = Some (File data)) by (rewrite RP; exact FD).
    assert (NR : resolve cwd p <> []) by (rewrite RP; destruct k; discriminate).
    destruct (deeper cwd (new_name z passes md5 w ct cwd l) (rename_options vm) fs p n a m NC EN PN PA PM (eq_trans (new_name_eq z passes md5 w ct cwd l fs p data c FR CO) PR))
      as (out & k0 & DE & RP' & RO).
    assert (K : k0 = k) by (rewrite RP in RP'; apply app_inj_tail in RP' as (E & _); congruence). subst k0. cbn [ro_output rename_options] in RO.
    set (k' := match given_output vm with [] => k | d => resolve cwd d end) in *.
    assert (PE : path_eqb p out = false).
    { destruct (path_eqb p out) eqn:Q; [|reflexivity]. exfalso.
      assert (NP : p <> []). { destruct EN as [-> | (d & -> & _)]; [apply PN|]. intros E. apply app_eq_nil in E as (_ & E). discriminate E. }
      assert (NO : out <> []). { intros ->. unfold destination in DE. rewrite (new_name_eq z passes md5 w ct cwd l fs p data c FR CO), PR in DE. cbn [bind] in DE. injection DE as DE.
        unfold append_path in DE. rewrite not_absolute in DE by exact PA. apply join_not_nil in DE; [exact DE|]. destruct a; discriminate. }
      assert (R := path_eqb_resolve cwd p out Q NP NO NC). rewrite RP, RO in R. change (k' ++ [a; m]) with (k' ++ ([a] ++ [m])) in R. rewrite app_assoc in R.
      apply app_inj_tail in R as (R & _). rewrite R in DK. exact (Bool.diff_true_false (eq_trans (eq_sym DK) ND)). }
    rewrite (main_one z passes md5 w ct cwd broken entries vm l p fs EA ET (ex_intro _ data FR) NR).
    unfold rename_file, fcatch, fbind at 1, flift. rewrite DE. cbn [ro_dry rename_options]. rewrite ED, PE. cbn [negb andb]. unfold fbind. rewrite copy_fails; [reflexivity|].
    rewrite RO. change (k' ++ [a; m]) with (k' ++ ([a] ++ [m])). rewrite app_assoc, removelast_last. exact ND.
  Qed.

  (** An absolute path as name. *)
  Lemma absolute_l vm l p fs data c r : cwd <> [] -> p <> [] -> nv_args vm = [p] -> nv_dry vm = false ->
    fst (template_processor Init (given_template vm)) = Ok l -> find_node (resolve cwd p) fs = Some (File data) -> resolve cwd p <> [] ->
    context_of z passes md5 w (filename (absolute cwd p)) data = Ok c -> process ct (w_ic w) c l = Ok (47 :: r) -> last r 47 <> 47 -> broken p = None ->
    is_dir fs (removelast (resolve_abs (47 :: r))) = true -> find_node (resolve_abs (47 :: r)) fs = None -> resolve_abs (47 :: r) <> [] ->
    exists st fs', rename_main z passes md5 w ct cwd broken entries vm fs = (st, (Ok 0, fs')) /\
      find_node (resolve_abs (47 :: r)) fs' = Some (File data) /\ find_node (resolve cwd p) fs' = (if nv_rename vm then None else Some (File data)).
  Proof.
    intros NC NP EA ED ET FR NR CO PR LR BR DK NF NE.
    rewrite (main_one z passes md5 w ct cwd broken entries vm l p fs EA ET (ex_intro _ data FR) NR).
    assert (DE : destination (new_name z passes md5 w ct cwd l) (rename_options vm) fs p = Ok (47 :: r)).
    { unfold destination. rewrite (new_name_eq z passes md5 w ct cwd l fs p data c FR CO), PR. reflexivity. }
    assert (RO : resolve cwd (47 :: r) = resolve_abs (47 :: r)) by reflexivity.
    assert (PE : path_eqb p (47 :: r) = false).
    { destruct (path_eqb p (47 :: r)) eqn:Q; [|reflexivity]. exfalso. assert (R := path_eqb_resolve cwd p (47 :: r) Q NP ltac:(discriminate) NC). rewrite RO in R. congruence. }
    assert (LO : (last (47 :: r) 47 =? 47) = false) by (apply N.eqb_neq; destruct r; [exact LR|exact LR]).
    unfold rename_file, fcatch. unfold fbind at 1. unfold flift. rewrite DE. cbn [ro_dry rename_options]. rewrite ED, PE. cbn [negb andb]. unfold fbind, copy_file. cbv zeta.
    rewrite RO, DK. assert (ND : is_dir fs (resolve_abs (47 :: r)) = false) by (unfold is_dir; destruct (resolve_abs (47 :: r)); [congruence|rewrite NF; reflexivity]).
    rewrite ND, LO. cbn [negb orb]. unfold fcopy. rewrite FR, NF, BR.
    assert (OT : resolve cwd p <> resolve_abs (47 :: r)) by congruence. cbn [ro_rename rename_options]. destruct (nv_rename vm).
    - unfold fremove. rewrite find_set_other by exact OT. rewrite FR. eexists. eexists. split; [reflexivity|]. split.
      + rewrite find_del_other by congruence. apply find_set_same.
      + apply find_del_same.
    - eexists. eexists. split; [reflexivity|]. split; [apply find_set_same|]. rewrite find_set_other by exact OT. exact FR.
  Qed.

  (** The name is taken. *)
  Lemma taken_l vm l p rest n k fs data c m x : cwd <> [] -> nv_args vm = p :: rest -> nv_dry vm = false ->
    fst (template_processor Init (given_template vm)) = Ok l ->
    ends_in_name p n -> plain_name n -> resolve cwd p = k ++ [n] -> find_node (k ++ [n]) fs = Some (File data) ->
    context_of z passes md5 w (filename (absolute cwd p)) data = Ok c -> process ct (w_ic w) c l = Ok m -> plain_name m ->
    let k' := match given_output vm with [] => k | d => resolve cwd d end in
    find_node (k' ++ [m]) fs = Some x -> k' ++ [m] <> k ++ [n] ->
    rename_main z passes md5 w ct cwd broken entries vm fs = ([], (Ok 1, fs)).
  Proof.
    intros NC EA ED ET EN PN RP FD CO PR PM k' TK OT.
    assert (FR : find_node (resolve cwd p) fs = Some (File data)) by (rewrite RP; exact FD).
    assert (HT := eq_trans (new_name_eq z passes md5 w ct cwd l fs p data c FR CO) PR).
    destruct (place cwd (new_name z passes md5 w ct cwd l) (rename_options vm) fs p n m NC EN PN PM HT) as (out & k0 & DE & RP' & RO).
    assert (K : k0 = k) by (rewrite RP in RP'; apply app_inj_tail in RP' as (E & _); congruence). subst k0. cbn [ro_output rename_options] in RO. fold k' in RO.
    assert (NP : p <> []). { destruct EN as [-> | (d & -> & _)]; [apply PN|]. intros E. apply app_eq_nil in E as (_ & E). discriminate E. }
    assert (DE2 := DE). unfold destination in DE2. rewrite HT in DE2. cbn [bind] in DE2. injection DE2 as DE2.
    assert (LO : last out 47 <> 47) by (rewrite <- DE2; apply last_plain; exact PM).
    assert (NO : out <> []) by (intros ->; apply LO; reflexivity).
    assert (PE : path_eqb p out = false).
    { destruct (path_eqb p out) eqn:Q; [|reflexivity]. exfalso. assert (R := path_eqb_resolve cwd p out Q NP NO NC). rewrite RP, RO in R. congruence. }
    assert (ND : is_dir fs (resolve cwd p) = false) by (rewrite RP; unfold is_dir; destruct (k ++ [n]) eqn:Q; [destruct k; discriminate Q|rewrite FD; reflexivity]).
    unfold rename_main. rewrite EA, ET. cbn [required hbind proceed conclude_run rename_args]. unfold fbind at 1, rename_arg. rewrite ND, FR.
    unfold rename_file, fcatch. unfold fbind at 1. unfold flift. rewrite DE. cbn [ro_dry rename_options]. rewrite ED, PE. cbn [negb andb].
    unfold fbind. rewrite (copy_taken p out (broken p) fs x); [reflexivity|rewrite RO; exact TK|eauto].
  Qed.
  Lemma unusable_l vm fs : (nv_args vm = [] -> rename_main z passes md5 w ct cwd broken entries vm fs = ([], (Ok 2, fs))) /\
    forall e, nv_args vm <> [] -> fst (template_processor Init (given_template vm)) = Throw e -> rename_main z passes md5 w ct cwd broken entries vm fs = ([], (Ok 1, fs)).
  Proof.
    unfold rename_main. split; [intros ->; reflexivity|]. intros e NE ->. destruct (nv_args vm); [congruence|]. reflexivity.
  Qed.
End Astray.

(** ** The default template, from the tags *)
Section Default.
  Context (z : zlib) (passes : nat) (md5 : bytes -> bytes) (w : world) (ct : ctype) (cwd : bytes)
          (broken : bytes -> option nat) (entries : bytes -> list bytes).
  Lemma default_l vm p n k fs data rev t tr v1 : cwd <> [] -> nv_args vm = [p] -> nv_dry vm = false -> nv_template vm = None ->
    ends_in_name p n -> plain_name n -> resolve cwd p = k ++ [n] -> find_node (k ++ [n]) fs = Some (File data) -> broken p = None ->
    report_read z passes md5 data = Ok (Some (rev, t), tr, v1) ->
    (forall id f u, In id (looked_at (any_version t)) -> In f (with_id id (shown t)) -> f_body f = BText u ->
       exists s, text_as_str (any_version t) (w_ic w) u E_UTF_8 NoFail None = Ok s) ->
    exists T, texts_under (w_ic w) t T /\
      forall a b, t_artist T = Some a -> t_title T = Some b -> a <> [] -> b <> [] ->
        exists a' b', spelt ct a a' /\ spelt ct b b' /\
          let k' := match given_output vm with [] => k | d => resolve cwd d end in
          let m := a' ++ B " - " ++ b' ++ B ".mp3" in
          plain_name m -> is_dir fs k' = true -> find_node (k' ++ [m]) fs = None ->
          exists st fs', rename_main z passes md5 w ct cwd broken entries vm fs = (st, (Ok 0, fs')) /\
            find_node (k' ++ [m]) fs' = Some (File data) /\ find_node (k ++ [n]) fs' = (if nv_rename vm then None else Some (File data)) /\
            forall j, j <> k ++ [n] -> j <> k' ++ [m] -> find_node j fs' = find_node j fs.
  Proof.
    intros NC EA ED EM EN PN RP FD BR R H.
    destruct (context_there z passes md5 w (filename (absolute cwd p)) data (Some (rev, t)) tr v1 R) as (c & C).
    { intros rev' t' id f u E. injection E as <- <-. apply H. }
    destruct (context_known z passes md5 w (filename (absolute cwd p)) data c C) as (v2 & tr' & v1' & R' & _ & _ & _ & K & _).
    rewrite R in R'. injection R' as <- <- <-. destruct (c_v2 c) as [T|] eqn:EC; [|destruct K]. exists T. split; [exact K|].
    intros a b TA TB NA NB.
    assert (VA : v2_value c Artist = a) by (unfold v2_value; rewrite EC, TA; reflexivity). assert (VB : v2_value c Title = b) by (unfold v2_value; rewrite EC, TB; reflexivity).
    destruct (default_named ct (w_ic w) c) as (a' & b' & SA & SB & P); [rewrite VA; exact NA|rewrite VB; exact NB|]. rewrite VA in SA. rewrite VB in SB.
    exists a', b'. split; [exact SA|]. split; [exact SB|]. intros k' m PM DK NF.
    assert (ET : fst (template_processor Init (given_template vm)) = Ok default_terms) by (unfold given_template; rewrite EM; exact default_terms_eq).
    exact (renamed_l z passes md5 w ct cwd broken entries vm default_terms p n k fs data c m NC EA ED ET EN PN RP FD C P PM BR DK NF).
  Qed.
End Default.

(** ** Several files *)
Section Several.
  Context (z : zlib) (passes : nat) (md5 : bytes -> bytes) (w : world) (ct : ctype) (cwd : bytes)
          (broken : bytes -> option nat) (entries : bytes -> list bytes) (vm : rename_vm) (l : list term).
  Hypotheses (NC : cwd <> []) (ED : nv_dry vm = false).
  Let go := rename_args cwd (new_name z passes md5 w ct cwd l) broken (rename_options vm) entries.

  Lemma is_dir_kept fs fs' k : find_node k fs' = find_node k fs -> is_dir fs' k = is_dir fs k.
  Proof. intros H. unfold is_dir. destruct k; [reflexivity|rewrite H; reflexivity]. Qed.
  Lemma is_dir_file fs k d : k <> [] -> find_node k fs = Some (File d) -> is_dir fs k = false.
  Proof. intros H F. unfold is_dir. destruct k; [congruence|rewrite F; reflexivity]. Qed.
  Lemma is_dir_none fs k : k <> [] -> find_node k fs = None -> is_dir fs k = false.
  Proof. intros H F. unfold is_dir. destruct k; [congruence|rewrite F; reflexivity]. Qed.

  Lemma several_l xs : forall fs, Forall (well_placed cwd vm fs) xs -> Forall (well_named z passes md5 w ct cwd l) xs -> Forall (fun x => broken (rn_path x) = None) xs ->
    NoDup (map rn_source xs) -> NoDup (map (rn_target cwd vm) xs) ->
    exists st fs', go (map rn_path xs) fs = (st, (Ok tt, fs')) /\
      Forall (fun x => find_node (rn_target cwd vm x) fs' = Some (File (rn_data x)) /\
                       find_node (rn_source x) fs' = if nv_rename vm then None else Some (File (rn_data x))) xs /\
      forall j, ~ In j (map rn_source xs) -> ~ In j (map (rn_target cwd vm) xs) -> find_node j fs' = find_node j fs.
  Proof.
    induction xs as [|x xs IH]; intros fs HP HN HB DS DT.
    - exists [], fs. split; [reflexivity|]. split; [constructor|auto].
    - inversion HP as [|y ys (EN & PN & PM & RP & FD & DK & NF) HP']; subst. inversion HN as [|y ys (c & ss & CO & RG & SH & NM) HN']; subst.
      inversion HB as [|y ys BR HB']; subst. cbn [map] in DS, DT. inversion DS as [|y ys NS DS']; subst. inversion DT as [|y ys NT DT']; subst.
      assert (FR : find_node (resolve cwd (rn_path x)) fs = Some (File (rn_data x))) by (rewrite RP; exact FD).
      assert (P : process ct (w_ic w) c l = Ok (rn_new x)) by (apply template_l; [exact RG|exists ss; auto]).
      assert (HT := eq_trans (new_name_eq z passes md5 w ct cwd l fs (rn_path x) (rn_data x) c FR CO) P).
      destruct (one_renamed cwd (new_name z passes md5 w ct cwd l) broken (rename_options vm) (rn_path x) (rn_old x) (rn_dir x) fs (rn_data x) (rn_new x) NC ED EN PN PM HT RP FD BR DK NF)
        as (st & fs1 & E & T1 & S1 & O1).
      change (find_node (rn_target cwd vm x) fs1 = Some (File (rn_data x))) in T1. change (find_node (rn_source x) fs1 = if nv_rename vm then None else Some (File (rn_data x))) in S1.
      change (forall j, j <> rn_source x -> j <> rn_target cwd vm x -> find_node j fs1 = find_node j fs) in O1.
      assert (ST : forall y, In y xs -> find_node (rn_source y) fs1 = find_node (rn_source y) fs /\ find_node (rn_target cwd vm y) fs1 = find_node (rn_target cwd vm y) fs).
      { intros y IY. assert (PY := proj1 (Forall_forall _ _) HP' y IY). destruct PY as (_ & _ & _ & _ & FY & _ & NY). split; apply O1.
        - intros Q. apply NS. rewrite <- Q. apply in_map. exact IY.
        - intros Q. rewrite Q in FY. congruence.
        - intros Q. rewrite Q in NY. congruence.
        - intros Q. apply NT. rewrite <- Q. apply in_map. exact IY. }
      assert (DD : forall d, is_dir fs d = true -> is_dir fs1 d = true).
      { intros d HD. destruct d as [|d0 dr]; [reflexivity|]. rewrite (is_dir_kept fs fs1); [exact HD|]. apply O1.
        - intros Q. rewrite (is_dir_file fs (d0 :: dr) (rn_data x)) in HD; [discriminate HD|discriminate|rewrite Q; exact FD].
        - intros Q. rewrite (is_dir_none fs (d0 :: dr)) in HD; [discriminate HD|discriminate|rewrite Q; exact NF]. }
      destruct (IH fs1) as (st2 & fs2 & E2 & G2 & O2); [|exact HN'|exact HB'|exact DS'|exact DT'|].
      { apply Forall_forall. intros y IY. assert (PY := proj1 (Forall_forall _ _) HP' y IY). destruct PY as (A1 & A2 & A3 & A4 & A5 & A6 & A7). destruct (ST y IY) as (U1 & U2).
        split; [exact A1|]. split; [exact A2|]. split; [exact A3|]. split; [exact A4|]. split; [rewrite U1; exact A5|]. split; [|rewrite U2; exact A7].
        exact (DD _ A6). }
      exists (st ++ st2), fs2. split; [|split].
      + unfold go in *. cbn [map rename_args]. unfold fbind, rename_arg. rewrite (is_dir_file fs (resolve cwd (rn_path x)) (rn_data x)); [|rewrite RP; unfold rn_source; destruct (rn_dir x); discriminate|exact FR].
        rewrite FR, E, E2. reflexivity.
      + constructor; [|exact G2]. split.
        * rewrite O2; [exact T1|..].
          -- intros Q. apply in_map_iff in Q as (y & Q & IY). destruct (proj1 (Forall_forall _ _) HP' y IY) as (_ & _ & _ & _ & FY & _). rewrite Q in FY. pose proof (eq_trans (eq_sym FY) NF) as K. discriminate K.
          -- exact NT.
        * rewrite O2; [exact S1|exact NS|]. intros Q. apply in_map_iff in Q as (y & Q & IY). destruct (proj1 (Forall_forall _ _) HP' y IY) as (_ & _ & _ & _ & _ & _ & NY). rewrite Q in NY. congruence.
      + intros j J1 J2. cbn [map In] in J1, J2. rewrite O2 by tauto. apply O1; intros Q; subst j; tauto.
  Qed.
  Lemma several_main xs fs : nv_args vm = map rn_path xs -> xs <> [] -> fst (template_processor Init (given_template vm)) = Ok l ->
    Forall (well_placed cwd vm fs) xs -> Forall (well_named z passes md5 w ct cwd l) xs -> Forall (fun x => broken (rn_path x) = None) xs ->
    NoDup (map rn_source xs) -> NoDup (map (rn_target cwd vm) xs) ->
    exists st fs', rename_main z passes md5 w ct cwd broken entries vm fs = (st, (Ok 0, fs')) /\
      Forall (fun x => find_node (rn_target cwd vm x) fs' = Some (File (rn_data x)) /\
                       find_node (rn_source x) fs' = if nv_rename vm then None else Some (File (rn_data x))) xs /\
      forall j, ~ In j (map rn_source xs) -> ~ In j (map (rn_target cwd vm) xs) -> find_node j fs' = find_node j fs.
  Proof.
    intros EA NE ET HP HN HB DS DT. destruct (several_l xs fs HP HN HB DS DT) as (st & fs' & E & G). exists st, fs'. split; [|exact G].
    unfold rename_main. rewrite ET. unfold go in E. rewrite <- EA in E. unfold required. destruct (nv_args vm) as [|a r] eqn:EV; [destruct xs; [congruence|discriminate EA]|].
    unfold proceed, hbind, conclude_run. rewrite E. reflexivity.
  Qed.
End Several.
