(** * Proofs: what the words of m3u, split and encodings lead to. *)
From Verif Require Import Base M_Ints M_Stream M_Id3v1 M_Payload M_Frame M_Tag22 M_Tag23 M_Tag24 M_Charset M_Encodings M_TextId M_Lookup M_Mp3 M_Track M_Read M_Fs L_Fs
  M_Tagset M_Process M_Dirent M_Popm M_Cmds M_Xtag M_Options S_Options L_Options M_Split S_Split L_Split M_Csv M_Report M_Tbt M_Rename L_Rename M_M3u M_Dump M_JsonDump M_CsvDump
  M_Outputs L_Outputs M_Naming M_Main S_Main L_Main M_Po S_Po L_Po L_Po2 L_Po3 M_Program S_Program L_Program L_Program2.
#[local] Open Scope N_scope.

(** ** Names that no option has *)
Lemma get_set_other {A} k k' (v : A) l : k <> k' -> get_var k (set_var k' v l) = get_var k l.
Proof.
  intros N1. induction l as [|(a, x) r IH]; cbn [set_var get_var].
  - rewrite bytes_neqb; [reflexivity|]. intros X. now apply N1.
  - destruct (bytes_eqb_spec a k') as [->|N2]; cbn [get_var].
    + rewrite bytes_neqb; [|intros X; now apply N1]. reflexivity.
    + destruct (bytes_eqb a k); [reflexivity|exact IH].
Qed.
Lemma defaults_other k : forall ds vals, ~ In k (map d_long ds) -> get_var k (store_defaults ds vals) = get_var k vals.
Proof.
  induction ds as [|d r IH]; intros vals N1; [reflexivity|]. cbn [store_defaults]. cbn [map In] in N1. rewrite IH; [|tauto].
  destruct (get_var (d_long d) vals); [reflexivity|]. destruct (d_default d); [|reflexivity]. apply get_set_other. intros ->. apply N1. now left.
Qed.
Lemma store_other ds ps m m' k : sane ds -> Forall (fun p => hd 0 (fst p) <> 45) ps -> store ds ps m = proceed m' -> ~ In k (map d_long ds) -> get_var k (m_vals m') = get_var k (m_vals m).
Proof.
  intros S H E N1. unfold store in E. apply hbind_inv in E. destruct E as ((vals, new) & P & E). apply proceed_inj in E. subst m'. cbn [m_vals]. rewrite defaults_other by exact N1.
  destruct (store_sound _ _ S _ _ _ _ _ H P) as (_ & C & _ & K). apply C. destruct (in_dec (list_eq_dec N.eq_dec) k (map fst ps)) as [I|I]; [|now left].
  destruct (in_dec (list_eq_dec N.eq_dec) k (m_final m)) as [J|J]; [now right|]. destruct (K k I J) as (d & X & <-). exfalso. apply N1. now apply in_map.
Qed.
Lemma gather_other T tokens vars m k : fit T -> gather T tokens vars = Handled (Ok (inr m)) -> ~ In k (map d_long (t_all T)) -> value_of m k = None.
Proof.
  intros Ft G N1. destruct (gather_inv _ _ _ _ G) as (os & m1 & P & S1 & S2). destruct (line_delivered T tokens os Ft P) as (Kn & _).
  unfold value_of. rewrite (store_other _ _ _ _ k (f_opts _ Ft) (parse_hd T vars Ft) S2).
  - rewrite (store_other _ _ _ _ k (f_all _ Ft) (known_hd _ _ (f_all _ Ft) Kn) S1 N1). reflexivity.
  - intros I. apply N1. apply in_map_iff in I. destruct I as (d & <- & I). apply in_map. exact (f_incl _ Ft d I).
Qed.
Lemma required_there T tokens vars m d : gather T tokens vars = Handled (Ok (inr m)) -> In d (t_all T) -> d_required d = true -> value_of m (d_long d) <> None.
Proof.
  unfold gather. intros G I R. apply hbind_inv in G. destruct G as (os & E & G). destruct (parsed_help (map q_tokens os) HelpNone None) as [h f]. destruct h; try discriminate G.
  apply hbind_inv in G. destruct G as (m1 & S1 & G). apply hbind_inv in G. destruct G as (m2 & S2 & G). apply hbind_inv in G. destruct G as (u & Nt & G).
  apply proceed_inj in G. injection G as <-. unfold notify in Nt. destruct (forallb _ (t_all T)) eqn:Fa; [|discriminate Nt]. rewrite forallb_forall in Fa. specialize (Fa d I). rewrite R in Fa.
  cbn [negb orb] in Fa. unfold value_of. destruct (get_var (d_long d) (m_vals m2)) as [(v, b)|]; [discriminate|discriminate Fa].
Qed.

(** ** m3u *)
Lemma m3u_in : In m3u_tables commands. Proof. cbn; tauto. Qed.
Definition m3u_fit : fit m3u_tables := commands_fit m3u_tables m3u_in.
Lemma m3u_no_source tokens vars m : gather m3u_tables tokens vars = Handled (Ok (inr m)) -> mv_source (m3u_vars m) = None.
Proof.
  intros G. unfold m3u_vars. cbn [mv_source]. unfold as_enc, as_value.
  assert (X : value_of m (B "encoding") = None) by (apply (gather_other m3u_tables tokens vars m (B "encoding") m3u_fit G); apply exists_not; vm_compute; reflexivity).
  unfold value_of in X. destruct (get_var (B "encoding") (m_vals m)) as [(v, b)|]; [discriminate X|reflexivity].
Qed.
Lemma without_on_line k cl d : d_long d <> B k -> on_line (without k cl) d = on_line cl d.
Proof.
  intros N1. unfold on_line, without. f_equal. induction cl as [|p r IH]; [reflexivity|]. cbn [filter].
  destruct (bytes_eqb_spec (fst p) (B k)) as [E|E]; cbn [negb].
  - rewrite IH. rewrite bytes_neqb; [reflexivity|]. intros X. apply N1. congruence.
  - cbn [filter]. rewrite IH. reflexivity.
Qed.
Lemma worth_same T cl cl' vars d v : on_line cl d = on_line cl' d -> worth T cl vars d v -> worth T cl' vars d v.
Proof.
  intros E W. destruct W as [v A C|v A C D|v A C D|A C D X].
  - apply by_line; rewrite <- E; assumption.
  - apply by_env; rewrite <- ?E; assumption.
  - apply by_default; rewrite <- ?E; assumption.
  - apply by_none; rewrite <- ?E; assumption.
Qed.
Lemma m3u_same m m' : (forall k, In k ["output"; "append"; "use-utf8"; "on-encoding-failure"; "arguments"]%string -> as_value m k = as_value m' k) -> mv_source (m3u_vars m) = mv_source (m3u_vars m') ->
  m3u_vars m = m3u_vars m'.
Proof.
  intros H E. unfold m3u_vars in *. cbn [mv_source] in E. rewrite E. unfold as_text, as_switch, as_noenc, as_texts. rewrite !H by (cbn; tauto). reflexivity.
Qed.
Lemma m3u_source z passes e entries w loc helped tokens tokens' cl cl' vars : in_order m3u_tables tokens cl vars -> in_order m3u_tables tokens' cl' vars ->
  without "source-encoding" cl = without "source-encoding" cl' ->
  m3u_command z passes e entries w loc helped tokens vars = m3u_command z passes e entries w loc helped tokens' vars.
Proof.
  intros (L & R & NH & KV & W) (L' & R' & NH' & KV' & W') E.
  destruct (command_values m3u_tables tokens cl vars m3u_in L R NH KV W) as (m & G & V). destruct (command_values m3u_tables tokens' cl' vars m3u_in L' R' NH' KV' W') as (m' & G' & V').
  assert (X : m3u_vars m = m3u_vars m').
  { apply m3u_same; [|now rewrite (m3u_no_source _ _ _ G), (m3u_no_source _ _ _ G')].
    intros k I. assert (D : exists d, In d (t_all m3u_tables) /\ d_long d = B k /\ d_long d <> B "source-encoding").
    { destruct I as [<-|[<-|[<-|[<-|[<-|[]]]]]].
      - exists (option_of KPath "output" "o"). split; [cbn; tauto|]. split; [reflexivity|discriminate].
      - exists (switch "append" "a"). split; [cbn; tauto|]. split; [reflexivity|discriminate].
      - exists (switch "use-utf8" "8"). split; [cbn; tauto|]. split; [reflexivity|discriminate].
      - exists (defaulting KNoenc (VNoenc NoFail) "on-encoding-failure" "e"). split; [cbn; tauto|]. split; [reflexivity|discriminate].
      - exists (option_of KTexts "arguments" ""). split; [cbn; tauto|]. split; [reflexivity|discriminate]. }
    destruct D as (d & J & Ek & N1). destruct (W d J) as (v & Wv). unfold as_value. pose proof (V d J v Wv) as A. rewrite Ek in A.
    assert (Wv' : worth m3u_tables cl' vars d v). { apply (worth_same _ cl); [|exact Wv]. now rewrite <- (without_on_line "source-encoding" cl d N1), E, without_on_line. }
    pose proof (V' d J v Wv') as A'. rewrite Ek in A'. unfold value_of in A, A'. now rewrite A, A'. }
  unfold m3u_command, after_options. rewrite G, G', X. reflexivity.
Qed.

Lemma value_as m k v : value_of m (B k) = v -> as_value m k = v.
Proof. now intros <-. Qed.
Lemma m3u_plain_switch tokens cl vars m k s : In (switch k s) (t_all m3u_tables) -> line m3u_tables tokens cl -> gather m3u_tables tokens vars = Handled (Ok (inr m)) ->
  B k <> B "arguments" -> (In (B k, []) cl -> as_switch m k = true) /\ (~ has_option k cl -> as_switch m k = false).
Proof.
  intros I L G NA. destruct (line_meant m3u_tables tokens cl (f_all _ m3u_fit) L Logic.I) as (os & P & E & _). destruct (gather_line m3u_tables tokens vars m os m3u_fit G P) as (_ & _ & V).
  pose proof (switch_on_line m3u_tables tokens vars m os (switch k s) m3u_fit G P I eq_refl NA) as O. split.
  - intros J. destruct O as [O|O].
    + exfalso. unfold named in O. rewrite E in O. apply on_line_none in O. apply O. exact (in_map fst _ _ J).
    + assert (Y : yields m3u_tables (named os) vars (switch k s) (Some (VSwitch true))) by (apply yield_line; rewrite O; [discriminate|reflexivity]).
      unfold as_switch. rewrite (value_as m k _ (V _ I _ Y)). reflexivity.
  - intros N1. assert (Y : yields m3u_tables (named os) vars (switch k s) (Some (VSwitch false))).
    { apply yield_default; [|clear; unfold in_env; cbn [t_env m3u_tables]; induction vars as [|a r IH]; [reflexivity|exact IH]|reflexivity].
      unfold named. rewrite E. apply on_line_none. exact N1. }
    unfold as_switch. rewrite (value_as m k _ (V _ I _ Y)). reflexivity.
Qed.
Lemma m3u_no_output tokens cl vars m : line m3u_tables tokens cl -> ~ has_option "output" cl -> gather m3u_tables tokens vars = Handled (Ok (inr m)) -> as_text m "output" = None.
Proof.
  intros L N1 G. unfold as_text.
  rewrite (value_as m "output" None (no_value m3u_tables tokens cl vars m (option_of KPath "output" "o") m3u_fit L Logic.I ltac:(cbn; tauto) N1 eq_refl eq_refl G)). reflexivity.
Qed.
Lemma m3u_misused z passes e entries w loc helped tokens cl vars fs : in_order m3u_tables tokens cl vars -> ~ has_option "output" cl ->
  In (B "append", []) cl \/ In (B "use-utf8", []) cl -> m3u_command z passes e entries w loc helped tokens vars fs = ([], (Ok 2, fs)).
Proof.
  intros (L & R & NH & KV & W) N1 A. destruct (command_values m3u_tables tokens cl vars m3u_in L R NH KV W) as (m & G & V).
  unfold m3u_command, after_options. rewrite G. unfold m3u_main, m3u_vars. cbn [mv_output mv_append mv_utf8 mv_args mv_noenc mv_source].
  rewrite (m3u_no_output tokens cl vars m L N1 G).
  pose proof (proj1 (m3u_plain_switch tokens cl vars m "append" "a" ltac:(cbn; tauto) L G ltac:(discriminate))) as Sa.
  pose proof (proj1 (m3u_plain_switch tokens cl vars m "use-utf8" "8" ltac:(cbn; tauto) L G ltac:(discriminate))) as Su.
  destruct A as [A|A]; [rewrite (Sa A); reflexivity|]. rewrite (Su A). destruct (as_switch m "append"); reflexivity.
Qed.
Lemma m3u_no_arguments z passes e entries w loc helped tokens cl vars fs : in_order m3u_tables tokens cl vars -> ~ has_option "arguments" cl ->
  ~ has_option "append" cl -> ~ has_option "use-utf8" cl -> m3u_command z passes e entries w loc helped tokens vars fs = ([], (Ok 1, fs)).
Proof.
  intros (L & R & NH & KV & W) N1 Na Nu. destruct (command_values m3u_tables tokens cl vars m3u_in L R NH KV W) as (m & G & V).
  unfold m3u_command, after_options. rewrite G. unfold m3u_main, m3u_vars. cbn [mv_output mv_append mv_utf8 mv_args mv_noenc mv_source].
  rewrite (proj2 (m3u_plain_switch tokens cl vars m "append" "a" ltac:(cbn; tauto) L G ltac:(discriminate)) Na).
  rewrite (proj2 (m3u_plain_switch tokens cl vars m "use-utf8" "8" ltac:(cbn; tauto) L G ltac:(discriminate)) Nu).
  assert (X : as_texts m "arguments" = None).
  { unfold as_texts. rewrite (value_as m "arguments" None (no_value m3u_tables tokens cl vars m (option_of KTexts "arguments" "") m3u_fit L Logic.I ltac:(cbn; tauto) N1 eq_refl eq_refl G)). reflexivity. }
  rewrite X. reflexivity.
Qed.

(** ** split *)
Lemma split_in : In split_tables commands. Proof. cbn; tauto. Qed.
Definition split_fit : fit split_tables := commands_fit split_tables split_in.
Lemma once_text ls o : fold_parse KText None ls = proceed o -> (List.length ls <= 1)%nat.
Proof.
  destruct ls as [|a [|c r]]; [cbn; lia|cbn; lia|]. intros E. exfalso. cbn [fold_parse] in E. apply hbind_inv in E. destruct E as (v & _ & E).
  apply hbind_inv in E. destruct E as (v2 & E & _). cbn [parse_value first hbind] in E. discriminate E.
Qed.
Lemma split_one helped e tokens cl vars fs : line split_tables tokens cl -> no_help tokens -> arguments split_tables cl <> 1%nat ->
  split_command e helped tokens vars fs = ([], (Ok 2, fs)).
Proof.
  intros L NH N1. assert (U : gather split_tables tokens vars = UsageError).
  { destruct (gather_strict split_tables tokens vars split_fit (fun d J => no_throwers split_tables ltac:(cbn; tauto) d (in_map _ _ _ J))) as [U|(a & U)]; [exact U|]. exfalso.
    destruct (line_parsed split_tables tokens cl (f_all _ split_fit) L (List.length tokens) (le_n _)) as (os & E & M & D).
    assert (X : exists os', parse_line (t_all split_tables) (t_name split_tables) (t_room split_tables) tokens = proceed os' /\ named os' = cl /\ made_of os' tokens).
    { pose proof U as U'. unfold gather in U'. apply hbind_inv in U'. destruct U' as (os' & P & _). exists os'. split; [exact P|]. unfold parse_line in P. rewrite E, hbind_ok in P.
      pose proof (name_inv _ _ _ _ P) as ->. split.
      - unfold named. rewrite map_map. cbn [q_key q_words]. exact M.
      - intros o t I J. apply in_map_iff in I. destruct I as (o' & <- & I). exact (D o' t I J). }
    destruct X as (os' & P & En & Mo). destruct a as [h|m].
    - unfold gather in U. rewrite P, hbind_ok, (help_none os' tokens Mo NH) in U. apply hbind_inv in U. destruct U as (m1 & _ & U). apply hbind_inv in U. destruct U as (m2 & _ & U).
      apply hbind_inv in U. destruct U as (u & _ & U). discriminate U.
    - pose (d := demanded KText "argument" ""). assert (I : In d (t_all split_tables)) by (cbn; tauto).
      destruct (gather_line split_tables tokens vars m os' split_fit U P) as (F & _ & V). destruct (F d I) as (o & Fo). apply once_text in Fo. rewrite En in *.
      assert (Z : List.length (on_line cl d) = arguments split_tables cl) by (unfold on_line, arguments; now rewrite map_length).
      destruct (on_line cl d) as [|a [|c r]] eqn:On; [|apply N1; rewrite <- Z; reflexivity|cbn in Fo; lia].
      apply (required_there split_tables tokens vars m d U I eq_refl). apply (V d I). apply yield_none; [exact On|clear; unfold in_env; cbn [t_env split_tables]; induction vars as [|a r IH]; [reflexivity|exact IH]|reflexivity]. }
  unfold split_command, after_options. rewrite U. reflexivity.
Qed.
Lemma split_goes helped e tokens cl vars fs p s : in_order split_tables tokens cl vars -> worth split_tables cl vars (demanded KText "argument" "") (Some (VText p)) ->
  worth split_tables cl vars (defaulting KText (VText []) "suffix" "") (Some (VText s)) ->
  split_command e helped tokens vars fs = conclude_run (proceed (split_file (e_cwd e) p s)) fs.
Proof.
  intros (L & R & NH & KV & W) Wp Ws. destruct (command_values split_tables tokens cl vars split_in L R NH KV W) as (m & G & V).
  unfold split_command, after_options. rewrite G. unfold split_main. unfold as_text.
  rewrite (value_as m "argument" _ (V (demanded KText "argument" "") ltac:(cbn; tauto) _ Wp)), (value_as m "suffix" _ (V (defaulting KText (VText []) "suffix" "") ltac:(cbn; tauto) _ Ws)). reflexivity.
Qed.
Lemma conclude_zero m fs st fs' : conclude_run (proceed m) fs = (st, (Ok 0, fs')) -> exists a, m fs = (st, (Ok a, fs')).
Proof. unfold conclude_run, proceed. destruct (m fs) as (l & [a|x|u|] & fs1); intros E; try discriminate E. injection E as <- <-. now exists a. Qed.
Lemma conclude_states m fs : snd (snd (conclude_run (proceed m) fs)) = snd (snd (m fs)) /\ fst (conclude_run (proceed m) fs) = fst (m fs).
Proof. unfold conclude_run, proceed. destruct (m fs) as (l & [a|x|u|] & fs1); split; reflexivity. Qed.

(** ** encodings *)
Definition encodings_tables : tables := mkTables encodings_all [] [] [] None.
Lemma encodings_line l : Forall no_option l -> line encodings_tables l (map (fun s => ([], [s])) l).
Proof.
  induction 1 as [|s l F H IH]; [constructor|]. cbn [map]. apply (line_more encodings_tables [s] [([], [s])]); [now apply an_argument|exact IH].
Qed.
Lemma encodings_ignored helped l vars fs : Forall no_option l -> encodings_command helped l vars fs = ([], (Ok 0, fs)).
Proof.
  intros F. assert (Sn : sane encodings_all) by (apply sane_ok; vm_compute; reflexivity).
  destruct (line_parsed encodings_tables l _ Sn (encodings_line l F) (List.length l) (le_n _)) as (os & E & M & D).
  assert (NH : no_help l) by (intros t I; apply no_option_help; exact (proj1 (Forall_forall _ _) F t I)).
  unfold encodings_command. cbn [t_all encodings_tables] in E. rewrite E, hbind_ok, (help_none os l D NH).
  assert (X : filter (fun p : bytes * list bytes => negb (bytes_eqb (fst p) [])) (map (fun o => (q_key o, q_words o)) os) = []).
  { assert (Y : map (fun o => (q_key o, q_words o)) os = map (fun s => ([], [s])) l).
    { rewrite <- M. unfold meant. apply map_ext. intros o. cbn [t_name encodings_tables]. now destruct (q_key o). }
    rewrite Y. clear. induction l as [|s l IH]; [reflexivity|exact IH]. }
  rewrite X. reflexivity.
Qed.

(** ** What must be there *)
Lemma no_env_for T vars d : existsb (fun q => bytes_eqb (snd q) (d_long d)) (t_env T) = false -> in_env T vars d = [].
Proof.
  intros H. unfold in_env. replace (filter _ vars) with (@nil (bytes * bytes)); [reflexivity|]. symmetry. induction vars as [|p r IH]; [reflexivity|]. cbn [filter].
  replace (existsb _ (t_env T)) with false; [exact IH|]. symmetry. revert H. generalize (t_env T). clear. induction l as [|q l IH]; intros H; [reflexivity|]. cbn [existsb] in *.
  apply orb_false_elim in H. destruct H as (A & C). rewrite A, andb_false_r. cbn [orb]. now apply IH.
Qed.
Definition required_alone (T : tables) : bool :=
  forallb (fun d => negb (d_required d) || (negb (existsb (fun q => bytes_eqb (snd q) (d_long d)) (t_env T)) && match d_default d with None => true | Some _ => false end)) (t_all T).
Lemma required_all T : In T commands -> required_alone T = true.
Proof. intros [<-|[<-|[<-|[<-|[<-|[<-|[<-|[<-|[<-|[]]]]]]]]]]; vm_compute; reflexivity. Qed.
Lemma required_lacking T tokens cl vars d : In T commands -> line T tokens cl -> enough_room T cl -> In d (t_all T) -> d_required d = true -> ~ In (d_long d) (map fst cl) ->
  forall m, gather T tokens vars <> Handled (Ok (inr m)).
Proof.
  intros IT L R I Rq NI m G. pose proof (commands_fit T IT) as Ft. pose proof (required_all T IT) as Q. unfold required_alone in Q. rewrite forallb_forall in Q. specialize (Q d I). rewrite Rq in Q.
  cbn [negb orb] in Q. apply andb_prop in Q. destruct Q as (Q & D). apply negb_true_iff in Q. destruct (d_default d) eqn:Dd; [discriminate D|].
  destruct (line_meant T tokens cl (f_all _ Ft) L R) as (os & P & E & _). destruct (gather_line T tokens vars m os Ft G P) as (_ & _ & V).
  apply (required_there T tokens vars m d G I Rq). apply (V d I). apply yield_none; [|now apply no_env_for|exact Dd]. unfold named. rewrite E. now apply on_line_none.
Qed.
Lemma lacking_ends T helped go tokens cl vars fs d : In T commands -> line T tokens cl -> enough_room T cl -> no_help tokens -> In d (t_all T) -> d_required d = true ->
  ~ In (d_long d) (map fst cl) -> exists n, In n [1; 2] /\ after_options T helped go tokens vars fs = ([], (Ok n, fs)).
Proof.
  intros IT L R NH I Rq NI. pose proof (required_lacking T tokens cl vars d IT L R I Rq NI) as X. unfold after_options.
  destruct (gather_proper T tokens vars) as [E|[([h|m] & E)|(x & E)]].
  - rewrite E. exists 2. split; [right; now left|reflexivity].
  - exfalso. rewrite (gather_by_line T tokens cl vars IT L R NH) in E. apply hbind_inv in E. destruct E as (m1 & _ & E). apply hbind_inv in E. destruct E as (m2 & _ & E).
    apply hbind_inv in E. destruct E as (u & _ & E). discriminate E.
  - now destruct (X m).
  - rewrite E. exists 1. split; [now left|reflexivity].
Qed.
