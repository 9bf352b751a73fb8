(** * Lemmas: the tables, and the commands. *)
From Verif Require Import Base S_Ints M_Ints M_Stream M_Id3v1 M_Payload M_Frame M_Tag22 M_Tag23 M_Tag24 M_Charset M_Encodings M_TextId M_Lookup M_Read M_Fs M_Split
  M_Tagset M_Process M_Dirent M_Popm M_Cmds M_Xtag M_Options S_Options L_Options M_Main S_Main L_Main S_Popm M_Po S_Po L_Po L_Po2.
#[local] Open Scope N_scope.

(** ** The tables *)
Definition fit_b (T : tables) : bool :=
  sane_b (t_all T) && sane_b (t_opts T) && nodup_b (map fst (t_env T)) && forallb (fun p => negb (hd 0 (snd p) =? 45)) (t_env T) &&
  existsb (bytes_eqb (t_name T)) (map d_long (t_all T)).
Lemma fit_ok T : fit_b T = true -> incl (t_opts T) (t_all T) -> fit T.
Proof.
  unfold fit_b. intros H I. apply andb_prop in H. destruct H as (H & E). apply andb_prop in H. destruct H as (H & D). apply andb_prop in H. destruct H as (H & C).
  apply andb_prop in H. destruct H as (A & F). constructor; [now apply sane_ok|now apply sane_ok|exact I|now apply nodup_b_ok| |now apply exists_in].
  apply Forall_forall. intros p J. rewrite forallb_forall in D. specialize (D p J). intros X. rewrite X in D. discriminate D.
Qed.
Lemma in_middle {A} (a b c : list A) : incl b (a ++ b ++ c).
Proof. intros x I. apply in_or_app. right. apply in_or_app. now left. Qed.
Lemma commands_fit T : In T commands -> fit T.
Proof.
  intros [<-|[<-|[<-|[<-|[<-|[<-|[<-|[<-|[<-|[]]]]]]]]]]; (apply fit_ok; [vm_compute; reflexivity|]); try apply in_middle; intros x [].
Qed.
Lemma line_known T tokens cl : fit T -> line T tokens cl -> forall k, In k (map fst cl) -> exists d, In d (t_all T) /\ d_long d = k.
Proof.
  intros Ft L. pose proof (f_name _ Ft) as N0. apply in_map_iff in N0. destruct N0 as (a & Ea & Ia).
  induction L as [|l|ts ps us qs Sp L IH]; intros k I.
  - destruct I.
  - rewrite map_map in I. apply in_map_iff in I. destruct I as (s & <- & _). now exists a.
  - rewrite map_app in I. apply in_app_or in I. destruct I as [I|I]; [|now apply IH]. destruct Sp as [p d P K|cs l N1 F K|p d v P K N1|p d v P K N1|c d v P K N1|c d v P K N1|s N1].
    + destruct I as [<-|[]]. exists d. split; [exact (proj1 P)|reflexivity].
    + rewrite map_map in I. cbn [fst] in I. apply in_map_iff in I. destruct I as (d & <- & I). exists d. split; [|reflexivity].
      clear -F I. induction F as [|c x cs l P F IH]; [destruct I|]. destruct I as [<-|I]; [exact (proj1 P)|now apply IH].
    + destruct I as [<-|[]]. exists d. split; [exact (proj1 P)|reflexivity].
    + destruct I as [<-|[]]. exists d. split; [exact (proj1 P)|reflexivity].
    + destruct I as [<-|[]]. exists d. split; [exact (proj1 P)|reflexivity].
    + destruct I as [<-|[]]. exists d. split; [exact (proj1 P)|reflexivity].
    + destruct I as [<-|[]]. now exists a.
Qed.

Lemma command_values T tokens cl vars : In T commands -> line T tokens cl -> enough_room T cl -> no_help tokens -> known_vars T vars ->
  (forall d, In d (t_all T) -> exists v, worth T cl vars d v) ->
  exists m, gather T tokens vars = Handled (Ok (inr m)) /\ forall d, In d (t_all T) -> forall v, worth T cl vars d v -> value_of m (d_long d) = v.
Proof.
  intros I L R NH KV W. pose proof (commands_fit T I) as Ft. apply (gather_values T tokens cl vars Ft L R NH (line_known T tokens cl Ft L) KV W).
Qed.

(** ** Going backwards from a success *)
Lemma gather_inv T tokens vars m : gather T tokens vars = Handled (Ok (inr m)) ->
  exists os m1, parse_line (t_all T) (t_name T) (t_room T) tokens = proceed os /\ store (t_all T) (named os) nothing_stored = proceed m1 /\
    store (t_opts T) (parse_environment (t_env T) vars) m1 = proceed m.
Proof.
  unfold gather. intros G. apply hbind_inv in G. destruct G as (os & E & G). destruct (parsed_help (map q_tokens os) HelpNone None) as [h f]. destruct h; try discriminate G.
  apply hbind_inv in G. destruct G as (m1 & S1 & G). apply hbind_inv in G. destruct G as (m2 & S2 & G). apply hbind_inv in G. destruct G as (u & _ & G).
  apply proceed_inj in G. injection G as <-. now exists os, m1.
Qed.
Lemma gather_line T tokens vars m os : fit T -> gather T tokens vars = Handled (Ok (inr m)) -> parse_line (t_all T) (t_name T) (t_room T) tokens = proceed os ->
  (forall d, In d (t_all T) -> exists o, fold_parse (d_kind d) None (on_line (named os) d) = proceed o) /\
  (forall k x s, In (x, s) vars -> In (x, k) (t_env T) -> In k (map fst (named os)) \/ exists d, In d (t_opts T) /\ d_long d = k) /\
  forall d, In d (t_all T) -> forall v, yields T (named os) vars d v -> value_of m (d_long d) = v.
Proof.
  intros Ft G P. destruct (gather_inv _ _ _ _ G) as (os' & m1 & P' & S1 & S2). rewrite P in P'. apply proceed_inj in P'. subst os'.
  destruct (line_delivered T tokens os Ft P) as (Kn & _). pose proof (known_hd _ _ (f_all _ Ft) Kn) as HH.
  split; [|split; [|exact (stored_yields T (named os) vars m1 m Ft HH S1 S2)]].
  - unfold store in S1. apply hbind_inv in S1. destruct S1 as ((vals, new) & P1 & _). cbn [nothing_stored m_final m_vals] in P1.
    destruct (store_sound _ _ (f_all _ Ft) _ _ _ _ _ HH P1) as (A & _). intros d I. exists (cur vals (d_long d)). exact (A d I (fun F => F)).
  - unfold store in S1, S2. apply hbind_inv in S1. destruct S1 as ((vals, new) & P1 & E1). apply proceed_inj in E1. subst m1. cbn [m_vals m_final] in S2.
    apply hbind_inv in S2. destruct S2 as ((vals2, new2) & P2 & _). cbn [nothing_stored m_final m_vals] in P1, P2.
    destruct (store_sound _ _ (f_all _ Ft) _ _ _ _ _ HH P1) as (_ & _ & D1 & _).
    destruct (store_sound _ _ (f_opts _ Ft) _ _ _ _ _ (parse_hd T vars Ft) P2) as (_ & _ & _ & K2). intros k x s Iv Ie.
    destruct (in_dec (list_eq_dec N.eq_dec) k (map fst (named os))) as [J|J]; [now left|right]. apply K2.
    + clear -Iv Ie Ft. induction vars as [|(y, t) r IH]; [destruct Iv|]. cbn [parse_environment]. destruct Iv as [E|Iv].
      * injection E as -> ->. rewrite (proj2 (get_in _ (f_env _ Ft) x k) Ie). now left.
      * destruct (get_var y (t_env T)); [right|]; now apply IH.
    + rewrite app_nil_r, D1. cbn. tauto.
Qed.

(** What can happen. *)
Definition proper {A} (x : handled A) : Prop := x = UsageError \/ (exists a, x = Handled (Ok a)) \/ exists e, x = Handled (Throw e).
Definition strict {A} (x : handled A) : Prop := x = UsageError \/ exists a, x = Handled (Ok a).
Lemma strict_proper {A} (x : handled A) : strict x -> proper x. Proof. intros [H|H]; [now left|right; now left]. Qed.
Lemma strict_bind {A C} (x : handled A) (f : A -> handled C) : strict x -> (forall a, strict (f a)) -> strict (hbind x f).
Proof. intros [->|(a & ->)] H; [now left|exact (H a)]. Qed.
Lemma proper_bind {A C} (x : handled A) (f : A -> handled C) : proper x -> (forall a, proper (f a)) -> proper (hbind x f).
Proof. intros [->|[(a & ->)|(e & ->)]] H; [now left|exact (H a)|right; right; now exists e]. Qed.
Lemma strict_ok {A} (a : A) : strict (proceed a). Proof. right. now exists a. Qed.
Lemma strict_usage {A} : strict (@UsageError A). Proof. now left. Qed.
Lemma strict_wanted {A} (o : option A) : strict (wanted o). Proof. destruct o; [right; now eexists|now left]. Qed.
#[local] Hint Resolve strict_ok strict_usage strict_wanted : core.

Lemma strict_find a ds k : strict (find_desc a ds k).
Proof.
  unfold find_desc. destruct (filter (fun d => is_full (match_desc a k d)) ds) as [|? [|? ?]]; auto.
  destruct (filter (fun d => is_approximate (match_desc a k d)) ds) as [|? [|? ?]]; auto.
Qed.
#[local] Hint Resolve strict_find : core.
Lemma strict_long t : strict (parse_long t).
Proof.
  assert (H : forall r, strict (match at_equals r with (name, None) => proceed (Some (mkPopt name [] [t])) | (_, Some []) => UsageError
      | (name, Some v) => proceed (Some (mkPopt name [v] [t])) end)).
  { intros r. destruct (at_equals r) as [? [[|? ?]|]]; auto. }
  unfold parse_long. destruct t as [|c [|c2 [|c3 r]]]; auto;
  repeat match goal with |- context [match ?x with _ => _ end] => is_var x; destruct x; auto end.
Qed.
Lemma strict_group ds t : forall adj c, strict (short_loop ds t c adj).
Proof.
  induction adj as [|x r IH]; intros c; cbn [short_loop]; apply strict_bind; auto. intros d.
  destruct (match d with Some d => is_switch d | None => false end); [|auto]. apply strict_bind; auto.
Qed.
Lemma strict_short ds t : strict (parse_short ds t).
Proof.
  unfold parse_short. destruct t as [|c [|c2 r]]; auto;
  repeat match goal with |- context [match ?x with _ => _ end] => is_var x; destruct x; auto end;
  destruct (_ =? 45); auto; apply strict_bind; auto using strict_group.
Qed.
Lemma strict_is_option ds t : strict (is_option ds t).
Proof.
  unfold is_option. apply strict_bind; [apply strict_long|]. intros l. apply strict_bind.
  - destruct l; [auto|]. apply strict_bind; [apply strict_short|auto].
  - intros s. destruct s; [|auto]. apply strict_bind; auto.
Qed.
Lemma strict_finish ds o args : strict (finish_option ds o args).
Proof.
  unfold finish_option. destruct (q_key o); auto. apply strict_bind; auto. intros d. apply strict_bind; auto. intros d'.
  destruct (is_switch d'); destruct (q_words o); auto. destruct args; auto. apply strict_bind; [apply strict_is_option|]. intros []; auto.
Qed.
Lemma strict_finishes ds : forall os args, strict (finish_options ds os args).
Proof.
  induction os as [|o os IH]; intros args; [apply strict_ok|]. destruct os as [|o2 os].
  - cbn [finish_options]. apply strict_bind; [apply strict_finish|]. intros (a & r). apply strict_ok.
  - change (strict (let& (o, _) := finish_option ds o [] in let& (l, rest) := finish_options ds (o2 :: os) args in proceed (o :: l, rest))).
    apply strict_bind; [apply strict_finish|]. intros (a & r). apply strict_bind; [apply IH|]. intros (l & r'). apply strict_ok.
Qed.
Lemma strict_tokens ds : forall fuel args, (List.length args <= fuel)%nat -> strict (parse_tokens fuel ds args).
Proof.
  induction fuel as [|fuel IH]; intros args H; [destruct args; [apply strict_ok|cbn in H; lia]|].
  destruct args as [|t r]; [apply strict_ok|]. rewrite tokens_step. cbn in H. apply strict_bind; [apply strict_long|]. intros l. apply strict_bind.
  - destruct l; [auto|apply strict_short].
  - intros s. destruct s as [os|].
    + destruct (strict_finishes ds os r) as [E|((os', rest) & E)].
      * rewrite E. now left.
      * rewrite E. change (Handled (Ok (os', rest))) with (proceed (os', rest)) in E |- *. rewrite hbind_ok. pose proof (proj2 (finish_all _ _ _ _ _ E)) as Le. apply strict_bind; [|auto]. apply IH. lia.
    + destruct (bytes_eqb t (B "--")); [auto|]. apply strict_bind; [|auto]. apply IH. lia.
Qed.
Lemma strict_named name : forall os room, strict (name_arguments name room os).
Proof.
  induction os as [|o os IH]; intros room; cbn [name_arguments]; [auto|].
  destruct (q_key o); destruct room as [[|n0]|]; auto; apply strict_bind; auto.
Qed.
Lemma strict_line ds name room tokens : strict (parse_line ds name room tokens).
Proof. unfold parse_line. apply strict_bind; [now apply strict_tokens|]. intros a. apply strict_named. Qed.

Definition thrower (k : kind) : bool := match k with KEnc | KNoenc | KFormat => true | _ => false end.
Lemma strict_all {A} (f : bytes -> option A) l : strict (cast_all f l).
Proof. induction l as [|s l IH]; cbn [cast_all]; [auto|]. apply strict_bind; auto. intros a. apply strict_bind; auto. Qed.
Lemma strict_first {A} (o : option A) : strict (first o). Proof. destruct o; cbn; auto. Qed.
Lemma strict_single l : strict (single l). Proof. destruct l as [|? [|? ?]]; cbn; auto. Qed.
Lemma strict_value k old ws : thrower k = false -> strict (parse_value k old ws).
Proof.
  intros H. destruct k; try discriminate H; cbn [parse_value]; try (apply strict_ok);
    try (apply strict_bind; [apply strict_first|]; intros []; apply strict_bind; [apply strict_single|]; intros s; auto; apply strict_bind; auto).
  - apply strict_bind; [apply strict_first|]. intros []. apply strict_bind; [destruct ws; [auto|apply strict_single]|]. intros s. apply strict_bind; auto.
  - apply strict_bind; [apply strict_all|auto].
Qed.
Lemma enc_at_proper l w : (exists e, enc_at l w = Ok e) \/ exists e, enc_at l w = Throw e.
Proof.
  induction l as [|[name e] r IH]; cbn [enc_at]; [right; now eexists|]. destruct (bytes_eqb name w); [left; now eexists|exact IH].
Qed.
Lemma cast_word_proper {A} (f : bytes -> outcome A) s : ((exists a, f (fst (word s)) = Ok a) \/ exists e, f (fst (word s)) = Throw e) -> proper (cast_word f s).
Proof.
  unfold cast_word. intros [(a & ->)|(e & ->)]; [|right; right; now eexists]. destruct (snd (word s)); apply strict_proper; auto.
Qed.
Lemma value_proper k old ws : proper (parse_value k old ws).
Proof.
  destruct (thrower k) eqn:E; [|now apply strict_proper, strict_value].
  destruct k; try discriminate E; cbn [parse_value]; (apply proper_bind; [apply strict_proper, strict_first|]; intros _; apply proper_bind; [apply strict_proper, strict_single|]; intros s;
    apply proper_bind; [|intros a; apply strict_proper, strict_ok]); apply cast_word_proper.
  - apply enc_at_proper.
  - unfold noenc_of_name. destruct (bytes_eqb _ (B "fail")); [left; now eexists|]. destruct (bytes_eqb _ (B "ignore")); [left; now eexists|].
    destruct (bytes_eqb _ (B "transliterate")); [left; now eexists|right; now eexists].
  - unfold format_of_name. destruct (existsb _ [B "1"; B "csv"]); [left; now eexists|]. destruct (existsb _ [B "2"; B "standard"; B "std"]); [left; now eexists|].
    destruct (existsb _ [B "3"; B "json"]); [left; now eexists|right; now eexists].
Qed.
Lemma store_parsed_proper ds final : forall ps vals new, proper (store_parsed ds ps final vals new).
Proof.
  induction ps as [|(k, ws) r IH]; intros vals new; cbn [store_parsed]; [apply strict_proper; auto|]. destruct (existsb (bytes_eqb k) final); [apply IH|].
  apply proper_bind; [apply strict_proper; auto|]. intros od. apply proper_bind; [apply strict_proper; auto|]. intros d. apply proper_bind; [apply value_proper|]. intros v. apply IH.
Qed.
Lemma store_parsed_strict ds final : (forall d, In d ds -> thrower (d_kind d) = false) -> forall ps vals new, strict (store_parsed ds ps final vals new).
Proof.
  intros H. induction ps as [|(k, ws) r IH]; intros vals new; cbn [store_parsed]; [auto|]. destruct (existsb (bytes_eqb k) final); [apply IH|].
  destruct (strict_find false ds k) as [E|(od & E)]; [rewrite E; now left|]. rewrite E. change (Handled (Ok od)) with (proceed od) in E |- *. rewrite hbind_ok.
  destruct od as [d|]; [|now left]. cbn [wanted]. change (Handled (Ok d)) with (proceed d). rewrite hbind_ok. pose proof (H d (find_known _ _ _ _ E)) as X.
  apply strict_bind; [now apply strict_value|]. intros v. apply IH.
Qed.
Lemma store_proper ds ps m : proper (store ds ps m).
Proof. unfold store. apply proper_bind; [apply store_parsed_proper|]. intros (vals & new). apply strict_proper; auto. Qed.
Lemma store_strict ds ps m : (forall d, In d ds -> thrower (d_kind d) = false) -> strict (store ds ps m).
Proof. intros H. unfold store. apply strict_bind; [now apply store_parsed_strict|]. intros (vals & new). auto. Qed.
Lemma notify_strict ds m : strict (notify ds m).
Proof. unfold notify. destruct (forallb _ ds); auto. Qed.
Lemma gather_proper T tokens vars : proper (gather T tokens vars).
Proof.
  unfold gather. apply proper_bind; [apply strict_proper, strict_line|]. intros os. destruct (parsed_help (map q_tokens os) HelpNone None) as [h f].
  destruct h; try (apply strict_proper, strict_ok). apply proper_bind; [apply store_proper|]. intros m1. apply proper_bind; [apply store_proper|]. intros m.
  apply proper_bind; [apply strict_proper, notify_strict|]. intros _. apply strict_proper, strict_ok.
Qed.
Lemma gather_strict T tokens vars : fit T -> (forall d, In d (t_all T) -> thrower (d_kind d) = false) -> strict (gather T tokens vars).
Proof.
  intros Ft H. unfold gather. apply strict_bind; [apply strict_line|]. intros os. destruct (parsed_help (map q_tokens os) HelpNone None) as [h f].
  destruct h; try apply strict_ok. apply strict_bind; [now apply store_strict|]. intros m1. apply strict_bind.
  { apply store_strict. intros d I. apply H. exact (f_incl _ Ft d I). }
  intros m. apply strict_bind; [apply notify_strict|]. intros _. apply strict_ok.
Qed.

(** ** Commands *)
Lemma after_untouched T helped go tokens vars fs : (forall m, gather T tokens vars = Handled (Ok (inr m)) -> untouched (go m fs) fs) -> untouched (after_options T helped go tokens vars fs) fs.
Proof.
  intros H. unfold after_options. destruct (gather_proper T tokens vars) as [E|[([h|m] & E)|(e & E)]]; rewrite E.
  - split; reflexivity.
  - split; reflexivity.
  - now apply H.
  - split; reflexivity.
Qed.

(** Switches. *)
Lemma switch_on_line T tokens vars m os d : fit T -> gather T tokens vars = Handled (Ok (inr m)) -> parse_line (t_all T) (t_name T) (t_room T) tokens = proceed os ->
  In d (t_all T) -> takes_nothing d -> d_long d <> t_name T -> on_line (named os) d = [] \/ on_line (named os) d = [[]].
Proof.
  intros Ft G P I S N1. destruct (line_delivered T tokens os Ft P) as (_ & D). specialize (D d I S N1).
  destruct (gather_line T tokens vars m os Ft G P) as (F & _). destruct (F d I) as (o & Fo). rewrite S in Fo.
  destruct (on_line (named os) d) as [|w [|w2 r]]; [now left| |].
  - inversion D; subst. now right.
  - exfalso. inversion D as [|? ? E D']; subst. inversion D'; subst. discriminate Fo.
Qed.
Definition dry_desc : desc := switch "dry-run" "n".
Lemma dry_var T vars s : NoDup (map fst vars) -> In (B "SCRIBBU_DRY_RUN", s) vars ->
  (forall x, existsb (fun q => bytes_eqb (fst q) x && bytes_eqb (snd q) (B "dry-run")) (t_env T) = bytes_eqb (B "SCRIBBU_DRY_RUN") x) -> in_env T vars dry_desc = [[s]].
Proof.
  intros ND I E. unfold in_env.
  assert (X : filter (fun p : bytes * bytes => existsb (fun q => bytes_eqb (fst q) (fst p) && bytes_eqb (snd q) (d_long dry_desc)) (t_env T)) vars = [(B "SCRIBBU_DRY_RUN", s)]).
  { apply filter_one; [exact (nodup_map _ _ ND)|exact I| |].
    - cbn [fst]. change (d_long dry_desc) with (B "dry-run"). rewrite E. apply bytes_refl.
    - intros (y, t) J F. cbn [fst] in F. change (d_long dry_desc) with (B "dry-run") in F. rewrite E in F. destruct (bytes_eqb_spec (B "SCRIBBU_DRY_RUN") y) as [<-|]; [|discriminate F].
      apply (get_in _ ND) in I. apply (get_in _ ND) in J. congruence. }
  rewrite X. reflexivity.
Qed.
Lemma env_test a x k k0 : bytes_eqb a x && bytes_eqb k k0 = if bytes_eqb k k0 then bytes_eqb a x else false.
Proof. destruct (bytes_eqb k k0); [apply andb_true_r|apply andb_false_r]. Qed.
Lemma dry_value T tokens vars m : fit T -> In dry_desc (t_all T) -> B "dry-run" <> t_name T ->
  (forall x, existsb (fun q => bytes_eqb (fst q) x && bytes_eqb (snd q) (B "dry-run")) (t_env T) = bytes_eqb (B "SCRIBBU_DRY_RUN") x) ->
  dry_asked T tokens vars -> gather T tokens vars = Handled (Ok (inr m)) -> as_switch m "dry-run" = true.
Proof.
  intros Ft I N1 Ev Asked G. destruct (gather_inv _ _ _ _ G) as (os & _ & P & _).
  destruct (gather_line T tokens vars m os Ft G P) as (_ & _ & V). pose proof (switch_on_line T tokens vars m os dry_desc Ft G P I eq_refl N1) as L.
  assert (X : yields T (named os) vars dry_desc (Some (VSwitch true))).
  { destruct L as [L|L].
    - destruct Asked as [(cl & Li & R & J)|(ND & s & J & Y)].
      + exfalso. destruct (line_meant T tokens cl (f_all _ Ft) Li R) as (os' & P' & E & _). rewrite P in P'. apply proceed_inj in P'. subst os'.
        unfold named in L. rewrite E in L. apply on_line_none in L. apply L. exact (in_map fst _ _ J).
      + apply yield_env; rewrite ?(dry_var T vars s ND J Ev); [exact L|discriminate|]. apply reads_fold; [now apply reads_yes|discriminate].
    - apply yield_line; rewrite L; [discriminate|reflexivity]. }
  specialize (V dry_desc I _ X). unfold as_switch. change (as_value m "dry-run") with (value_of m (d_long dry_desc)). now rewrite V.
Qed.
Ltac dry_table := intros x; cbn [t_env popm_tables xtag_tables genre_tables rename_tables popm_env xtag_env genre_env rename_env existsb fst snd]; rewrite !env_test;
  repeat match goal with |- context [bytes_eqb (B ?a) (B "dry-run")] => let v := eval vm_compute in (bytes_eqb (B a) (B "dry-run")) in change (bytes_eqb (B a) (B "dry-run")) with v end;
  cbv iota; rewrite ?orb_false_l, ?orb_false_r; reflexivity.
Lemma popm_dry_line z passes e entries w helped tokens vars fs : dry_asked popm_tables tokens vars -> untouched (popm_command z passes e entries w helped tokens vars fs) fs.
Proof.
  intros H. apply after_untouched. intros m G. apply popm_dry. unfold popm_vars. cbn [pv_dry].
  apply (dry_value popm_tables tokens vars m); [apply commands_fit; now left|cbn; tauto|discriminate|dry_table|exact H|exact G].
Qed.
Lemma genre_dry_line z passes e entries w helped tokens vars fs : dry_asked genre_tables tokens vars -> untouched (genre_command z passes e entries w helped tokens vars fs) fs.
Proof.
  intros H. apply after_untouched. intros m G. apply genre_dry. unfold genre_vars. cbn [gv_dry].
  apply (dry_value genre_tables tokens vars m); [apply commands_fit; cbn; tauto|cbn; tauto|discriminate|dry_table|exact H|exact G].
Qed.
Lemma xtag_dry_line z passes e entries w helped tokens cl vars fs : dry_asked xtag_tables tokens vars -> line xtag_tables tokens cl -> ~ In (B "get", []) cl ->
  untouched (xtag_command z passes e entries w helped tokens vars fs) fs.
Proof.
  intros H L NG. assert (Ft : fit xtag_tables) by (apply commands_fit; cbn; tauto). apply after_untouched. intros m G. apply xtag_dry.
  - unfold xtag_vars. cbn [xv_dry]. apply (dry_value xtag_tables tokens vars m); [exact Ft|cbn; tauto|discriminate|dry_table|exact H|exact G].
  - unfold xtag_vars. cbn [xv_get]. destruct (gather_inv _ _ _ _ G) as (os & _ & P & _).
    destruct (gather_line xtag_tables tokens vars m os Ft G P) as (_ & _ & V).
    assert (I : In (switch "get" "g") (t_all xtag_tables)) by (cbn; tauto).
    assert (X : yields xtag_tables (named os) vars (switch "get" "g") (Some (VSwitch false))).
    { destruct (switch_on_line xtag_tables tokens vars m os (switch "get" "g") Ft G P I eq_refl) as [Lo|Lo]; [discriminate| |].
      - apply yield_default; [exact Lo| |reflexivity]. rewrite <- (env_line xtag_tables vars _ (f_env _ Ft)). apply on_line_none. intros J.
        apply (env_keys _ _ _ (f_env _ Ft)) in J. destruct J as (x & s & _ & J). cbn in J.
        repeat (destruct J as [J|J]; [discriminate J|]). exact J.
      - exfalso. apply NG. destruct (line_meant xtag_tables tokens cl (f_all _ Ft) L Logic.I) as (os' & P' & E & _). rewrite P in P'. apply proceed_inj in P'. subst os'.
        unfold named in Lo. rewrite E in Lo. clear -Lo. induction cl as [|(k, ws) r IH]; [discriminate Lo|]. rewrite on_line_cons in Lo.
        destruct (bytes_eqb_spec k (d_long (switch "get" "g"))) as [->|]; [|right; now apply IH]. left. f_equal. change (B "get") with (d_long (switch "get" "g")). congruence. }
    specialize (V _ I _ X). unfold as_switch. change (as_value m "get") with (value_of m (d_long (switch "get" "g"))). now rewrite V.
Qed.

(** Bad values. *)
Lemma bad_value T tokens cl vars d : fit T -> line T tokens cl -> enough_room T cl -> In d (t_all T) ->
  (forall o, fold_parse (d_kind d) None (on_line cl d) <> proceed o) -> forall m, gather T tokens vars <> Handled (Ok (inr m)).
Proof.
  intros Ft L R I Bad m G. destruct (line_meant T tokens cl (f_all _ Ft) L R) as (os & P & E & _).
  destruct (gather_line T tokens vars m os Ft G P) as (F & _). destruct (F d I) as (o & Fo). unfold named in Fo. rewrite E in Fo. exact (Bad o Fo).
Qed.
Lemma unknown_var T tokens vars x s k : fit T -> In (x, s) vars -> In (x, k) (t_env T) -> ~ In k (map d_long (t_all T)) ->
  forall m, gather T tokens vars <> Handled (Ok (inr m)).
Proof.
  intros Ft Iv Ie NK m G. destruct (gather_inv _ _ _ _ G) as (os & _ & P & _). destruct (gather_line T tokens vars m os Ft G P) as (_ & F & _).
  destruct (F k x s Iv Ie) as [J|(d & J & E)].
  - destruct (line_delivered T tokens os Ft P) as (Kn & _). destruct (Kn k J) as (d & Id & E). apply NK. rewrite <- E. now apply in_map.
  - apply NK. rewrite <- E. apply in_map. exact (f_incl _ Ft d J).
Qed.

(** ** Letters *)
Fixpoint count_short (c : N) (ds : list desc) : nat :=
  match ds with [] => 0%nat | d :: r => ((match d_short d with Some x => if N.eqb x c then 1 else 0 | None => 0 end) + count_short c r)%nat end.
Lemma count_none c ds : count_short c ds = 0%nat -> forall d, In d ds -> d_short d <> Some c.
Proof.
  induction ds as [|a r IH]; intros H d I; [destruct I|]. cbn [count_short] in H. destruct I as [->|I].
  - intros E. rewrite E, N.eqb_refl in H. discriminate H.
  - apply IH; [|exact I]. destruct (d_short a) as [x|]; [destruct (N.eqb x c); [discriminate H|exact H]|exact H].
Qed.
Lemma count_one c ds : count_short c ds = 1%nat -> forall d d', In d ds -> In d' ds -> d_short d = Some c -> d_short d' = Some c -> d' = d.
Proof.
  induction ds as [|a r IH]; intros H d d' I I' E E'; [destruct I|]. cbn [count_short] in H.
  destruct (d_short a) as [x|] eqn:Ea.
  - destruct (N.eqb_spec x c) as [->|N1].
    + assert (Z : count_short c r = 0%nat) by (cbn in H; congruence).
      destruct I as [->|I]; [|exfalso; exact (count_none c r Z d I E)]. destruct I' as [->|I']; [reflexivity|exfalso; exact (count_none c r Z d' I' E')].
    + destruct I as [->|I]; [congruence|]. destruct I' as [->|I']; [congruence|]. exact (IH H d d' I I' E E').
  - destruct I as [->|I]; [congruence|]. destruct I' as [->|I']; [congruence|]. exact (IH H d d' I I' E E').
Qed.
Definition letters_b (ds : list desc) (but : N) : bool :=
  forallb (fun d => match d_short d with Some c => N.eqb c but || Nat.eqb (count_short c ds) 1 | None => true end) ds.
Lemma letters_ok ds but : letters_b ds but = true -> forall d c, In d ds -> d_short d = Some c -> c <> but -> letter ds c d.
Proof.
  intros H d c I E N1. unfold letters_b in H. rewrite forallb_forall in H. specialize (H d I). rewrite E in H.
  rewrite (proj2 (N.eqb_neq c but) N1) in H. cbn [orb] in H. apply Nat.eqb_eq in H. split; [exact I|]. split; [exact E|].
  intros d' I' E'. exact (count_one c ds H d d' I I' E E').
Qed.
Lemma no_zero ds : forallb (fun d => match d_short d with Some c => negb (c =? 0) | None => true end) ds = true -> forall d c, In d ds -> d_short d = Some c -> c <> 0.
Proof. intros H d c I E Z. rewrite forallb_forall in H. specialize (H d I). rewrite E, Z in H. discriminate H. Qed.
Lemma letters_told T : In T commands -> T = genre_tables \/ forall d c, In d (t_all T) -> d_short d = Some c -> letter (t_all T) c d.
Proof.
  assert (G : forall T, letters_b (t_all T) 0 = true -> forallb (fun d => match d_short d with Some c => negb (c =? 0) | None => true end) (t_all T) = true ->
    T = genre_tables \/ forall d c, In d (t_all T) -> d_short d = Some c -> letter (t_all T) c d).
  { intros T0 A C. right. intros d c I E. apply (letters_ok _ 0 A d c I E). exact (no_zero _ C d c I E). }
  intros [<-|[<-|[<-|[<-|[<-|[<-|[<-|[<-|[<-|[]]]]]]]]]]; try (now left); apply G; vm_compute; reflexivity.
Qed.
Lemma genre_letters d c : In d (t_all genre_tables) -> d_short d = Some c -> c <> 118 -> letter (t_all genre_tables) c d.
Proof. apply letters_ok. vm_compute. reflexivity. Qed.

Lemma genre_v pre rest vars : words_before pre -> gather genre_tables (pre ++ B "-v" :: rest) vars = UsageError.
Proof.
  intros H. assert (E : forall fuel, (List.length (pre ++ B "-v" :: rest) <= fuel)%nat -> parse_tokens fuel genre_all (pre ++ B "-v" :: rest) = UsageError).
  { induction H as [|s pre N1 H IH]; intros fuel L.
    - destruct fuel as [|fuel]; [cbn in L; lia|]. reflexivity.
    - destruct fuel as [|fuel]; [cbn in L; lia|]. rewrite <- app_comm_cons in L |- *. etransitivity; [exact (loop_argument fuel genre_all s (pre ++ B "-v" :: rest) (or_introl N1))|].
      rewrite IH; [reflexivity|]. exact (le_S_n _ _ L). }
  unfold gather, parse_line. change (t_all genre_tables) with genre_all. rewrite E by reflexivity. reflexivity.
Qed.

(** ** Lines whose meaning is known *)
Lemma gather_by_line T tokens cl vars : In T commands -> line T tokens cl -> enough_room T cl -> no_help tokens ->
  gather T tokens vars = let& m := store (t_all T) cl nothing_stored in let& m := store (t_opts T) (parse_environment (t_env T) vars) m in
                         let& _ := notify (t_all T) m in proceed (inr m).
Proof.
  intros I L R NH. destruct (line_meant T tokens cl (f_all _ (commands_fit T I)) L R) as (os & E & N1 & M). unfold gather. rewrite E, hbind_ok, (help_none os tokens M NH), N1. reflexivity.
Qed.
Lemma named_two T p d v f : In T commands -> stands_for (t_all T) p d -> ~ takes_nothing d -> v <> [] -> no_option f ->
  line T [B "--" ++ p ++ B "=" ++ v; f] [(d_long d, [v]); (t_name T, [f])].
Proof.
  intros I P K N1 F. apply (line_more T [B "--" ++ p ++ B "=" ++ v] [(d_long d, [v])]); [now apply long_equals|].
  apply (line_more T [f] [(t_name T, [f])] [] []); [now apply an_argument|constructor].
Qed.
Lemma long_no_help p v : ~ In (B "--" ++ p ++ B "=" ++ v) help_words.
Proof.
  assert (X : In 61 (B "--" ++ p ++ B "=" ++ v)) by (apply in_or_app; right; apply in_or_app; right; now left).
  intros [E|[E|[E|[E|[]]]]]; rewrite <- E in X; vm_compute in X; repeat (destruct X as [X|X]; [discriminate X|]); exact X.
Qed.
Lemma no_option_help f : no_option f -> ~ In f help_words.
Proof. intros [H|H] I; [|rewrite H in I]; destruct I as [E|[E|[E|[E|[]]]]]; try (rewrite <- E in H; now apply H); discriminate E. Qed.
Lemma two_no_help p v f : no_option f -> no_help [B "--" ++ p ++ B "=" ++ v; f].
Proof. intros F t [<-|[<-|[]]]; [apply long_no_help|now apply no_option_help]. Qed.

Lemma text_encoding s f : s <> [] -> no_option f -> (forall e, enc_of_name (fst (word s)) <> Ok e) -> gather text_tables [B "--encoding=" ++ s; f] [] = Handled (Throw OutOfRange).
Proof.
  intros NE F H. change (B "--encoding=" ++ s) with (B "--" ++ B "encoding" ++ B "=" ++ s).
  assert (I : In text_tables commands) by (cbn; tauto).
  assert (P : stands_for (t_all text_tables) (B "encoding") (option_of KEnc "encoding" "E")) by (split; [cbn; tauto|split; [discriminate|now left]]).
  rewrite (gather_by_line text_tables _ _ [] I (named_two text_tables _ _ s f I P ltac:(discriminate) NE F) Logic.I (two_no_help _ _ _ F)).
  assert (X : enc_of_name (fst (word s)) = Throw OutOfRange).
  { unfold enc_of_name in *. clear -H. induction enc_names as [|[n e] r IH]; cbn [enc_at] in *; [reflexivity|]. destruct (bytes_eqb n (fst (word s))); [now destruct (H e)|now apply IH]. }
  unfold store. cbn [store_parsed nothing_stored m_final existsb m_vals].
  rewrite (find_name false (t_all text_tables) (d_long (option_of KEnc "encoding" "E")) (option_of KEnc "encoding" "E")
    (f_all _ (commands_fit _ I)) (proj1 P) eq_refl). cbn [hbind proceed wanted d_kind option_of get_var first parse_value single]. unfold cast_word. rewrite X. reflexivity.
Qed.
Lemma popm_negative s n f : numeral s n -> 0 < n < 2 ^ 64 -> no_option f ->
  exists m, gather popm_tables [B "--count=-" ++ s; f] [] = Handled (Ok (inr m)) /\ pv_count (popm_vars m) = Some (2 ^ 64 - n).
Proof.
  intros Nu R F. change (B "--count=-" ++ s) with (B "--" ++ B "count" ++ B "=" ++ 45 :: s).
  assert (I : In popm_tables commands) by (cbn; tauto). pose proof (commands_fit _ I) as Ft.
  assert (P : stands_for (t_all popm_tables) (B "count") (option_of KSize "count" "C")) by (split; [cbn; tauto|split; [discriminate|now left]]).
  assert (C : cast_number 64 (45 :: s) = Some (2 ^ 64 - n)).
  { destruct Nu as (NE & Fd & E). destruct s as [|c s]; [now destruct NE|]. unfold cast_number. rewrite (digits_ok (2 ^ 64) (c :: s) Fd 0).
    - unfold positional in E. rewrite <- E. rewrite N.mod_small by lia. reflexivity.
    - unfold positional in E. rewrite <- E. lia. }
  rewrite (gather_by_line popm_tables _ _ [] I (named_two popm_tables _ _ (45 :: s) f I P ltac:(discriminate) ltac:(discriminate) F) Logic.I (two_no_help _ _ _ F)).
  assert (S1 : exists vals, store_parsed (t_all popm_tables) [(d_long (option_of KSize "count" "C"), [45 :: s]); (t_name popm_tables, [f])] [] [] [] =
    proceed (vals, [B "arguments"; B "count"]) /\ vals = [(B "count", (VNum (2 ^ 64 - n), false)); (B "arguments", (VTexts [f], false))]).
  { eexists. split; [|reflexivity]. cbn [store_parsed existsb].
    rewrite (find_name false (t_all popm_tables) (d_long (option_of KSize "count" "C")) (option_of KSize "count" "C") (f_all _ Ft) (proj1 P) eq_refl).
    cbn [hbind proceed wanted d_kind option_of get_var first parse_value single]. rewrite C. cbn [wanted hbind].
    rewrite (find_name false (t_all popm_tables) (t_name popm_tables) (demanded KTexts "arguments" "") (f_all _ Ft) ltac:(cbn; tauto) eq_refl). reflexivity. }
  destruct S1 as (vals & S1 & ->). unfold store at 1. cbn [nothing_stored m_final m_vals]. rewrite S1, !hbind_ok. revert f F S1. clear. intros f _ _.
  remember (2 ^ 64 - n) as k. clear. eexists. split; [vm_compute; reflexivity|reflexivity].
Qed.
Lemma abbreviated_help f : no_option f -> exists m, gather popm_tables [B "--hel"; f] [] = Handled (Ok (inr m)) /\ pv_args (popm_vars m) = [f].
Proof.
  intros F. assert (I : In popm_tables commands) by (cbn; tauto).
  assert (L : line popm_tables [B "--hel"; f] [(B "help", []); (B "arguments", [f])]).
  { apply (line_more popm_tables [B "--hel"] [(B "help", [])]).
    - apply (long_switch popm_tables (B "hel") (switch "help" "h")); [|reflexivity]. split; [cbn; tauto|]. split; [discriminate|]. right. split; [now exists (B "p")|]. intros d' J E.
      repeat (destruct J as [<-|J]; [first [reflexivity|destruct E as (r & E); discriminate E]|]). destruct J.
    - apply (line_more popm_tables [f] [(t_name popm_tables, [f])] [] []); [now apply an_argument|constructor]. }
  rewrite (gather_by_line popm_tables _ _ [] I L Logic.I).
  - clear. eexists. split; [vm_compute; reflexivity|reflexivity].
  - intros t [<-|[<-|[]]]; [|now apply no_option_help]. intros [E|[E|[E|[E|[]]]]]; discriminate E.
Qed.
Lemma help_never_none ts f : help_token ts <> Some (HelpNone, f).
Proof.
  induction ts as [|t r IH]; cbn [help_token]; [discriminate|]. destruct (is "-h" t); [discriminate|]. destruct (is "--help" t || is "--man" t); [discriminate|].
  destruct (is "--info" t); [discriminate|exact IH].
Qed.
Lemma help_told h : In h help_words -> help_token [h] <> None.
Proof. intros [<-|[<-|[<-|[<-|[]]]]]; discriminate. Qed.
Lemma dashes_help T l h vars : In T commands -> In h help_words -> In h l -> match t_room T with None => True | Some n => (List.length l <= n)%nat end ->
  exists x, gather T (B "--" :: l) vars = Handled (Ok (inl x)).
Proof.
  intros I Hw J R. pose proof (commands_fit T I) as Ft.
  assert (E : parse_line (t_all T) (t_name T) (t_room T) (B "--" :: l) = proceed (map (fun s => mkPopt (t_name T) [s] [s]) l)).
  { unfold parse_line. cbn [List.length]. rewrite loop_dashes, hbind_ok, named_ok.
    - rewrite map_map. reflexivity.
    - destruct (t_room T); [|exact Logic.I]. eapply Nat.le_trans; [|exact R]. clear. induction l as [|a l IH]; [apply le_n|]. cbn [map filter argument q_key]. rewrite bytes_refl. cbn [List.length]. lia. }
  unfold gather. rewrite E, hbind_ok. rewrite map_map. cbn [q_tokens].
  assert (X : forall l o f, o <> HelpNone \/ In h l -> fst (parsed_help (map (fun s => [s]) l) o f) <> HelpNone).
  { clear -Hw. induction l as [|a l IH]; intros o f H; cbn [map parsed_help].
    - destruct H as [H|[]]. exact H.
    - destruct (help_token [a]) as [[h1 f1]|] eqn:T1.
      + assert (h1 <> HelpNone) by (intros ->; exact (help_never_none [a] f1 T1)). destruct f1; apply IH; now left.
      + apply IH. destruct H as [H|[->|H]]; [now left| |now right]. exfalso. now apply (help_told h Hw). }
  specialize (X l HelpNone None (or_intror J)). destruct (parsed_help (map (fun s => [s]) l) HelpNone None) as [hl fl]. cbn [fst] in X.
  destruct hl; [now destruct X|eexists; reflexivity..].
Qed.

Lemma no_throwers T : In T [popm_tables; xtag_tables; genre_tables; rename_tables; split_tables] -> forall d, In (d_kind d) (map d_kind (t_all T)) -> thrower (d_kind d) = false.
Proof.
  assert (G : forall T, forallb (fun k => negb (thrower k)) (map d_kind (t_all T)) = true -> forall d, In (d_kind d) (map d_kind (t_all T)) -> thrower (d_kind d) = false).
  { intros T0 H d I. rewrite forallb_forall in H. specialize (H _ I). now destruct (thrower (d_kind d)). }
  intros [<-|[<-|[<-|[<-|[<-|[]]]]]]; apply G; vm_compute; reflexivity.
Qed.

Lemma path_fold s r : (forall x, cast_path s <> Some x) -> forall pre o old, fold_parse KPath old (pre ++ [s] :: r) <> proceed o.
Proof.
  intros H. induction pre as [|ws pre IH]; intros o old E; cbn [List.app fold_parse] in E.
  - apply hbind_inv in E. destruct E as (v & Pv & _). cbn [parse_value] in Pv. apply hbind_inv in Pv. destruct Pv as (u & _ & Pv).
    cbn [single] in Pv. rewrite hbind_ok in Pv. apply hbind_inv in Pv. destruct Pv as (x & Px & _). destruct (cast_path s) as [y|] eqn:C; [now destruct (H y)|discriminate Px].
  - apply hbind_inv in E. destruct E as (v & _ & E). exact (IH _ _ E).
Qed.
Lemma blank_output T tokens cl vars s : In T [rename_tables; report_tables; m3u_tables] -> line T tokens cl ->
  In (B "output", [s]) cl -> hd 0 s <> 34 -> (exists c, In c s /\ blank c = true) -> forall m, gather T tokens vars <> Handled (Ok (inr m)).
Proof.
  intros I L J H E. assert (Ft : fit T) by (apply commands_fit; cbn in I |- *; tauto).
  assert (D : exists d, In d (t_all T) /\ d_long d = B "output" /\ d_kind d = KPath /\ t_room T = None).
  { destruct I as [<-|[<-|[<-|[]]]].
    - exists (option_of KPath "output" "o"). split; [cbn; tauto|now split; [|split]].
    - exists (demanded KPath "output" "o"). split; [cbn; tauto|now split; [|split]].
    - exists (option_of KPath "output" "o"). split; [cbn; tauto|now split; [|split]]. }
  destruct D as (d & Id & Ld & Kd & Rd). apply (bad_value T tokens cl vars d Ft L); [unfold enough_room; now rewrite Rd|exact Id|]. rewrite Kd. intros o.
  assert (X : exists pre r, on_line cl d = pre ++ [s] :: r).
  { clear -J Ld. induction cl as [|(k, ws) cl IH]; [destruct J|]. rewrite on_line_cons. destruct J as [J|J].
    - pose proof (f_equal fst J) as J1. pose proof (f_equal snd J) as J2. cbn [fst snd] in J1, J2. rewrite J1, J2, Ld, bytes_refl. exists [], (on_line cl d). reflexivity.
    - destruct (IH J) as (pre & r & E). rewrite E. destruct (bytes_eqb k (d_long d)); [exists (ws :: pre), r|exists pre, r]; reflexivity. }
  destruct X as (pre & r & X). rewrite X. apply path_fold. intros x. rewrite (path_blank s H E). discriminate.
Qed.
