(** * Lemmas: what is asked for reaches the commands. *)
From Verif Require Import Base S_Ints S_Stream M_Ints M_Stream M_Id3v1 M_Payload M_Frame M_Tag22 M_Tag23 M_Tag24 M_Charset M_Encodings M_TextId M_Lookup M_Mp3 M_Track M_Read M_Fs
  M_Tagset M_Process M_Dirent M_Popm M_Cmds M_Xtag M_Options S_Options L_Options M_Csv M_Report M_Tbt M_Rename M_M3u M_Dump M_JsonDump M_CsvDump
  M_Outputs M_Naming M_Main S_Main L_Main M_Po S_Po L_Po L_Po2 L_Po3 M_Program S_Program L_Program L_Program2 L_Program3 S_Asked.
#[local] Open Scope N_scope.

Section Values.
  Context (T : tables) (cl : parsed) (vars : list (bytes * bytes)) (m : varmap).
  Hypothesis V : forall d, In d (t_all T) -> forall v, worth T cl vars d v -> value_of m (d_long d) = v.
  Lemma given_as k v : gives T cl vars k v -> as_value m k = v.
  Proof. intros (d & I & E & W). apply value_as. rewrite <- E. exact (V d I v W). Qed.
  Lemma given_switch k b : gives T cl vars k (Some (VSwitch b)) -> as_switch m k = b.
  Proof. intros G. unfold as_switch. now rewrite (given_as k _ G). Qed.
  Lemma given_text k o : gives T cl vars k (option_map VText o) -> as_text m k = o.
  Proof. intros G. unfold as_text. rewrite (given_as k _ G). now destruct o. Qed.
  Lemma given_num k o : gives T cl vars k (option_map VNum o) -> as_num m k = o.
  Proof. intros G. unfold as_num. rewrite (given_as k _ G). now destruct o. Qed.
  Lemma given_nums k o : gives T cl vars k (option_map VNums o) -> as_nums m k = o.
  Proof. intros G. unfold as_nums. rewrite (given_as k _ G). now destruct o. Qed.
  Lemma given_texts k o : gives T cl vars k (option_map VTexts o) -> as_texts m k = o.
  Proof. intros G. unfold as_texts. rewrite (given_as k _ G). now destruct o. Qed.
  Lemma given_enc k o : gives T cl vars k (option_map VEnc o) -> as_enc m k = o.
  Proof. intros G. unfold as_enc. rewrite (given_as k _ G). now destruct o. Qed.
  Lemma given_noenc k x : gives T cl vars k (Some (VNoenc x)) -> as_noenc m k = x.
  Proof. intros G. unfold as_noenc. now rewrite (given_as k _ G). Qed.
  Lemma given_format k x : gives T cl vars k (Some (VFormat x)) -> as_format m k = x.
  Proof. intros G. unfold as_format. now rewrite (given_as k _ G). Qed.
  Lemma given_args k l : gives T cl vars k (Some (VTexts l)) -> as_texts m k = Some l.
  Proof. exact (given_texts k (Some l)). Qed.
  Lemma given_one_num k n : gives T cl vars k (Some (VNum n)) -> as_num m k = Some n.
  Proof. exact (given_num k (Some n)). Qed.
  Lemma given_one_enc k n : gives T cl vars k (Some (VEnc n)) -> as_enc m k = Some n.
  Proof. exact (given_enc k (Some n)). Qed.
End Values.

Ltac take_all V A := repeat match type of A with _ /\ _ => let H := fresh "H" in destruct A as [H A]; revert H end; intros;
  repeat match goal with
  | H : gives _ _ _ _ (Some (VSwitch _)) |- _ => rewrite (given_switch _ _ _ _ V _ _ H); clear H
  | H : gives _ _ _ _ (option_map VText _) |- _ => rewrite (given_text _ _ _ _ V _ _ H); clear H
  | H : gives _ _ _ _ (option_map VNum _) |- _ => rewrite (given_num _ _ _ _ V _ _ H); clear H
  | H : gives _ _ _ _ (option_map VNums _) |- _ => rewrite (given_nums _ _ _ _ V _ _ H); clear H
  | H : gives _ _ _ _ (option_map VTexts _) |- _ => rewrite (given_texts _ _ _ _ V _ _ H); clear H
  | H : gives _ _ _ _ (option_map VEnc _) |- _ => rewrite (given_enc _ _ _ _ V _ _ H); clear H
  | H : gives _ _ _ _ (Some (VTexts _)) |- _ => rewrite (given_args _ _ _ _ V _ _ H); clear H
  | H : gives _ _ _ _ (Some (VNum _)) |- _ => rewrite (given_one_num _ _ _ _ V _ _ H); clear H
  | H : gives _ _ _ _ (Some (VEnc _)) |- _ => rewrite (given_one_enc _ _ _ _ V _ _ H); clear H
  | H : gives _ _ _ _ (Some (VNoenc _)) |- _ => rewrite (given_noenc _ _ _ _ V _ _ H); clear H
  | H : gives _ _ _ _ (Some (VFormat _)) |- _ => rewrite (given_format _ _ _ _ V _ _ H); clear H
  end.

Lemma after_goes T helped go tokens cl vars fs : In T commands -> in_order T tokens cl vars ->
  exists m, gather T tokens vars = Handled (Ok (inr m)) /\ (forall d, In d (t_all T) -> forall v, worth T cl vars d v -> value_of m (d_long d) = v) /\
    after_options T helped go tokens vars fs = go m fs.
Proof.
  intros I (L & R & NH & KV & W). destruct (command_values T tokens cl vars I L R NH KV W) as (m & G & V). exists m. split; [exact G|]. split; [exact V|]. unfold after_options. now rewrite G.
Qed.
Ltac goes_by T A := match goal with |- after_options _ ?h ?g ?t ?vs ?f = _ => 
  let m := fresh "m" in let G := fresh "G" in let V := fresh "V" in let E := fresh "E" in
  match goal with O : in_order T t ?cl vs |- _ => destruct (after_goes T h g t cl vs f ltac:(cbn; tauto) O) as (m & G & V & E); rewrite E; clear E G; cbv beta end end.

Section Goes.
  Context (z : zlib) (passes : nat) (md5 : bytes -> bytes) (e : env) (entries below : bytes -> list bytes) (w : world) (ct : ctype)
          (broken : bytes -> option nat) (blind : rfile -> outcome unit) (loc : outcome enc) (stamp : bytes -> bytes)
          (regex : bytes -> outcome (bytes -> bool)) (helped : help_level * option verbose_flavor -> N).
  Lemma popm_goes tokens cl vars vm fs : in_order popm_tables tokens cl vars -> popm_asks cl vars vm ->
    popm_command z passes e entries w helped tokens vars fs = run_popm z passes e entries w vm fs.
  Proof.
    intros O A. unfold popm_command. goes_by popm_tables A. f_equal. unfold popm_vars. unfold popm_asks in A. take_all V A. now destruct vm.
  Qed.
  Lemma xtag_goes tokens cl vars vm fs : in_order xtag_tables tokens cl vars -> xtag_asks cl vars vm ->
    xtag_command z passes e entries w helped tokens vars fs = run_xtag z passes e entries w vm fs.
  Proof.
    intros O A. unfold xtag_command. goes_by xtag_tables A. f_equal. unfold xtag_vars. unfold xtag_asks in A. take_all V A. now destruct vm.
  Qed.
  Lemma text_goes tokens cl vars vm fs : in_order text_tables tokens cl vars -> text_asks cl vars vm ->
    text_command z passes e entries w helped loc tokens vars fs = run_text z passes e entries w loc vm fs.
  Proof.
    intros O A. unfold text_command. goes_by text_tables A. f_equal. unfold text_vars. unfold text_asks in A. take_all V A. now destruct vm.
  Qed.
  Lemma genre_goes tokens cl vars vm fs : in_order genre_tables tokens cl vars -> genre_asks cl vars vm ->
    genre_command z passes e entries w helped tokens vars fs = run_genre z passes e entries w vm fs.
  Proof.
    intros O A. unfold genre_command. goes_by genre_tables A. f_equal. unfold genre_vars. unfold genre_asks in A. take_all V A. now destruct vm.
  Qed.
  Lemma rename_goes tokens cl vars vm fs : in_order rename_tables tokens cl vars -> rename_asks cl vars vm ->
    rename_command z passes md5 e below w ct broken helped tokens vars fs = rename_main z passes md5 w ct (e_cwd e) broken below vm fs.
  Proof.
    intros O A. unfold rename_command. goes_by rename_tables A. f_equal. unfold rename_vars. unfold rename_asks in A. take_all V A. now destruct vm.
  Qed.
  Lemma report_goes tokens cl vars vm fs : in_order report_tables tokens cl vars -> report_asks cl vars vm ->
    report_command z passes md5 e below w blind helped tokens vars fs = (run r <- report_main z passes md5 w blind (e_cwd e) below vm;; fret (fst r)) fs.
  Proof.
    intros O A. unfold report_command. goes_by report_tables A. replace (report_vars m) with vm; [reflexivity|]. symmetry. unfold report_vars. unfold report_asks in A. take_all V A.
    unfold number_or, enc_or. rewrite Nnat.Nat2N.id. now destruct vm.
  Qed.
  Lemma m3u_goes tokens cl vars out app utf8 rsp args fs : in_order m3u_tables tokens cl vars -> m3u_asks cl vars out app utf8 rsp args ->
    m3u_command z passes e entries w loc helped tokens vars fs = m3u_main z passes e entries w loc (mkM3uVm None out app utf8 rsp (Some args)) fs.
  Proof.
    intros O A. unfold m3u_command. destruct (after_goes m3u_tables helped (fun m => m3u_main z passes e entries w loc (m3u_vars m)) tokens cl vars fs ltac:(cbn; tauto) O) as (m & G & V & E).
    rewrite E. f_equal. pose proof (m3u_no_source tokens vars m G) as S0. unfold m3u_vars in *. cbn [mv_source] in S0. rewrite S0. unfold m3u_asks in A. take_all V A. reflexivity.
  Qed.
  Lemma dump_goes tokens cl vars vm fs : in_order dump_tables tokens cl vars -> dump_asks cl vars vm ->
    dump_command z passes md5 e below w stamp regex helped tokens vars fs = dump_main z passes md5 e below w stamp regex vm fs.
  Proof.
    intros O A. unfold dump_command. goes_by dump_tables A. f_equal. unfold dump_vars. unfold dump_asks in A. take_all V A. destruct vm as [? ? [] ? ? ? ? ?]. reflexivity.
  Qed.
End Goes.

(** ** dump *)
Section Dump.
  Context (z : zlib) (passes : nat) (md5 : bytes -> bytes) (e : env) (below : bytes -> list bytes) (w : world)
          (stamp : bytes -> bytes) (regex : bytes -> outcome (bytes -> bool)) (helped : help_level * option verbose_flavor -> N).
  Lemma dump_said tokens cl vars vm fs : S_Program.in_order dump_tables tokens cl vars -> dump_asks cl vars vm ->
    dump_says z passes md5 e below w stamp regex tokens vars fs = dump_printed z passes md5 e below w stamp regex vm fs.
  Proof.
    intros O A. destruct (after_goes dump_tables helped (fun m => dump_main z passes md5 e below w stamp regex (dump_vars m)) tokens cl vars fs ltac:(cbn; tauto) O) as (m & G & V & _).
    unfold dump_says. rewrite G. f_equal. unfold dump_vars. unfold dump_asks in A. take_all V A. destruct vm as [? ? [] ? ? ? ? ?]. reflexivity.
  Qed.
  Lemma stands_there fs p a : stands_at (e_cwd e) stamp below fs p a -> dump_arg_at e below stamp fs p = a.
  Proof.
    intros [f D F|l D F]; unfold dump_arg_at; rewrite D.
    - unfold dump_file_at, file_there in *. destruct (find_node _ _) as [[data|]|]; now inversion F.
    - f_equal. clear D. induction F as [|q o ps os F _ IH]; [reflexivity|]. cbn [map]. rewrite IH. f_equal. unfold dump_file_at, file_there in *. destruct (find_node _ _) as [[data|]|]; now subst.
  Qed.
  Lemma stand_there fs ps l : Forall2 (stands_at (e_cwd e) stamp below fs) ps l -> map (dump_arg_at e below stamp fs) ps = l /\ forall a, In a l -> a <> DMissing.
  Proof.
    induction 1 as [|p a ps l S0 F IH]; [split; [reflexivity|now intros a []]|]. destruct IH as (IH & N1). cbn [map]. rewrite IH, (stands_there fs p a S0). split; [reflexivity|].
    intros b [<-|I]; [now destruct S0|now apply N1].
  Qed.
  Lemma dump_runs tokens cl vars vm fs matches ps s :
    S_Program.in_order dump_tables tokens cl vars -> dump_asks cl vars vm ->
    match dv_expression vm with None => Ok (fun _ => true) | Some x => regex x end = Ok matches ->
    Forall2 (stands_at (e_cwd e) stamp below fs) (dv_args vm) ps ->
    dump_args (dump_one z passes md5 w vm) matches ps = (s, Ok tt) ->
    dump_says z passes md5 e below w stamp regex tokens vars fs = (s, Ok tt) /\ dump_command z passes md5 e below w stamp regex helped tokens vars fs = ([], (Ok 0, fs)).
  Proof.
    intros O A X F D. destruct (stand_there fs _ _ F) as (E & _).
    assert (Y : dump_printed z passes md5 e below w stamp regex vm fs = (s, Ok tt)) by (unfold dump_printed; now rewrite X, E).
    rewrite (dump_said tokens cl vars vm fs O A), (dump_goes z passes md5 e below w stamp regex helped tokens cl vars vm fs O A). split; [exact Y|].
    unfold dump_main. rewrite Y. reflexivity.
  Qed.
End Dump.

(** ** Examples *)
Lemma gives_find T cl vars k d v : find (fun d => bytes_eqb (d_long d) (B k)) (t_all T) = Some d -> worth T cl vars d v -> gives T cl vars k v.
Proof. intros F W. apply find_some in F. destruct F as (I & E). exists d. split; [exact I|]. split; [|exact W]. destruct (bytes_eqb_spec (d_long d) (B k)); [assumption|discriminate E]. Qed.
