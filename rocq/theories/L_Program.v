(** * Proofs: the program as a whole. *)
From Coq Require Import Sorting.Permutation Sorting.Sorted.
From Verif Require Import Base M_Ints M_Stream M_Id3v1 M_Payload M_Frame M_Tag22 M_Tag23 M_Tag24 M_Charset M_Encodings M_TextId M_Lookup M_Mp3 M_Track M_Read M_Fs L_Fs
  M_Tagset M_Process M_Dirent M_Popm M_Cmds M_Xtag M_Options S_Options L_Options M_Split M_Csv M_Report M_Tbt M_Rename L_Rename M_M3u M_Dump M_JsonDump M_CsvDump
  M_Outputs L_Outputs M_Naming M_Main S_Main L_Main M_Po S_Po L_Po L_Po2 L_Po3 M_Program S_Program.
#[local] Open Scope N_scope.

(** ** Status *)
Lemma conclude_told r fs : told (conclude_run r fs) fs.
Proof.
  unfold conclude_run. destruct r as [|[m|x|u|]]; [|destruct (m fs) as (l & [a|x|u|] & fs1)| | |]; intros n E; cbn [snd fst] in E; unfold ended_with in E; cbn [snd fst] in E;
    try discriminate E; injection E as <-; (split; [lia|]); intros H; try discriminate H. split; reflexivity.
Qed.
Lemma fret_told n fs : n <= 1 -> told (fret n fs) fs.
Proof. intros H n' E. unfold ended_with in E. cbn in E. injection E as <-. split; [lia|]. intros ->. now destruct H. Qed.
Lemma after_told T helped go tokens vars fs : (forall h, helped h <= 1) -> (forall m, told (go m fs) fs) -> told (after_options T helped go tokens vars fs) fs.
Proof.
  intros H G. unfold after_options. destruct (gather T tokens vars) as [|[[h|m]|x|u|]]; try apply conclude_told; [|apply G]. apply fret_told, H.
Qed.

(** ** What is kept *)
Definition keeps {A} (P : key -> Prop) (m : FS A) : Prop :=
  forall fs s, In s (snd (snd (m fs)) :: fst (m fs)) -> forall k, P k -> find_node k s = find_node k fs.
Lemma keeps_ret {A} P (a : A) : keeps P (fret a). Proof. intros fs s [<-|[]] k _. reflexivity. Qed.
Lemma keeps_lift {A} P (x : outcome A) : keeps P (flift x). Proof. intros fs s [<-|[]] k _. reflexivity. Qed.
Lemma keeps_throw {A} P x : keeps P (@fthrow A x). Proof. intros fs s [<-|[]] k _. reflexivity. Qed.
Lemma keeps_bind {A C} P (m : FS A) (f : A -> FS C) : keeps P m -> (forall a, keeps P (f a)) -> keeps P (fbind m f).
Proof.
  intros H G fs s I k Pk. unfold fbind in I. specialize (H fs). destruct (m fs) as (l & [a|x|u|] & fs1); cbn [fst snd] in H, I; try exact (H s I k Pk).
  pose proof (H fs1 (or_introl eq_refl) k Pk) as E1. specialize (G a fs1). destruct (f a fs1) as (l2 & r2 & fs2). cbn [fst snd] in G, I. destruct I as [<-|I].
  - now rewrite (G fs2 (or_introl eq_refl) k Pk).
  - apply in_app_or in I. destruct I as [I|I]; [exact (H s (or_intror I) k Pk)|]. now rewrite (G s (or_intror I) k Pk).
Qed.
Lemma keeps_here {A} P (m : FS A) (n : fsys -> FS A) : (forall fs, m fs = n fs fs) -> (forall fs, keeps P (n fs)) -> keeps P m.
Proof. intros E H fs s I k Pk. rewrite E in I. exact (H fs fs s I k Pk). Qed.
Lemma keeps_change (P : key -> Prop) k n : ~ P k -> keeps P (change (set_node k n)).
Proof. intros NP fs s I k' Pk. cbn in I. assert (X : s = set_node k n fs) by (destruct I as [I|[I|[]]]; now symmetry). subst s. apply find_set_other. intros ->. now apply NP. Qed.
Lemma keeps_append (P : key -> Prop) k data : ~ P k -> keeps P (append k data).
Proof.
  intros NP fs s I k' Pk. cbn [append snd fst] in I. assert (X : exists b, s = set_node k (File b) fs).
  { destruct I as [<-|I]; [now eexists|]. unfold append_states in I. apply in_map_iff in I. destruct I as (i & <- & _). now eexists. }
  destruct X as (b & ->). apply find_set_other. intros ->. now apply NP.
Qed.
Lemma keeps_each P (f : bytes -> FS unit) l : (forall p, keeps P (f p)) -> keeps P (each f l).
Proof. intros H. induction l as [|p r IH]; [apply keeps_ret|]. cbn [each]. apply keeps_bind; [apply H|intros _; exact IH]. Qed.
Lemma keeps_dirent P cwd visit entries : (forall p, keeps P (visit p)) -> forall fuel p, keeps P (dirent cwd visit entries fuel p).
Proof.
  intros H. induction fuel as [|fuel IH]; intros p.
  - apply (keeps_here P _ (fun fs => if is_dir fs (resolve cwd p) then flift NonTerm else if is_regular cwd fs p then visit p else fret tt)).
    + intros fs. cbn [dirent]. destruct (is_dir _ _); [reflexivity|]. destruct (is_regular _ _ _); reflexivity.
    + intros fs. destruct (is_dir _ _); [apply keeps_lift|]. destruct (is_regular _ _ _); [apply H|apply keeps_ret].
  - apply (keeps_here P _ (fun fs => if is_dir fs (resolve cwd p) then each (dirent cwd visit entries fuel) (entries p) else if is_regular cwd fs p then visit p else fret tt)).
    + intros fs. cbn [dirent]. destruct (is_dir _ _); [reflexivity|]. destruct (is_regular _ _ _); reflexivity.
    + intros fs. destruct (is_dir _ _); [now apply keeps_each|]. destruct (is_regular _ _ _); [apply H|apply keeps_ret].
Qed.
Lemma keeps_dirents P cwd visit entries args : (forall p, keeps P (visit p)) -> keeps P (process_dirent_args cwd visit entries args).
Proof.
  intros H. apply (keeps_here P _ (fun fs => each (dirent cwd visit entries (S (depth fs))) args)); [reflexivity|]. intros fs. apply keeps_each. now apply keeps_dirent.
Qed.
Lemma keeps_ofstream (P : key -> Prop) cwd p : ~ P (resolve cwd p) -> keeps P (open_ofstream cwd p).
Proof.
  intros NP. apply (keeps_here P _ (fun fs => if is_dir fs (resolve cwd p) || negb (is_dir fs (removelast (resolve cwd p))) || (last p 47 =? 47) then fthrow IosFailure
    else run _ <- change (set_node (resolve cwd p) (File []));; fret (resolve cwd p))).
  - intros fs. unfold open_ofstream. cbv zeta. destruct (_ || _); reflexivity.
  - intros fs. destruct (_ || _); [apply keeps_throw|]. apply keeps_bind; [now apply keeps_change|intros _; apply keeps_ret].
Qed.
Lemma conclude_spared P m fs : keeps P m -> spared P (conclude_run (Handled (Ok m)) fs) fs.
Proof. intros H s I k Pk. unfold conclude_run in I. specialize (H fs s). destruct (m fs) as (l & [a|x|u|] & fs1); exact (H I k Pk). Qed.
Lemma untouched_spared P r fs : untouched r fs -> spared P r fs.
Proof. intros (A & C) s I k _. rewrite A, C in I. destruct I as [<-|[]]. reflexivity. Qed.
(** The other way round: nothing at all is done. *)
Definition quiet {A} (m : FS A) : Prop := forall fs, fst (m fs) = [] /\ snd (snd (m fs)) = fs.
Lemma quiet_lift {A} (x : outcome A) : quiet (flift x). Proof. intros fs. now split. Qed.
Lemma quiet_throw {A} x : quiet (@fthrow A x). Proof. intros fs. now split. Qed.
Lemma quiet_ret {A} (a : A) : quiet (fret a). Proof. intros fs. now split. Qed.
Lemma quiet_bind {A C} (m : FS A) (f : A -> FS C) : quiet m -> (forall a, quiet (f a)) -> quiet (fbind m f).
Proof.
  intros H G fs. unfold fbind. specialize (H fs). destruct (m fs) as (l & [a|x|u|] & fs1); cbn [fst snd] in H |- *; try exact H. destruct H as (-> & ->).
  specialize (G a fs). destruct (f a fs) as (l2 & r2 & fs2). exact G.
Qed.
Lemma quiet_each (f : bytes -> FS unit) l : (forall p, quiet (f p)) -> quiet (each f l).
Proof. intros H. induction l as [|p r IH]; [apply quiet_ret|]. cbn [each]. apply quiet_bind; [apply H|intros _; exact IH]. Qed.
Lemma quiet_dirent cwd visit entries : (forall p, quiet (visit p)) -> forall fuel p, quiet (dirent cwd visit entries fuel p).
Proof.
  intros H. induction fuel as [|fuel IH]; intros p fs; cbn [dirent]; (destruct (is_dir _ _); [|destruct (is_regular _ _ _); [apply H|apply quiet_ret]]).
  - apply quiet_lift.
  - now apply quiet_each.
Qed.
Lemma quiet_dirents cwd visit entries args : (forall p, quiet (visit p)) -> quiet (process_dirent_args cwd visit entries args).
Proof. intros H fs. unfold process_dirent_args. apply quiet_each. now apply quiet_dirent. Qed.
Lemma conclude_quiet m fs : quiet m -> untouched (conclude_run (Handled (Ok m)) fs) fs.
Proof. intros H. unfold conclude_run. specialize (H fs). destruct (m fs) as (l & [a|x|u|] & fs1); exact H. Qed.

Section Handlers.
  Context (z : zlib) (passes : nat) (md5 : bytes -> bytes) (e : env) (entries below : bytes -> list bytes) (w : world) (ct : ctype)
          (broken : bytes -> option nat) (blind : rfile -> outcome unit) (loc : outcome enc) (stamp : bytes -> bytes)
          (regex : bytes -> outcome (bytes -> bool)) (helped : help_level * option verbose_flavor -> N).
  Notation handlers := (handlers z passes md5 e entries below w ct broken blind loc stamp regex helped).

  Lemma report_told m fs : told ((run r <- report_main z passes md5 w blind (e_cwd e) below (report_vars m);; fret (fst r)) fs) fs.
  Proof.
    intros n E. unfold fbind in *. destruct (report_main z passes md5 w blind (e_cwd e) below (report_vars m) fs) as (st & [(n0, text)|x|u|] & fs') eqn:R; try discriminate E.
    unfold ended_with in E. cbn in E. injection E as ->. pose proof (report_usage _ _ _ _ _ _ _ _ _ _ _ _ _ R) as (U & D). split.
    - unfold report_main in R. destruct (rv_output _) as [out|]; [|injection R as <- <- <- <-; lia]. destruct (rv_args _); [injection R as <- <- <- <-; lia|].
      match type of R with match ?t with _ => _ end = _ => destruct t as (l0 & [c|x|u|] & fs1) end; try discriminate R; [|injection R as <- <- <- <-; lia].
      assert (F : fst (finish (report_vars m) c) = n) by (generalize dependent (finish (report_vars m) c); intros q R; injection R as _ -> _; reflexivity). rewrite <- F. unfold finish. cbn [fst]. destruct (_ =? 0); lia.
    - intros ->. destruct (D eq_refl) as (-> & _ & ->). split; reflexivity.
  Qed.

  Lemma handlers_told : (forall h, helped h <= 1) -> forall name f, In (name, f) handlers -> forall rest vars fs, told (f rest vars fs) fs.
  Proof.
    intros H name f I rest vars fs.
    assert (G : forall T go, (forall m, told (go m fs) fs) -> told (after_options T helped go rest vars fs) fs) by (intros; now apply after_told).
    repeat (destruct I as [I|I]; [injection I as <- <-; first [apply G; intros m; first [apply report_told | apply conclude_told] | idtac] |]); [|destruct I].
    unfold encodings_command. match goal with |- told (match ?t with _ => _ end) _ => destruct t as [|[[h|]|x|u|]] end; try apply conclude_told; apply fret_told; [apply H|lia].
  Qed.

  (** ** What sub-command is run *)
  Lemma registered_all : exists M, register_all [] handlers = Ok M /\ forall s f, find_command M s = Some f <-> In (s, f) handlers.
  Proof.
    destruct (registered handlers) as (M & A & C & _).
    - cbn [map fst M_Program.handlers]. repeat constructor; cbn; intuition discriminate.
    - exists M. split; [apply A; reflexivity|exact C].
  Qed.
  Lemma unknown_names name f : In (name, f) handlers -> ~ is_known name.
  Proof.
    intros I K.
    assert (X : existsb (fun a => bytes_eqb (fst a) name) asks = true \/ existsb (fun a => bytes_eqb a name) (with_value ++ alone ++ scripts ++ [B "--"]) = true \/
      existsb (fun p => begins_with p name) open_ended = true).
    { destruct K as [(q & K)|[K|[[K|(p & r & K & ->)]|[K|K]]]].
      - left. apply existsb_exists. exists (name, q). split; [exact K|apply bytes_refl].
      - right. left. apply existsb_exists. exists name. split; [apply in_or_app; now left|apply bytes_refl].
      - right. left. apply existsb_exists. exists name. split; [apply in_or_app; right; apply in_or_app; now left|apply bytes_refl].
      - right. right. apply existsb_exists. exists p. split; [exact K|]. clear. induction p as [|a p IH]; [reflexivity|]. cbn. now rewrite N.eqb_refl.
      - right. left. apply existsb_exists. exists name. split; [apply in_or_app; right; apply in_or_app; right; apply in_or_app; now left|apply bytes_refl].
      - right. left. apply existsb_exists. exists name. split; [apply in_or_app; right; apply in_or_app; right; apply in_or_app; right; now left|apply bytes_refl]. }
    repeat (destruct I as [I|I]; [injection I as <- _; vm_compute in X; intuition discriminate|]). destruct I.
  Qed.

  Context (page : bytes -> N) (guile : list bytes -> FS N).
  Notation program := (program z passes md5 e entries below w ct broken blind loc stamp regex helped page guile).
  Lemma program_runs prog pre name f rest vars fs : leading pre [] -> In (name, f) handlers -> program prog (pre ++ name :: rest) vars fs = f rest vars fs.
  Proof.
    intros L I. destruct registered_all as (M & E & F). unfold M_Program.program. rewrite E.
    destruct (decided M prog pre [] (Word name rest) L (unknown_names name f I)) as (a & D & U). cbn [words] in D. rewrite D.
    pose proof (proj2 (F name f) I) as Fi. cbn [due In last_help] in U. destruct U as [[[] _]|[_ U]].
    assert (N1 : In name (command_names M)). { clear -Fi. unfold command_names. induction M as [|(k, h) r IH]; [discriminate Fi|]. cbn [find_command] in Fi.
      destruct (bytes_eqb_spec k name) as [->|]; [now left|right; now apply IH]. }
    destruct U as [(_ & ->)|[(N2 & _)|(N2 & _)]]; [|now destruct N2..]. now rewrite Fi.
  Qed.
  Lemma program_told prog argv vars fs : (forall h, helped h <= 1) -> (forall p, page p <= 1) ->
    told (program prog argv vars fs) fs \/ program prog argv vars fs = guile (prog :: argv) fs.
  Proof.
    intros H Pg. destruct registered_all as (M & E & F). unfold M_Program.program. rewrite E. destruct (decides M prog argv) as (a & D). rewrite D.
    destruct a as [| | | |s rest|g|o]; try (left; apply fret_told; first [apply Pg|lia]).
    - left. destruct (find_command M s) as [f|] eqn:Fc; [|apply fret_told; lia]. apply (handlers_told H s). now apply F.
    - right. now rewrite (guile_all M prog argv g D).
    - left. intros n X. unfold ended_with in X. cbn in X. injection X as <-. split; [lia|]. intros _. split; reflexivity.
  Qed.

  (** ** Those that only read *)
  Lemma dump_quiet tokens vars fs : untouched (dump_command z passes md5 e below w stamp regex helped tokens vars fs) fs.
  Proof. apply after_untouched. intros m _. unfold dump_main. apply conclude_quiet, quiet_lift. Qed.
  Lemma encodings_quiet tokens vars fs : untouched (encodings_command helped tokens vars fs) fs.
  Proof. unfold encodings_command. match goal with |- untouched (match ?t with _ => _ end) _ => destruct t as [|[[h|]|x|u|]] end; split; reflexivity. Qed.
  Lemma m3u_quiet m fs : as_text m "output" = None -> untouched (m3u_main z passes e entries w loc (m3u_vars m) fs) fs.
  Proof.
    intros H. unfold m3u_main, m3u_vars. cbn [mv_output mv_append mv_utf8 mv_args mv_noenc mv_source]. rewrite H.
    destruct (as_switch m "append"); [split; reflexivity|]. destruct (as_switch m "use-utf8"); [split; reflexivity|]. destruct (as_texts m "arguments") as [l|]; [|split; reflexivity].
    apply conclude_quiet. apply quiet_bind; [apply quiet_lift|]. intros dst. apply quiet_dirents. intros p fs0. unfold m3u_shown. destruct (find_node _ _) as [[data|]|]; [apply quiet_lift|apply quiet_throw..].
  Qed.

  (** ** A dry run *)
  Lemma rename_quiet vm fs : nv_dry vm = true -> untouched (rename_main z passes md5 w ct (e_cwd e) broken below vm fs) fs.
  Proof.
    intros D. unfold rename_main. destruct (required (nv_args vm)) as [|[u|x|u|]]; cbn [hbind]; try (split; reflexivity).
    destruct (fst (template_processor Init (given_template vm))) as [l|x|u0|]; cbn [hbind]; try (split; reflexivity).
    apply conclude_quiet. intros fs0. apply rename_dry. exact D.
  Qed.

  (** ** Those that write one file *)
  Lemma m3u_spared m fs out : as_text m "output" = Some out -> spared (fun k => k <> resolve (e_cwd e) out) (m3u_main z passes e entries w loc (m3u_vars m) fs) fs.
  Proof.
    intros H. unfold m3u_main, m3u_vars. cbn [mv_output mv_append mv_utf8 mv_args mv_noenc mv_source]. rewrite H.
    assert (U : forall r : handled (FS unit), r = UsageError -> spared (fun k => k <> resolve (e_cwd e) out) (conclude_run r fs) fs) by (intros r ->; apply untouched_spared; split; reflexivity).
    destruct (as_switch m "append" && match out with [] => true | _ => false end); [now apply U|]. destruct (as_switch m "use-utf8" && match out with [] => true | _ => false end); [now apply U|].
    cbn [hbind proceed]. destruct (as_texts m "arguments") as [l|]; cbn [hbind]; [|apply untouched_spared; split; reflexivity].
    apply conclude_spared. destruct out as [|c out].
    - apply keeps_bind; [apply keeps_lift|]. intros dst. apply keeps_dirents. intros p. apply (keeps_here _ _ (fun fs => match find_node (resolve (e_cwd e) p) fs with
        | Some (File data) => flift (let* _ := m3u_text z passes w loc (mkM3u None dst (as_noenc m "on-encoding-failure")) p data in Ok tt) | _ => fthrow IosFailure end)).
      + intros fs0. unfold m3u_shown. destruct (find_node _ _) as [[data|]|]; reflexivity.
      + intros fs0. destruct (find_node _ _) as [[data|]|]; [apply keeps_lift|apply keeps_throw..].
    - set (k := resolve (e_cwd e) (c :: out)). assert (NP : ~ k <> k) by (intros X; now apply X). unfold m3u_to_file. fold k. apply keeps_bind; [apply keeps_lift|]. intros dst. apply keeps_bind.
      + apply (keeps_here _ _ (fun fs => if is_dir fs k then fthrow IosFailure else match find_node k fs with Some Dir => fthrow IosFailure
          | Some (File _) => if as_switch m "append" then fret tt else change (set_node k (File [])) | None => if is_dir fs (removelast k) then change (set_node k (File [])) else fthrow IosFailure end)).
        * intros fs0. unfold open_out. destruct (is_dir fs0 k); [reflexivity|]. destruct (find_node k fs0) as [[d|]|]; [destruct (as_switch _ _)| |destruct (is_dir _ _)]; reflexivity.
        * intros fs0. destruct (is_dir fs0 k); [apply keeps_throw|]. destruct (find_node k fs0) as [[d|]|]; [destruct (as_switch _ _); [apply keeps_ret|now apply keeps_change]|apply keeps_throw|].
          destruct (is_dir _ _); [now apply keeps_change|apply keeps_throw].
      + intros _. apply keeps_bind; [now apply keeps_append|]. intros _. apply keeps_dirents. intros p.
        apply (keeps_here _ _ (fun fs => match find_node (resolve (e_cwd e) p) fs with
          | Some (File data) => run s <- flift (m3u_text z passes w loc (mkM3u None dst (as_noenc m "on-encoding-failure")) p data);; append k s | _ => fthrow IosFailure end)).
        * intros fs0. unfold m3u_file. destruct (find_node _ _) as [[data|]|]; reflexivity.
        * intros fs0. destruct (find_node _ _) as [[data|]|]; [|apply keeps_throw..]. apply keeps_bind; [apply keeps_lift|]. intros s. now apply keeps_append.
  Qed.
End Handlers.
