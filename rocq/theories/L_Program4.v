(** * Lemmas: the program as a whole. *)
From Verif Require Import Base S_Ints S_Stream M_Ints M_Stream M_Id3v1 M_Payload M_Frame M_Tag22 M_Tag23 M_Tag24 M_Charset M_Encodings M_TextId M_Lookup M_Mp3 M_Track M_Read M_Fs
  M_Tagset M_Process M_Dirent M_Popm M_Cmds M_Xtag M_Options S_Options L_Options M_Split S_Split L_Split M_Csv M_Report M_Tbt M_Rename M_M3u M_Dump M_JsonDump M_CsvDump
  M_Outputs M_Naming M_Main S_Main L_Main S_Popm S_Tag23 M_Po S_Po L_Po L_Po2 L_Po3 M_Program S_Program L_Program L_Program2 L_Program3.
#[local] Open Scope N_scope.

Lemma after_spared P T helped go tokens vars fs : (forall m, gather T tokens vars = Handled (Ok (inr m)) -> spared P (go m fs) fs) -> spared P (after_options T helped go tokens vars fs) fs.
Proof.
  intros H. unfold after_options. destruct (gather_proper T tokens vars) as [E|[([h|m] & E)|(x & E)]]; rewrite E.
  - apply untouched_spared. split; reflexivity.
  - apply untouched_spared. split; reflexivity.
  - now apply H.
  - apply untouched_spared. split; reflexivity.
Qed.

Section Whole.
  Context (z : zlib) (passes : nat) (md5 : bytes -> bytes) (e : env) (entries below : bytes -> list bytes) (w : world) (ct : ctype)
          (broken : bytes -> option nat) (blind : rfile -> outcome unit) (loc : outcome enc) (stamp : bytes -> bytes)
          (regex : bytes -> outcome (bytes -> bool)) (helped : help_level * option verbose_flavor -> N)
          (page : bytes -> N) (guile : list bytes -> FS N).
  Notation handlers := (handlers z passes md5 e entries below w ct broken blind loc stamp regex helped).
  Notation program := (program z passes md5 e entries below w ct broken blind loc stamp regex helped page guile).

  Lemma program_status prog argv vars fs : (forall h, helped h <= 1) -> (forall p, page p <= 1) ->
    told (program prog argv vars fs) fs \/
    (program prog argv vars fs = guile (prog :: argv) fs /\ forall name rest f, runs name rest argv -> ~ In (B name, f) handlers).
  Proof.
    intros H Pg. destruct (registered_all z passes md5 e entries below w ct broken blind loc stamp regex helped) as (M & E & F). unfold M_Program.program. rewrite E.
    destruct (decides M prog argv) as (a & D). rewrite D.
    destruct a as [| | | |s rest|g|o]; try (left; apply fret_told; first [apply Pg|lia]).
    - left. destruct (find_command M s) as [f|] eqn:Fc; [|apply fret_told; lia].
      apply (handlers_told z passes md5 e entries below w ct broken blind loc stamp regex helped H s). now apply F.
    - right. split; [now rewrite (guile_all M prog argv g D)|]. intros name rest f (pre & L & ->) I.
      destruct (decided M prog pre [] (Word (B name) rest) L (unknown_names z passes md5 e entries below w ct broken blind loc stamp regex helped (B name) f I)) as (a & D' & U).
      cbn [words] in D'. rewrite D in D'. injection D' as <-. pose proof (proj2 (F (B name) f) I) as Fi. cbn [due In last_help] in U. destruct U as [[[] _]|[_ U]].
      assert (N1 : In (B name) (command_names M)). { clear -Fi. unfold command_names. induction M as [|(k, h) r IH]; [discriminate Fi|]. cbn [find_command] in Fi.
        destruct (bytes_eqb_spec k (B name)) as [->|]; [now left|right; now apply IH]. }
      destruct U as [(_ & U)|[(N2 & _)|(N2 & _)]]; [discriminate U|now destruct N2..].
    - left. intros n X. unfold ended_with in X. cbn in X. injection X as <-. split; [lia|]. intros _. split; reflexivity.
  Qed.

  Lemma one_file name T prog rest cl argv vars fs p :
    In (name, T) [("report", report_tables); ("m3u", m3u_tables)]%string -> runs name rest argv -> line T rest cl ->
    In (B "output", [p]) cl -> p <> [] -> no_blank p -> hd 0 p <> 34 ->
    spared (fun k => k <> resolve (e_cwd e) p) (program prog argv vars fs) fs.
  Proof.
    intros I (pre & Ld & ->) L J NE NB Q. destruct I as [I|[I|[]]]; injection I as <- <-.
    - assert (I : In (B "report", report_command z passes md5 e below w blind helped) handlers) by (cbn; tauto).
      rewrite (program_runs z passes md5 e entries below w ct broken blind loc stamp regex helped page guile prog pre (B "report") _ rest vars fs Ld I).
      apply after_spared. intros m G.
      assert (V : value_of m (B "output") = Some (VText p)).
      { refine (path_value report_tables rest cl vars m (demanded KPath "output" "o") p _ L _ _ _ J NE NB Q G); [apply commands_fit; cbn; tauto|exact Logic.I|cbn; tauto|reflexivity]. }
      apply (report_spared z passes md5 w blind (e_cwd e) below (report_vars m) _ p fs); [|now intros X; apply X].
      unfold report_vars. cbn [rv_output]. unfold as_text. now rewrite (value_as m "output" _ V).
    - assert (I : In (B "m3u", m3u_command z passes e entries w loc helped) handlers) by (cbn; tauto).
      rewrite (program_runs z passes md5 e entries below w ct broken blind loc stamp regex helped page guile prog pre (B "m3u") _ rest vars fs Ld I).
      apply after_spared. intros m G.
      assert (V : value_of m (B "output") = Some (VText p)).
      { refine (path_value m3u_tables rest cl vars m (option_of KPath "output" "o") p _ L _ _ _ J NE NB Q G); [apply commands_fit; cbn; tauto|exact Logic.I|cbn; tauto|reflexivity]. }
      apply m3u_spared. unfold as_text. now rewrite (value_as m "output" _ V).
  Qed.
End Whole.
