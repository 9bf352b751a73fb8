(** * C95, further: what is required. *)
From Verif Require Import Base S_Ints M_Ints M_Stream M_Id3v1 M_Payload M_Frame M_Tag22 M_Tag23 M_Tag24 M_Charset M_Encodings M_TextId M_Lookup M_Read M_Fs M_Split
  M_Tagset M_Process M_Dirent M_Popm M_Cmds M_Xtag M_Options S_Options L_Options M_Main S_Main L_Main S_Popm S_Tag23 M_Po S_Po L_Po L_Po2 L_Po3 P_Cmds P_Tagset P_Options P_Po.
#[local] Open Scope N_scope.

Lemma required_bare : forall T d, In T commands -> In d (t_all T) -> d_required d = true -> d_default d = None.
Proof.
  assert (H : forallb (fun T => forallb (fun d => negb (d_required d) || match d_default d with None => true | _ => false end) (t_all T)) commands = true) by (vm_compute; reflexivity).
  intros T d I J R. rewrite forallb_forall in H. specialize (H T I). cbv beta in H. rewrite forallb_forall in H. specialize (H d J). cbv beta in H.
  rewrite R in H. destruct (d_default d); [discriminate H|reflexivity].
Qed.

(** What is required and is neither on the command line nor in the environment is missed: the
    command does not go on. *)
Theorem C95_required : forall T d tokens vars os, In T commands -> In d (t_all T) -> d_required d = true ->
  parse_line (t_all T) (t_name T) (t_room T) tokens = Handled (Ok os) ->
  on_line (map (fun o => (q_key o, q_words o)) os) d = [] -> in_env T vars d = [] ->
  forall m, gather T tokens vars <> Handled (Ok (inr m)).
Proof.
  intros T d tokens vars os I J R E L V m G. pose proof (commands_fit T I) as Ft. destruct (line_delivered T tokens os Ft E) as (Kn & _).
  unfold gather in G. change (Handled (Ok os)) with (proceed os) in E. rewrite E, hbind_ok in G. destruct (parsed_help (map q_tokens os) HelpNone None) as [h f]. destruct h; try discriminate G.
  apply hbind_inv in G. destruct G as (m1 & S1 & G). apply hbind_inv in G. destruct G as (m2 & S2 & G). apply hbind_inv in G. destruct G as (u & N1 & _).
  pose proof (stored_yields T _ vars m1 m2 Ft (known_hd _ _ (f_all _ Ft) Kn) S1 S2 d J None (yield_none _ _ _ _ L V (required_bare T d I J R))) as Z.
  unfold notify in N1. destruct (forallb _ (t_all T)) eqn:F in N1; [|discriminate N1]. rewrite forallb_forall in F. specialize (F d J). cbv beta in F.
  unfold value_of in Z. rewrite R in F. destruct (get_var (d_long d) (m_vals m2)) as [[x y]|]; [discriminate Z|discriminate F].
Qed.
Print Assumptions C95_required.
Example C95_required_nontrivial :
  In (demanded KTexts "arguments" "") (t_all popm_tables) /\ In (demanded KPath "output" "o") (t_all report_tables) /\
  (exists os, parse_line (t_all report_tables) (t_name report_tables) (t_room report_tables) [B "-t"; B "music"] = Handled (Ok os) /\
    on_line (map (fun o => (q_key o, q_words o)) os) (demanded KPath "output" "o") = [] /\ in_env report_tables [] (demanded KPath "output" "o") = []).
Proof.
  split; [cbn; tauto|]. split; [cbn; tauto|]. eexists. split; [vm_compute; reflexivity|]. split; reflexivity.
Qed.
