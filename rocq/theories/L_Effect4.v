(** * Histories of commands. *)
From Verif Require Import Base M_Ints M_Stream M_Id3v1 M_Payload M_Frame M_Charset M_Lookup M_Read M_Fs M_Tagset M_Process M_Popm M_Cmds M_Options
  S_Ints S_Id3v1 S_Read S_Tag S_Tagset S_Saved S_Popm S_Cmds S_Effect L_Tagset L_Process L_Effect.
#[local] Open Scope N_scope.

Lemma run_keeps z passes e path d n a fs fs' : crc_range z -> (0 < passes)%nat -> file_at e path d n -> 355 <= len a ->
  audio_there z passes (resolve (e_cwd e) path) a fs -> sound_run z passes e path a fs fs' -> audio_there z passes (resolve (e_cwd e) path) a fs'.
Proof.
  intros Hz Hp FA LA (data & l & v2 & v1 & Hk & HR & HA) R. destruct R as [S P p s st o HF HM HC].
  destruct (process_tagset P p v2 v1 s) as [[[[dirty v2'] v1'] s']| | |] eqn:HT.
  2-4: exfalso; unfold process_file in HF; rewrite Hk in HF; apply fbind_ok in HF as ([b2 b1] & st1 & fs1 & st2 & E1 & HF);
       unfold flift in E1; rewrite HR in E1; injection E1 as _ <- <- <-;
       apply fbind_ok in HF as ([[[d1 c2] c1] s1] & st3 & fs3 & st4 & E1 & HF); unfold flift in E1; rewrite HT in E1; discriminate E1.
  destruct (p_dry p) eqn:DR; [|destruct dirty].
  - destruct (process_dry z passes e P p path s fs DR) as (_ & X). rewrite HF in X. cbn [snd] in X. subst fs'. exists data, l, v2, v1. auto.
  - destruct (HC data l v2 v1 v2' v1' s' Hk (proj1 HA) HR eq_refl HT) as (C1 & C2 & C3).
    destruct (command_effect z passes e P p path d n fs data l a v2 v1 s v2' v1' s' st o fs' Hz Hp FA Hk HR HA LA DR HT C1 C2 C3 HF HM)
      as (data' & v2'' & v1'' & l'' & X1 & X2 & _ & _ & _ & _ & X3). exists data', l'', v2'', v1''. auto.
  - unfold process_file in HF; rewrite Hk in HF; apply fbind_ok in HF as ([b2 b1] & st1 & fs1 & st2 & E1 & HF);
       unfold flift in E1; rewrite HR in E1; injection E1 as _ <- <- <-.
    apply fbind_ok in HF as ([[[d1 c2] c1] s1] & st3 & fs3 & st4 & E1 & HF); unfold flift in E1; rewrite HT in E1; injection E1 as _ <- <- <- <- <-.
    apply fbind_ok in HF as (u & st5 & fs5 & st6 & HW & HF). unfold fret in HF. injection HF as _ _ HF. subst fs5.
    unfold write_tagset in HW. cbn [andb] in HW. injection HW as _ _ <-. exists data, l, v2, v1. auto.
Qed.
Lemma runs_keep z passes e path d n a fs fs' : crc_range z -> (0 < passes)%nat -> file_at e path d n -> 355 <= len a ->
  audio_there z passes (resolve (e_cwd e) path) a fs -> sound_runs z passes e path a fs fs' -> audio_there z passes (resolve (e_cwd e) path) a fs'.
Proof.
  intros Hz Hp FA LA A R. induction R as [|fs fs1 fs2 fs3 R1 E R IH]; [assumption|]. apply IH.
  destruct (run_keeps z passes e path d n a fs fs1 Hz Hp FA LA A R1) as (data & l & v2 & v1 & H1 & H2). exists data, l, v2, v1. rewrite E. auto.
Qed.
