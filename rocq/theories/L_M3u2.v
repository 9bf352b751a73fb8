(** * Lemmas: the m3u command on files. *)
From Verif Require Import Base M_Ints M_Stream M_Id3v1 M_Payload M_Frame M_Charset M_TextId M_Lookup M_Mp3 M_Read M_Fs M_Tagset M_Process M_Cmds M_Split M_Rename M_Dirent M_M3u
  S_Lookup S_Cmds S_Tagset S_Read S_Dirent S_M3u L_Stream L_Fs L_Lookup L_Read L_Id3v1c L_Cmds L_Cmds5 L_Dirent L_M3u.
#[local] Open Scope N_scope.

(** ** Durations have a proper denominator *)
Lemma rate_pos v k : k < 3 -> 0 < nth (N.to_nat k) (sample_rates v) 0.
Proof.
  intros H. assert (Q : k = 0 \/ k = 1 \/ k = 2) by lia. destruct v, Q as [-> | [-> | ->]]; reflexivity.
Qed.
Lemma land3 x : N.land x 3 < 4.
Proof. change 3 with (N.ones 2). rewrite N.land_ones. apply N.mod_lt. discriminate. Qed.
Lemma header_rate h0 h1 h2 h3 s m s' : parse_header h0 h1 h2 h3 s = (Ok m, s') -> 0 < m_rate m.
Proof.
  unfold parse_header. intros E. apply sbind_inv in E as (here & s1 & _ & E). unfold on_throw in E.
  match type of E with match ?x s1 with _ => _ end = _ => set (body := x) in E end.
  assert (B1 : body s1 = (Ok m, s')).
  { destruct (body s1) as (r, s2). destruct r as [a|e|u|]; try exact E. apply sbind_inv in E as (? & ? & _ & E). discriminate E. }
  subst body. clear E. destruct (negb (is_sync h0 h1)); [discriminate B1|].
  apply sbind_inv in B1 as (ver & s2 & _ & B1). destruct (negb (_ =? 1)).
  { apply sbind_inv in B1 as (? & ? & _ & B1). discriminate B1. }
  apply sbind_inv in B1 as (crc & s3 & _ & B1). cbv zeta in B1. destruct (_ || _).
  { apply sbind_inv in B1 as (? & ? & _ & B1). discriminate B1. }
  destruct (N.eqb_spec (N.land (N.shiftr h2 2) 3) 3) as [K|K].
  { apply sbind_inv in B1 as (? & ? & _ & B1). discriminate B1. }
  apply sbind_inv in B1 as (? & s4 & _ & B1). apply sret_inv in B1. subst m. cbn [m_rate].
  apply rate_pos. pose proof (land3 (N.shiftr h2 2)). lia.
Qed.
Lemma duration_den s d s' : get_mp3_duration s = (Ok d, s') -> 0 < snd d.
Proof.
  unfold get_mp3_duration. intros E.
  apply sbind_inv in E as (? & s1 & _ & E). apply sbind_inv in E as (? & s2 & _ & E). apply sbind_inv in E as (? & s3 & _ & E).
  apply sbind_inv in E as (? & s4 & _ & E). apply sbind_inv in E as (? & s5 & _ & E). apply sbind_inv in E as (h & s6 & _ & E).
  apply sbind_inv in E as (b & s7 & _ & E). destruct (_ || _).
  - apply sbind_inv in E as (? & ? & _ & E). apply sbind_inv in E as (? & ? & _ & E). apply sret_inv in E. subst d. reflexivity.
  - apply sbind_inv in E as (d' & s8 & T & E). apply sbind_inv in E as (? & ? & _ & E). apply sret_inv in E. subst d'.
    unfold timed in T. apply sbind_inv in T as ((f, v) & s9 & A & T).
    unfold mp3_audio_frame in A. apply sbind_inv in A as (m & s10 & P & A). apply sbind_inv in A as (v' & s11 & _ & A). apply sbind_inv in A as (? & ? & _ & A).
    apply sret_inv in A. injection A as <- _. apply header_rate in P. unfold frame_duration in T.
    destruct v as [(nf, nb)|]; apply sbind_inv in T as (? & ? & _ & T); apply sret_inv in T; subst d; exact P.
Qed.

(** ** The text for a file *)
Lemma process_any d p e p' e' : fst (process_id3v1 (mkIs d p e 0)) = fst (process_id3v1 (mkIs d p' e' 0)).
Proof.
  rewrite !process_eq. destruct (v1i_type (v1_find d)); [reflexivity| |].
  - destruct (init_standard _); reflexivity.
  - destruct (init_extended _); reflexivity.
Qed.
Lemma tagset_split z passes data v2 v1 : read_tagset z passes data = Ok (v2, v1) ->
  exists l, tags_from data 0 l /\ (forall e, read_all_id3v2 z passes (open_file data e) = (Ok v2, mkIs data (tags_end 0 l) e 0)) /\
    forall p e, fst (process_id3v1 (mkIs data p e 0)) = Ok v1.
Proof.
  unfold read_tagset. intros E. destruct ((do v2 <- _;; _) (open_file data all_bits)) as (r, s) eqn:R. cbn [fst] in E. subst r.
  apply sbind_inv in R as (a & s1 & RA & R). apply sbind_inv in R as (b & s2 & P & R). apply sret_inv in R. injection R as -> ->.
  apply (read_all_iff z passes all_bits data 0) in RA; [|lia]. destruct RA as (l & TF & Q1 & Q2 & ->).
  exists l. split; [exact TF|]. split; [intros e; apply (read_all_iff z passes e data 0); [lia|]; exists l; auto|]. intros p e. rewrite (process_any data p e (tags_end 0 l) all_bits), P. reflexivity.
Qed.
Lemma process_fst d p e r : fst (process_id3v1 (mkIs d p e 0)) = r -> exists s, process_id3v1 (mkIs d p e 0) = (r, s).
Proof. intros <-. destruct (process_id3v1 _) as (x, s). eauto. Qed.
Lemma tags_from_fun data : forall l pos l', tags_from data pos l -> tags_from data pos l' -> l = l'.
Proof.
  induction l as [|h l IH]; intros pos [|h' l'] A C; [reflexivity| | |]; cbn [tags_from] in A, C.
  - destruct C as (_ & C & _). elim (A _ _ _ _ C).
  - destruct A as (_ & A & _). elim (C _ _ _ _ A).
  - destruct A as (A1 & A2 & A3), C as (C1 & C2 & C3). destruct (header_at_unique _ _ _ _ _ _ _ _ _ _ A2 C2) as (E1 & E2 & E3 & E4).
    rewrite <- E4 in C3. f_equal; [|exact (IH _ _ A3 C3)]. destruct h, h'. cbn in *. congruence.
Qed.

Lemma text_eq z passes w loc o path data v2 v1 d : read_tagset z passes data = Ok (v2, v1) -> lasts data d ->
  m3u_text z passes w loc o path data =
  let* g := guess_display_title w loc o v2 v1 in Ok (m3u_entry d (match g with Some s => s | None => stem path end) path).
Proof.
  intros E (l & pos & e & TF & GD). destruct (tagset_split _ _ _ _ _ E) as (l' & TF' & RA & PV).
  rewrite (tags_from_fun data l' 0 l TF' TF) in RA. unfold m3u_text.
  destruct (process_fst data pos e (Ok v1) (PV pos e)) as (s2 & PE).
  unfold sbind. rewrite (RA goodbit), GD, PE. unfold lift. destruct (guess_display_title w loc o v2 v1); reflexivity.
Qed.

Lemma text_told z passes w loc o src path data : source loc o src -> char_unit (m3_dst o) = true -> tellable z passes w o data ->
  exists d title, m3u_text z passes w loc o path data = Ok (m3u_entry d title path) /\ tells_file z passes w src o path data (whole_seconds d) title.
Proof.
  intros S1 C (v2 & v1 & d & E & L & RD). rewrite (text_eq z passes w loc o path data v2 v1 d E L).
  pose proof (tagset_fresh _ _ _ _ _ E) as F. destruct (guess_total w loc o src v2 v1 F S1 C RD) as (g & G). rewrite G. cbn [bind].
  exists d, (match g with Some s => s | None => stem path end). split; [reflexivity|]. exists v2, v1, d. split; [exact E|]. split; [exact L|]. split.
  - destruct L as (? & ? & ? & _ & GD). apply nearest_whole. eapply duration_den. exact GD.
  - eapply guess_display; eassumption.
Qed.
