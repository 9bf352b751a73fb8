(** * Proofs: copying ID3v1 to ID3v2. *)
From Verif Require Import Base M_Ints M_Stream M_Id3v1 M_Payload M_Frame M_Tag22 M_Tag23 M_Tag24 M_Charset M_TextId M_Lookup M_Read S_Read M_Fs M_Tagset
  M_Genres M_Match M_Process M_Cmds S_Charset S_Lookup S_Id3v1 S_Match S_Process S_Cmds L_Charset L_Id3v1 L_Id3v1b L_Lookup L_Lookup2 L_Lookup3 L_Match5 L_Process
  L_Cmds L_Cmds2 L_Cmds4 L_Cmds5 L_Cmds6.
#[local] Open Scope N_scope.

(** ** Frames added at the end *)
Lemma ready_add_comm st c : ready V23 st ->
  ready V23 (put_at OvBase (size_l st) (new_frame (mkFrame (comm_id V23) no_flags (BComm c))) st).
Proof.
  intros R. set (cf := new_frame _). set (st' := put_at _ _ _ _).
  assert (FR : l_frames st' = l_frames st ++ [(l_next st, cf)]).
  { subst st'. cbn [put_at add_lookups bump set_frames l_frames]. unfold size_l. apply insert_at_end. }
  assert (TX : l_texts st' = l_texts st) by reflexivity.
  assert (NX : l_next st' = l_next st + 1) by reflexivity. clearbody st'.
  assert (FN : ~ In (l_next st) (map fst (l_frames st))).
  { intros M. apply in_map_iff in M as (x & E & M). pose proof (y_next _ _ R) as F. rewrite Forall_forall in F. specialize (F x M). lia. }
  constructor.
  - rewrite FR, map_app. apply NoDup_snoc; [apply R|exact FN].
  - rewrite FR, NX. apply Forall_app. split.
    + eapply Forall_impl; [|apply R]. cbn beta. intros x L. lia.
    + constructor; [cbn [fst]; lia|constructor].
  - rewrite TX, FR. intros k a M.
    destruct (y_texts _ _ R k a M) as (i & d & u & X & ID & W). exists i, d, u. split; [|auto].
    rewrite nthN_app1 by (apply (nthN_lt _ _ _ X)). exact X.
  - rewrite TX, FR. intros i a d u X W. destruct (N.lt_ge_cases i (N.of_nat (length (l_frames st)))) as [L|L].
    + rewrite nthN_app1 in X by exact L. eapply (y_full _ _ R); eassumption.
    + unfold nthN in X. rewrite nth_error_app2 in X by lia. destruct (_ - _)%nat as [|k]; cbn in X; [|destruct k; discriminate X].
      injection X as <- <-. discriminate W.
  - unfold frames_of. rewrite FR, map_app. apply Forall_app. split; [apply R|]. constructor; [reflexivity|constructor].
Qed.

Lemma put_end o f st : frames_of (put_at o (size_l st) (new_frame f) st) = frames_of st ++ [f].
Proof.
  unfold frames_of. replace (l_frames (put_at o (size_l st) (new_frame f) st)) with (l_frames st ++ [(l_next st, new_frame f)]).
  - rewrite map_app. reflexivity.
  - destruct o; cbn [put_at add_lookups bump set_frames l_frames]; unfold size_l; rewrite insert_at_end; reflexivity.
Qed.

(** ** ASCII *)
Lemma ascii_low s : ascii_text s -> Forall (fun c => c < 128) s.
Proof. intros (F & _). eapply Forall_impl; [|exact F]. cbn. tauto. Qed.
Lemma ascii_no_nul s : ascii_text s -> no_nul s.
Proof. intros (F & _) M. rewrite Forall_forall in F. specialize (F _ M). lia. Qed.
Lemma low_no_bom s : Forall (fun c => c < 128) s -> no_bom s \/ exists r, s = 0 :: 0 :: 254 :: 255 :: r.
Proof.
  intros F. rewrite Forall_forall in F. left. intros r. repeat split; intros ->.
  - specialize (F 239 (or_introl eq_refl)). lia.
  - specialize (F 254 (or_introl eq_refl)). lia.
  - specialize (F 255 (or_introl eq_refl)). lia.
  - specialize (F 254 (or_intror (or_intror (or_introl eq_refl)))). lia.
Qed.
Lemma ascii_no_bom s : ascii_text s -> no_bom s.
Proof. intros A. destruct (low_no_bom s (ascii_low s A)) as [H|(r & ->)]; [exact H|]. destruct A as (F & _). inversion F as [|? ? X]; subst. lia. Qed.

Lemma ascii_storable ic s : ascii_alike ic -> ascii_text s -> s <> [] -> storable ic V23 E_UTF_8 s.
Proof.
  intros I1 A NE. split; [exact NE|]. split; [apply ascii_no_nul; exact A|]. split; [apply ascii_no_bom; exact A|]. split; [apply A|]. split; [reflexivity|].
  exists s. pose proof (ascii_low s A) as L. split; [apply I1; cbn; auto|]. split; [exact NE|]. split; [lia|]. apply I1; cbn; auto.
Qed.

Lemma holds_low field s : holds field s -> Forall (fun c => c < 128) field.
Proof.
  intros (A & fill & -> & F). apply Forall_app. split; [apply ascii_low; exact A|]. eapply Forall_impl; [|exact F]. cbn. intros c [-> | ->]; lia.
Qed.
Lemma holds_trim field s : holds field s -> rtrim field = s.
Proof.
  intros ((_ & NT) & fill & -> & F). induction fill as [|c r IH] using rev_ind; [rewrite app_nil_r; apply rtrim_id; exact NT|].
  apply Forall_app in F as (F1 & F2). inversion F2; subst. rewrite app_assoc, rtrim_last by assumption. apply IH. exact F1.
Qed.
Lemma field_text w field s : ascii_alike (w_ic w) -> holds field s -> v1_text w field = Ok s.
Proof.
  intros I1 H. unfold v1_text, to_string. cbn [char_unit negb]. pose proof (holds_trim _ _ H) as T. pose proof (holds_low _ _ H) as L.
  destruct field as [|c r]; [cbn in T; subst; reflexivity|]. rewrite I1 by (cbn; auto).
  rewrite drop_bom_id; [rewrite T; reflexivity|]. destruct (low_no_bom _ L) as [X|(q & X)]; [exact X|].
  rewrite X in L. rewrite Forall_forall in L. specialize (L 254 (or_intror (or_intror (or_introl eq_refl)))). lia.
Qed.

(** A new frame with ASCII text. *)
Lemma set_new w st k id s : ascii_alike (w_ic w) -> ready V23 st -> names V23 k id -> with_id id (frames_of st) = [] ->
  ascii_text s -> s <> [] ->
  exists st', tag_set_text w V23 k s E_UTF_8 st = Ok st' /\ ready V23 st' /\ frames_of st' = frames_of st ++ text_frame_of id s.
Proof.
  intros I1 R (FI & KT) W A NE. unfold tag_set_text. rewrite FI. cbn [bind]. unfold set_text_frame.
  rewrite (with_id_none _ _ _ R W), pick_nil. unfold text_new.
  rewrite (to_bytes_short (w_ic w) s E_UTF_8 E_ISO_8859_1 false NoFail s); [|apply ascii_no_nul; exact A|exact NE|reflexivity|apply I1; cbn; auto; apply ascii_low; exact A|lia].
  cbn [app bind]. eexists. split; [reflexivity|]. split; [apply ready_add; assumption|]. rewrite put_end. destruct s; [congruence|]. reflexivity.
Qed.

Definition not_yet (id : bytes) (fs : list frame) := with_id id fs = [].
Lemma not_yet_app id a b : not_yet id a -> not_yet id b -> not_yet id (a ++ b).
Proof. unfold not_yet, with_id. intros A C. rewrite filter_app, A, C. reflexivity. Qed.
Lemma not_yet_text id id' s : bytes_eqb id' id = false -> not_yet id (text_frame_of id' s).
Proof. intros E. unfold not_yet, with_id, text_frame_of. destruct s; [reflexivity|]. cbn [filter f_id]. rewrite E. reflexivity. Qed.
Lemma not_yet_comm id lang s : bytes_eqb (B "COMM") id = false -> not_yet id (comment_frame_of lang s).
Proof. intros E. unfold not_yet, with_id, comment_frame_of. destruct s; [reflexivity|]. cbn [filter f_id]. rewrite E. reflexivity. Qed.

Lemma copy_one w k id field s st : ascii_alike (w_ic w) -> ready V23 st -> names V23 k id -> not_yet id (frames_of st) -> holds field s ->
  exists st', copy_text w k field st = Ok st' /\ ready V23 st' /\ frames_of st' = frames_of st ++ text_frame_of id s.
Proof.
  intros I1 R NM W H. unfold copy_text. rewrite (field_text w field s I1 H). cbn [bind].
  destruct s as [|c r]; [exists st; cbn [text_frame_of]; rewrite app_nil_r; auto|]. apply set_new; try assumption; [apply H|discriminate].
Qed.

Lemma ready_empty : ready V23 empty_ltag.
Proof.
  change empty_ltag with (tables (A23 (mkTag23 None false None 1024 []))).
  apply (ready_fresh (A23 (mkTag23 None false None 1024 []))). split; [reflexivity|repeat constructor].
Qed.

Lemma genres_ascii : Forall (fun s => ascii_text s /\ s <> []) genres.
Proof.
  assert (H : forallb (fun s => forallb (fun c => (0 <? c) && (c <? 128)) s && negb (last s 32 =? 32) && negb (last s 0 =? 0)) genres = true) by (vm_compute; reflexivity).
  apply Forall_forall. intros s M. rewrite forallb_forall in H. specialize (H s M).
  apply andb_true_iff in H as (H & H3). apply andb_true_iff in H as (H1 & H2). rewrite forallb_forall in H1.
  split; [split|].
  - apply Forall_forall. intros c Q. specialize (H1 c Q). apply andb_true_iff in H1 as (A & C). apply N.ltb_lt in A, C. auto.
  - intros s' c ->. rewrite last_last in H2, H3. apply negb_true_iff, N.eqb_neq in H2. apply negb_true_iff, N.eqb_neq in H3. auto.
  - intros ->. discriminate H3.
Qed.
Lemma genre_name_ascii n s : text_for_genre n = Some s -> ascii_text s /\ s <> [].
Proof. rewrite numbers. intros E. apply nth_error_In in E. pose proof genres_ascii as G. rewrite Forall_forall in G. auto. Qed.

Lemma copy_v1_l w t artist title album comment year lang : ascii_alike (w_ic w) ->
  holds (v_artist t) artist -> holds (v_title t) title -> holds (v_album t) album -> holds (v_comment t) comment -> holds (v_year t) year ->
  w_lang w = Ok lang ->
  exists st, copy_v1_frames w t = Ok st /\ ready V23 st /\
    frames_of st = frames_of_v1 lang artist title album comment (text_for_genre (v_genre t)) year.
Proof.
  intros I1 H1 H2 H3 H4 H5 HL. unfold copy_v1_frames, frames_of_v1.
  destruct (copy_one w tf_tpe1 (B "TPE1") _ _ _ I1 ready_empty (conj eq_refl eq_refl) eq_refl H1) as (s1 & E1 & R1 & F1). rewrite E1. cbn [bind].
  change (frames_of empty_ltag) with (@nil frame) in F1. cbn [app] in F1.
  destruct (copy_one w tf_tit2 (B "TIT2") (v_title t) title s1 I1 R1 (conj eq_refl eq_refl)) as (s2 & E2 & R2 & F2).
  { rewrite F1. apply not_yet_text. reflexivity. }
  { exact H2. }
  rewrite E2. cbn [bind]. rewrite F1 in F2.
  destruct (copy_one w tf_talb (B "TALB") (v_album t) album s2 I1 R2 (conj eq_refl eq_refl)) as (s3 & E3 & R3 & F3).
  { rewrite F2. apply not_yet_app; apply not_yet_text; reflexivity. }
  { exact H3. }
  rewrite E3. cbn [bind]. rewrite F2 in F3. rewrite (field_text w _ _ I1 H4). cbn [bind].
  assert (C : exists s4, match comment with [] => Ok s3 | _ => tag_add_comment w comment s3 end = Ok s4 /\ ready V23 s4 /\
    frames_of s4 = frames_of s3 ++ comment_frame_of lang comment).
  { destruct comment as [|c r]; [exists s3; cbn [comment_frame_of]; rewrite app_nil_r; auto|]. destruct H4 as (A4 & _).
    unfold tag_add_comment. rewrite HL. cbn [bind].
    rewrite (to_bytes_short (w_ic w) (c :: r) E_UTF_8 E_ISO_8859_1 false NoFail (c :: r)); [|apply ascii_no_nul; exact A4|discriminate|reflexivity|apply I1; cbn; auto; apply ascii_low; exact A4|lia].
    cbn [app bind]. unfold add_comment, add_made. eexists. split; [reflexivity|]. split; [apply ready_add_comm; exact R3|]. apply put_end. }
  destruct C as (s4 & E4 & R4 & F4). rewrite E4. cbn [bind]. rewrite F3 in F4.
  assert (G : exists s5, (if v_genre t <? 192 then match text_for_genre (v_genre t) with Some g => tag_set_text w V23 tf_tcon g E_UTF_8 s4 | None => UB NullDeref end else Ok s4) = Ok s5 /\ ready V23 s5 /\
    frames_of s5 = frames_of s4 ++ text_frame_of (B "TCON") (match text_for_genre (v_genre t) with Some g => g | None => [] end)).
  { destruct (text_for_genre (v_genre t)) as [g|] eqn:EG.
    - assert (L : v_genre t < 192) by (apply numbers_192; congruence). apply N.ltb_lt in L. rewrite L.
      destruct (genre_name_ascii _ _ EG) as (A & NE). apply (set_new w s4 tf_tcon (B "TCON") g I1 R4 (conj eq_refl eq_refl)); [|exact A|exact NE].
      rewrite F4. repeat apply not_yet_app; first [apply not_yet_text; reflexivity | apply not_yet_comm; reflexivity].
    - destruct (N.ltb_spec (v_genre t) 192) as [L|L]; [apply numbers_192 in L; congruence|]. exists s4. cbn [text_frame_of]. rewrite app_nil_r. auto. }
  destruct G as (s5 & E5 & R5 & F5). rewrite E5. cbn [bind]. rewrite F4 in F5. rewrite (field_text w _ _ I1 H5). cbn [bind].
  destruct (N.eqb_spec (len year) 4) as [L|L].
  - destruct (set_new w s5 tf_tyer (B "TYER") year I1 R5 (conj eq_refl eq_refl)) as (s6 & E6 & R6 & F6).
    + rewrite F5. repeat apply not_yet_app; first [apply not_yet_text; reflexivity | apply not_yet_comm; reflexivity].
    + apply H5.
    + intros ->. discriminate L.
    + exists s6. split; [exact E6|]. split; [exact R6|]. rewrite F6, F5, <- !app_assoc. reflexivity.
  - exists s5. split; [reflexivity|]. split; [exact R5|]. rewrite F5. cbn [text_frame_of]. rewrite <- !app_assoc, !app_nil_r. reflexivity.
Qed.

(** A field that iconv does not take. *)
Lemma copy_v1_fails w t field : In field [v_artist t; v_title t; v_album t; v_comment t; v_year t] -> field <> [] ->
  w_ic w E_ASCII E_UTF_8 NoFail field = None -> forall st, copy_v1_frames w t <> Ok st.
Proof.
  intros M NE IC st E.
  assert (X : v1_text w field = Throw IconvError).
  { unfold v1_text, to_string. cbn [char_unit negb]. destruct field; [congruence|]. rewrite IC. reflexivity. }
  unfold copy_v1_frames in E. apply bind_ok in E as (s1 & E1 & E). apply bind_ok in E as (s2 & E2 & E). apply bind_ok in E as (s3 & E3 & E).
  apply bind_ok in E as (x4 & E4 & E). apply bind_ok in E as (s5 & _ & E). apply bind_ok in E as (s6 & _ & E). apply bind_ok in E as (x7 & E7 & E).
  unfold copy_text in *. destruct M as [M|[M|[M|[M|[M|[]]]]]]; subst field.
  - rewrite X in E1. discriminate.
  - rewrite X in E2. discriminate.
  - rewrite X in E3. discriminate.
  - congruence.
  - congruence.
Qed.

(** Nothing but these six is looked at. *)
Lemma copy_v1_six w t t' : v_artist t = v_artist t' -> v_title t = v_title t' -> v_album t = v_album t' -> v_comment t = v_comment t' ->
  v_genre t = v_genre t' -> v_year t = v_year t' -> copy_v1_frames w t = copy_v1_frames w t'.
Proof. intros A C D E F G. unfold copy_v1_frames. rewrite A, C, D, E, F, G. reflexivity. Qed.
