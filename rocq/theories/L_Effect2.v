(** * Lemmas: plays added. *)
From Verif Require Import Base M_Ints M_Id3v1 M_Payload M_Frame M_Tag22 M_Tag23 M_Tag24 M_Charset M_Lookup M_Read M_Fs M_Tagset M_Process M_Dirent M_Popm M_Cmds M_Options
  S_Ints S_Read S_Id3v1 S_Payload S_Tag S_Tag22 S_Tag23 S_Tag24 S_Tagset S_Saved S_Process S_Popm S_Cmds S_Effect
  L_Fs L_Payload L_Popm L_Process L_Cmds L_Options L_Effect.
#[local] Open Scope N_scope.

(** ** The processor *)
Definition by_popm (ic : iconv_t) (o : popm_opts) (t t' : anytag) (u : bool) : Prop := popm_v2 ic o false t = Ok (u, t').

Lemma popm_all w o v2 : forall i s v2' d s', process_tags (popm_processor w o false) i (iota (length v2) i) v2 s = Ok (v2', d, s') ->
  exists us, Forall2 (fun t x => by_popm (w_ic w) o t (fst x) (snd x)) v2 (combine v2' us) /\ length us = length v2' /\ length v2' = length v2 /\ d = existsb (fun u => u) us.
Proof.
  induction v2 as [|t r IH]; intros i s v2' d s' H; cbn [process_tags length iota] in H.
  - apply Ok_inj in H. injection H as <- <- _. exists []. repeat split. constructor.
  - rewrite N.eqb_refl in H. apply bind_ok in H as ([[u t'] s1] & H1 & H). apply bind_ok in H as ([[r' d'] s2] & H2 & H). apply Ok_inj in H. injection H as <- <- _.
    cbn [popm_processor process_v2] in H1. apply bind_ok in H1 as ([u0 t0] & H1 & E). apply Ok_inj in E. injection E as -> -> _.
    apply IH in H2 as (us & A & L1 & L2 & ->). exists (u :: us). cbn [combine existsb length]. rewrite L1, L2. repeat split. constructor; [exact H1|exact A].
Qed.

Lemma popm_set w o p v2 v1 s d v2' v1' s' : p_v2_scope p = TagsAll -> p_v1_scope p = false -> p_v1_creation p = V1Never -> v2 <> [] ->
  process_tagset (popm_processor w o false) p v2 v1 s = Ok (d, v2', v1', s') ->
  v1' = v1 /\ exists us, Forall2 (fun t x => by_popm (w_ic w) o t (fst x) (snd x)) v2 (combine v2' us) /\ length us = length v2' /\ length v2' = length v2 /\ d = existsb (fun u => u) us.
Proof.
  intros A1 A2 A3 NE H. unfold process_tagset in H. rewrite A1, A2, A3 in H. destruct v2 as [|t r]; [congruence|]. set (v := t :: r) in *.
  apply bind_ok in H as ([[[x q] d1] s1] & H1 & H). apply bind_ok in H1 as ([[y d2] s2] & H1 & E). apply Ok_inj in E. injection E as -> <- -> ->.
  apply bind_ok in H as ([[z1 d3] s3] & H2 & H). apply Ok_inj in H. injection H as <- <- <- _. rewrite app_nil_r.
  apply popm_all in H1. destruct v1 as [u|].
  - apply Ok_inj in H2. injection H2 as <- <- _. rewrite orb_false_r. auto.
  - assert (E : z1 = None /\ d3 = false) by (destruct x; apply Ok_inj in H2; injection H2 as <- <- _; auto). destruct E as [-> ->]. rewrite orb_false_r. auto.
Qed.

(** ** Frames *)
Lemma kinds v f : v = V23 \/ v = V24 -> wf_frame v f -> f_id f = count_id v -> exists b, f_body f = BCount b.
Proof.
  intros V (_ & _ & K & _) E. rewrite E in K. destruct V as [-> | ->]; destruct (f_body f); try (vm_compute in K; discriminate K); eauto.
Qed.
Lemma kinds' v f : v = V23 \/ v = V24 -> wf_frame v f -> f_id f = popm_id v -> exists p, f_body f = BPopm p.
Proof.
  intros V (_ & _ & K & _) E. rewrite E in K. destruct V as [-> | ->]; destruct (f_body f); try (vm_compute in K; discriminate K); eauto.
Qed.
Lemma named_kind ic v o f : v = V23 \/ v = V24 -> wf_frame v f -> named ic v o f -> (exists b, f_body f = BCount b) \/ (exists p, f_body f = BPopm p).
Proof. intros V W [[E _]|[[E _] _]]; [left; now apply (kinds v)|right; now apply (kinds' v)]. Qed.

Lemma brought_raised o f f' : o_increment o = true -> (exists b, f_body f = BCount b) \/ (exists p, f_body f = BPopm p) ->
  (forall b, counter_of f = Some b -> is_bytes b /\ positional 256 b + o_count o < 2 ^ 32) -> brought o f f' ->
  raised (o_rating o) (o_count o) f f' /\ (forall b, counter_of f' = Some b -> is_bytes b).
Proof.
  intros I K C (n & -> & Hb). rewrite I in Hb. destruct Hb as (b & m & Hc & Hm & ->). destruct (C b Hc) as [Bb L].
  pose proof (counter_value_len b m Hm) as Lb. rewrite (counter_value_positional b Bb Lb) in Hm. apply Ok_inj in Hm. subst m.
  assert (E : (o_count o + positional 256 b) mod 2 ^ 64 = positional 256 b + o_count o) by (rewrite N.mod_small; lia). rewrite E. clear E.
  unfold with_count, raised, counter_of in *. cbn [f_id f_flags f_body].
  destruct K as [[b0 K]|[p K]]; rewrite K in *; injection Hc as <-; cbn [po_email po_rating po_counter]; rewrite reset_counter_value;
    (split; [auto 6|]); intros x Hx; injection Hx as <-; apply reset_counter_bytes.
Qed.
Lemma reset_some n : reset_counter n <> [].
Proof. intros E. pose proof (reset_counter_shortest n) as [X|X]; rewrite E in X; [discriminate X|now apply X]. Qed.
Lemma with_count_wf v n r f : wf_frame v f -> wf_frame v (with_count n r f).
Proof.
  intros (W1 & W2 & W3 & W4 & W5). unfold wf_frame, with_count. cbn [f_id f_body]. split; [exact W1|]. split; [exact W2|].
  destruct (f_body f); cbn [kind_of_body wf_body write_body po_email] in *; (split; [exact W3|]); (split; [exact W4|]); try exact W5.
  - intros X. apply Ok_inj in X. now apply reset_some in X.
  - unfold write_popm. cbn [po_email po_rating po_counter]. intros X. apply Ok_inj in X. destruct (po_email p); discriminate X.
Qed.

(** ** Tags *)
Lemma popm_v2_frames ic o t u t' : popm_v2 ic o false t = Ok (u, t') ->
  exists cs', popm_tag ic (any_version t) o false (any_frames t) = Ok (u, cs') /\ t' = any_set_frames cs' t.
Proof.
  destruct t as [t|t|t]; cbn [popm_v2 any_version any_frames]; intros H; apply bind_ok in H as ([u0 cs] & H1 & H);
    apply Ok_inj in H; injection H as <- <-; exists cs; auto.
Qed.

(** Frames of the kind that storable tags have. *)
Definition good_frame (v : version) (f : frame) : Prop := wf_frame v f /\ plain_flags f.
Lemma storable_frames z t : S_Saved.storable z Never t -> any_version t <> V22 -> Forall (good_frame (any_version t)) (shown t).
Proof.
  intros HS HV. destruct t as [t|t|t]; [now elim HV| |]; cbn [S_Saved.storable any_version shown any_frames] in *.
  - destruct HS as ((W & _) & P & _). apply Forall_forall. intros f Hf. split; [|rewrite Forall_forall in P; now apply P].
    unfold shown in Hf. cbn [any_frames] in Hf. apply in_map_iff in Hf as (c & <- & Hc). rewrite Forall_forall in W. now apply W.
  - destruct HS as (W & P & _). apply Forall_forall. intros f Hf. split; [|rewrite Forall_forall in P; now apply P].
    unfold shown in Hf. cbn [any_frames] in Hf. apply in_map_iff in Hf as (c & <- & Hc). unfold wf_tag24 in W. rewrite Forall_forall in W. now apply W.
Qed.

(** What else makes a tag storable. *)
Definition good_rest (t : anytag) : Prop :=
  match t with
  | A22 _ => False
  | A23 t => (ext_plain (t3_ext t) /\ match t3_ext t with Some x => x_pad x < 2 ^ 32 | None => True end) /\ t3_unsync t <> Some true
  | A24 t => ext_simple (t4_ext t) /\ t4_foot t = false /\ t4_pad t = 0
  end.
Lemma storable_rest z t : S_Saved.storable z Never t -> any_version t <> V22 -> good_rest t.
Proof.
  destruct t as [t|t|t]; cbn [S_Saved.storable any_version good_rest]; intros H V; [now elim V| |].
  - destruct H as ((_ & W) & _ & E & U). split; [split; [exact E|destruct (t3_ext t); [apply W|exact Logic.I]]|].
    intros X. discriminate (U X).
  - tauto.
Qed.
Lemma storable_made z t : good_rest t -> Forall (good_frame (any_version t)) (shown t) -> Forall (fun c => c_dirty c = true) (any_frames t) -> S_Saved.storable z Never t.
Proof.
  intros R F D. unfold shown in F. rewrite Forall_map in F. destruct t as [t|t|t]; cbn [good_rest any_version any_frames S_Saved.storable] in *; [destruct R| |].
  - destruct R as [[R1 R0] R2]. split; [|split; [|split; [exact R1|intros X; now elim R2]]].
    + split; [|destruct (t3_ext t); [split; [exact R0|apply R1]|exact Logic.I]]. apply Forall_forall. intros c Hc. rewrite Forall_forall in F, D. destruct (F c Hc) as [A C].
      split; [exact A|]. split; [exists false, false, false; exact C|]. intros X. rewrite (D c Hc) in X. discriminate X.
    + rewrite Forall_map. eapply Forall_impl; [|exact F]. intros c [_ C]. exact C.
  - destruct R as (R1 & R2 & R3). split; [|split; [|split; [now left|auto]]].
    + apply Forall_forall. intros c Hc. rewrite Forall_forall in F, D. destruct (F c Hc) as [A C].
      split; [exact A|]. split; [exists false, false, false, false; exact C|]. intros X. rewrite (D c Hc) in X. discriminate X.
    + rewrite Forall_map. eapply Forall_impl; [|exact F]. intros c [_ C]. exact C.
Qed.

Lemma fresh_dirty t : fresh t -> Forall (fun c => c_dirty c = true) (any_frames t).
Proof. intros [E _]. rewrite E, Forall_map. apply Forall_forall. reflexivity. Qed.

Lemma set_frames_version cs t : any_version (any_set_frames cs t) = any_version t /\ any_frames (any_set_frames cs t) = cs.
Proof. destruct t; auto. Qed.
Lemma set_frames_rest cs t : good_rest t -> good_rest (any_set_frames cs t).
Proof. destruct t; auto. Qed.

Lemma not_v22 v : v <> V22 -> v = V23 \/ v = V24.
Proof. destruct v; auto; congruence. Qed.

Lemma popm_step z ic o n t u t' : o_increment o = true -> o_dry o = false -> S_Saved.storable z Never t -> any_version t <> V22 -> fresh t ->
  room_for ic o (o_count o + n) t -> popm_v2 ic o false t = Ok (u, t') ->
  S_Saved.storable z Never t' /\ any_version t' = any_version t /\ tag_plays_added ic o (o_count o) t t' /\ room_for ic o n t' /\ (u = false -> t' = t).
Proof.
  intros OI OD HS HV HF HR H. apply popm_v2_frames in H as (cs' & H & ->).
  apply (popm_names ic) in H; [|exact OD|now left]. destruct H as (ch & m1 & m2 & -> & HU & M1 & M2 & _ & HUP).
  assert (m1 = []) as ->. { destruct m1; [reflexivity|]. assert (X : c :: m1 <> []) by discriminate. apply M1 in X as [X _]. discriminate X. }
  assert (m2 = []) as ->. { destruct m2; [reflexivity|]. assert (X : c :: m2 <> []) by discriminate. apply M2 in X as [X _]. discriminate X. }
  rewrite !app_nil_r. pose proof (storable_frames z t HS HV) as GF. pose proof (fresh_dirty t HF) as FD. pose proof (not_v22 _ HV) as V.
  destruct (set_frames_version ch t) as [SV SF].
  set (v := any_version t) in *.
  assert (PA : Forall2 (fun c c' => plays_added ic v o (o_count o) (c_frame c) (c_frame c') /\ good_frame v (c_frame c') /\ c_dirty c' = true /\
     (forall b, named ic v o (c_frame c') -> counter_of (c_frame c') = Some b -> is_bytes b /\ positional 256 b + n < 2 ^ 32)) (any_frames t) ch).
  { unfold room_for in HR. fold v in HR. unfold shown in HR, GF. unfold popm_updated in HU. clear HUP M1 M2 SV SF HF HS.
    revert GF FD HR. induction HU as [|c c' r r' [Hc Hd] _ IH]; intros GF FD HR; [constructor|]. cbn [map] in GF.
    apply Forall_cons_iff in GF as [[G1 G1'] G2]. apply Forall_cons_iff in FD as [D1 D2]. constructor.
    - destruct Hc as [[Hn Hb]|[Hn ->]].
      + fold (named ic v o (c_frame c)) in Hn.
        assert (HR0 : forall b, counter_of (c_frame c) = Some b -> is_bytes b /\ positional 256 b + o_count o < 2 ^ 32).
        { intros b Hb0. destruct (HR (c_frame c) b (or_introl eq_refl) Hn Hb0). split; [assumption|lia]. }
        destruct (brought_raised o _ _ OI (named_kind ic v o _ V G1 Hn) HR0 Hb) as [R1 R2].
        split; [left; auto|]. split.
        * destruct Hb as (x & -> & _). split; [now apply with_count_wf|exact G1'].
        * split; [congruence|]. intros b _ Hb1. split; [now apply R2|]. destruct R1 as (_ & _ & R1). unfold counter_of in Hb1, HR.
          specialize (HR (c_frame c)). destruct (f_body (c_frame c)) eqn:B1, (f_body (c_frame c')); try contradiction; try discriminate Hb1.
          -- injection Hb1 as <-. destruct (HR _ (or_introl eq_refl) Hn eq_refl) as [_ L0]. rewrite R1. clear - L0. lia.
          -- destruct R1 as (_ & _ & R1). injection Hb1 as <-. destruct (HR _ (or_introl eq_refl) Hn eq_refl) as [_ L0]. rewrite R1. clear - L0. lia.
      + split; [right; auto|]. split; [split; assumption|]. split; [congruence|]. intros b Hb. elim Hn. exact Hb.
    - apply IH; auto. intros f b Hf. apply HR. now right. }
  split; [|split; [exact SV|split; [|split]]].
  - apply storable_made.
    + apply set_frames_rest. now apply (storable_rest z).
    + rewrite SV. unfold shown. rewrite SF, Forall_map. clear - PA. induction PA; constructor; tauto.
    + rewrite SF. clear - PA. induction PA; constructor; tauto.
  - split; [exact SV|]. unfold shown. rewrite SF. fold v. clear - PA. induction PA; constructor; tauto.
  - intros f b Hf. unfold shown in Hf. rewrite SF in Hf. rewrite SV. apply in_map_iff in Hf as (c & <- & Hc).
    clear - PA Hc. induction PA as [|x y l l' (_ & _ & _ & Hxy) _ IH]; [destruct Hc|]. destruct Hc as [<-|Hc]; auto.
  - intros ->. assert (ch = any_frames t) as ->; [|destruct t as [[]|[]|[]]; reflexivity].
    assert (NE : ~ Exists (fun c => names_pcnt v o (c_frame c) \/ names_popm ic v o (c_frame c)) (any_frames t)) by (intros X; assert (Y : false = true) by (apply HUP; auto); discriminate Y).
    clear - HU NE. induction HU as [|c c' r r' [Hc Hd] _ IH]; [reflexivity|]. f_equal.
    + destruct Hc as [[Hc _]|[_ ->]]; [elim NE; now left|reflexivity].
    + apply IH. intros X. apply NE. now right.
Qed.

(** ** Runs *)
Lemma file_key e path d n : file_at e path d n -> resolve (e_cwd e) path <> [].
Proof.
  intros (_ & _ & _ & PN & AB & _). unfold resolve. rewrite AB, (resolve_spelled d n PN). destruct (resolve_abs d); discriminate.
Qed.
Lemma over_one {S} z passes e entries (P : processor S) s p path fs data st u fs' : resolve (e_cwd e) path <> [] ->
  find_node (resolve (e_cwd e) path) fs = Some (File data) ->
  over_files z passes e entries P s p [path] fs = (st, (Ok u, fs')) -> exists st0 s', process_file z passes e P p path s fs = (st0, (Ok s', fs')).
Proof.
  intros NE Hk. unfold over_files, process_dirent_args. cbn [each]. intros H. apply fbind_ok in H as (u1 & st1 & fs1 & st2 & H & H2).
  unfold fret in H2. injection H2 as _ _ <-. cbn [dirent] in H.
  assert (D : M_Split.is_dir fs (resolve (e_cwd e) path) = false). { revert NE Hk. unfold M_Split.is_dir. destruct (resolve (e_cwd e) path) as [|x y]; [congruence|]. intros _ ->. reflexivity. }
  rewrite D in H. unfold M_Rename.is_regular in H. rewrite Hk in H. apply fbind_ok in H as (s' & st3 & fs3 & st4 & H & H3).
  unfold fret in H3. injection H3 as _ _ <-. eauto.
Qed.
Lemma conclude_zero m fs st fs' : conclude_run (Handled (Ok m)) fs = (st, (Ok 0, fs')) -> exists u, m fs = (st, (Ok u, fs')).
Proof.
  cbn [conclude_run]. destruct (m fs) as [l [[u|x|u|] fs1]]; intros H; try discriminate H. injection H as <- <-. eauto.
Qed.

Lemma same_v1_fits a v1 v1' : same_v1 v1 v1' -> v1_fits a v1 -> v1_fits a v1'.
Proof.
  intros H F t ->. destruct v1 as [u|]; [|destruct H]. cbn [same_v1] in H. destruct (F u eq_refl) as [W X]. split.
  - destruct H as [E1 E2 E3 E4 E5 E6 E7 E8 E9 E10]. destruct W as [W1 W2 W3 W4 W5 W6 W7 W8].
    constructor; rewrite <- ?E1, <- ?E2, <- ?E3, <- ?E4, <- ?E5, <- ?E6, <- ?E7; auto.
    + intros V. rewrite <- (E9 V). auto.
    + intros V. destruct (E10 V) as (<- & <- & <- & <-). auto.
  - rewrite <- (st_ext _ _ H). exact X.
Qed.
Lemma same_v1_trans a b c : same_v1 a b -> same_v1 b c -> same_v1 a c.
Proof.
  destruct a, b, c; cbn; try tauto. intros [E1 E2 E3 E4 E5 E6 E7 E8 E9 E10] [F1 F2 F3 F4 F5 F6 F7 F8 F9 F10].
  constructor; try congruence.
  - intros V. rewrite (E9 V). apply F9. congruence.
  - intros V. destruct (E10 V) as (-> & -> & -> & ->). apply F10. congruence.
Qed.
Lemma same_v1_refl a : same_v1 a a.
Proof. destruct a; cbn; [constructor; auto|exact Logic.I]. Qed.

Lemma same_shown t t' : S_Saved.same_tag t t' -> any_version t' = any_version t /\ shown t' = shown t.
Proof. destruct t, t'; cbn [S_Saved.same_tag]; try tauto; intros [E _]; (split; [reflexivity|exact E]). Qed.

Lemma storable_again z t t' : S_Saved.storable z Never t -> any_version t <> V22 -> S_Saved.same_tag t t' -> marked Never t t' -> v24_unpadded t' -> fresh t' ->
  S_Saved.storable z Never t'.
Proof.
  intros HS HV ST MK UP FR. destruct (same_shown t t' ST) as [E1 E2]. apply storable_made.
  - pose proof (storable_rest z t HS HV) as R. destruct t as [t|t|t], t' as [t'|t'|t']; cbn [S_Saved.same_tag good_rest marked] in *; try tauto.
    + destruct ST as (_ & _ & EX), MK as [MK _]. rewrite (MK eq_refl). split; [|discriminate].
      destruct R as [[R1 R0] _], FR as (_ & _ & FR). cbn [ext_new] in FR. clear - EX R1 R0 FR.
      destruct (t3_ext t) as [x|], (t3_ext t') as [y|]; cbn [same_ext ext_plain] in *; try tauto.
      destruct EX as [E1 E2], R1 as (P1 & P2 & _). rewrite <- E1. split; [|exact R0].
      split; [congruence|]. split; [|intros Y; rewrite FR in Y; discriminate Y].
      unfold ext_unaffected, ext_wire23, ext_size23 in *. now rewrite <- E1, <- E2.
    + destruct ST as (_ & _ & -> & ->). destruct R as (R1 & R2 & _). split; [exact R1|]. split; [exact R2|]. apply (UP eq_refl).
  - rewrite E1, E2. now apply (storable_frames z).
  - now apply fresh_dirty.
Qed.

Lemma Forall_same (P : anytag -> Prop) ts ts' : Forall2 S_Saved.same_tag ts ts' -> (forall t t', S_Saved.same_tag t t' -> P t -> P t') -> Forall P ts -> Forall P ts'.
Proof. intros H K. induction H; intros F; [constructor|]. apply Forall_cons_iff in F as [? ?]. constructor; eauto. Qed.

(** A command that leaves tags of the same kind leaves a file in order. *)
Lemma command_order {S} z passes e (P : processor S) p path d n fs data l a v2 v1 s v2' v1' s' st o fs' : let k := resolve (e_cwd e) path in
  crc_range z -> (0 < passes)%nat -> file_at e path d n ->
  find_node k fs = Some (File data) -> read_tagset z passes data = Ok (v2, v1) -> holds_audio data l v1 a -> 355 <= len a ->
  p_dry p = false -> p_adjust p = false -> process_tagset P p v2 v1 s = Ok (true, v2', v1', s') ->
  v2' <> [] -> Forall (S_Saved.storable z Never) v2' -> Forall (fun t => any_version t <> V22) v2' -> v1_fits a v1' -> can_be_written z p (tags_end 0 l) v2' ->
  process_file z passes e P p path s fs = (st, (Ok o, fs')) -> moderate k fs' ->
  exists v2'' v1'', in_order z passes k a fs' v2'' v1'' /\ Forall2 S_Saved.same_tag v2' v2'' /\ same_v1 v1' v1''.
Proof.
  intros k Hz Hp FA Hk HR HA LA PD PA HT NE S' V' HV CW HF HM.
  assert (MN : mode p = Never) by (unfold mode; now rewrite PA).
  destruct (command_effect z passes e P p path d n fs data l a v2 v1 s v2' v1' s' st o fs' Hz Hp FA Hk HR HA LA PD HT)
      as (data' & v2'' & v1'' & l'' & X1 & X2 & X3 & X4 & X5 & X6 & X7); [now rewrite MN|exact HV|exact CW|exact HF|exact HM|].
  rewrite MN in X4. exists v2'', v1''. split; [|split; [exact X3|exact X6]].
  exists data', l''. split; [exact X1|]. split; [exact X2|]. split.
  { intros ->. inversion X3; subst. now apply NE. }
  split; [exact X7|]. split; [exact (same_v1_fits a v1' v1'' X6 HV)|]. pose proof (tagset_fresh z passes data' v2'' v1'' X2) as FR'. split.
  { clear - S' V' X3 X4 X5 FR'. induction X3 as [|x y rx ry Hxy _ IH]; [constructor|].
    apply Forall_cons_iff in S' as [? ?]. apply Forall_cons_iff in V' as [? ?]. apply Forall_cons_iff in X5 as [? ?]. apply Forall_cons_iff in FR' as [? ?].
    inversion X4; subst. constructor; [now apply (storable_again z x)|auto]. }
  refine (Forall_same _ v2' v2'' X3 _ V'). intros x y E. destruct (same_shown x y E) as [-> _]. auto.
Qed.

Lemma popm_tags z ic o n v2 v2' us : o_increment o = true -> o_dry o = false -> Forall (S_Saved.storable z Never) v2 -> Forall (fun t => any_version t <> V22) v2 -> Forall fresh v2 ->
  Forall (room_for ic o (o_count o + n)) v2 -> length us = length v2' -> length v2' = length v2 ->
  Forall2 (fun t x => by_popm ic o t (fst x) (snd x)) v2 (combine v2' us) ->
  Forall (S_Saved.storable z Never) v2' /\ Forall (fun t => any_version t <> V22) v2' /\ Forall2 (tag_plays_added ic o (o_count o)) v2 v2' /\ Forall (room_for ic o n) v2' /\
  (existsb (fun u => u) us = false -> v2' = v2).
Proof.
  intros OI OD. revert v2' us. induction v2 as [|t r IH]; intros v2' us HS HV HF HR L1 L2 H.
  - destruct v2'; [|discriminate L2]. repeat split; constructor.
  - destruct v2' as [|t' r']; [discriminate L2|]. destruct us as [|u us]; [discriminate L1|]. cbn [combine] in H. inversion H as [|? ? ? ? H1 H2]; subst.
    apply Forall_cons_iff in HS as [S1 S2]. apply Forall_cons_iff in HV as [V1 V2]. apply Forall_cons_iff in HF as [F1 F2]. apply Forall_cons_iff in HR as [R1 R2].
    injection L1 as L1. injection L2 as L2. cbn [fst snd] in H1.
    destruct (popm_step z ic o n t u t' OI OD S1 V1 F1 R1 H1) as (A1 & A2 & A3 & A4 & A5). destruct (IH r' us S2 V2 F2 R2 L1 L2 H2) as (B1 & B2 & B3 & B4 & B5).
    repeat split; try (constructor; auto). { now rewrite A2. } cbn [existsb]. intros E. apply orb_false_iff in E as [-> E]. now rewrite A5, B5.
Qed.

Lemma popm_options_parts vm o p : popm_options vm = Handled (Ok (o, false, p)) ->
  o_dry o = pv_dry vm /\ p_dry p = pv_dry vm /\ p_adjust p = pv_adjust vm /\ p_backups p = pv_backups vm /\ p_v2_scope p = TagsAll /\ p_v1_scope p = false /\ p_v1_creation p = V1Never.
Proof.
  unfold popm_options. intros EO. apply hbind_ok in EO as (? & _ & EO). apply hbind_ok in EO as (r & _ & EO). apply hbind_ok in EO as (f & _ & EO).
  apply hbind_ok in EO as ([pc pol] & EC & EO). apply hbind_ok in EO as (? & ? & EO). injection EO as <- _ <-. repeat split; reflexivity.
Qed.

Lemma popm_once z passes e entries w vm o p path d nm fs st fs' n a v2 v1 : let k := resolve (e_cwd e) path in let ic := w_ic w in
  crc_range z -> (0 < passes)%nat -> file_at e path d nm -> 355 <= len a ->
  popm_options vm = Handled (Ok (o, false, p)) -> o_increment o = true -> pv_dry vm = false -> pv_adjust vm = false -> pv_args vm = [path] ->
  in_order z passes k a fs v2 v1 -> Forall (room_for ic o (o_count o + n)) v2 ->
  (forall data l d1 ts u1 s1, find_node k fs = Some (File data) -> tags_from data 0 l ->
     process_tagset (popm_processor w o false) p v2 v1 tt = Ok (d1, ts, u1, s1) -> can_be_written z p (tags_end 0 l) ts) ->
  run_popm z passes e entries w vm fs = (st, (Ok 0, fs')) -> moderate k fs' ->
  exists v2' v1', in_order z passes k a fs' v2' v1' /\ Forall (room_for ic o n) v2' /\ Forall2 (tag_plays_added ic o (o_count o)) v2 v2' /\ same_v1 v1 v1'.
Proof.
  intros k ic Hz Hp FA LA EO OI VD VA VG (data & l & Hk & HR & NE & HA & HV & HS & V22') RM CW HRUN HM.
  destruct (popm_options_parts vm o p EO) as (OD & PD & PA & PB & P1 & P2 & P3). rewrite VD in OD, PD. rewrite VA in PA.
  unfold run_popm in HRUN. rewrite EO in HRUN. cbn [hbind] in HRUN. unfold proceed in HRUN. apply conclude_zero in HRUN as (u & HRUN). rewrite VG in HRUN.
  apply (over_one z passes e entries _ tt p path fs data) in HRUN as (st0 & s' & HF); [|exact (file_key e path d nm FA)|exact Hk].
  assert (HT : exists dd v2' v1' s1, process_tagset (popm_processor w o false) p v2 v1 tt = Ok (dd, v2', v1', s1)).
  { pose proof HF as HF0. unfold process_file in HF0. fold k in HF0. rewrite Hk in HF0. apply fbind_ok in HF0 as ([b2 b1] & st1 & fs1 & st2 & E1 & HF0).
    unfold flift in E1. rewrite HR in E1. injection E1 as _ <- <- <-. apply fbind_ok in HF0 as ([[[d1 c2] c1] s1] & st3 & fs3 & st4 & E1 & _). unfold flift in E1.
    injection E1 as _ E1 _. eauto. }
  destruct HT as (dd & v2' & v1' & s1 & HT).
  destruct (popm_set w o p v2 v1 tt dd v2' v1' s1 P1 P2 P3 NE HT) as (-> & us & HU & L1 & L2 & ED).
  pose proof (tagset_fresh z passes data v2 v1 HR) as FR.
  destruct (popm_tags z ic o n v2 v2' us OI OD HS V22' FR RM L1 L2 HU) as (S' & V' & T' & R' & Q').
  destruct dd.
  - assert (NE' : v2' <> []) by (intros ->; destruct v2; [now apply NE|discriminate L2]).
    destruct (command_order z passes e (popm_processor w o false) p path d nm fs data l a v2 v1 tt v2' v1 s1 st0 s' fs' Hz Hp FA Hk HR HA LA PD PA HT NE' S' V' HV (CW data l _ _ _ _ Hk (proj1 HA) HT) HF HM)
      as (v2'' & v1'' & X1 & X3 & X6).
    exists v2'', v1''. split; [exact X1|]. split; [|split; [|exact X6]].
    + refine (Forall_same _ v2' v2'' X3 _ R'). intros x y E. unfold room_for. destruct (same_shown x y E) as [-> ->]. auto.
    + clear - T' X3. revert v2'' X3. induction T' as [|x y rx ry Hxy _ IH]; intros ? X3; inversion X3; subst; constructor; auto.
      unfold tag_plays_added in *. destruct (same_shown y y0) as [-> ->]; [assumption|exact Hxy].
  - unfold process_file in HF. fold k in HF. rewrite Hk in HF. apply fbind_ok in HF as ([b2 b1] & st1 & fs1 & st2 & E1 & HF).
    unfold flift in E1. rewrite HR in E1. injection E1 as _ <- <- <-. apply fbind_ok in HF as ([[[d1 c2] c1] s2] & st3 & fs3 & st4 & E1 & HF). unfold flift in E1.
    rewrite HT in E1. injection E1 as _ <- <- <- <- <-. unfold write_tagset in HF. cbn [andb] in HF. unfold fbind, fret in HF. injection HF as _ _ <-.
    symmetry in ED. specialize (Q' ED). subst v2'. exists v2, v1. split; [|split; [exact R'|split; [exact T'|apply same_v1_refl]]].
    exists data, l. auto 10.
Qed.

Lemma raised_trans r a b f g h : raised r a f g -> raised r b g h -> raised r (a + b) f h.
Proof.
  intros (E1 & E2 & E3) (F1 & F2 & F3). split; [congruence|]. split; [congruence|].
  destruct (f_body f), (f_body g); try contradiction; destruct (f_body h); try contradiction.
  - lia.
  - destruct E3 as (A1 & A2 & A3), F3 as (B1 & B2 & B3). split; [congruence|]. split; [|lia]. destruct r; congruence.
Qed.
Lemma raised_named ic v o n f g : raised (o_rating o) n f g -> named ic v o f <-> named ic v o g.
Proof.
  intros (E1 & _ & E3). unfold named, names_pcnt, names_popm, owned. rewrite E1.
  assert (X : (forall p w, f_body f = BPopm p -> o_owner o = Some w -> to_string ic (po_email p) E_ASCII E_UTF_8 NoFail = Ok w) <->
              (forall p w, f_body g = BPopm p -> o_owner o = Some w -> to_string ic (po_email p) E_ASCII E_UTF_8 NoFail = Ok w)).
  { destruct (f_body f), (f_body g); try contradiction.
    - split; discriminate.
    - destruct E3 as (E & _ & _). split; intros H q w X; injection X as <-; intros Y; [rewrite E|rewrite <- E]; now apply H. }
  tauto.
Qed.
Lemma plays_trans ic v o a b f g h : plays_added ic v o a f g -> plays_added ic v o b g h -> plays_added ic v o (a + b) f h.
Proof.
  intros [[H1 H2]|[H1 ->]] H.
  - left. split; [exact H1|]. destruct H as [[_ H]|[H _]]; [now apply (raised_trans _ a b f g)|]. elim H. now apply (raised_named ic v o a f g).
  - destruct H as [[H _]|[_ ->]]; [contradiction|]. right. auto.
Qed.
Lemma tag_plays_trans ic o a b t u s : tag_plays_added ic o a t u -> tag_plays_added ic o b u s -> tag_plays_added ic o (a + b) t s.
Proof.
  intros [E1 H1] [E2 H2]. split; [congruence|]. rewrite E1 in H2. revert H2. generalize (shown s). clear E2. induction H1 as [|x y rx ry Hxy _ IH]; intros l H2; inversion H2; subst; constructor; eauto.
  eapply plays_trans; eassumption.
Qed.
Lemma tags_plays_trans ic o a b ts us ss : Forall2 (tag_plays_added ic o a) ts us -> Forall2 (tag_plays_added ic o b) us ss -> Forall2 (tag_plays_added ic o (a + b)) ts ss.
Proof.
  intros H. revert ss. induction H; intros ss H'; inversion H'; subst; constructor; eauto. eapply tag_plays_trans; eassumption.
Qed.

Lemma popm_history z passes e entries w vm o p path d nm a : let k := resolve (e_cwd e) path in let ic := w_ic w in
  crc_range z -> (0 < passes)%nat -> file_at e path d nm -> 355 <= len a ->
  popm_options vm = Handled (Ok (o, false, p)) -> o_increment o = true -> pv_dry vm = false -> pv_adjust vm = false -> pv_backups vm = true -> pv_args vm = [path] ->
  forall times fs fs' v2 v1, (0 < times)%nat -> in_order z passes k a fs v2 v1 -> Forall (room_for ic o (N.of_nat times * o_count o)) v2 ->
  in_turn times (run_popm z passes e entries w vm) (moderate k) fs fs' ->
  exists v2' v1', in_order z passes k a fs' v2' v1' /\ Forall2 (tag_plays_added ic o (N.of_nat times * o_count o)) v2 v2' /\ same_v1 v1 v1'.
Proof.
  intros k ic Hz Hp FA LA EO OI VD VA VB VG. induction times as [|times IH]; intros fs fs' v2 v1 HT RD RM H; [inversion HT|].
  destruct H as (st & fs1 & H1 & H2 & H3). replace (N.of_nat (S times) * o_count o) with (o_count o + N.of_nat times * o_count o) in * by lia.
  assert (CW : forall data l d1 ts u1 s1, find_node k fs = Some (File data) -> tags_from data 0 l ->
     process_tagset (popm_processor w o false) p v2 v1 tt = Ok (d1, ts, u1, s1) -> can_be_written z p (tags_end 0 l) ts).
  { intros. left. destruct (popm_options_parts vm o p EO) as (_ & _ & _ & PB & _). now rewrite PB. }
  destruct (popm_once z passes e entries w vm o p path d nm fs st fs1 (N.of_nat times * o_count o) a v2 v1 Hz Hp FA LA EO OI VD VA VG RD RM CW H1 H2) as (u2 & u1 & R1 & R2 & A1 & A2).
  destruct times as [|times].
  - cbn [in_turn] in H3. subst fs'. change (N.of_nat 0 * o_count o) with 0 in *. rewrite N.add_0_r. eauto.
  - destruct (IH fs1 fs' u2 u1 (Nat.lt_0_succ _) R1 R2 H3) as (v2' & v1' & R3 & B1 & B2). exists v2', v1'. split; [exact R3|]. split.
    + eapply tags_plays_trans; eassumption.
    + eapply same_v1_trans; eassumption.
Qed.
