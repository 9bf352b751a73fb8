(** * Lemmas: the popm command. *)
From Verif Require Import Base M_Ints S_Ints L_Ints M_Stream M_Id3v1 M_Payload L_Payload M_Frame M_Tag22 M_Tag23 M_Tag24 M_Charset
  M_Lookup M_Read M_Popm S_Popm.

Lemma ids_differ v : count_id v <> popm_id v.
Proof. destruct v; discriminate. Qed.

Lemma popm_only_spec o : popm_only o = true <-> o_policy o = PopmOnly.
Proof. unfold popm_only. destruct (o_policy o); split; congruence. Qed.
Lemma pcnt_only_spec o : pcnt_only o = true <-> o_policy o = PcntOnly.
Proof. unfold pcnt_only. destruct (o_policy o); split; congruence. Qed.

(** What the code takes to be named. *)
Definition takes_popm (ic : iconv_t) (v : version) (o : popm_opts) (create : bool) (f : frame) : Prop :=
  owned ic v o f /\ (create = true \/ o_policy o <> PcntOnly).
Definition takes (ic : iconv_t) (v : version) (o : popm_opts) (create : bool) (f : frame) : Prop :=
  names_pcnt v o f \/ takes_popm ic v o create f.

Lemma new_count_spec o b n : new_count o b = Ok n ->
  if o_increment o then exists m, counter_value b = Ok m /\ n = (o_count o + m) mod 2 ^ 64 else n = o_count o.
Proof.
  unfold new_count. destruct (o_increment o).
  - intros H. apply bind_ok in H as (m & E & H). apply Ok_inj in H. now exists m.
  - intros H. apply Ok_inj in H. now subst.
Qed.

Lemma counter_value_len b m : counter_value b = Ok m -> (1 <= length b <= 4)%nat.
Proof.
  destruct b as [|a [|b [|c [|d [|e r]]]]]; cbn [counter_value]; try discriminate; intros _; cbn [length]; lia.
Qed.

Lemma popm_frame_spec ic v o create c c' p q n :
  popm_frame ic v o create c = Ok (c', p, q, n) ->
  (p = true <-> names_pcnt v o (c_frame c)) /\
  (q = true <-> takes_popm ic v o create (c_frame c)) /\
  c_dirty c' = c_dirty c /\
  (o_dry o = true -> c' = c) /\
  (o_dry o = false -> p || q = true -> brought o (c_frame c) (c_frame c')) /\
  (p || q = false -> c' = c) /\
  (o_dry o = false -> create = true -> count_bytes (c_frame c) -> play_frame v (c_frame c) -> count_is (c_frame c') n) /\
  (o_dry o = false -> create = true -> ~ play_frame v (c_frame c) -> n = 0) /\
  f_id (c_frame c') = f_id (c_frame c).
Proof.
  unfold popm_frame. destruct c as [f d pl un sy]. cbn [c_frame c_dirty].
  pose proof (ids_differ v) as ID.
  destruct (bytes_eqb_spec (f_id f) (count_id v)) as [E1|E1].
  - rewrite andb_true_r.
    assert (NP : ~ takes_popm ic v o create f) by (intros [[? _] _]; congruence).
    assert (E2 : bytes_eqb (f_id f) (popm_id v) = false).
    { destruct (bytes_eqb_spec (f_id f) (popm_id v)); [congruence|reflexivity]. }
    destruct (create || negb (popm_only o)) eqn:C1.
    + destruct (f_body f) eqn:FB; try discriminate.
      destruct (popm_only o) eqn:PO.
      * intros H. apply bind_ok in H as (m & E & H). inversion H; subst; clear H.
        apply popm_only_spec in PO.
        (split; [split; [discriminate|intros [_ ?]; congruence]|]).
        (split; [split; [discriminate|intros ?; contradiction]|]).
        split; [reflexivity|]. split; [auto|]. split; [discriminate|]. split; [auto|].
        split; [|split; [|reflexivity]].
        -- intros _ _ CB _. exists c. unfold counter_of. cbn [c_frame]. rewrite FB. split; [reflexivity|].
           assert (CBc : is_bytes c) by (apply CB; unfold counter_of; now rewrite FB).
           rewrite (counter_value_positional c CBc (counter_value_len _ _ E)) in E. now apply Ok_inj in E.
        -- intros _ _ NF. exfalso. apply NF. now left.
      * intros H. apply bind_ok in H as ([c1 m] & E & H). inversion H; subst; clear H.
        unfold process_pcnt in E. apply bind_ok in E as (k & NC & E). apply Ok_inj in E. inversion E; subst; clear E.
        assert (PN : o_policy o <> PopmOnly) by (intros X; apply popm_only_spec in X; congruence).
        (split; [split; [intros _; now split|reflexivity]|]).
        (split; [split; [discriminate|intros ?; contradiction]|]).
        split; [now destruct (o_dry o)|]. split; [intros ->; reflexivity|].
        split; [|split; [discriminate|split; [|split]]].
        -- intros -> _. exists n. cbn [edit_body c_frame]. unfold with_count. rewrite FB. split; [reflexivity|].
           apply new_count_spec in NC. destruct (o_increment o); [|exact NC].
           destruct NC as (m & M1 & M2). exists c, m. unfold counter_of. rewrite FB. auto.
        -- intros -> _ _ _. exists (reset_counter n). cbn. split; [reflexivity|apply reset_counter_value].
        -- intros _ _ NF. exfalso. apply NF. now left.
        -- now destruct (o_dry o).
    + rewrite E2, andb_false_r. intros H. inversion H; subst; clear H.
      apply orb_false_iff in C1 as [C1 C2]. apply negb_false_iff in C2. apply popm_only_spec in C2.
      (split; [split; [discriminate|intros [_ ?]; congruence]|]).
      (split; [split; [discriminate|intros ?; contradiction]|]).
      split; [reflexivity|]. split; [auto|]. split; [discriminate|]. split; [auto|].
      split; [|split; [|reflexivity]]; intros; congruence.
  - rewrite andb_false_r.
    assert (NP : ~ names_pcnt v o f) by (intros [? _]; congruence).
    destruct (bytes_eqb_spec (f_id f) (popm_id v)) as [E2|E2].
    + rewrite andb_true_r. destruct (create || negb (pcnt_only o)) eqn:C1.
      * assert (CC : create = true \/ o_policy o <> PcntOnly).
        { apply orb_true_iff in C1 as [C1|C1]; [now left|right]. intros X. apply pcnt_only_spec in X.
          rewrite X in C1. discriminate. }
        destruct (f_body f) as [| | | | | | |pm| |] eqn:FB; try discriminate.
        intros H. apply bind_ok in H as (e & EE & H). apply bind_ok in H as (m & EM & H).
        destruct (owner_is o e) eqn:OW.
        -- apply bind_ok in H as ([c1 k] & E & H). inversion H; subst; clear H.
           unfold process_popm in E. apply bind_ok in E as (k & NC & E). apply Ok_inj in E. inversion E; subst; clear E.
           (split; [split; [discriminate|intros ?; contradiction]|]).
           split; [split; [intros _|reflexivity]|].
           { split; [split; [exact E2|]|exact CC]. intros p' w FB' OO. rewrite FB in FB'. inversion FB'; subst.
             unfold email_text in EE. rewrite EE. unfold owner_is in OW. rewrite OO in OW.
             apply bytes_eqb_eq in OW. now subst. }
           split; [now destruct (o_dry o)|]. split; [intros ->; reflexivity|].
           split; [|split; [discriminate|split; [|split]]].
           ++ intros -> _. exists n. cbn [edit_body c_frame]. unfold with_count. rewrite FB. split; [reflexivity|].
              apply new_count_spec in NC. destruct (o_increment o); [|exact NC].
              destruct NC as (m' & M1 & M2). exists (po_counter pm), m'. unfold counter_of. rewrite FB. auto.
           ++ intros -> _ _ _. exists (reset_counter n). cbn. split; [reflexivity|apply reset_counter_value].
           ++ intros _ _ NF. exfalso. apply NF. now right.
           ++ now destruct (o_dry o).
        -- inversion H; subst; clear H.
           (split; [split; [discriminate|intros ?; contradiction]|]).
           split; [split; [discriminate|]|].
           { intros [[_ OO] _]. unfold owner_is in OW. destruct (o_owner o) as [w|] eqn:OWN; [|discriminate].
             specialize (OO pm w FB eq_refl). unfold email_text in EE. rewrite OO in EE. apply Ok_inj in EE. subst.
             now rewrite bytes_eqb_refl in OW. }
           split; [reflexivity|]. split; [auto|]. split; [discriminate|]. split; [auto|].
           split; [|split; [|reflexivity]].
           ++ intros _ _ CB _. exists (po_counter pm). unfold counter_of. cbn [c_frame]. rewrite FB. split; [reflexivity|].
              assert (CBc : is_bytes (po_counter pm)) by (apply CB; unfold counter_of; now rewrite FB).
              rewrite (counter_value_positional _ CBc (counter_value_len _ _ EM)) in EM. now apply Ok_inj in EM.
           ++ intros _ _ NF. exfalso. apply NF. now right.
      * intros H. inversion H; subst; clear H.
        apply orb_false_iff in C1 as [C1 C2]. apply negb_false_iff in C2. apply pcnt_only_spec in C2.
        (split; [split; [discriminate|intros ?; contradiction]|]).
        (split; [split; [discriminate|intros [_ [?|?]]; congruence]|]).
        split; [reflexivity|]. split; [auto|]. split; [discriminate|]. split; [auto|].
        split; [|split; [|reflexivity]]; intros; congruence.
    + rewrite andb_false_r. intros H. inversion H; subst; clear H.
      (split; [split; [discriminate|intros ?; contradiction]|]).
      (split; [split; [discriminate|intros [[? _] _]; congruence]|]).
      split; [reflexivity|]. split; [auto|]. split; [discriminate|]. split; [auto|].
      split; [|split; [reflexivity|reflexivity]].
      intros _ _ _ [?|?]; congruence.
Qed.

Lemma popm_frames_spec ic v o create cs : forall np nq cur cs' np' nq' cur',
  popm_frames ic v o create cs np nq cur = Ok (cs', np', nq', cur') ->
  (np' = true <-> np = true \/ Exists (fun c => names_pcnt v o (c_frame c)) cs) /\
  (nq' = true <-> nq = true \/ Exists (fun c => takes_popm ic v o create (c_frame c)) cs) /\
  (o_dry o = true -> cs' = cs) /\
  (o_dry o = false -> popm_updated (takes ic v o create) o cs cs') /\
  (o_dry o = false -> create = true -> Forall (fun c => count_bytes (c_frame c)) cs ->
     (cur <= cur' /\ forall c, In c cs' -> play_frame v (c_frame c) -> exists m, count_is (c_frame c) m /\ m <= cur') /\
     (cur' = cur \/ exists c, In c cs' /\ play_frame v (c_frame c) /\ count_is (c_frame c) cur')).
Proof.
  induction cs as [|c r IH]; intros np nq cur cs' np' nq' cur' H.
  - inversion H; subst; clear H.
    split; [split; [auto|intros [?|X]; [assumption|inversion X]]|].
    split; [split; [auto|intros [?|X]; [assumption|inversion X]]|].
    split; [auto|]. split; [intros _; constructor|]. intros _ _ _. split; [split; [lia|intros ? []]|now left].
  - cbn [popm_frames] in H. apply bind_ok in H as ([[[c1 p] q] n] & F & H).
    apply bind_ok in H as ([[[r1 np1] nq1] cur1] & R & H). inversion H; subst; clear H.
    apply popm_frame_spec in F as (F1 & F2 & F3 & F4 & F5 & F6 & F7 & F8 & F9).
    apply IH in R as (R1 & R2 & R3 & R4 & R5).
    split; [|split; [|split; [|split]]].
    + rewrite R1, orb_true_iff, F1, Exists_cons. tauto.
    + rewrite R2, orb_true_iff, F2, Exists_cons. tauto.
    + intros D. f_equal; auto.
    + intros D. constructor; [|now apply R4]. split; [|exact F3].
      destruct (p || q) eqn:PQ.
      * left. split; [|now apply F5]. apply orb_true_iff in PQ as [X|X]; [left; now apply F1|right; now apply F2].
      * right. split; [|now apply F6]. apply orb_false_iff in PQ as [P1 P2]. subst.
        intros [X|X]; [apply F1 in X|apply F2 in X]; discriminate.
    + intros D CT CB. inversion CB as [|? ? CB1 CB2]; subst. destruct (R5 D eq_refl CB2) as [[R6 R7] R8].
      assert (LE : cur <= cur' /\ n <= cur').
      { destruct (N.ltb_spec cur n); split; lia. }
      split; [split; [lia|]|].
      * intros x [<-|X] PF; [|now apply R7]. exists n. split; [|lia].
        apply F7; auto. unfold play_frame in *. now rewrite F9 in PF.
      * destruct R8 as [R8|(x & X1 & X2 & X3)]; [|right; exists x; split; [now right|auto]].
        destruct (N.ltb_spec cur n) as [L|L]; [|left; lia].
        right. exists c1. split; [now left|].
        destruct (bytes_eqb_spec (f_id (c_frame c)) (count_id v)) as [E1|E1].
        { assert (PF : play_frame v (c_frame c)) by now left. split; [unfold play_frame; rewrite F9; exact PF|].
          rewrite R8. apply F7; auto. }
        destruct (bytes_eqb_spec (f_id (c_frame c)) (popm_id v)) as [E2|E2].
        { assert (PF : play_frame v (c_frame c)) by now right. split; [unfold play_frame; rewrite F9; exact PF|].
          rewrite R8. apply F7; auto. }
        exfalso. rewrite (F8 D eq_refl) in L; [lia|]. intros [?|?]; contradiction.
Qed.

Lemma Exists_or_iff {A} (P Q : A -> Prop) l : Exists (fun x => P x \/ Q x) l <-> Exists P l \/ Exists Q l.
Proof.
  rewrite !Exists_exists. split.
  - intros (x & H & [?|?]); [left|right]; eauto.
  - intros [(x & ? & ?)|(x & ? & ?)]; eauto.
Qed.

Lemma popm_tag_spec ic v o create cs upd cs' : o_dry o = false ->
  popm_tag ic v o create cs = Ok (upd, cs') ->
  popm_result ic v o create (takes_popm ic v o create) cs upd cs'.
Proof.
  intros D H. unfold popm_tag in H. apply bind_ok in H as ([[[cs1 np] nq] cur] & R & H).
  apply popm_frames_spec in R as (R1 & R2 & _ & R4 & R5). specialize (R4 D). rewrite D in H. cbn [negb] in H.
  rewrite andb_true_r in H.
  assert (E1 : np = true <-> Exists (fun c => names_pcnt v o (c_frame c)) cs) by (rewrite R1; intuition discriminate).
  assert (E2 : nq = true <-> Exists (fun c => takes_popm ic v o create (c_frame c)) cs) by (rewrite R2; intuition discriminate).
  clear R1 R2.
  assert (HI : create = true -> Forall (fun c => count_bytes (c_frame c)) cs -> highest v cs1 cur).
  { intros CT CB. destruct (R5 D CT CB) as [[_ A1] A2]. split; assumption. }
  clear R5.
  set (pc := if cur =? 0 then o_count o else cur) in *.
  assert (PC : Forall (fun c => count_bytes (c_frame c)) cs -> create = true ->
               exists n, highest v cs1 n /\ pc = if n =? 0 then o_count o else n).
  { intros CB CT. exists cur. split; [exact (HI CT CB)|reflexivity]. }
  destruct create.
  2: { apply Ok_inj in H. inversion H; subst; clear H. exists cs', [], []. rewrite !app_nil_r.
       split; [reflexivity|]. split; [exact R4|]. split; [intuition congruence|]. split; [intuition congruence|].
       split; [intros _; exists 0; split; [discriminate|auto]|].
       rewrite Exists_or_iff, <- E1, <- E2, orb_true_iff. intuition congruence. }
  set (mkp := negb (popm_only o) && negb np) in *.
  assert (MK : mkp = true <-> o_policy o <> PopmOnly /\ ~ Exists (fun c => names_pcnt v o (c_frame c)) cs).
  { unfold mkp. rewrite andb_true_iff, !negb_true_iff, <- E1, <- popm_only_spec.
    destruct (popm_only o), np; intuition congruence. }
  set (A := if mkp then [pcnt_made v pc] else []).
  set (B := match o_owner o, o_rating o with
            | Some w, Some r => if negb (pcnt_only o) && negb nq then [popm_made v w r pc] else []
            | _, _ => [] end).
  assert (HA : A <> [] <-> mkp = true) by (unfold A; destruct mkp; split; congruence).
  assert (HB : B <> [] <-> o_policy o <> PcntOnly /\ o_owner o <> None /\ o_rating o <> None /\
                          ~ Exists (fun c => takes_popm ic v o true (c_frame c)) cs).
  { unfold B. rewrite <- E2, <- pcnt_only_spec.
    destruct (o_owner o), (o_rating o), (pcnt_only o), nq; cbn [negb andb]; intuition congruence. }
  exists cs1, A, B.
  assert (CS : cs' = cs1 ++ A ++ B /\ (upd = true <-> (nq || np = true) \/ A <> [] \/ B <> [])).
  { unfold A, B, pcnt_made, popm_made. unfold make_popm in H. clear - H. clearbody mkp pc.
    destruct mkp, (o_owner o), (o_rating o), (negb (pcnt_only o) && negb nq);
      apply Ok_inj in H; inversion H; subst; clear H; rewrite <- ?app_assoc; cbn [app]; rewrite ?app_nil_r;
      (split; [reflexivity|]); rewrite ?orb_true_r, ?orb_false_r;
      (split; [intros ?|intros [?|[?|?]]]; auto; try congruence; right; first [left; discriminate|right; discriminate]). }
  destruct CS as [CS UP]. split; [exact CS|]. split; [exact R4|].
  split; [rewrite HA, MK; clear; tauto|]. split; [rewrite HB; clear; tauto|].
  split.
  - intros CB. exists pc. split; [apply PC; exact CB|]. split; [unfold A; destruct mkp; auto|].
    unfold B. destruct (o_owner o) as [w|]; [|now left]. destruct (o_rating o) as [r|]; [|now left].
    destruct (negb (pcnt_only o) && negb nq); [right; exists w, r; auto|now left].
  - rewrite UP, orb_true_iff, Exists_or_iff, <- E1, <- E2. clear. tauto.
Qed.

(** ** Dry runs *)
Lemma popm_frame_dry ic v o create c c' p q n : popm_frame ic v o create c = Ok (c', p, q, n) ->
  popm_frame ic v (dry o) create c = Ok (c, p, q, n).
Proof.
  unfold popm_frame, process_pcnt, process_popm, owner_is. cbn [o_dry dry o_owner o_rating].
  change (new_count (dry o)) with (new_count o).
  change (popm_only (dry o)) with (popm_only o). change (pcnt_only (dry o)) with (pcnt_only o).
  destruct (_ && bytes_eqb _ (count_id v)).
  - destruct (f_body (c_frame c)); try discriminate. destruct (popm_only o).
    + intros H. apply bind_ok in H as (m & E & H). rewrite E. inversion H; subst. reflexivity.
    + intros H. apply bind_ok in H as ([c1 m] & E & H). apply bind_ok in E as (m' & E & E').
      rewrite E. cbn [bind]. inversion E'; subst. inversion H; subst. reflexivity.
  - destruct (_ && bytes_eqb _ (popm_id v)).
    + destruct (f_body (c_frame c)); try discriminate. intros H. apply bind_ok in H as (e & E1 & H).
      apply bind_ok in H as (m & E2 & H). rewrite E1. cbn [bind]. rewrite E2. cbn [bind].
      destruct (match o_owner o with Some w => bytes_eqb e w | None => true end).
      * apply bind_ok in H as ([c1 m'] & E & H). apply bind_ok in E as (m'' & E & E').
        rewrite E. cbn [bind]. inversion E'; subst. inversion H; subst. reflexivity.
      * inversion H; subst. reflexivity.
    + intros H. inversion H; subst. reflexivity.
Qed.

Lemma popm_frames_dry ic v o create cs : forall np nq cur cs' np' nq' cur',
  popm_frames ic v o create cs np nq cur = Ok (cs', np', nq', cur') ->
  popm_frames ic v (dry o) create cs np nq cur = Ok (cs, np', nq', cur').
Proof.
  induction cs as [|c r IH]; intros np nq cur cs' np' nq' cur' H.
  - inversion H; subst. reflexivity.
  - cbn [popm_frames] in *. apply bind_ok in H as ([[[c1 p] q] n] & F & H).
    apply bind_ok in H as ([[[r1 np1] nq1] cur1] & R & H). inversion H; subst; clear H.
    rewrite (popm_frame_dry _ _ _ _ _ _ _ _ _ F). cbn [bind]. rewrite (IH _ _ _ _ _ _ _ R). reflexivity.
Qed.

Lemma popm_tag_dry ic v o create cs upd cs' : popm_tag ic v o create cs = Ok (upd, cs') ->
  popm_tag ic v (dry o) create cs = Ok (upd, cs).
Proof.
  unfold popm_tag. intros H. apply bind_ok in H as ([[[cs1 np] nq] cur] & R & H).
  rewrite (popm_frames_dry _ _ _ _ _ _ _ _ _ _ _ _ R). cbn [bind o_dry dry o_owner o_rating o_count].
  change (popm_only (dry o)) with (popm_only o). change (pcnt_only (dry o)) with (pcnt_only o).
  destruct create; [|apply Ok_inj in H; inversion H; subst; reflexivity].
  cbn [negb]. rewrite !andb_false_r.
  destruct (o_owner o), (o_rating o); try (destruct (negb (pcnt_only o) && negb nq));
    apply Ok_inj in H; inversion H; subst; reflexivity.
Qed.

(** ** It does not fail on what can be read *)
Lemma popm_frame_total ic v o create c : legible ic v (c_frame c) ->
  exists c' p q n, popm_frame ic v o create c = Ok (c', p, q, n).
Proof.
  intros ([T1 T2] & L1 & L2). unfold popm_frame.
  assert (CV : forall b, counter_of (c_frame c) = Some b -> exists m, counter_value b = Ok m).
  { intros b Hb. destruct (L1 b Hb) as [B1 B2]. exists (positional 256 b). now apply counter_value_positional. }
  assert (NC : forall b, counter_of (c_frame c) = Some b -> exists m, new_count o b = Ok m).
  { intros b Hb. unfold new_count. destruct (o_increment o); [|eauto]. destruct (CV b Hb) as [m ->]. cbn. eauto. }
  unfold counter_of in *.
  destruct (bytes_eqb_spec (f_id (c_frame c)) (count_id v)) as [E1|E1].
  - rewrite andb_true_r. destruct (create || negb (popm_only o)).
    + destruct (T1 E1) as [b FB]. rewrite FB in *. destruct (popm_only o).
      * destruct (CV b eq_refl) as [m ->]. cbn. eauto 6.
      * unfold process_pcnt. destruct (NC b eq_refl) as [m ->]. cbn. eauto 6.
    + destruct (bytes_eqb_spec (f_id (c_frame c)) (popm_id v)) as [E2|E2].
      { exfalso. apply (ids_differ v). congruence. }
      rewrite andb_false_r. eauto 6.
  - rewrite andb_false_r. destruct (bytes_eqb_spec (f_id (c_frame c)) (popm_id v)) as [E2|E2].
    + rewrite andb_true_r. destruct (create || negb (pcnt_only o)); [|eauto 6].
      destruct (T2 E2) as [p FB]. rewrite FB in *. destruct (L2 p eq_refl) as [e EE]. unfold email_text. rewrite EE. cbn [bind].
      destruct (CV (po_counter p) eq_refl) as [m ->]. cbn [bind].
      destruct (owner_is o e); [|eauto 6].
      unfold process_popm. destruct (NC (po_counter p) eq_refl) as [m' ->]. cbn [bind]. eauto 6.
    + rewrite andb_false_r. eauto 6.
Qed.

Lemma popm_frames_total ic v o create cs : Forall (fun c => legible ic v (c_frame c)) cs -> forall np nq cur,
  exists r, popm_frames ic v o create cs np nq cur = Ok r.
Proof.
  induction 1 as [|c r L _ IH]; intros np nq cur; [eexists; reflexivity|].
  cbn [popm_frames]. destruct (popm_frame_total ic v o create c L) as (c' & p & q & n & ->). cbn [bind].
  destruct (IH (np || p) (nq || q) (if cur <? n then n else cur)) as [[[[r1 a] b] k] ->]. cbn [bind]. eauto.
Qed.

Lemma popm_tag_total ic v o create cs : Forall (fun c => legible ic v (c_frame c)) cs ->
  exists upd cs', popm_tag ic v o create cs = Ok (upd, cs').
Proof.
  intros L. unfold popm_tag. destruct (popm_frames_total ic v o create cs L false false 0) as [[[[cs1 np] nq] cur] ->].
  cbn [bind]. destruct create; [|eauto]. destruct (o_owner o), (o_rating o); eauto.
  destruct (negb (pcnt_only o) && negb nq); eauto.
Qed.

(** ** Large counts *)
Lemma reset_counter_large n : 2 ^ 32 <= n -> (4 < length (reset_counter n))%nat.
Proof.
  intros H. assert (N0 : n <> 0) by (intros ->; revert H; vm_compute; congruence).
  unfold reset_counter. destruct (N.eqb_spec n 0); [contradiction|]. rewrite counter_digits_len.
  assert (L : 32 <= N.log2 n) by (apply N.log2_le_pow2; lia).
  assert (4 <= N.log2 n / 8) by (apply N.div_le_lower_bound; lia). lia.
Qed.

Lemma Forall2_Exists {A B} (R : A -> B -> Prop) (P : A -> Prop) (Q : B -> Prop) l l' :
  (forall a b, R a b -> P a -> Q b) -> Forall2 R l l' -> Exists P l -> Exists Q l'.
Proof.
  intros H F. induction F as [|a b l l' R1 F IH]; intros E; [inversion E|].
  inversion E; subst; [left; eauto|right; auto].
Qed.

Lemma popm_frames_large ic v o create cs : o_increment o = true -> o_policy o <> PopmOnly ->
  Exists (fun c => f_id (c_frame c) = count_id v /\ exists n, 2 ^ 32 <= n /\ f_body (c_frame c) = BCount (reset_counter n)) cs ->
  forall np nq cur r, popm_frames ic v o create cs np nq cur <> Ok r.
Proof.
  intros INC POL E. induction E as [c l (E1 & n & E2 & E3)|c l E IH]; intros np nq cur r H;
    cbn [popm_frames] in H; apply bind_ok in H as ([[[c1 p] q] m] & F & H).
  - clear H. unfold popm_frame in F. rewrite E1, bytes_eqb_refl, andb_true_r in F.
    assert (PO : popm_only o = false).
    { destruct (popm_only o) eqn:X; [|reflexivity]. apply popm_only_spec in X. contradiction. }
    rewrite PO, orb_true_r, E3 in F. unfold process_pcnt, new_count in F. rewrite INC in F.
    rewrite counter_too_long in F by now apply reset_counter_large. discriminate F.
  - apply bind_ok in H as ([[[r1 a] b] k] & R & H). now apply IH in R.
Qed.

Lemma popm_tag_large ic v o create cs : o_increment o = true -> o_policy o <> PopmOnly ->
  Exists (fun c => f_id (c_frame c) = count_id v /\ exists n, 2 ^ 32 <= n /\ f_body (c_frame c) = BCount (reset_counter n)) cs ->
  forall r, popm_tag ic v o create cs <> Ok r.
Proof.
  intros INC POL E r H. unfold popm_tag in H. apply bind_ok in H as (x & R & H).
  now apply (popm_frames_large ic v o create cs INC POL E) in R.
Qed.

Lemma popm_set_large ic v o create cs upd cs' : o_dry o = false -> o_increment o = false -> 2 ^ 32 <= o_count o ->
  o_policy o <> PopmOnly ->
  popm_tag ic v o create cs = Ok (upd, cs') ->
  Exists (fun c => f_id (c_frame c) = count_id v) cs ->
  Forall (fun c => well_typed v (c_frame c)) cs ->
  Exists (fun c => f_id (c_frame c) = count_id v /\ exists n, 2 ^ 32 <= n /\ f_body (c_frame c) = BCount (reset_counter n)) cs'.
Proof.
  intros D INC BIG POL H E WT. destruct (popm_tag_spec _ _ _ _ _ _ _ D H) as (ch & m1 & m2 & -> & UP & _).
  apply Exists_app. left. clear H.
  assert (E' : Exists (fun c => f_id (c_frame c) = count_id v /\ well_typed v (c_frame c)) cs).
  { apply Exists_exists in E as (c & C1 & C2). apply Exists_exists. exists c. split; [assumption|].
    split; [assumption|]. rewrite Forall_forall in WT. now apply WT. }
  refine (Forall2_Exists _ _ _ _ _ _ UP E'). clear - D INC BIG POL. intros c c' [H _] [C1 [W1 _]].
  destruct H as [[_ (n & -> & HN)]|[NT _]].
  - rewrite INC in HN. subst. destruct (W1 C1) as [b FB]. unfold with_count. cbn [f_id f_body]. rewrite FB.
    split; [assumption|eauto].
  - exfalso. apply NT. left. split; assumption.
Qed.

Lemma popm_overflow ic v o o' create create' cs upd cs' :
  o_dry o = false -> o_increment o = false -> 2 ^ 32 <= o_count o -> o_policy o <> PopmOnly ->
  Exists (fun c => f_id (c_frame c) = count_id v) cs -> Forall (fun c => well_typed v (c_frame c)) cs ->
  popm_tag ic v o create cs = Ok (upd, cs') ->
  o_increment o' = true -> o_policy o' <> PopmOnly -> forall r, popm_tag ic v o' create' cs' <> Ok r.
Proof. intros D INC BIG POL E WT H INC' POL'. apply popm_tag_large; auto. eapply popm_set_large; eauto. Qed.

(** ** Adding twice *)
Lemma counter_reread n m : counter_value (reset_counter n) = Ok m -> m = n.
Proof.
  intros H. pose proof (counter_value_len _ _ H) as L.
  rewrite counter_value_positional in H by (auto using reset_counter_bytes).
  rewrite reset_counter_value in H. now apply Ok_inj in H.
Qed.

Lemma add_twice a b m : (b + (a + m) mod 2 ^ 64) mod 2 ^ 64 = (a + b + m) mod 2 ^ 64.
Proof. rewrite N.add_mod_idemp_r by discriminate. f_equal. lia. Qed.

Lemma popm_frame_twice ic v o a b c c1 p q n c2 p2 q2 n2 : o_dry o = false ->
  popm_frame ic v (adding a o) false c = Ok (c1, p, q, n) ->
  popm_frame ic v (adding b o) false c1 = Ok (c2, p2, q2, n2) ->
  (exists k, popm_frame ic v (adding (a + b) o) false c = Ok (c2, p, q, k)) /\ p2 = p /\ q2 = q.
Proof.
  intros D. unfold popm_frame, process_pcnt, process_popm, owner_is.
  change (popm_only (adding a o)) with (popm_only o). change (pcnt_only (adding a o)) with (pcnt_only o).
  change (popm_only (adding b o)) with (popm_only o). change (pcnt_only (adding b o)) with (pcnt_only o).
  change (popm_only (adding (a + b) o)) with (popm_only o). change (pcnt_only (adding (a + b) o)) with (pcnt_only o).
  unfold new_count. cbn [adding o_dry o_owner o_rating o_count o_increment]. rewrite D. cbn [orb].
  destruct (negb (popm_only o) && bytes_eqb (f_id (c_frame c)) (count_id v)) eqn:C1.
  - destruct (f_body (c_frame c)) eqn:FB; try discriminate.
    assert (PO : popm_only o = false) by (destruct (popm_only o); [discriminate|reflexivity]). rewrite PO.
    intros H. apply bind_ok in H as ([c' k] & E & H). apply bind_ok in E as (k' & E & E'). apply bind_ok in E as (m & M & E).
    apply Ok_inj in E. inversion E'; subst; clear E'. inversion H; subst; clear H.
    cbn [edit_body c_frame f_id f_body]. rewrite PO in C1. cbn [negb] in *. rewrite C1.
    intros H. apply bind_ok in H as ([c' k] & E & H). apply bind_ok in E as (k' & E & E'). apply bind_ok in E as (m2 & M2 & E).
    apply Ok_inj in E. inversion E'; subst; clear E'. inversion H; subst; clear H.
    apply counter_reread in M2. subst m2. rewrite M. cbn [bind]. rewrite add_twice. split; [eexists; reflexivity|auto].
  - destruct (negb (pcnt_only o) && bytes_eqb (f_id (c_frame c)) (popm_id v)) eqn:C2.
    + destruct (f_body (c_frame c)) as [| | | | | | |pm| |] eqn:FB; try discriminate.
      intros H. apply bind_ok in H as (e & EE & H). apply bind_ok in H as (m & M & H). rewrite EE, M. cbn [bind].
      destruct (match o_owner o with Some w => bytes_eqb e w | None => true end) eqn:OW.
      * apply bind_ok in H as ([c' k] & E & H). rewrite M in E. cbn [bind] in E. inversion E; subst; clear E.
        inversion H; subst; clear H. cbn [edit_body c_frame f_id f_body po_email po_counter po_rating].
        rewrite C1, C2. unfold email_text in *. cbn [po_email]. rewrite EE. cbn [bind].
        intros H. apply bind_ok in H as (m2 & M2 & H). rewrite OW in H.
        apply bind_ok in H as ([c' k] & E & H). rewrite M2 in E. cbn [bind] in E. inversion E; subst; clear E.
        inversion H; subst; clear H. apply counter_reread in M2. subst m2. rewrite add_twice.
        split; [eexists; destruct (o_rating o); reflexivity|auto].
      * inversion H; subst; clear H. rewrite C1, C2, FB, EE. cbn [bind]. rewrite M. cbn [bind]. rewrite OW.
        intros H. inversion H; subst. split; [eexists; reflexivity|auto].
    + intros H. inversion H; subst; clear H. rewrite C1, C2. intros H. inversion H; subst.
      split; [eexists; reflexivity|auto].
Qed.

Lemma popm_frames_twice ic v o a b cs : o_dry o = false -> forall np nq cur cur2 cur3 cs1 np1 nq1 k1 cs2 np2 nq2 k2,
  popm_frames ic v (adding a o) false cs np nq cur = Ok (cs1, np1, nq1, k1) ->
  popm_frames ic v (adding b o) false cs1 np nq cur2 = Ok (cs2, np2, nq2, k2) ->
  (exists k3, popm_frames ic v (adding (a + b) o) false cs np nq cur3 = Ok (cs2, np1, nq1, k3)) /\ np2 = np1 /\ nq2 = nq1.
Proof.
  intros D. induction cs as [|c r IH]; intros np nq cur cur2 cur3 cs1 np1 nq1 k1 cs2 np2 nq2 k2 H1 H2.
  - inversion H1; subst; clear H1. inversion H2; subst; clear H2. split; [eexists; reflexivity|auto].
  - cbn [popm_frames] in H1. apply bind_ok in H1 as ([[[c1 p] q] n] & F1 & H1).
    apply bind_ok in H1 as ([[[r1 a1] b1] x1] & R1 & H1). inversion H1; subst; clear H1.
    cbn [popm_frames] in H2. apply bind_ok in H2 as ([[[c2 p2] q2] n2] & F2 & H2).
    apply bind_ok in H2 as ([[[r2 a2] b2] x2] & R2 & H2). inversion H2; subst; clear H2.
    destruct (popm_frame_twice _ _ _ _ _ _ _ _ _ _ _ _ _ _ D F1 F2) as ((k & F) & -> & ->).
    destruct (IH _ _ _ _ (if cur3 <? k then k else cur3) _ _ _ _ _ _ _ _ R1 R2) as ((k3 & R) & -> & ->).
    cbn [popm_frames]. rewrite F. cbn [bind]. rewrite R. cbn [bind]. split; [eexists; reflexivity|auto].
Qed.

Lemma popm_tag_twice ic v o a b cs u1 cs1 u2 cs2 : o_dry o = false ->
  popm_tag ic v (adding a o) false cs = Ok (u1, cs1) ->
  popm_tag ic v (adding b o) false cs1 = Ok (u2, cs2) ->
  popm_tag ic v (adding (a + b) o) false cs = Ok (u1, cs2) /\ u2 = u1.
Proof.
  intros D. unfold popm_tag. intros H1 H2.
  apply bind_ok in H1 as ([[[x1 np1] nq1] k1] & R1 & H1). apply Ok_inj in H1. inversion H1; subst; clear H1.
  apply bind_ok in H2 as ([[[x2 np2] nq2] k2] & R2 & H2). apply Ok_inj in H2. inversion H2; subst; clear H2.
  destruct (popm_frames_twice _ _ _ _ _ _ D _ _ _ _ 0 _ _ _ _ _ _ _ _ R1 R2) as ((k & R) & -> & ->).
  rewrite R. cbn [bind]. auto.
Qed.

(** ** Ratings *)
Lemma digit_spec c : (48 <=? c) && (c <=? 57) = true <-> digit c.
Proof. unfold digit. rewrite andb_true_iff, !N.leb_le. tauto. Qed.

Lemma fold_pos_mono l : forall n, n <= fold_left (fun a d => a * 10 + d) l n.
Proof. induction l as [|d r IH]; intros n; cbn [fold_left]; [lia|]. specialize (IH (n * 10 + d)). lia. Qed.

Lemma decimal_spec l : forall n, n < 2 ^ 16 ->
  decimal l n = if forallb (fun c => (48 <=? c) && (c <=? 57)) l && (fold_left (fun a d => a * 10 + d) (map (fun c => c - 48) l) n <? 2 ^ 16)
                then Some (fold_left (fun a d => a * 10 + d) (map (fun c => c - 48) l) n) else None.
Proof.
  induction l as [|c r IH]; intros n H.
  - cbn [decimal forallb map fold_left andb]. now rewrite (proj2 (N.ltb_lt n (2 ^ 16)) H).
  - cbn [decimal forallb map fold_left]. destruct ((48 <=? c) && (c <=? 57)) eqn:D; cbn [andb]; [|reflexivity].
    destruct (N.ltb_spec (n * 10 + (c - 48)) (2 ^ 16)) as [L|L].
    + now rewrite IH.
    + pose proof (fold_pos_mono (map (fun c => c - 48) r) (n * 10 + (c - 48))) as M.
      destruct (N.ltb_spec (fold_left (fun a d => a * 10 + d) (map (fun c => c - 48) r) (n * 10 + (c - 48))) (2 ^ 16)); [lia|].
      now rewrite andb_false_r.
Qed.

Lemma digits_forallb l : Forall digit l <-> forallb (fun c => (48 <=? c) && (c <=? 57)) l = true.
Proof.
  rewrite forallb_forall, Forall_forall. split; intros H x X; apply digit_spec; auto.
Qed.

Lemma is_star_spec c : is_star c = true <-> star_char c.
Proof.
  unfold is_star, star_char. rewrite !orb_true_iff, !andb_true_iff, !N.leb_le, existsb_exists. split.
  - intros [[?|?]|(x & X & E)]; [tauto|tauto|]. apply N.eqb_eq in E. subst. tauto.
  - intros [?|[?|?]]; [tauto|tauto|]. right. exists c. split; [assumption|apply N.eqb_refl].
Qed.

Lemma star_text_spec l : (1 <=? length l)%nat && (length l <=? 5)%nat && forallb is_star l = true <-> star_text l.
Proof.
  unfold star_text. rewrite !andb_true_iff, !Nat.leb_le, forallb_forall, Forall_forall.
  split; intros [H1 H2]; (split; [tauto|]); intros x X; apply is_star_spec; auto.
Qed.

Lemma star_not_digit c : star_char c -> ~ digit c.
Proof.
  unfold star_char, digit. intros [?|[?|H]]; [lia|lia|]. vm_compute in H. intuition lia.
Qed.

Lemma magnitude_numeral l n : numeral l n -> magnitude l = if n <? 2 ^ 16 then Some n else None.
Proof.
  intros (H1 & H2 & ->). destruct l as [|c r]; [congruence|]. unfold magnitude. rewrite decimal_spec by reflexivity.
  apply digits_forallb in H2. rewrite H2. reflexivity.
Qed.

Lemma magnitude_other l : ~ Forall digit l -> magnitude l = None.
Proof.
  intros H. destruct l as [|c r]; [reflexivity|]. unfold magnitude. rewrite decimal_spec by reflexivity.
  destruct (forallb (fun c => (48 <=? c) && (c <=? 57)) (c :: r)) eqn:E; [|reflexivity].
  apply digits_forallb in E. contradiction.
Qed.

Lemma lex_numeral l n : numeral l n -> lex_ushort l = if n <? 2 ^ 16 then Some n else None.
Proof.
  intros H. rewrite <- (magnitude_numeral l n H). destruct H as (H1 & H2 & _). destruct l as [|c r]; [congruence|].
  inversion H2 as [|? ? D _]; subst. unfold digit in D. unfold lex_ushort.
  destruct (N.eqb_spec c 45); [lia|]. destruct (N.eqb_spec c 43); [lia|]. reflexivity.
Qed.

Lemma numeral_not_star l n : numeral l n -> ~ star_text l.
Proof.
  intros (H1 & H2 & _) [_ S2]. destruct l as [|c r]; [congruence|].
  inversion H2; inversion S2; subst. now apply (star_not_digit c).
Qed.

Lemma rating_numeral l n : numeral l n -> rating_from_text l = if n <=? 255 then Some n else None.
Proof.
  intros H. unfold rating_from_text. rewrite (lex_numeral l n H).
  assert (NS : (1 <=? length l)%nat && (length l <=? 5)%nat && forallb is_star l = false).
  { apply not_true_is_false. rewrite star_text_spec. now apply (numeral_not_star l n). }
  rewrite NS. destruct (N.ltb_spec n (2 ^ 16)) as [L|L]; [reflexivity|].
  destruct (N.leb_spec n 255) as [X|X]; [|reflexivity]. exfalso. revert L X. change (2 ^ 16) with 65536. lia.
Qed.

Lemma rating_stars l : star_text l -> rating_from_text l = nth_error [1; 64; 128; 196; 255] (pred (length l)).
Proof.
  intros H. unfold rating_from_text. pose proof H as [L SC]. apply star_text_spec in H. rewrite H.
  assert (NL : lex_ushort l = None).
  { destruct l as [|c r]; [reflexivity|]. inversion SC as [|? ? S1 S2]; subst. unfold lex_ushort.
    destruct (N.eqb_spec c 45) as [->|_].
    { exfalso. clear - S1. unfold star_char in S1. destruct S1 as [?|[?|X]]; [lia|lia|]. vm_compute in X. intuition discriminate. }
    destruct (N.eqb_spec c 43).
    - destruct r as [|d r]; [reflexivity|]. apply magnitude_other. intros D. inversion D; inversion S2; subst.
      now apply (star_not_digit d).
    - apply magnitude_other. intros D. inversion D; subst. now apply (star_not_digit c). }
  rewrite NL. destruct l as [|a [|b [|c [|d [|e [|f r]]]]]]; cbn [length] in *; try lia; reflexivity.
Qed.

Lemma rating_none l : ~ star_text l -> ~ Forall digit l -> hd 0 l <> 43 -> hd 0 l <> 45 -> rating_from_text l = None.
Proof.
  intros NS ND H1 H2. unfold rating_from_text.
  assert (E : (1 <=? length l)%nat && (length l <=? 5)%nat && forallb is_star l = false).
  { apply not_true_is_false. now rewrite star_text_spec. }
  rewrite E. destruct l as [|c r]; [reflexivity|]. cbn [hd] in *. unfold lex_ushort.
  destruct (N.eqb_spec c 45); [congruence|]. destruct (N.eqb_spec c 43); [congruence|]. now rewrite magnitude_other.
Qed.

(** ** The theorems *)
Lemma popm_result_ext ic v o create (P Q : frame -> Prop) cs upd cs' : (forall f, P f <-> Q f) ->
  popm_result ic v o create P cs upd cs' -> popm_result ic v o create Q cs upd cs'.
Proof.
  intros PQ (ch & m1 & m2 & H1 & H2 & H3 & H4 & H5 & H6).
  assert (EX : Exists (fun c => P (c_frame c)) cs <-> Exists (fun c => Q (c_frame c)) cs).
  { rewrite !Exists_exists. split; intros (c & C1 & C2); exists c; (split; [assumption|]); now apply PQ. }
  exists ch, m1, m2. split; [exact H1|]. split; [|split; [exact H3|split; [|split; [exact H5|]]]].
  - clear - PQ H2. unfold popm_updated in *. induction H2 as [|c c' l l' H F IH]; constructor; [|exact IH].
    destruct H as [H D]. split; [|exact D]. destruct H as [[H B]|[H B]]; [left|right]; (split; [|exact B]).
    + destruct H as [H|H]; [now left|right; now apply PQ].
    + intros [X|X]; apply H; [now left|right; now apply PQ].
  - rewrite <- EX. exact H4.
  - rewrite Exists_or_iff, <- EX, <- Exists_or_iff. exact H6.
Qed.

Lemma popm_names ic v o create cs upd cs' : o_dry o = false -> create = false \/ o_policy o <> PcntOnly ->
  popm_tag ic v o create cs = Ok (upd, cs') -> popm_result ic v o create (names_popm ic v o) cs upd cs'.
Proof.
  intros D C H. eapply popm_result_ext; [|exact (popm_tag_spec _ _ _ _ _ _ _ D H)].
  intros f. unfold takes_popm, names_popm. destruct C as [->|C]; intuition discriminate.
Qed.

Lemma popm_create_owned ic v o cs upd cs' : o_dry o = false ->
  popm_tag ic v o true cs = Ok (upd, cs') -> popm_result ic v o true (owned ic v o) cs upd cs'.
Proof.
  intros D H. eapply popm_result_ext; [|exact (popm_tag_spec _ _ _ _ _ _ _ D H)].
  intros f. unfold takes_popm. intuition.
Qed.
