(** * Proofs: deleting several frames. *)
From Coq Require Import Sorting.Permutation.
From Verif Require Import Base M_Ints M_Stream M_Id3v1 M_Payload M_Frame M_Tag22 M_Tag23 M_Tag24 M_Charset M_TextId M_Lookup M_Read M_Process M_Cmds
  S_Charset S_Lookup S_Cmds L_Charset L_Lookup L_Lookup2 L_Lookup3 L_Cmds L_Cmds2.

Definition name_of (x : N * cframe) : bytes := id_of (snd x).
Definition is_done (ids : list bytes) (x : N * cframe) : bool := existsb (bytes_eqb (name_of x)) ids.
Definition keep (ids : list bytes) (x : N * cframe) : bool := negb (is_done ids x).

(** The outcomes of a deletion through a stale index. *)
Definition stale (v : version) (o : outcome ltag) : Prop :=
  o = UB OutOfBounds \/ (v <> V22 /\ o = UB BadIterator) \/ (v = V22 /\ o = Throw LogicError).

(** [X] precedes every frame deleted so far; the indices of the identifiers not
    deleted are those of the original. *)
Record deleting (v : version) (orig X Y : list (N * cframe)) (ids : list bytes) (st : ltag) : Prop := mkDel {
  d_ready : ready v st;
  d_tnd : NoDup (l_texts st);
  d_split : orig = X ++ Y;
  d_head : match Y with [] => True | y :: _ => is_done ids y = true end;
  d_X : forall x, In x X -> is_done ids x = false;
  d_frames : l_frames st = X ++ filter (keep ids) Y;
  d_ids : forall id i, ~ In id ids -> In (id, i) (l_ids st) <-> exists x, nthN orig i = Some x /\ name_of x = id
}.

Lemma is_done_In ids x : is_done ids x = true <-> In (name_of x) ids.
Proof.
  unfold is_done. rewrite existsb_exists. split.
  - intros (y & M & Q). apply beqb_true in Q. congruence.
  - intros M. exists (name_of x). split; [exact M|apply beqb_refl].
Qed.
Lemma not_done ids x : is_done ids x = false <-> ~ In (name_of x) ids.
Proof. rewrite <- is_done_In. destruct (is_done ids x); split; congruence. Qed.

Lemma keep_cons id ids l : (forall x, In x l -> name_of x <> id) -> filter (keep (id :: ids)) l = filter (keep ids) l.
Proof.
  intros H. apply filter_ext_in. intros x M. unfold keep, is_done. cbn [existsb].
  destruct (bytes_eqb_spec (name_of x) id) as [E|]; [destruct (H x M E)|reflexivity].
Qed.
Lemma keep_all ids l : (forall x, In x l -> is_done ids x = false) -> filter (keep ids) l = l.
Proof.
  intros H. rewrite <- (filter_true l) at 2. apply filter_ext_in. intros x M. unfold keep. rewrite (H x M). reflexivity.
Qed.

Definition at_most_once (id : bytes) (l : list (N * cframe)) : Prop :=
  forall l1 x l2, l = l1 ++ x :: l2 -> name_of x = id -> forall y, In y (l1 ++ l2) -> name_of y <> id.

Lemma pick_only {A} c (l : list A) x : l <> [] -> (forall y, In y l -> y = x) -> pick c l = Some x.
Proof. intros NE H. destruct (pick_some c l NE) as (y & P). rewrite P. f_equal. apply H. eapply pick_In. exact P. Qed.

(** An absent frame. *)
Lemma delete_absent v k id c orig X Y ids st : names v k id -> ~ In id ids -> deleting v orig X Y ids st ->
  (forall x, In x orig -> name_of x <> id) -> delete_frame v c k st = Ok st /\ deleting v orig X Y (id :: ids) st.
Proof.
  intros (FI & KT) NI D H. split.
  - unfold delete_frame. rewrite FI. cbn [bind]. destruct (pick c (values (l_ids st) id)) as [i|] eqn:P; [|reflexivity].
    exfalso. apply pick_In, values_In in P. apply (d_ids _ _ _ _ _ _ D) in P as (x & Q & E); [|exact NI].
    eapply H; [eapply nthN_In; exact Q|exact E].
  - pose proof (d_split _ _ _ _ _ _ D) as S1. constructor; try apply D.
    + pose proof (d_head _ _ _ _ _ _ D) as HD. destruct Y as [|y Y]; [exact I|]. apply is_done_In. right. apply is_done_In. exact HD.
    + intros x M. apply not_done. intros [Q|Q].
      * eapply H; [|symmetry; exact Q]. rewrite S1. apply in_or_app. auto.
      * pose proof (d_X _ _ _ _ _ _ D x M) as W. apply not_done in W. contradiction.
    + rewrite keep_cons; [apply D|]. intros x M. apply H. rewrite S1. apply in_or_app. auto.
    + intros i j NJ. apply D. intros Q. apply NJ. right. exact Q.
Qed.

(** A frame before those deleted. *)
Lemma delete_before v k id c orig X1 x X2 Y ids st : names v k id -> ~ In id ids -> deleting v orig (X1 ++ x :: X2) Y ids st ->
  name_of x = id -> at_most_once id orig ->
  exists st', delete_frame v c k st = Ok st' /\ deleting v orig X1 (x :: X2 ++ Y) (id :: ids) st'.
Proof.
  intros NM NI D E U. pose proof (d_split _ _ _ _ _ _ D) as S1. rewrite <- app_assoc in S1. cbn [app] in S1.
  pose proof (d_frames _ _ _ _ _ _ D) as FR. rewrite <- app_assoc in FR. cbn [app] in FR. destruct x as (a, d).
  pose proof (U _ _ _ S1 E) as UQ.
  assert (VI : forall j, In j (values (l_ids st) id) -> j = N.of_nat (length X1)).
  { intros j M. apply values_In in M. apply (d_ids _ _ _ _ _ _ D) in M as (y & Q & EY); [|exact NI].
    destruct (nthN_split _ _ _ Q) as (l1 & l2 & S2 & L). subst j. f_equal. rewrite S1 in S2.
    destruct (Nat.lt_trichotomy (length l1) (length X1)) as [LT|[EQ|GT]]; [|exact EQ|].
    - exfalso. apply (UQ y); [|exact EY]. apply in_or_app. left.
      assert (N1 : nth_error (X1 ++ (a, d) :: X2 ++ Y) (length l1) = Some y).
      { rewrite S2, nth_error_app2, Nat.sub_diag by lia. reflexivity. }
      rewrite nth_error_app1 in N1 by exact LT. eapply nth_error_In. exact N1.
    - exfalso. apply (UQ y); [|exact EY]. apply in_or_app. right.
      assert (N1 : nth_error (X1 ++ (a, d) :: X2 ++ Y) (length l1) = Some y).
      { rewrite S2, nth_error_app2, Nat.sub_diag by lia. reflexivity. }
      rewrite nth_error_app2 in N1 by lia. destruct (length l1 - length X1)%nat as [|n] eqn:Z; [lia|]. eapply nth_error_In. exact N1. }
  assert (NV : values (l_ids st) id <> []).
  { intros V. assert (M : In (id, N.of_nat (length X1)) (l_ids st)).
    { apply (d_ids _ _ _ _ _ _ D); [exact NI|]. exists (a, d). split; [rewrite S1; apply nthN_app_at|exact E]. }
    apply values_In in M. rewrite V in M. destruct M. }
  pose proof (pick_only c _ _ NV VI) as P.
  destruct (delete_good v k id c st X1 a d _ NM (d_ready _ _ _ _ _ _ D) (d_tnd _ _ _ _ _ _ D) FR E NV P)
    as (st' & l & E' & R' & T' & F' & I' & RM).
  exists st'. split; [exact E'|]. constructor.
  - exact R'.
  - exact T'.
  - exact S1.
  - apply is_done_In. left. symmetry. exact E.
  - intros x M. apply not_done. intros [Q|Q].
    + apply (UQ x); [apply in_or_app; left; exact M|symmetry; exact Q].
    + pose proof (d_X _ _ _ _ _ _ D x) as W. apply not_done in W; [contradiction|]. apply in_or_app. left. exact M.
  - rewrite F'. f_equal. cbn [filter]. replace (keep (id :: ids) (a, d)) with false.
    2:{ unfold keep. symmetry. apply negb_false_iff. apply is_done_In. left. symmetry. exact E. }
    rewrite filter_app. rewrite !keep_cons.
    + f_equal. symmetry. apply keep_all. intros x M. apply (d_X _ _ _ _ _ _ D). apply in_or_app. right. right. exact M.
    + intros x M. apply UQ. apply in_or_app. right. apply in_or_app. right. exact M.
    + intros x M. apply UQ. apply in_or_app. right. apply in_or_app. left. exact M.
  - intros i j NJ. rewrite <- (d_ids _ _ _ _ _ _ D i j) by (intros Q; apply NJ; right; exact Q). rewrite I'.
    destruct (remove_first_perm _ _ _ RM) as (y & QY & PM). apply is_entry_eq in QY. subst y. split; intros M.
    + eapply Permutation_in; [apply Permutation_sym; exact PM|right; exact M].
    + eapply Permutation_in in M; [|exact PM]. destruct M as [M|M]; [|exact M]. injection M as -> _. exfalso. apply NJ. left. reflexivity.
Qed.

(** A frame after one deleted. *)
Lemma delete_after v k id c orig X y Y1 x Y2 ids st : names v k id -> ~ In id ids -> deleting v orig X (y :: Y1 ++ x :: Y2) ids st ->
  name_of x = id -> at_most_once id orig -> stale v (delete_frame v c k st).
Proof.
  intros (FI & KT) NI D E U. pose proof (d_split _ _ _ _ _ _ D) as S1.
  pose proof (d_head _ _ _ _ _ _ D) as HD. cbn beta iota in HD.
  pose proof (d_frames _ _ _ _ _ _ D) as FR. cbn [filter] in FR. replace (keep ids y) with false in FR by (unfold keep; rewrite HD; reflexivity).
  rewrite filter_app in FR. cbn [filter] in FR. replace (keep ids x) with true in FR.
  2:{ unfold keep. symmetry. apply negb_true_iff, not_done. rewrite E. exact NI. }
  assert (S2 : orig = (X ++ y :: Y1) ++ x :: Y2) by (rewrite <- app_assoc; exact S1).
  pose proof (U _ _ _ S2 E) as UQ. set (p := N.of_nat (length (X ++ y :: Y1))).
  assert (VI : forall j, In j (values (l_ids st) id) -> j = p).
  { intros j M. apply values_In in M. apply (d_ids _ _ _ _ _ _ D) in M as (z & Q & EZ); [|exact NI].
    destruct (nthN_split _ _ _ Q) as (l1 & l2 & S3 & L). subst j p. f_equal. rewrite S2 in S3.
    set (X1 := X ++ y :: Y1) in *.
    assert (N1 : nth_error (X1 ++ x :: Y2) (length l1) = Some z).
    { rewrite S3, nth_error_app2, Nat.sub_diag by lia. reflexivity. }
    destruct (Nat.lt_trichotomy (length l1) (length X1)) as [LT|[EQ|GT]]; [|exact EQ|].
    - exfalso. apply (UQ z); [|exact EZ]. apply in_or_app. left.
      rewrite nth_error_app1 in N1 by exact LT. eapply nth_error_In. exact N1.
    - exfalso. apply (UQ z); [|exact EZ]. apply in_or_app. right.
      rewrite nth_error_app2 in N1 by lia. destruct (length l1 - length X1)%nat as [|n] eqn:Z; [lia|]. eapply nth_error_In. exact N1. }
  assert (NV : values (l_ids st) id <> []).
  { intros V. assert (M : In (id, p) (l_ids st)).
    { apply (d_ids _ _ _ _ _ _ D); [exact NI|]. exists x. split; [rewrite S2; apply nthN_app_at|exact E]. }
    apply values_In in M. rewrite V in M. destruct M. }
  unfold delete_frame. rewrite FI. cbn [bind]. rewrite (pick_only c _ _ NV VI), (remove_text v id _ st KT).
  destruct (nthN (l_frames st) p) as [(b, e)|] eqn:Q; [|left; reflexivity]. right.
  replace (remove_first (is_entry id b) (l_texts st)) with (@None (list (bytes * N))); [destruct v; [right|left|left]; cbn; auto; split; congruence|].
  symmetry. apply remove_first_none. intros w M. destruct (is_entry id b w) eqn:W; [|reflexivity]. apply is_entry_eq in W. subst w.
  exfalso. destruct (y_texts _ _ (d_ready _ _ _ _ _ _ D) id b M) as (j & d & u & Z & IZ & _).
  assert (j = p) by (eapply addr_unique; [apply (d_ready _ _ _ _ _ _ D)|exact Z|exact Q]). subst j.
  rewrite Q in Z. injection Z as <-.
  assert (LE : (length (filter (keep ids) Y1) <= length Y1)%nat).
  { clear. induction Y1 as [|z l IH]; [reflexivity|]. cbn. destruct (keep ids z); cbn; lia. }
  apply (UQ (b, e)); [|exact IZ]. apply in_or_app. right.
  rewrite FR in Q. unfold nthN, p in Q. rewrite Nat2N.id in Q. rewrite app_assoc in Q.
  assert (GT : (length (X ++ filter (keep ids) Y1) < length (X ++ y :: Y1))%nat) by (rewrite !app_length; cbn [length]; lia).
  rewrite nth_error_app2 in Q by lia. destruct (length (X ++ y :: Y1) - length (X ++ filter (keep ids) Y1))%nat as [|n] eqn:ZN; [lia|].
  cbn [nth_error] in Q. apply nth_error_In in Q. apply filter_In in Q. apply Q.
Qed.

(** ** All of them *)
Definition loc (l : list (N * cframe)) (id : bytes) (p : nat) : Prop := exists x, nth_error l p = Some x /\ name_of x = id.
Definition ordered (l : list (N * cframe)) (ids : list bytes) : Prop :=
  forall i j a b p q, nth_error ids i = Some a -> nth_error ids j = Some b -> (i < j)%nat -> loc l a p -> loc l b q -> (q < p)%nat.
Definition fine (orig X : list (N * cframe)) (rest : list bytes) : Prop :=
  ordered orig rest /\ forall id p, In id rest -> loc orig id p -> (p < length X)%nat.

Lemma ordered_tail l a r : ordered l (a :: r) -> ordered l r.
Proof. intros H i j x y p q A C L. apply (H (S i) (S j) x y p q A C). lia. Qed.

Lemma loc_dec l id : (forall x, In x l -> name_of x <> id) \/ exists p, loc l id p.
Proof.
  induction l as [|x l IH]; [left; intros x []|]. destruct (bytes_eqb_spec (name_of x) id) as [E|NE].
  - right. exists 0%nat, x. auto.
  - destruct IH as [H|(p & y & N1 & E)].
    + left. intros y [<-|M]; auto.
    + right. exists (S p), y. auto.
Qed.

Lemma delete_all_l w v ks : forall ids orig X Y dn st, Forall2 (names v) ks ids -> NoDup ids -> (forall id, In id ids -> ~ In id dn) ->
  (forall id, In id ids -> at_most_once id orig) -> deleting v orig X Y dn st ->
  (fine orig X ids /\ exists st' X' Y', delete_all w v ks st = Ok st' /\ deleting v orig X' Y' (rev ids ++ dn) st') \/
  (~ fine orig X ids /\ stale v (delete_all w v ks st)).
Proof.
  induction ks as [|k ks IH]; intros ids orig X Y dn st NM ND DJ U D; inversion NM as [|? id ? ids' N1 N2]; subst.
  - left. split.
    + split; [intros [|i] j a b p q A; discriminate A|intros ? ? []].
    + exists st, X, Y. split; [reflexivity|exact D].
  - apply NoDup_cons_iff in ND as (NI & ND). pose proof (DJ id (or_introl eq_refl)) as NDN. pose proof (U id (or_introl eq_refl)) as U1.
    assert (DJ' : forall id', In id' ids' -> ~ In id' (id :: dn)).
    { intros i' M [<-|Q]; [contradiction|]. exact (DJ i' (or_intror M) Q). }
    cbn [delete_all]. assert (FI := proj1 N1). rewrite FI. cbn [bind]. clear FI.
    cbn [rev]. rewrite <- app_assoc. cbn [app].
    destruct (loc_dec orig id) as [AB|(p & x & NX & EX)].
    + destruct (delete_absent v k id (w_ids w (l_ids st) id) orig X Y dn st N1 NDN D AB) as (E & D'). rewrite E. cbn [bind].
      destruct (IH ids' orig X Y (id :: dn) st N2 ND DJ' (fun i M => U i (or_intror M)) D') as [(FN & R)|(FN & R)]; [left|right]; (split; [|exact R]).
      * destruct FN as (F1 & F2). split.
        -- intros i j a b q r A C L (y & NY & EY) LB. destruct i as [|i]; [cbn in A; injection A as <-; destruct (AB y (nth_error_In _ _ NY) EY)|].
           destruct j as [|j]; [lia|]. apply (F1 i j a b q r A C); [lia|exists y; auto|exact LB].
        -- intros i q [<-|M] LC; [|eapply F2; eassumption]. destruct LC as (y & NY & EY). destruct (AB y (nth_error_In _ _ NY) EY).
      * intros (F1 & F2). apply FN. split; [eapply ordered_tail; exact F1|]. intros i q M. apply F2. right. exact M.
    + pose proof (d_split _ _ _ _ _ _ D) as S1.
      assert (ONE : forall q, loc orig id q -> q = p).
      { intros q (y & NY & EY). destruct (nth_error_split _ _ NX) as (l1 & l2 & S2 & L2). pose proof (U1 _ _ _ S2 EX) as UQ.
        destruct (Nat.lt_trichotomy q p) as [LT|[EQ|GT]]; [|exact EQ|]; exfalso; apply (UQ y); try exact EY; rewrite S2 in NY.
        - rewrite nth_error_app1 in NY by lia. apply in_or_app. left. eapply nth_error_In. exact NY.
        - rewrite nth_error_app2 in NY by lia. apply in_or_app. right. destruct (q - length l1)%nat as [|n] eqn:Z; [lia|]. eapply nth_error_In. exact NY. }
      destruct (Nat.lt_ge_cases p (length X)) as [LT|GE].
      * assert (NX' := NX). rewrite S1, nth_error_app1 in NX' by exact LT. destruct (nth_error_split _ _ NX') as (X1 & X2 & S2 & L2).
        assert (D2 := D). rewrite S2 in D2.
        destruct (delete_before v k id (w_ids w (l_ids st) id) orig X1 x X2 Y dn st N1 NDN D2 EX U1) as (st1 & E & D'). rewrite E. cbn [bind].
        destruct (IH ids' orig X1 (x :: X2 ++ Y) (id :: dn) st1 N2 ND DJ' (fun i M => U i (or_intror M)) D') as [(FN & R)|(FN & R)]; [left|right]; (split; [|exact R]).
        -- destruct FN as (F1 & F2). split.
           ++ intros i j a b q r A C L LA LB. destruct j as [|j]; [lia|]. destruct i as [|i].
              ** cbn in A. injection A as <-. rewrite (ONE q LA). rewrite <- L2. eapply F2; [eapply nth_error_In; exact C|exact LB].
              ** apply (F1 i j a b q r A C); [lia|exact LA|exact LB].
           ++ intros i q [<-|M] LC; [rewrite (ONE q LC); exact LT|]. specialize (F2 i q M LC). lia.
        -- intros (F1 & F2). apply FN. split; [eapply ordered_tail; exact F1|]. intros i q M LC. rewrite L2.
           destruct (In_nth_error _ _ M) as (n & NN). apply (F1 0%nat (S n) id i p q eq_refl NN); [lia|exists x; auto|exact LC].
      * right. split; [intros (_ & F2); specialize (F2 id p (or_introl eq_refl) (ex_intro _ x (conj NX EX))); lia|].
        assert (NX' := NX). rewrite S1, nth_error_app2 in NX' by exact GE. pose proof (d_head _ _ _ _ _ _ D) as HD.
        destruct Y as [|y Y]; [destruct (p - length X)%nat; discriminate NX'|].
        destruct (p - length X)%nat as [|n] eqn:Z.
        { cbn in NX'. injection NX' as ->. apply is_done_In in HD. rewrite EX in HD. contradiction. }
        cbn [nth_error] in NX'. destruct (nth_error_split _ _ NX') as (Y1 & Y2 & S2 & L2).
        assert (D2 := D). rewrite S2 in D2.
        pose proof (delete_after v k id (w_ids w (l_ids st) id) orig X y Y1 x Y2 dn st N1 NDN D2 EX U1) as ST.
        destruct ST as [->|[(NV & ->)|(NV & ->)]]; cbn [bind]; [left|right; left|right; right]; auto.
Qed.

Lemma frames_nth st p f : nth_error (frames_of st) p = Some f <-> exists x, nth_error (l_frames st) p = Some x /\ c_frame (snd x) = f.
Proof.
  unfold frames_of. rewrite nth_error_map. destruct (nth_error (l_frames st) p) as [x|]; cbn [option_map].
  - split; [intros E; injection E as <-; eauto|intros (y & E & <-); injection E as <-; reflexivity].
  - split; [discriminate|intros (y & E & _); discriminate E].
Qed.

Lemma ordered_iff st ids : ordered (l_frames st) ids <-> last_first (frames_of st) ids.
Proof.
  split.
  - intros H i j a b p q f g A C L NP EP NQ EQ. apply frames_nth in NP as (x & NP & <-). apply frames_nth in NQ as (y & NQ & <-).
    apply (H i j a b p q A C L); [exists x|exists y]; auto.
  - intros H i j a b p q A C L (x & NP & EP) (y & NQ & EQ).
    apply (H i j a b p q (c_frame (snd x)) (c_frame (snd y)) A C L); auto; apply frames_nth; eauto.
Qed.

Lemma once_l st id : (length (with_id id (frames_of st)) <= 1)%nat -> at_most_once id (l_frames st).
Proof.
  intros H l1 x l2 E EX y M EY. unfold frames_of in H. rewrite E, map_app in H. cbn [map] in H. unfold with_id in H.
  rewrite filter_app, app_length in H. cbn [filter] in H.
  change (f_id (c_frame (snd x))) with (name_of x) in H. rewrite EX, beqb_refl in H. cbn [length] in H.
  assert (K : forall l, In y l -> (1 <= length (filter (fun f => bytes_eqb (f_id f) id) (map (fun x => c_frame (snd x)) l)))%nat).
  { intros l J. assert (J' : In (c_frame (snd y)) (filter (fun f => bytes_eqb (f_id f) id) (map (fun x => c_frame (snd x)) l))).
    { apply filter_In. split; [exact (in_map (fun x => c_frame (snd x)) l y J)|]. change (f_id (c_frame (snd y))) with (name_of y). rewrite EY. apply beqb_refl. }
    revert J'. match goal with |- In _ ?m -> _ => generalize m end. intros [|z zs] J'; [destruct J'|cbn; lia]. }
  apply in_app_or in M as [M|M]; apply K in M; lia.
Qed.

Lemma deleting_start v st : ready v st -> reg v none st -> deleting v (l_frames st) (l_frames st) [] [] st.
Proof.
  intros R G. constructor; auto.
  - apply G.
  - rewrite app_nil_r. reflexivity.
  - cbn [filter]. rewrite app_nil_r. reflexivity.
  - intros id i _. pose proof (ids_full v st G) as PI. split.
    + intros M. eapply Permutation_in in M; [|exact PI]. apply index_In0 in M as (a & c & X & E). exists (a, c). auto.
    + intros ((a, c) & X & E). eapply Permutation_in; [apply Permutation_sym; exact PI|]. apply index_In0. exists a, c. auto.
Qed.

Lemma deleting_end v orig X Y ids st st0 : orig = l_frames st0 -> deleting v orig X Y (rev ids ++ []) st ->
  frames_of st = all_gone ids (frames_of st0).
Proof.
  intros -> D. rewrite app_nil_r in D. unfold frames_of at 1. rewrite (d_frames _ _ _ _ _ _ D).
  unfold frames_of, all_gone. rewrite (d_split _ _ _ _ _ _ D), !map_app, filter_app.
  assert (KK : forall l, filter (fun f => negb (existsb (bytes_eqb (f_id f)) ids)) (map (fun x : N * cframe => c_frame (snd x)) l) =
                         map (fun x => c_frame (snd x)) (filter (keep (rev ids)) l)).
  { induction l as [|x l IH]; [reflexivity|]. cbn [map filter]. change (f_id (c_frame (snd x))) with (name_of x).
    replace (keep (rev ids) x) with (negb (existsb (bytes_eqb (name_of x)) ids)).
    - destruct (negb _); cbn [map]; rewrite IH; reflexivity.
    - unfold keep. f_equal. destruct (is_done (rev ids) x) eqn:Q.
      + apply is_done_In in Q. apply in_rev in Q. apply existsb_exists. exists (name_of x). split; [exact Q|apply beqb_refl].
      + apply not_done in Q. destruct (existsb _ ids) eqn:W; [|reflexivity]. exfalso. apply Q. apply -> in_rev.
        apply existsb_exists in W as (z & MZ & EZ). apply beqb_true in EZ. congruence. }
  rewrite !KK. f_equal. rewrite keep_all; [reflexivity|]. apply D.
Qed.

Lemma delete_all_read w v ks ids st : ready v st -> reg v none st -> Forall2 (names v) ks ids -> NoDup ids ->
  (forall id, In id ids -> (length (with_id id (frames_of st)) <= 1)%nat) ->
  (last_first (frames_of st) ids /\ exists st', delete_all w v ks st = Ok st' /\ ready v st' /\ frames_of st' = all_gone ids (frames_of st)) \/
  (~ last_first (frames_of st) ids /\ stale v (delete_all w v ks st)).
Proof.
  intros R G NM ND U.
  destruct (delete_all_l w v ks ids (l_frames st) (l_frames st) [] [] st NM ND (fun _ _ F => F) (fun id M => once_l st id (U id M))
              (deleting_start v st R G)) as [((F1 & F2) & st' & X' & Y' & E & D)|(FN & S1)].
  - left. split; [apply ordered_iff; exact F1|]. exists st'. split; [exact E|]. split; [apply D|]. eapply deleting_end; [reflexivity|exact D].
  - right. split; [|exact S1]. intros H. apply FN. split; [apply ordered_iff; exact H|].
    intros id p M (x & NX & _). apply nth_error_Some. congruence.
Qed.
