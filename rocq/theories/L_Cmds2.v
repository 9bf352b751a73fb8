(** * Proofs: setting several texts, and deleting frames. *)
From Coq Require Import Sorting.Permutation.
From Verif Require Import Base M_Ints M_Stream M_Id3v1 M_Payload M_Frame M_Tag22 M_Tag23 M_Tag24 M_Charset M_TextId M_Lookup M_Read M_Process M_Cmds
  S_Charset S_Lookup S_Cmds L_Charset L_Lookup L_Lookup2 L_Lookup3 L_Cmds.

(** ** Setting *)
Lemma same_ids {X} (l1 l2 : list frame) (Q : X) : Forall2 (fun f f' => f_id f' = f_id f) l1 l2 -> map f_id l2 = map f_id l1.
Proof. induction 1; cbn; congruence. Qed.

Lemma F2_impl {A C} (P Q : A -> C -> Prop) l m : (forall a c, P a c -> Q a c) -> Forall2 P l m -> Forall2 Q l m.
Proof. intros H. induction 1; constructor; auto. Qed.

Lemma F2_length {A C} (P : A -> C -> Prop) l m : Forall2 P l m -> length l = length m.
Proof. induction 1; cbn; congruence. Qed.

Lemma existsb_id id (l : list frame) : existsb (fun f => bytes_eqb (f_id f) id) l = existsb (fun x => bytes_eqb x id) (map f_id l).
Proof. induction l as [|f l IH]; [reflexivity|]. cbn. rewrite IH. reflexivity. Qed.

Lemma texts_put_cons ic v src id s r fs fs1 fs2 : ~ In id (map fst r) ->
  text_put ic v src id s fs fs1 -> texts_put ic v src r fs1 fs2 -> texts_put ic v src ((id, s) :: r) fs fs2.
Proof.
  intros NI P (B1 & B2 & E2 & F2 & I2 & N2 & R2). apply put_keeps_id in P as (A1 & A2 & E1 & F1 & I1 & N1 & f & M & ID & RD).
  subst fs1. apply Forall2_app_inv_l in F2 as (B11 & B12 & F21 & F22 & ->).
  exists B11, (B12 ++ B2). split; [rewrite app_assoc; exact E2|]. split; [|split; [|split]].
  - clear - F1 F21. revert B11 F21. induction F1 as [|f g fs A1 (X1 & X2 & X3) F1 IH]; intros B11 F21; inversion F21 as [|? h ? B (Y1 & Y2 & Y3) F]; subst; constructor.
    + split; [congruence|]. split; [congruence|]. destruct Y3 as [->|(x & Y3 & Y4)].
      * destruct X3 as [->|[X3 X4]]; [now left|]. right. exists s. rewrite X3. split; [now left|exact X4].
      * right. exists x. rewrite X1 in Y3. split; [now right|exact Y4].
    + apply IH. exact F.
  - rewrite map_app, I2. cbn [map fst filter].
    assert (K12 : map f_id B12 = map f_id A2) by (apply (same_ids _ _ tt); eapply F2_impl; [|exact F22]; cbn beta; tauto).
    assert (KA : map f_id A1 = map f_id fs) by (apply (same_ids _ _ tt); eapply F2_impl; [|exact F1]; cbn beta; tauto).
    rewrite K12, I1.
    assert (FE : filter (fun x => negb (existsb (fun f0 => bytes_eqb (f_id f0) x) (A1 ++ A2))) (map fst r) =
                 filter (fun x => negb (existsb (fun f0 => bytes_eqb (f_id f0) x) fs)) (map fst r)).
    { apply filter_ext_in. intros x MX. rewrite existsb_app. rewrite (existsb_id x A1), KA, <- existsb_id.
      rewrite (existsb_id x A2), I1. destruct (existsb (fun f0 => bytes_eqb (f_id f0) id) fs); cbn [existsb];
        [rewrite orb_false_r; reflexivity|].
      destruct (bytes_eqb_spec id x) as [->|]; [contradiction|]. rewrite !orb_false_r. reflexivity. }
    rewrite FE. destruct (existsb _ fs); reflexivity.
  - apply Forall_app. split.
    + clear - F22 N1. revert B12 F22. induction N1 as [|g A (X0 & X1 & X2) N1 IH]; intros B12 F22; inversion F22 as [|? h ? C (Y1 & Y2 & Y3) F]; subst; constructor; [|now apply IH].
      split; [congruence|]. rewrite Y1. destruct Y3 as [->|(x & Y3 & Y4)]; [exists s; split; [now left|exact X2]|exists x; split; [now right|exact Y4]].
    + eapply Forall_impl; [|exact N2]. cbn beta. intros g (X0 & x & X1 & X2). split; [exact X0|]. exists x. split; [now right|exact X2].
  - intros i x [Q|Q]; [|apply R2; exact Q]. injection Q as <- <-.
    apply in_app_or in M. exists f. split; [|auto]. subst fs2. apply in_or_app. left. apply in_or_app.
    assert (G : forall A C, Forall2 (fun f f' => f_id f' = f_id f /\ f_flags f' = f_flags f /\ (f' = f \/ exists s, In (f_id f, s) r /\ reads ic v src f' s)) A C ->
                In f A -> In f C).
    { induction 1 as [|g h A C (Y1 & Y2 & Y3) F IH]; intros J; [destruct J|]. destruct J as [->|J]; [|right; auto].
      left. destruct Y3 as [->|(x & Y3 & _)]; [reflexivity|]. elim NI. rewrite <- ID. change (f_id f) with (fst (f_id f, x)). now apply in_map. }
    destruct M as [M|M]; [left|right]; eapply G; eassumption.
Qed.

Lemma texts_put_nil ic v src fs : texts_put ic v src [] fs fs.
Proof.
  exists fs, []. rewrite app_nil_r. split; [reflexivity|]. split; [|split; [reflexivity|split; [constructor|intros ? ? []]]].
  induction fs; constructor; auto.
Qed.

Lemma set_all_put w v src xs ids : Forall2 (names v) (map fst xs) ids -> NoDup ids ->
  Forall (fun x => storable (w_ic w) v src (snd x)) xs ->
  forall st, ready v st -> exists st', set_all w v src xs st = Ok st' /\ ready v st' /\
    texts_put (w_ic w) v src (combine ids (map snd xs)) (frames_of st) (frames_of st').
Proof.
  revert ids. induction xs as [|(k, s) r IH]; intros ids N1 ND G st R.
  - exists st. split; [reflexivity|]. split; [exact R|]. inversion N1; subst. apply texts_put_nil.
  - cbn [map fst] in N1. inversion N1 as [|? id ? ids' (FI & KT) N2]; subst.
    apply NoDup_cons_iff in ND as (NI & ND). apply Forall_cons_iff in G as (G1 & G2). cbn [snd] in G1.
    cbn [set_all]. unfold tag_set_text. rewrite FI. cbn [bind].
    destruct (set_put v (w_ic w) st (w_texts w (l_texts st) id) id s src R KT G1) as (st1 & E & R1 & P). rewrite E. cbn [bind].
    destruct (IH ids' N2 ND G2 st1 R1) as (st2 & E2 & R2 & P2). exists st2. split; [exact E2|]. split; [exact R2|].
    cbn [map snd combine]. eapply texts_put_cons; [|exact P|exact P2].
    replace (map fst (combine ids' (map snd r))) with ids'; [exact NI|].
    clear - N2. assert (L : length ids' = length (map snd r)).
    { apply F2_length in N2. rewrite !map_length in *. auto. }
    clear N2. revert L. generalize (map snd r). induction ids' as [|x l IH]; intros [|y m] L; try discriminate L; [reflexivity|]. cbn. f_equal. apply IH. cbn in L. lia.
Qed.

(** ** Deleting *)

Lemma text_not_special v id : kind_of v id = KText ->
  bytes_eqb id (comm_id v) = false /\ bytes_eqb id (count_id v) = false /\ bytes_eqb id (popm_id v) = false.
Proof.
  intros K. apply kind_text in K. destruct (special_not_text v) as (A & C & D).
  repeat split; match goal with |- bytes_eqb ?x ?y = false => destruct (bytes_eqb_spec x y); [congruence|reflexivity] end.
Qed.

Lemma remove_text v id i st : kind_of v id = KText ->
  remove_lookups v id i st =
  match nthN (l_frames st) i with
  | None => UB OutOfBounds
  | Some (a, _) =>
      match remove_first (is_entry id a) (l_texts st) with
      | Some l => match remove_first (is_entry id i) (l_ids st) with
                  | Some l' => Ok (mkL (l_frames st) (l_next st) l' l (l_comms st) (l_counts st) (l_popms st))
                  | None => UB BadIterator
                  end
      | None => match v with V22 => Throw LogicError | _ => UB BadIterator end
      end
  end.
Proof.
  intros K. destruct (text_not_special v id K) as (A & C & D). unfold remove_lookups. rewrite A, C, D, (kind_text v id K).
  destruct (nthN (l_frames st) i) as [(a, c)|]; [|reflexivity].
  destruct (remove_first (is_entry id a) (l_texts st)); [reflexivity|]. destruct v; reflexivity.
Qed.

Lemma remove_at_split {A} (l1 : list A) x l2 : remove_at (N.of_nat (length l1)) (l1 ++ x :: l2) = l1 ++ l2.
Proof.
  unfold remove_at. rewrite Nat2N.id, firstn_app, Nat.sub_diag, firstn_all, firstn_O, app_nil_r. f_equal.
  change (S (length l1)) with (1 + length l1)%nat. rewrite Nat.add_comm.
  replace (l1 ++ x :: l2) with ((l1 ++ [x]) ++ l2) by (rewrite <- app_assoc; reflexivity).
  rewrite skipn_app, app_length. cbn [length]. rewrite Nat.sub_diag, skipn_O, skipn_all2; [reflexivity|].
  rewrite app_length. cbn. lia.
Qed.

(** A deletion that goes well. *)
Lemma delete_good v k id c st l1 a d l2 : names v k id -> ready v st -> NoDup (l_texts st) -> l_frames st = l1 ++ (a, d) :: l2 ->
  id_of d = id -> values (l_ids st) id <> [] -> pick c (values (l_ids st) id) = Some (N.of_nat (length l1)) ->
  exists st' ids, delete_frame v c k st = Ok st' /\ ready v st' /\ NoDup (l_texts st') /\ l_frames st' = l1 ++ l2 /\
    l_ids st' = ids /\ remove_first (is_entry id (N.of_nat (length l1))) (l_ids st) = Some ids.
Proof.
  intros (FI & KT) R NT FR ID V P. assert (X : nthN (l_frames st) (N.of_nat (length l1)) = Some (a, d)) by (rewrite FR; apply nthN_app_at).
  assert (B1 : exists t, f_body (c_frame d) = BText t).
  { pose proof (y_parsed _ _ R) as Q. unfold frames_of in Q. rewrite FR, map_app in Q. apply Forall_app in Q as (_ & Q).
    cbn [map snd] in Q. apply Forall_cons_iff in Q as (Q & _). unfold parsed_frame in Q. change (f_id (c_frame d)) with (id_of d) in Q.
    rewrite ID, KT in Q. destruct (f_body (c_frame d)); try discriminate Q. eauto. }
  destruct B1 as (t & BT). pose proof (y_full _ _ R _ _ _ _ X BT) as MT. rewrite ID in MT.
  destruct (remove_first_some (is_entry id a) (l_texts st) (id, a) MT) as (texts & ET).
  { unfold is_entry. cbn [fst snd]. rewrite beqb_refl, N.eqb_refl. reflexivity. }
  assert (MI : In (id, N.of_nat (length l1)) (l_ids st)) by (apply values_In; eapply pick_In; exact P).
  destruct (remove_first_some (is_entry id (N.of_nat (length l1))) (l_ids st) _ MI) as (ids & EI).
  { unfold is_entry. cbn [fst snd]. rewrite beqb_refl, N.eqb_refl. reflexivity. }
  destruct (remove_first_perm _ _ _ ET) as (x & QX & PT). apply is_entry_eq in QX. subst x.
  assert (NT' : NoDup ((id, a) :: texts)) by (eapply Permutation_NoDup; eassumption).
  apply NoDup_cons_iff in NT' as (NA & NT').
  assert (NDF : NoDup (map fst (l1 ++ (a, d) :: l2))) by (rewrite <- FR; apply R).
  rewrite map_app in NDF. cbn [map fst] in NDF. pose proof (NoDup_remove_1 _ _ _ NDF) as ND1. pose proof (NoDup_remove_2 _ _ _ NDF) as ND2.
  rewrite <- map_app in ND1, ND2.
  exists (mkL (l1 ++ l2) (l_next st) ids texts (l_comms st) (l_counts st) (l_popms st)), ids.
  split; [|split; [|split; [exact NT'|split; [reflexivity|split; [reflexivity|exact EI]]]]].
  - unfold delete_frame. rewrite FI. cbn [bind]. rewrite P, (remove_text v id _ st KT), X, ET, EI. cbn [bind].
    unfold size_l. cbn [l_frames]. rewrite FR, app_length. cbn [length].
    destruct (N.ltb_spec (N.of_nat (length l1)) (N.of_nat (length l1 + S (length l2)))) as [_|L]; [|lia].
    rewrite remove_at_split. reflexivity.
  - assert (SUB : forall y, In y (l1 ++ l2) -> In y (l_frames st)).
    { intros y M. rewrite FR. apply in_app_or in M as [M|M]; apply in_or_app; [left; exact M|right; right; exact M]. }
    constructor; cbn [l_frames l_next l_texts].
    + exact ND1.
    + pose proof (y_next _ _ R) as F. rewrite Forall_forall in *. auto.
    + intros k' b M. destruct (y_texts _ _ R k' b) as (i & e & u & Y & IE & W).
      { eapply Permutation_in; [apply Permutation_sym; exact PT|right; exact M]. }
      apply nthN_In in Y. rewrite FR in Y. assert (NE : (b, e) <> (a, d)).
      { intros Q. injection Q as -> ->. rewrite ID in IE. subst k'. contradiction. }
      assert (Y' : In (b, e) (l1 ++ l2)).
      { apply in_app_or in Y as [Y|[Y|Y]]; apply in_or_app; [left; exact Y|congruence|right; exact Y]. }
      apply In_nthN in Y' as (j & Y'). eauto 6.
    + intros i b e u Y W. apply nthN_In in Y. pose proof (SUB _ Y) as Y'. apply In_nthN in Y' as (j & Y').
      pose proof (y_full _ _ R _ _ _ _ Y' W) as M. eapply Permutation_in in M; [|exact PT]. destruct M as [M|M]; [|exact M].
      exfalso. apply ND2. injection M as _ ->. apply in_map_iff. exists (b, e). auto.
    + pose proof (y_parsed _ _ R) as Q. unfold frames_of in *. cbn [l_frames]. rewrite FR in Q. rewrite map_app in *. cbn [map] in Q.
      apply Forall_app in Q as (Q1 & Q2). apply Forall_cons_iff in Q2 as (_ & Q2). apply Forall_app. auto.
Qed.

(** One deletion in a tag as read. *)
Lemma delete_one v k id c st : names v k id -> ready v st -> reg v none st ->
  (with_id id (frames_of st) = [] -> delete_frame v c k st = Ok st) /\
  (with_id id (frames_of st) <> [] -> exists st', delete_frame v c k st = Ok st' /\ ready v st' /\ one_gone id (frames_of st) (frames_of st')).
Proof.
  intros N1 R G. pose proof (ids_full v st G) as PI. split; intros W.
  - destruct N1 as (FI & KT). unfold delete_frame. rewrite FI. cbn [bind].
    destruct (pick c (values (l_ids st) id)) as [i|] eqn:P; [|reflexivity]. exfalso.
    apply pick_In, values_In in P. eapply Permutation_in in P; [|exact PI]. apply index_In0 in P as (a & d & X & ID).
    assert (M : In (c_frame d) (with_id id (frames_of st))) by (apply with_id_In; eauto 6). rewrite W in M. destruct M.
  - assert (V : values (l_ids st) id <> []).
    { destruct (with_id id (frames_of st)) as [|f r] eqn:E; [congruence|].
      assert (M : In f (with_id id (frames_of st))) by (rewrite E; left; reflexivity). apply with_id_In in M as (i & a & d & X & _ & ID).
      assert (Q : In (id, i) (l_ids st)) by (eapply Permutation_in; [apply Permutation_sym; exact PI|]; apply index_In0; eauto).
      apply values_In in Q. intros V. rewrite V in Q. destruct Q. }
    destruct (pick_some c _ V) as (i & P). assert (M := pick_In _ _ _ P). apply values_In in M.
    eapply Permutation_in in M; [|exact PI]. apply index_In0 in M as (a & d & X & ID).
    destruct (nthN_split _ _ _ X) as (l1 & l2 & E & L). subst i.
    destruct (delete_good v k id c st l1 a d l2 N1 R (r_tnd _ _ _ G) E ID V P) as (st' & ids & E' & R' & _ & F' & _).
    exists st'. split; [exact E'|]. split; [exact R'|].
    exists (map (fun x => c_frame (snd x)) l1), (c_frame d), (map (fun x => c_frame (snd x)) l2).
    unfold frames_of. rewrite E, F', !map_app. auto.
Qed.
