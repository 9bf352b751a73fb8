(** * Lemmas: frames moved within a tag. *)
From Coq Require Import Sorting.Permutation.
From Verif Require Import Base M_Charset M_Payload M_Frame M_TextId M_Lookup M_Move S_Lookup S_Move L_Lookup.
#[local] Open Scope N_scope.

(** ** Every frame is of the type its name calls for *)
Definition apt (v : version) (f : frame) : Prop :=
  (f_id f = count_id v -> exists b, f_body f = BCount b) /\
  (f_id f = comm_id v -> exists b, f_body f = BComm b) /\
  (f_id f = popm_id v -> exists b, f_body f = BPopm b) /\
  (forall t, f_body f = BText t -> text_id (f_id f) = true).

Lemma apt_text v id fl t : text_id id = true -> apt v (mkFrame id fl (BText t)).
Proof.
  intros T. destruct (special_not_text v) as (T1 & T2 & T3). unfold apt. cbn [f_id f_body].
  repeat split; intros; try congruence.
Qed.

Lemma apt_parsed v f : parsed_frame v f -> apt v f.
Proof.
  unfold parsed_frame. intros H. unfold apt. split; [|split; [|split]].
  - intros E. rewrite E in H. destruct (f_body f); eauto; destruct v; vm_compute in H; discriminate H.
  - intros E. rewrite E in H. destruct (f_body f); eauto; destruct v; vm_compute in H; discriminate H.
  - intros E. rewrite E in H. destruct (f_body f); eauto; destruct v; vm_compute in H; discriminate H.
  - intros t E. rewrite E in H. cbn [kind_of_body] in H. exact (kind_text v _ H).
Qed.

Lemma apt_arg v a : wf_arg a -> typed_arg v a -> apt v (c_frame (frame_of v a)).
Proof.
  destruct (special_distinct v) as (D1 & D2 & D3). destruct (special_not_text v) as (T1 & T2 & T3).
  intros W T. destruct a as [c|id fl t|fl b|fl c|fl q]; cbn [frame_of].
  - cbn [typed_arg] in T. destruct T as (A1 & A2 & A3 & A4).
    assert (E : id_of (clone v c) = id_of c) by apply id_clone.
    assert (F : f_body (c_frame (clone v c)) = f_body (c_frame c)) by apply body_clone.
    unfold apt. fold (id_of (clone v c)). rewrite E, F.
    split; [|split; [|split]]; [intros; congruence|intros; congruence|intros; congruence|].
    intros t H. exfalso. exact (A4 t H).
  - apply apt_text. exact W.
  - unfold apt. cbn [c_frame new_frame f_id f_body].
    split; [|split; [|split]]; intros; try congruence; eauto.
  - unfold apt. cbn [c_frame new_frame f_id f_body].
    split; [|split; [|split]]; intros; try congruence; eauto.
  - unfold apt. cbn [c_frame new_frame f_id f_body].
    split; [|split; [|split]]; intros; try congruence; eauto.
Qed.

Definition all_apt (v : version) (st : ltag) : Prop := forall x, In x (l_frames st) -> apt v (c_frame (snd x)).

Lemma insert_at_In {A} i (x y : A) l : In y (insert_at i x l) -> y = x \/ In y l.
Proof.
  unfold insert_at. intros H. apply in_app_or in H. destruct H as [H|[H|H]]; [right|left|right].
  - eapply firstn_In; exact H.
  - symmetry; exact H.
  - eapply skipn_In; exact H.
Qed.
Lemma replace_at_In {A} i (x y : A) l : In y (replace_at i x l) -> y = x \/ In y l.
Proof.
  unfold replace_at. intros H. apply in_app_or in H. destruct H as [H|[H|H]]; [right|left|right].
  - eapply firstn_In; exact H.
  - symmetry; exact H.
  - eapply skipn_In; exact H.
Qed.
Lemma remove_at_In {A} i (y : A) l : In y (remove_at i l) -> In y l.
Proof.
  unfold remove_at. intros H. apply in_app_or in H. destruct H as [H|H]; [eapply firstn_In|eapply skipn_In]; exact H.
Qed.

Lemma remove_lookups_frames v id i st st' : remove_lookups v id i st = Ok st' -> l_frames st' = l_frames st.
Proof.
  unfold remove_lookups. intros H.
  assert (G : forall o : outcome ltag, (forall s, o = Ok s -> l_frames s = l_frames st) ->
    bind o (fun st1 => match remove_first (is_entry id i) (l_ids st1) with
      | Some l => Ok (mkL (l_frames st1) (l_next st1) l (l_texts st1) (l_comms st1) (l_counts st1) (l_popms st1))
      | None => UB BadIterator end) = Ok st' -> l_frames st' = l_frames st).
  { intros o Ho X. destruct o as [s|e|u|]; try discriminate X. cbn [bind] in X.
    destruct (remove_first (is_entry id i) (l_ids s)) as [l|]; [|discriminate X].
    apply Ok_inj in X. subst st'. cbn [l_frames]. apply Ho. reflexivity. }
  eapply G; [|exact H]. clear H G. intros s.
  destruct (bytes_eqb id (comm_id v)).
  { destruct (remove_first (has_idx i) (l_comms st)); intros X; [apply Ok_inj in X; subst s; reflexivity|discriminate X]. }
  destruct (bytes_eqb id (count_id v)).
  { destruct (remove_first (has_idx i) (l_counts st)); intros X; [apply Ok_inj in X; subst s; reflexivity|discriminate X]. }
  destruct (bytes_eqb id (popm_id v)).
  { destruct (remove_first (has_idx i) (l_popms st)); intros X; [apply Ok_inj in X; subst s; reflexivity|discriminate X]. }
  destruct (text_id id).
  { destruct (nthN (l_frames st) i) as [[a c]|]; [|intros X; discriminate X].
    destruct (remove_first (is_entry id a) (l_texts st)); intros X.
    - apply Ok_inj in X; subst s; reflexivity.
    - destruct v; discriminate X. }
  intros X. apply Ok_inj in X. subst s. reflexivity.
Qed.

Lemma erase_lookups_frames v n : forall i st st', erase_lookups v n i st = Ok st' -> l_frames st' = l_frames st.
Proof.
  induction n as [|m IH]; intros i st st' H; cbn [erase_lookups] in H.
  - apply Ok_inj in H. subst. reflexivity.
  - destruct (nthN (l_frames st) i) as [[a c]|]; [|discriminate H].
    destruct (remove_lookups v (id_of c) i st) as [s|e|u|] eqn:E; try discriminate H. cbn [bind] in H.
    rewrite (IH _ _ _ H). eapply remove_lookups_frames. exact E.
Qed.

Lemma apt_edit v ic e st st' : reg v none st -> all_apt v st -> wf_edit e -> typed_edit v e ->
  apply_edit v ic e st = Ok st' -> all_apt v st'.
Proof.
  intros R A W T H. 
  assert (PUT : forall o i c, apt v (c_frame c) -> all_apt v (put_at o i c st)).
  { intros o i c Hc x I. unfold put_at, add_lookups, bump, set_frames in I. cbn [l_frames] in I.
    apply insert_at_In in I. destruct I as [->|I]; [exact Hc|apply A; exact I]. }
  destruct e as [a|i a|i|i n|c k|i a|fl c|fl t|c id s src bom rsp]; cbn [apply_edit] in H; cbn [wf_edit] in W; cbn [typed_edit] in T.
  - apply Ok_inj in H. subst st'. apply PUT. apply apt_arg; assumption.
  - unfold insert in H. destruct (i <=? size_l st); [|discriminate H]. apply Ok_inj in H. subst st'.
    apply PUT. apply apt_arg; assumption.
  - unfold erase in H. destruct (nthN (l_frames st) i) as [[a c]|]; [|discriminate H].
    destruct (remove_lookups v (id_of c) i st) as [s|ee|u|] eqn:E; try discriminate H. cbn [bind] in H.
    apply Ok_inj in H. subst st'. intros x I. cbn [set_frames l_frames] in I.
    apply remove_at_In in I. rewrite (remove_lookups_frames _ _ _ _ _ E) in I. apply A; exact I.
  - unfold erase_range in H. destruct (erase_lookups v n i st) as [s|ee|u|] eqn:E; try discriminate H. cbn [bind] in H.
    apply Ok_inj in H. subst st'. intros x I. cbn [set_frames l_frames] in I.
    rewrite (erase_lookups_frames _ _ _ _ _ E) in I. apply A.
    apply in_app_or in I. destruct I as [I|I]; [eapply firstn_In|eapply skipn_In]; exact I.
  - unfold delete_frame in H. destruct (frame_id_of v k) as [id|ee|u|]; try discriminate H. cbn [bind] in H.
    destruct (pick c (values (l_ids st) id)) as [i|]; [|apply Ok_inj in H; subst st'; exact A].
    destruct (remove_lookups v id i st) as [s|ee|u|] eqn:E; try discriminate H. cbn [bind] in H.
    destruct (i <? size_l s); [|discriminate H]. apply Ok_inj in H. subst st'. intros x I. cbn [set_frames l_frames] in I.
    apply remove_at_In in I. rewrite (remove_lookups_frames _ _ _ _ _ E) in I. apply A; exact I.
  - unfold assign in H. destruct (nthN (l_frames st) i) as [[b c]|]; [|discriminate H].
    destruct (remove_lookups v (id_of c) i st) as [s|ee|u|] eqn:E; try discriminate H. cbn [bind] in H.
    apply Ok_inj in H. subst st'. intros x I. unfold add_lookups, bump, set_frames in I. cbn [l_frames] in I.
    apply replace_at_In in I. destruct I as [->|I]; [apply apt_arg; assumption|].
    rewrite (remove_lookups_frames _ _ _ _ _ E) in I. apply A; exact I.
  - contradiction.
  - unfold add_txxx, add_made in H. destruct v; try discriminate H. apply Ok_inj in H. subst st'. apply PUT.
    unfold apt. cbn [c_frame new_frame f_id f_body].
    split; [|split; [|split]]; intros X; try (intros; discriminate); vm_compute in X; discriminate X.
  - unfold set_text_frame in H. destruct (pick c (values (l_texts st) id)) as [a|] eqn:P.
    + destruct (at_addr a st); [|discriminate H].
      destruct (text_set v ic s src bom rsp) as [t|ee|u|]; try discriminate H. cbn [bind] in H.
      apply Ok_inj in H. subst st'. apply pick_In in P. apply values_In in P.
      destruct (r_texts v none st R id a P) as (TT & i & d & t' & X & _ & Z & _).
      intros x I. unfold edit_at, set_frames in I. cbn [l_frames] in I. apply in_map_iff in I.
      destruct I as (y & <- & I). destruct (fst y =? a) eqn:E; [|apply A; exact I].
      cbn [snd edit_body c_frame]. apply apt_text.
      apply N.eqb_eq in E. apply In_nthN in I. destruct I as (j & J). destruct y as [b d']. cbn [fst] in E. subst b.
      pose proof (addr_unique _ _ _ _ _ _ (r_nodup v none st R) X J) as U.
      assert (d = d') by (rewrite <- U, X in J; injection J as J; exact J). subst d'.
      cbn [snd]. unfold id_of in Z. congruence.
    + destruct (text_new v ic s src bom rsp) as [t|ee|u|]; try discriminate H. cbn [bind] in H.
      apply Ok_inj in H. subst st'. apply PUT. cbn [c_frame new_frame]. apply apt_text. exact W.
Qed.

Lemma typed_history_apt v ic st : typed_history v ic st -> all_apt v st.
Proof.
  induction 1 as [fs P|st e st' H IH W T E K].
  - unfold of_frames. assert (A : all_apt v empty_ltag) by (intros x []). revert A. generalize empty_ltag.
    induction fs as [|f r IH]; intros st A; [exact A|]. cbn [fold_left]. apply Forall_cons_iff in P. destruct P as (P1 & P2).
    apply (IH P2). intros x I. unfold parsed, put_at, add_lookups, bump, set_frames in I. cbn [l_frames] in I.
    apply insert_at_In in I. destruct I as [->|I]; [cbn [snd c_frame new_frame]; apply apt_parsed; exact P1|apply A; exact I].
  - destruct (typed_history_reg _ _ _ H) as (R & _). eapply apt_edit; eassumption.
Qed.

(** ** The tables, up to order: each frame with the place it is registered under *)
Definition gid (g : N * cframe * N) : bytes := id_of (snd (fst g)).
Definition is_text (b : body) : bool := match b with BText _ => true | _ => false end.
Definition gtext (g : N * cframe * N) : bool := is_text (f_body (c_frame (snd (fst g)))).
Definition gent (g : N * cframe * N) : bytes * N := (gid g, snd g).
Definition gtxt (g : N * cframe * N) : bytes * N := (gid g, fst (fst g)).
Definition named (id : bytes) (g : N * cframe * N) : bool := bytes_eqb (gid g) id.
Record tabs (v : version) (G : list (N * cframe * N)) (st : ltag) : Prop := mkTabs {
  t_ids : Permutation (l_ids st) (map gent G);
  t_texts : Permutation (l_texts st) (map gtxt (filter gtext G));
  t_comms : Permutation (map snd (l_comms st)) (map snd (filter (named (comm_id v)) G));
  t_counts : Permutation (map snd (l_counts st)) (map snd (filter (named (count_id v)) G));
  t_popms : Permutation (map snd (l_popms st)) (map snd (filter (named (popm_id v)) G))
}.

Lemma tabs_perm v G G' st : Permutation G G' -> tabs v G st -> tabs v G' st.
Proof.
  intros P [A C D E F]. constructor.
  - rewrite A. apply Permutation_map. exact P.
  - rewrite C. apply Permutation_map. apply perm_filter. exact P.
  - rewrite D. apply Permutation_map. apply perm_filter. exact P.
  - rewrite E. apply Permutation_map. apply perm_filter. exact P.
  - rewrite F. apply Permutation_map. apply perm_filter. exact P.
Qed.

Lemma ids_removed l x m (id : bytes) (n : N) : Permutation l ((id, n) :: m) -> remove_first (is_entry id n) l = x ->
  exists l', x = Some l' /\ Permutation l' m.
Proof.
  intros P E. destruct (remove_first_some (is_entry id n) l (id, n)) as (l' & F).
  - eapply Permutation_in; [apply Permutation_sym; exact P|left; reflexivity].
  - unfold is_entry. cbn [fst snd]. rewrite beqb_refl, N.eqb_refl. reflexivity.
  - exists l'. split; [congruence|]. destruct (remove_first_perm _ _ _ F) as (y & Y & Q). apply is_entry_eq in Y. subst y.
    apply (Permutation_cons_inv (a := (id, n))). rewrite <- Q. exact P.
Qed.
Lemma idx_removed l x m (n : N) : Permutation (map snd l) (n :: m) -> remove_first (has_idx n) l = x ->
  exists l' : list (N * N), x = Some l' /\ Permutation (map snd l') m.
Proof.
  intros P E.
  assert (I : In n (map snd l)) by (eapply Permutation_in; [apply Permutation_sym; exact P|left; reflexivity]).
  apply in_map_iff in I. destruct I as (z & Z & I).
  destruct (remove_first_some (has_idx n) l z I) as (l' & F).
  - unfold has_idx. rewrite Z. apply N.eqb_refl.
  - exists l'. split; [congruence|]. destruct (remove_first_perm _ _ _ F) as (y & Y & Q).
    unfold has_idx in Y. apply N.eqb_eq in Y.
    apply (Permutation_cons_inv (a := n)). rewrite <- P. rewrite Q. cbn [map]. rewrite Y. reflexivity.
Qed.

(** What a frame needs so that it can be taken out of the tables. *)
Definition plain (c : cframe) : Prop := text_id (id_of c) = true -> is_text (f_body (c_frame c)) = true.

Lemma named_self (a : N) c (n : N) : named (id_of c) (a, c, n) = true.
Proof. unfold named, gid. apply beqb_refl. Qed.
Lemma named_other id (a : N) c (n : N) : id_of c <> id -> named id (a, c, n) = false.
Proof. intros H. unfold named, gid. cbn [fst snd]. destruct (bytes_eqb (id_of c) id) eqn:E; [apply beqb_true in E; contradiction|reflexivity]. Qed.

Lemma filter_cons_false {A} (p : A -> bool) x l : p x = false -> filter p (x :: l) = filter p l.
Proof. intros H. cbn. rewrite H. reflexivity. Qed.
Lemma filter_cons_true {A} (p : A -> bool) x l : p x = true -> filter p (x :: l) = x :: filter p l.
Proof. intros H. cbn. rewrite H. reflexivity. Qed.

Lemma apt_not_text v c : apt v (c_frame c) -> text_id (id_of c) = false -> is_text (f_body (c_frame c)) = false.
Proof.
  intros (_ & _ & _ & A) T. destruct (f_body (c_frame c)) as [x|x|x|x|x|x|x|x|x|x] eqn:E; try reflexivity.
  specialize (A x eq_refl). unfold id_of in T. congruence.
Qed.

Lemma take_out v G st a c i : tabs v ((a, c, i) :: G) st -> nthN (l_frames st) i = Some (a, c) -> apt v (c_frame c) -> plain c ->
  exists st', remove_lookups v (id_of c) i st = Ok st' /\ tabs v G st' /\ l_frames st' = l_frames st.
Proof.
  intros [TI TT TC TN TP] E A PL.
  destruct (special_not_text v) as (T1 & T2 & T3). destruct (special_distinct v) as (S1 & S2 & S3).
  cbn [map] in TI. change (gent (a, c, i)) with (id_of c, i) in TI.
  destruct (ids_removed _ _ _ _ _ TI eq_refl) as (li & FI & PI).
  assert (NT : text_id (id_of c) = false -> Permutation (l_texts st) (map gtxt (filter gtext G))).
  { intros Q. rewrite TT. rewrite filter_cons_false; [reflexivity|]. unfold gtext. cbn [fst snd]. exact (apt_not_text v c A Q). }
  unfold remove_lookups.
  destruct (bytes_eqb (id_of c) (comm_id v)) eqn:K1.
  { apply beqb_true in K1. rewrite filter_cons_true in TC by (rewrite <- K1; apply named_self).
    rewrite filter_cons_false in TN by (apply named_other; congruence).
    rewrite filter_cons_false in TP by (apply named_other; congruence).
    cbn [map snd] in TC. destruct (idx_removed _ _ _ _ TC eq_refl) as (lc & FC & PC).
    rewrite FC. cbn [bind l_ids l_frames l_next l_texts l_comms l_counts l_popms]. rewrite FI.
    eexists. split; [reflexivity|]. split; [|reflexivity].
    constructor; cbn [l_ids l_texts l_comms l_counts l_popms]; try assumption. apply NT. congruence. }
  apply beqb_false in K1. rewrite filter_cons_false in TC by (apply named_other; exact K1).
  destruct (bytes_eqb (id_of c) (count_id v)) eqn:K2.
  { apply beqb_true in K2. rewrite filter_cons_true in TN by (rewrite <- K2; apply named_self).
    rewrite filter_cons_false in TP by (apply named_other; congruence).
    cbn [map snd] in TN. destruct (idx_removed _ _ _ _ TN eq_refl) as (lc & FC & PC).
    rewrite FC. cbn [bind l_ids l_frames l_next l_texts l_comms l_counts l_popms]. rewrite FI.
    eexists. split; [reflexivity|]. split; [|reflexivity].
    constructor; cbn [l_ids l_texts l_comms l_counts l_popms]; try assumption. apply NT. congruence. }
  apply beqb_false in K2. rewrite filter_cons_false in TN by (apply named_other; exact K2).
  destruct (bytes_eqb (id_of c) (popm_id v)) eqn:K3.
  { apply beqb_true in K3. rewrite filter_cons_true in TP by (rewrite <- K3; apply named_self).
    cbn [map snd] in TP. destruct (idx_removed _ _ _ _ TP eq_refl) as (lc & FC & PC).
    rewrite FC. cbn [bind l_ids l_frames l_next l_texts l_comms l_counts l_popms]. rewrite FI.
    eexists. split; [reflexivity|]. split; [|reflexivity].
    constructor; cbn [l_ids l_texts l_comms l_counts l_popms]; try assumption. apply NT. congruence. }
  apply beqb_false in K3. rewrite filter_cons_false in TP by (apply named_other; exact K3).
  destruct (text_id (id_of c)) eqn:K4.
  { rewrite E. rewrite filter_cons_true in TT by (unfold gtext; cbn [fst snd]; apply PL; exact K4).
    cbn [map] in TT. change (gtxt (a, c, i)) with (id_of c, a) in TT.
    destruct (ids_removed _ _ _ _ _ TT eq_refl) as (lt & FT & PT). rewrite FT.
    cbn [bind l_ids l_frames l_next l_texts l_comms l_counts l_popms]. rewrite FI.
    eexists. split; [reflexivity|]. split; [|reflexivity].
    constructor; cbn [l_ids l_texts l_comms l_counts l_popms]; assumption. }
  cbn [bind]. rewrite FI. eexists. split; [reflexivity|]. split; [|reflexivity].
  constructor; cbn [l_ids l_texts l_comms l_counts l_popms]; try assumption. apply NT. reflexivity.
Qed.

Lemma beqb_neq x y : bytes_eqb x y = false <-> x <> y.
Proof.
  split; [apply beqb_false|]. intros H. destruct (bytes_eqb x y) eqn:E; [apply beqb_true in E; contradiction|reflexivity].
Qed.
Lemma NoDup_map_inj {A C} (f : A -> C) l : NoDup (map f l) -> forall x y, In x l -> In y l -> f x = f y -> x = y.
Proof.
  induction l as [|z r IH]; intros H x y X Y E; [destruct X|]. cbn [map] in H. apply NoDup_cons_iff in H. destruct H as (H1 & H2).
  destruct X as [X|X], Y as [Y|Y]; [congruence| | |apply IH; assumption]; exfalso; apply H1.
  - subst z. rewrite E. apply in_map. exact Y.
  - subst z. rewrite <- E. apply in_map. exact X.
Qed.
(** A frame that is odd cannot be taken out. *)
Lemma take_out_odd v G st a c i : tabs v G st -> NoDup (map (fun g => fst (fst g)) G) -> In (a, c, i) G ->
  nthN (l_frames st) i = Some (a, c) -> odd_text (c_frame c) ->
  remove_lookups v (id_of c) i st = match v with V22 => Throw LogicError | _ => UB BadIterator end.
Proof.
  intros [TI TT TC TN TP] ND I E (T & O).
  destruct (special_not_text v) as (T1 & T2 & T3). fold (id_of c) in T.
  unfold remove_lookups.
  rewrite (proj2 (beqb_neq (id_of c) (comm_id v))) by congruence.
  rewrite (proj2 (beqb_neq (id_of c) (count_id v))) by congruence.
  rewrite (proj2 (beqb_neq (id_of c) (popm_id v))) by congruence.
  rewrite T, E. rewrite (remove_first_none (is_entry (id_of c) a)); [destruct v; reflexivity|].
  intros x Hx. destruct (is_entry (id_of c) a x) eqn:X; [|reflexivity]. exfalso. apply is_entry_eq in X. subst x.
  apply (Permutation_in _ TT) in Hx. apply in_map_iff in Hx. destruct Hx as (g & Hg & Ig).
  apply filter_In in Ig. destruct Ig as (Ig & Tg).
  assert (g = (a, c, i)).
  { eapply (NoDup_map_inj _ G ND); [exact Ig|exact I|]. unfold gtxt in Hg. injection Hg as _ Hg. exact Hg. }
  subst g. unfold gtext in Tg. cbn [fst snd] in Tg.
  destruct (f_body (c_frame c)) as [x|x|x|x|x|x|x|x|x|x] eqn:F; try discriminate Tg. exact (O x eq_refl).
Qed.

Lemma plain_or_odd c : plain c \/ odd_text (c_frame c).
Proof.
  destruct (text_id (id_of c)) eqn:T; [|left; intros H; congruence].
  destruct (f_body (c_frame c)) as [x|x|x|x|x|x|x|x|x|x] eqn:E;
    try (right; split; [exact T|intros t H; rewrite E in H; discriminate H]).
  left. intros _. rewrite E. reflexivity.
Qed.
Lemma plain_not_odd c : plain c -> ~ odd_text (c_frame c).
Proof.
  intros P (T & O). specialize (P T). destruct (f_body (c_frame c)) as [x|x|x|x|x|x|x|x|x|x] eqn:E; try discriminate P.
  exact (O x eq_refl).
Qed.

Definition bad {A} (v : version) : outcome A := match v with V22 => Throw LogicError | _ => UB BadIterator end.
Lemma bad_bind {A C} v (k : A -> outcome C) : bind (bad v) k = bad v.
Proof. destruct v; reflexivity. Qed.

(** Frames with the places they are at. *)
Fixpoint gi (i : N) (l : list (N * cframe)) : list (N * cframe * N) :=
  match l with [] => [] | x :: r => (x, i) :: gi (i + 1) r end.
Lemma gi_app l : forall i r, gi i (l ++ r) = gi i l ++ gi (i + N.of_nat (length l)) r.
Proof.
  induction l as [|x l IH]; intros i r; cbn [gi app length]; [rewrite N.add_0_r; reflexivity|].
  rewrite IH. do 3 f_equal. lia.
Qed.
Lemma gi_fst l : forall i, map fst (gi i l) = l.
Proof. induction l as [|x l IH]; intros i; cbn [gi map fst]; [|rewrite IH]; reflexivity. Qed.
Lemma gi_ids l : forall i, map gent (gi i l) = index_from i l.
Proof. induction l as [|[a c] l IH]; intros i; cbn [gi map index_from]; [|rewrite IH]; reflexivity. Qed.
Lemma gi_In l : forall i a c n, In (a, c, n) (gi i l) <-> i <= n /\ nthN l (n - i) = Some (a, c).
Proof.
  induction l as [|x l IH]; intros i a c n; cbn [gi].
  - split; [intros []|]. intros (_ & H). unfold nthN in H. destruct (N.to_nat (n - i)); discriminate H.
  - cbn [In]. rewrite IH. unfold nthN. split.
    + intros [H|(H1 & H2)].
      * injection H as -> ->. split; [lia|]. rewrite N.sub_diag. reflexivity.
      * split; [lia|]. replace (N.to_nat (n - i)) with (S (N.to_nat (n - (i + 1)))) by lia. exact H2.
    + intros (H1 & H2). destruct (N.eq_dec i n) as [->|Q].
      * rewrite N.sub_diag in H2. cbn in H2. injection H2 as ->. left. reflexivity.
      * right. split; [lia|]. replace (N.to_nat (n - i)) with (S (N.to_nat (n - (i + 1)))) in H2 by lia. exact H2.
Qed.

Lemma add_in v G st a c i o : tabs v G st -> apt v (c_frame c) -> plain c -> over_moved v c = Ok o ->
  tabs v ((a, c, i) :: G) (add_lookups o a (id_of c) i st).
Proof.
  intros [TI TT TC TN TP] A PL E.
  destruct (special_not_text v) as (T1 & T2 & T3). destruct (special_distinct v) as (S1 & S2 & S3).
  assert (NT : text_id (id_of c) = false -> Permutation (l_texts st) (map gtxt (filter gtext ((a, c, i) :: G)))).
  { intros Q. rewrite filter_cons_false; [exact TT|]. unfold gtext. cbn [fst snd]. exact (apt_not_text v c A Q). }
  assert (II : Permutation (l_ids st ++ [(id_of c, i)]) (map gent ((a, c, i) :: G))).
  { cbn [map]. change (gent (a, c, i)) with (id_of c, i). rewrite <- TI. apply Permutation_sym, Permutation_cons_append. }
  unfold over_moved in E.
  destruct (bytes_eqb (id_of c) (count_id v)) eqn:K1.
  { apply beqb_true in K1. destruct (f_body (c_frame c)) as [x|x|x|x|x|x|x|x|x|x]; try discriminate E. apply Ok_inj in E. subst o.
    constructor; cbn [add_lookups l_ids l_texts l_comms l_counts l_popms].
    - exact II.
    - apply NT. congruence.
    - rewrite filter_cons_false by (apply named_other; congruence). exact TC.
    - rewrite filter_cons_true by (rewrite <- K1; apply named_self). rewrite map_app. cbn [map snd].
      rewrite <- TN. apply Permutation_sym, Permutation_cons_append.
    - rewrite filter_cons_false by (apply named_other; congruence). exact TP. }
  apply beqb_false in K1.
  destruct (bytes_eqb (id_of c) (comm_id v)) eqn:K2.
  { apply beqb_true in K2. destruct (f_body (c_frame c)) as [x|x|x|x|x|x|x|x|x|x]; try discriminate E. apply Ok_inj in E. subst o.
    constructor; cbn [add_lookups l_ids l_texts l_comms l_counts l_popms].
    - exact II.
    - apply NT. congruence.
    - rewrite filter_cons_true by (rewrite <- K2; apply named_self). rewrite map_app. cbn [map snd].
      rewrite <- TC. apply Permutation_sym, Permutation_cons_append.
    - rewrite filter_cons_false by (apply named_other; congruence). exact TN.
    - rewrite filter_cons_false by (apply named_other; congruence). exact TP. }
  apply beqb_false in K2.
  destruct (bytes_eqb (id_of c) (popm_id v)) eqn:K3.
  { apply beqb_true in K3. destruct (f_body (c_frame c)) as [x|x|x|x|x|x|x|x|x|x]; try discriminate E. apply Ok_inj in E. subst o.
    constructor; cbn [add_lookups l_ids l_texts l_comms l_counts l_popms].
    - exact II.
    - apply NT. congruence.
    - rewrite filter_cons_false by (apply named_other; congruence). exact TC.
    - rewrite filter_cons_false by (apply named_other; congruence). exact TN.
    - rewrite filter_cons_true by (rewrite <- K3; apply named_self). rewrite map_app. cbn [map snd].
      rewrite <- TP. apply Permutation_sym, Permutation_cons_append. }
  apply beqb_false in K3.
  assert (NC : Permutation (map snd (l_comms st)) (map snd (filter (named (comm_id v)) ((a, c, i) :: G))))
    by (rewrite filter_cons_false by (apply named_other; congruence); exact TC).
  assert (NN : Permutation (map snd (l_counts st)) (map snd (filter (named (count_id v)) ((a, c, i) :: G))))
    by (rewrite filter_cons_false by (apply named_other; congruence); exact TN).
  assert (NP : Permutation (map snd (l_popms st)) (map snd (filter (named (popm_id v)) ((a, c, i) :: G))))
    by (rewrite filter_cons_false by (apply named_other; congruence); exact TP).
  destruct (text_id (id_of c)) eqn:K4.
  { specialize (PL eq_refl) || specialize (PL K4). destruct (f_body (c_frame c)) as [x|x|x|x|x|x|x|x|x|x] eqn:F; try discriminate E. apply Ok_inj in E. subst o.
    constructor; cbn [add_lookups l_ids l_texts l_comms l_counts l_popms]; try assumption.
    rewrite filter_cons_true by (unfold gtext; cbn [fst snd]; rewrite F; reflexivity).
    cbn [map]. change (gtxt (a, c, i)) with (id_of c, a).
    rewrite <- TT. apply Permutation_sym, Permutation_cons_append. }
  apply Ok_inj in E. subst o.
  constructor; cbn [add_lookups l_ids l_texts l_comms l_counts l_popms]; try assumption. apply NT. reflexivity.
Qed.

Lemma over_moved_ok v c : apt v (c_frame c) -> plain c -> exists o, over_moved v c = Ok o.
Proof.
  intros (A1 & A2 & A3 & A4) P. unfold over_moved.
  destruct (bytes_eqb (id_of c) (count_id v)) eqn:K1.
  { apply beqb_true in K1. destruct (A1 K1) as (b & ->). eauto. }
  destruct (bytes_eqb (id_of c) (comm_id v)) eqn:K2.
  { apply beqb_true in K2. destruct (A2 K2) as (b & ->). eauto. }
  destruct (bytes_eqb (id_of c) (popm_id v)) eqn:K3.
  { apply beqb_true in K3. destruct (A3 K3) as (b & ->). eauto. }
  destruct (text_id (id_of c)) eqn:K4; [|eauto].
  specialize (P K4). destruct (f_body (c_frame c)) as [x|x|x|x|x|x|x|x|x|x]; try discriminate P. eauto.
Qed.

Lemma nthN_mid {A} (l r : list A) x i : N.of_nat (length l) = i -> nthN (l ++ x :: r) i = Some x.
Proof. intros <-. apply nthN_app_at. Qed.
Lemma replace_mid {A} (l r : list A) x y i : N.of_nat (length l) = i -> replace_at i x (l ++ y :: r) = l ++ x :: r.
Proof.
  intros <-. unfold replace_at. rewrite Nat2N.id. rewrite firstn_app, firstn_all, Nat.sub_diag. cbn [firstn].
  rewrite app_nil_r. f_equal. f_equal. change (S (length l)) with (1 + length l)%nat.
  rewrite skipn_app. rewrite skipn_all2 by lia. replace (1 + length l - length l)%nat with 1%nat by lia. reflexivity.
Qed.

(** ** One move *)
Lemma move_step v st K X M y rest d j : l_frames st = K ++ X :: M ++ y :: rest ->
  N.of_nat (length K) = d -> N.of_nat (length (K ++ X :: M)) = j -> forall G,
  tabs v ((X, d) :: G) st -> NoDup (map (fun g => fst (fst g)) ((X, d) :: G)) -> apt v (c_frame (snd X)) ->
  (odd_text (c_frame (snd X)) /\ move_assign v d j st = bad v) \/
  (plain (snd X) /\ exists st', move_assign v d j st = Ok st' /\
     l_frames st' = K ++ y :: M ++ X :: rest /\ tabs v ((X, j) :: G) st').
Proof.
  intros E D J G T ND A. destruct X as [a c]. cbn [snd] in *.
  assert (N1 : nthN (l_frames st) d = Some (a, c)) by (rewrite E; apply nthN_mid; exact D).
  assert (N2 : nthN (l_frames st) j = Some y).
  { rewrite E. replace (K ++ (a, c) :: M ++ y :: rest) with ((K ++ (a, c) :: M) ++ y :: rest)
      by (rewrite <- app_assoc; reflexivity). apply nthN_mid; exact J. }
  unfold move_assign. rewrite N1, N2. cbn [fst snd].
  destruct (plain_or_odd c) as [P|O].
  - right. split; [exact P|]. destruct (take_out v G st a c d T N1 A P) as (st1 & R & T1 & F1).
    rewrite R. cbn [bind]. destruct (over_moved_ok v c A P) as (o & Ho). rewrite Ho. cbn [bind].
    eexists. split; [reflexivity|]. split.
    + cbn [add_lookups set_frames l_frames]. rewrite F1, E. rewrite (replace_mid K _ y (a, c) d D).
      replace (K ++ y :: M ++ y :: rest) with ((K ++ y :: M) ++ y :: rest) by (rewrite <- app_assoc; reflexivity).
      rewrite (replace_mid (K ++ y :: M) rest (a, c) y j).
      * rewrite <- app_assoc. reflexivity.
      * rewrite <- J. rewrite !app_length. reflexivity.
    + apply add_in; try assumption. destruct T1 as [X1 X2 X3 X4 X5]. constructor; assumption.
  - left. split; [exact O|]. rewrite (take_out_odd v _ st a c d T ND (or_introl eq_refl) N1 O). destruct v; reflexivity.
Qed.

(** ** The loop *)
Definition out (p : frame -> bool) (x : N * cframe) : bool := p (c_frame (snd x)).
Definition gout (p : frame -> bool) (g : N * cframe * N) : bool := out p (fst g).

Lemma addr_ghost (G : list (N * cframe * N)) : map (fun g => fst (fst g)) G = map fst (map fst G).
Proof. rewrite map_map. reflexivity. Qed.

Lemma shift_kept_spec v p rest : forall K R d j st,
  l_frames st = map fst K ++ R ++ rest -> N.of_nat (length K) = d -> d + N.of_nat (length R) = j -> R <> [] ->
  tabs v (K ++ gi d (R ++ rest)) st -> NoDup (map fst (l_frames st)) -> (forall x, In x (l_frames st) -> apt v (c_frame (snd x))) ->
  ((exists x, In x (R ++ filter (out p) rest) /\ odd_text (c_frame (snd x))) /\ shift_kept v p (length rest) d j st = bad v) \/
  exists R' st', let K' := K ++ filter (fun g => negb (gout p g)) (gi j rest) in
    shift_kept v p (length rest) d j st = Ok (N.of_nat (length K'), st') /\
    l_frames st' = map fst K' ++ R' /\ Permutation R' (R ++ filter (out p) rest) /\
    tabs v (K' ++ gi (N.of_nat (length K')) R') st'.
Proof.
  induction rest as [|y rest IH]; intros K R d j st E D J NE T ND A.
  - right. exists R, st. cbn [length shift_kept gi filter]. rewrite !app_nil_r in *. rewrite D.
    split; [reflexivity|]. split; [exact E|]. split; [apply Permutation_refl|exact T].
  - cbn [length shift_kept].
    assert (NJ : nthN (l_frames st) j = Some y).
    { rewrite E. rewrite app_assoc. apply nthN_mid. rewrite app_length, map_length. lia. }
    rewrite NJ. destruct y as [b c]. cbn [gi filter]. unfold gout, out. cbn [fst snd].
    fold (out p). change (fun g : N * cframe * N => negb (p (c_frame (snd (fst g))))) with (fun g => negb (gout p g)).
    change (fun x : N * cframe => p (c_frame (snd x))) with (out p).
    destruct (p (c_frame c)) eqn:P; cbn [negb].
    + specialize (IH K (R ++ [(b, c)]) d (j + 1) st).
      rewrite <- !app_assoc in IH. cbn [app] in IH.
      apply IH; try assumption.
      * rewrite app_length. cbn [length]. lia.
      * destruct R; discriminate.
    + destruct R as [|X M]; [congruence|]. clear NE.
      assert (JJ : N.of_nat (length (map fst K ++ X :: M)) = j) by (rewrite app_length, map_length; cbn [length] in *; lia).
      assert (E' : l_frames st = map fst K ++ X :: M ++ (b, c) :: rest) by exact E.
      assert (GP : Permutation (K ++ gi d ((X :: M) ++ (b, c) :: rest)) ((X, d) :: K ++ gi (d + 1) (M ++ (b, c) :: rest))).
      { cbn [app gi]. apply Permutation_sym, Permutation_middle. }
      pose proof (tabs_perm _ _ _ _ GP T) as T'.
      assert (ND' : NoDup (map (fun g : N * cframe * N => fst (fst g)) ((X, d) :: K ++ gi (d + 1) (M ++ (b, c) :: rest)))).
      { eapply Permutation_NoDup; [apply Permutation_map; exact GP|]. rewrite addr_ghost, map_app, gi_fst. rewrite E in ND. exact ND. }
      assert (AX : apt v (c_frame (snd X))) by (apply A; rewrite E; apply in_or_app; right; left; reflexivity).
      destruct (move_step v st (map fst K) X M (b, c) rest d j E' ltac:(rewrite map_length; exact D) JJ _ T' ND' AX)
        as [(O & B)|(PX & st1 & MV & F1 & T1)].
      * left. split; [exists X; split; [left; reflexivity|exact O]|]. rewrite B. apply bad_bind.
      * rewrite MV. cbn [bind].
        assert (PF : Permutation (map fst K ++ (b, c) :: M ++ X :: rest) (l_frames st)).
        { rewrite E'. apply Permutation_app_head.
          transitivity (X :: (b, c) :: M ++ rest).
          - transitivity ((b, c) :: X :: M ++ rest); [|apply perm_swap]. apply perm_skip. apply Permutation_sym, Permutation_middle.
          - apply perm_skip. apply Permutation_middle. }
        specialize (IH (K ++ [((b, c), j)]) (M ++ [X]) (d + 1) (j + 1) st1).
        rewrite map_app in IH. cbn [map fst] in IH. rewrite <- !app_assoc in IH. cbn [app] in IH.
        destruct IH as [((x & Hx & Ox) & B)|(R' & st' & H1 & H2 & H3 & H4)].
        -- exact F1.
        -- rewrite app_length. cbn [length]. lia.
        -- rewrite app_length. cbn [length] in *. lia.
        -- destruct M; discriminate.
        -- eapply tabs_perm; [|exact T1].
           rewrite !gi_app. cbn [gi]. replace (d + 1 + N.of_nat (length M)) with j by (cbn [length] in J; lia).
           set (gm := gi (d + 1) M). set (gr := gi (j + 1) rest).
           transitivity (K ++ (X, j) :: gm ++ ((b, c), j) :: gr); [apply Permutation_middle|].
           apply Permutation_app_head.
           transitivity ((X, j) :: ((b, c), j) :: gm ++ gr); [apply perm_skip, Permutation_sym, Permutation_middle|].
           transitivity (((b, c), j) :: (X, j) :: gm ++ gr); [apply perm_swap|]. apply perm_skip, Permutation_middle.
        -- rewrite F1. eapply Permutation_NoDup; [apply Permutation_map, Permutation_sym; exact PF|exact ND].
        -- intros x Hx. apply A. rewrite F1 in Hx. eapply Permutation_in; [exact PF|exact Hx].
        -- left. split; [|exact B]. exists x. split; [|exact Ox].
           eapply Permutation_in; [|exact Hx]. apply Permutation_sym, Permutation_middle.
        -- right. exists R', st'. cbn zeta in H1, H2, H4 |- *.
           split; [exact H1|]. split; [exact H2|]. split; [|exact H4].
           rewrite H3. apply Permutation_sym, Permutation_middle.
Qed.

(** ** The frames at the end are erased *)
Lemma erase_tail v R : forall pre K i st, l_frames st = pre ++ R -> N.of_nat (length pre) = i ->
  tabs v (K ++ gi i R) st -> NoDup (map (fun g => fst (fst g)) (K ++ gi i R)) -> (forall x, In x R -> apt v (c_frame (snd x))) ->
  ((exists x, In x R /\ odd_text (c_frame (snd x))) /\ erase_lookups v (length R) i st = bad v) \/
  ((forall x, In x R -> plain (snd x)) /\ exists st', erase_lookups v (length R) i st = Ok st' /\ l_frames st' = l_frames st /\ tabs v K st').
Proof.
  induction R as [|[a c] R IH]; intros pre K i st E L T ND A.
  - right. split; [intros x []|]. exists st. cbn [length erase_lookups]. split; [reflexivity|]. split; [reflexivity|].
    cbn [gi] in T. rewrite app_nil_r in T. exact T.
  - cbn [length erase_lookups]. assert (NI : nthN (l_frames st) i = Some (a, c)) by (rewrite E; apply nthN_mid; exact L).
    rewrite NI.
    assert (GP : Permutation (K ++ gi i ((a, c) :: R)) ((a, c, i) :: K ++ gi (i + 1) R)).
    { cbn [gi]. apply Permutation_sym, Permutation_middle. }
    pose proof (tabs_perm _ _ _ _ GP T) as T'.
    pose proof (Permutation_NoDup (Permutation_map _ GP) ND) as ND'.
    destruct (plain_or_odd c) as [P|O].
    + destruct (take_out v _ st a c i T' NI (A _ (or_introl eq_refl)) P) as (st1 & R1 & T1 & F1). rewrite R1. cbn [bind].
      destruct (IH (pre ++ [(a, c)]) K (i + 1) st1) as [((x & Hx & Ox) & B)|(PL & st' & H1 & H2 & H3)].
      * rewrite F1, E, <- app_assoc. reflexivity.
      * rewrite app_length. cbn [length]. lia.
      * exact T1.
      * cbn [map] in ND'. apply NoDup_cons_iff in ND'. apply ND'.
      * intros x Hx. apply A. right. exact Hx.
      * left. split; [exists x; split; [right; exact Hx|exact Ox]|exact B].
      * right. split; [intros x [<-|Hx]; [exact P|apply PL; exact Hx]|]. exists st'. split; [exact H1|]. split; [congruence|exact H3].
    + left. split; [exists (a, c); split; [left; reflexivity|exact O]|].
      rewrite (take_out_odd v _ st a c i T' ND' (or_introl eq_refl) NI O). destruct v; reflexivity.
Qed.

(** ** A tag in order has its tables in order *)
Lemma nodup_gi l i : NoDup (map fst l) -> NoDup (gi i l).
Proof.
  intros H. apply (NoDup_map_inv (fun g => fst (fst g))). rewrite addr_ghost, gi_fst. exact H.
Qed.
Lemma NoDup_map_filter {A C} (f : A -> C) (p : A -> bool) l : NoDup (map f l) -> NoDup (map f (filter p l)).
Proof.
  induction l as [|x r IH]; intros H; [constructor|].
  cbn [map] in H. apply NoDup_cons_iff in H. destruct H as (H1 & H2). cbn [filter].
  destruct (p x); [|apply IH; exact H2]. cbn [map]. constructor; [|apply IH; exact H2].
  intros I. apply H1. apply in_map_iff in I. destruct I as (z & Z & I). apply filter_In in I.
  rewrite <- Z. apply in_map. apply I.
Qed.

Lemma list_tab v st id l : NoDup (map fst (l_frames st)) -> reg1 v none (l_frames st) id l -> full1 none (l_frames st) id l ->
  Permutation (map snd l) (map snd (filter (named id) (gi 0 (l_frames st)))).
Proof.
  intros ND (N1 & S1) F. apply NoDup_Permutation.
  - exact N1.
  - apply (NoDup_map_inv (fun n => nthN (l_frames st) n)). rewrite map_map.
    rewrite (map_ext_in _ (fun g => Some (fst g))).
    + rewrite <- (map_map fst (@Some (N * cframe))). apply FinFun.Injective_map_NoDup; [intros x y H; congruence|].
      apply (NoDup_map_inv fst). rewrite map_map. apply NoDup_map_filter.
      rewrite addr_ghost, gi_fst. exact ND.
    + intros [[a c] n] I. apply filter_In in I. destruct I as (I & _). apply gi_In in I. destruct I as (_ & I).
      rewrite N.sub_0_r in I. cbn [fst snd]. exact I.
  - intros n. rewrite !in_map_iff. split.
    + intros ([a m] & <- & I). destruct (S1 a m I) as (c & H1 & _ & H2). exists (a, c, m). split; [reflexivity|].
      apply filter_In. split; [apply gi_In; split; [lia|rewrite N.sub_0_r; exact H1]|]. unfold named, gid. cbn [fst snd].
      rewrite H2. apply beqb_refl.
    + intros ([[a c] m] & <- & I). apply filter_In in I. destruct I as (I & P). apply gi_In in I. destruct I as (_ & I).
      rewrite N.sub_0_r in I. apply beqb_true in P. exists (a, m). split; [reflexivity|]. apply (F m a c I eq_refl). exact P.
Qed.

Lemma tabs_start v st : reg v none st -> full v none st -> all_apt v st -> tabs v (gi 0 (l_frames st)) st.
Proof.
  intros R F A. constructor.
  - rewrite gi_ids. eapply ids_full. exact R.
  - apply NoDup_Permutation.
    + apply R.
    + apply (NoDup_map_inv snd). rewrite map_map. cbn [gtxt snd].
      change (NoDup (map (fun g => fst (fst g)) (filter gtext (gi 0 (l_frames st))))).
      apply NoDup_map_filter. rewrite addr_ghost, gi_fst. apply R.
    + intros [id a]. rewrite in_map_iff. split.
      * intros I. destruct (r_texts v none st R id a I) as (_ & i & c & t & H1 & _ & H2 & H3).
        exists (a, c, i). split; [unfold gtxt, gid; cbn [fst snd]; rewrite H2; reflexivity|].
        apply filter_In. split; [apply gi_In; split; [lia|rewrite N.sub_0_r; exact H1]|].
        unfold gtext. cbn [fst snd]. rewrite H3. reflexivity.
      * intros ([[b c] i] & H1 & H2). apply filter_In in H2. destruct H2 as (I & P). apply gi_In in I. destruct I as (_ & I).
        rewrite N.sub_0_r in I. unfold gtxt, gid in H1. cbn [fst snd] in H1. injection H1 as <- <-.
        unfold gtext in P. cbn [fst snd] in P. destruct (f_body (c_frame c)) as [x|x|x|x|x|x|x|x|x|x] eqn:B; try discriminate P.
        exact (u_texts v none st F i b c x I eq_refl B).
  - apply (list_tab v); [apply R|apply R|apply F].
  - apply (list_tab v); [apply R|apply R|apply F].
  - apply (list_tab v); [apply R|apply R|apply F].
Qed.

(** ** The idiom *)
Lemma find_frame_split p fs : find_frame p fs = length fs /\ (forall x, In x fs -> out p x = false) \/
  exists pre x post, fs = pre ++ x :: post /\ length pre = find_frame p fs /\ (forall y, In y pre -> out p y = false) /\ out p x = true.
Proof.
  induction fs as [|[a c] r IH]; [left; split; [reflexivity|intros x []]|]. cbn [find_frame].
  destruct (p (c_frame c)) eqn:P.
  - right. exists [], (a, c), r. split; [reflexivity|]. split; [reflexivity|]. split; [intros y []|exact P].
  - destruct IH as [(H1 & H2)|(pre & x & post & H1 & H2 & H3 & H4)].
    + left. split; [cbn [length]; congruence|]. intros x [<-|I]; [exact P|apply H2; exact I].
    + right. exists ((a, c) :: pre), x, post. split; [rewrite H1; reflexivity|]. split; [cbn [length]; congruence|].
      split; [|exact H4]. intros y [<-|I]; [exact P|apply H3; exact I].
Qed.

Lemma filter_all {A} (p : A -> bool) l : (forall x, In x l -> p x = true) -> filter p l = l.
Proof.
  induction l as [|x r IH]; intros H; [reflexivity|]. cbn [filter]. rewrite (H x (or_introl eq_refl)).
  f_equal. apply IH. intros y I. apply H. right. exact I.
Qed.
Lemma filter_none {A} (p : A -> bool) l : (forall x, In x l -> p x = false) -> filter p l = [].
Proof.
  induction l as [|x r IH]; intros H; [reflexivity|]. cbn [filter]. rewrite (H x (or_introl eq_refl)).
  apply IH. intros y I. apply H. right. exact I.
Qed.
Lemma gi_filter p l : forall i, map fst (filter (fun g => negb (gout p g)) (gi i l)) = filter (fun x => negb (out p x)) l.
Proof.
  induction l as [|x r IH]; intros i; [reflexivity|]. cbn [gi filter]. unfold gout at 1. cbn [fst].
  destruct (out p x); cbn [negb]; [apply IH|]. cbn [map fst]. rewrite IH. reflexivity.
Qed.
Lemma kept_frames p (l : list (N * cframe)) :
  map (fun x => c_frame (snd x)) (filter (fun x => negb (out p x)) l) = kept p (map (fun x => c_frame (snd x)) l).
Proof.
  unfold kept. induction l as [|x r IH]; [reflexivity|]. cbn [map filter]. unfold out at 1.
  destruct (p (c_frame (snd x))); cbn [negb]; [apply IH|]. cbn [map]. rewrite IH. reflexivity.
Qed.

Definition after (p : frame -> bool) (st : ltag) : list (N * cframe * N) :=
  filter (fun g => negb (gout p g)) (gi 0 (l_frames st)).

Lemma erase_remove_spec v p st : reg v none st -> full v none st -> all_apt v st ->
  ((exists x, In x (l_frames st) /\ out p x = true /\ odd_text (c_frame (snd x))) /\ erase_remove v p st = bad v) \/
  ((forall x, In x (l_frames st) -> out p x = true -> plain (snd x)) /\
   exists st', erase_remove v p st = Ok st' /\
     l_frames st' = filter (fun x => negb (out p x)) (l_frames st) /\ tabs v (after p st) st').
Proof.
  intros R F A. pose proof (tabs_start v st R F A) as T. pose proof (r_nodup v none st R) as ND.
  unfold erase_remove, remove_if, after.
  destruct (find_frame_split p (l_frames st)) as [(H1 & H2)|(pre & x & post & H1 & H2 & H3 & H4)].
  - rewrite H1, Nat.eqb_refl. cbn [bind]. right. split; [intros x I O; rewrite (H2 x I) in O; discriminate O|].
    exists st. unfold size_l. rewrite Nat2N.id, Nat.sub_diag. unfold erase_range. cbn [erase_lookups bind].
    rewrite Nat2N.id, Nat.add_0_r, firstn_all, skipn_all, app_nil_r. split; [f_equal; destruct st; reflexivity|].
    split.
    + symmetry. apply filter_all. intros y I. rewrite (H2 y I). reflexivity.
    + rewrite filter_all; [exact T|]. intros [y n] I. unfold gout. cbn [fst].
      apply (in_map fst) in I. rewrite gi_fst in I. rewrite (H2 y I). reflexivity.
  - assert (LL : length (l_frames st) = (length pre + S (length post))%nat) by (rewrite H1, app_length; reflexivity).
    assert (NEQ : Nat.eqb (find_frame p (l_frames st)) (length (l_frames st)) = false) by (apply Nat.eqb_neq; lia).
    rewrite NEQ. rewrite <- H2. replace (length (l_frames st) - S (length pre))%nat with (length post) by lia.
    set (d := N.of_nat (length pre)).
    assert (LG : length (gi 0 pre) = length pre) by (rewrite <- (map_length fst (gi 0 pre)), gi_fst; reflexivity).
    assert (Hpre : filter (fun g => negb (gout p g)) (gi 0 pre) = gi 0 pre).
    { apply filter_all. intros [y n] I. unfold gout. cbn [fst].
      apply (in_map fst) in I. rewrite gi_fst in I. rewrite (H3 y I). reflexivity. }
    assert (AF : filter (fun g => negb (gout p g)) (gi 0 (l_frames st)) =
                 gi 0 pre ++ filter (fun g => negb (gout p g)) (gi (d + 1) post)).
    { rewrite H1, gi_app. cbn [gi]. rewrite filter_app, Hpre. cbn [filter]. unfold gout at 1. cbn [fst]. rewrite H4. cbn [negb].
      rewrite N.add_0_l. reflexivity. }
    assert (OUT : forall y, In y ([x] ++ filter (out p) post) -> In y (l_frames st) /\ out p y = true).
    { intros y [<-|I]; rewrite H1; [split; [apply in_or_app; right; left; reflexivity|exact H4]|].
      apply filter_In in I. split; [apply in_or_app; right; right; apply I|apply I]. }
    destruct (shift_kept_spec v p post (gi 0 pre) [x] d (d + 1) st) as [((y & Hy & Oy) & B)|(R' & st1 & E1 & E2 & E3 & E4)].
    + rewrite gi_fst. exact H1.
    + rewrite LG. reflexivity.
    + reflexivity.
    + discriminate.
    + rewrite H1 in T. rewrite gi_app in T. rewrite N.add_0_l in T. exact T.
    + exact ND.
    + exact A.
    + left. split; [exists y; destruct (OUT y Hy); auto|]. rewrite B. apply bad_bind.
    + cbn zeta in E1, E2, E4. rewrite E1. cbn [bind]. set (K' := gi 0 pre ++ filter (fun g => negb (gout p g)) (gi (d + 1) post)) in *.
      rewrite Nat2N.id. replace (length (l_frames st1) - length K')%nat with (length R')
        by (rewrite E2, app_length, map_length; lia).
      assert (IN : forall y, In y (l_frames st1) -> In y (l_frames st)).
      { intros y I. rewrite E2 in I. apply in_app_or in I. destruct I as [I|I].
        - assert (KF : map fst K' = filter (fun x => negb (out p x)) (l_frames st))
            by (rewrite <- AF; apply gi_filter).
          rewrite KF in I. apply filter_In in I. apply I.
        - apply (Permutation_in _ E3) in I. apply OUT. exact I. }
      assert (KF : map fst K' = filter (fun x => negb (out p x)) (l_frames st)) by (rewrite <- AF; apply gi_filter).
      assert (PF : Permutation (l_frames st1) (l_frames st)).
      { rewrite E2, KF, E3. rewrite H1. rewrite filter_app. cbn [filter]. rewrite H4. cbn [negb].
        rewrite (filter_all (fun x => negb (out p x)) pre) by (intros y I; rewrite (H3 y I); reflexivity).
        rewrite <- app_assoc. apply Permutation_app_head. cbn [app].
        transitivity (x :: filter (fun x => negb (out p x)) post ++ filter (out p) post); [apply Permutation_sym, Permutation_middle|].
        apply perm_skip. clear. induction post as [|z r IH]; [constructor|]. cbn [filter].
        destruct (out p z); cbn [negb app].
        - transitivity (z :: filter (fun x => negb (out p x)) r ++ filter (out p) r); [apply Permutation_sym, Permutation_middle|].
          apply perm_skip. exact IH.
        - apply perm_skip. exact IH. }
      unfold erase_range.
      destruct (erase_tail v R' (map fst K') K' (N.of_nat (length K')) st1 E2 ltac:(rewrite map_length; reflexivity) E4) as [((y & Hy & Oy) & B)|(PL & st2 & G1 & G2 & G3)].
      * rewrite addr_ghost, map_app, gi_fst, <- E2.
        eapply Permutation_NoDup; [apply Permutation_map, Permutation_sym; exact PF|exact ND].
      * intros y I. apply A, IN. rewrite E2. apply in_or_app. right. exact I.
      * left. split; [|rewrite B; apply bad_bind]. exists y. apply (Permutation_in _ E3) in Hy. destruct (OUT y Hy). auto.
      * right. split.
        -- intros y I O. apply PL. eapply Permutation_in; [apply Permutation_sym; exact E3|].
           rewrite H1 in I. apply in_app_or in I. destruct I as [I|[<-|I]].
           ++ rewrite (H3 y I) in O. discriminate O.
           ++ left. reflexivity.
           ++ right. apply filter_In. auto.
        -- rewrite G1. cbn [bind]. eexists. split; [reflexivity|]. cbn [set_frames l_frames]. split.
           ++ rewrite G2, E2. rewrite Nat2N.id.
              rewrite <- (map_length fst K') at 1. rewrite firstn_app, firstn_all, Nat.sub_diag. cbn [firstn]. rewrite app_nil_r.
              rewrite skipn_all2; [|rewrite app_length, map_length; lia]. rewrite app_nil_r. exact KF.
           ++ rewrite AF. destruct G3 as [X1 X2 X3 X4 X5]. constructor; assumption.
Qed.
