(** * Proofs: frame lookups under edits that keep frames in place. *)
From Coq Require Import Sorting.Permutation.
From Verif Require Import Base M_Charset M_Payload M_Frame M_TextId M_Lookup S_Lookup.

(** ** Lists *)
Lemma nthN_app1 {A} (l r : list A) i : i < N.of_nat (length l) -> nthN (l ++ r) i = nthN l i.
Proof. intros H. unfold nthN. apply nth_error_app1. lia. Qed.

Lemma nthN_app_at {A} (l r : list A) x : nthN (l ++ x :: r) (N.of_nat (length l)) = Some x.
Proof. unfold nthN. rewrite nth_error_app2 by lia. rewrite Nat2N.id, Nat.sub_diag. reflexivity. Qed.

Lemma nthN_lt {A} (l : list A) i x : nthN l i = Some x -> i < N.of_nat (length l).
Proof. unfold nthN. intros H. assert (G : nth_error l (N.to_nat i) <> None) by congruence. apply nth_error_Some in G. lia. Qed.

Lemma nthN_ex {A} (l : list A) i : i < N.of_nat (length l) -> exists x, nthN l i = Some x.
Proof.
  intros H. unfold nthN. destruct (nth_error l (N.to_nat i)) eqn:E; [eauto|].
  apply nth_error_None in E. lia.
Qed.

Lemma nthN_In {A} (l : list A) i x : nthN l i = Some x -> In x l.
Proof. apply nth_error_In. Qed.

Lemma In_nthN {A} (l : list A) x : In x l -> exists i, nthN l i = Some x.
Proof.
  intros H. apply In_nth_error in H. destruct H as (n & E). exists (N.of_nat n).
  unfold nthN. rewrite Nat2N.id. exact E.
Qed.

Lemma nthN_split {A} (l : list A) i x : nthN l i = Some x ->
  exists l1 l2, l = l1 ++ x :: l2 /\ N.of_nat (length l1) = i.
Proof.
  unfold nthN. intros H. apply nth_error_split in H. destruct H as (l1 & l2 & E & L).
  exists l1, l2. split; [exact E|lia].
Qed.

Lemma remove_first_perm {A} (p : A -> bool) l : forall l', remove_first p l = Some l' ->
  exists x, p x = true /\ Permutation l (x :: l').
Proof.
  induction l as [|y r IH]; intros l' H; [discriminate H|]. cbn [remove_first] in H.
  destruct (p y) eqn:E.
  - injection H as <-. exists y. split; [exact E|apply Permutation_refl].
  - destruct (remove_first p r) as [r'|] eqn:R; [|discriminate H]. injection H as <-.
    destruct (IH r' eq_refl) as (x & P & Q). exists x. split; [exact P|].
    eapply perm_trans; [apply perm_skip; exact Q|apply perm_swap].
Qed.

Lemma remove_first_some {A} (p : A -> bool) l x : In x l -> p x = true -> exists l', remove_first p l = Some l'.
Proof.
  induction l as [|y r IH]; intros I P; [destruct I|]. cbn [remove_first].
  destruct (p y) eqn:E; [eauto|].
  destruct I as [->|I]; [congruence|]. destruct (IH I P) as (l' & ->). eauto.
Qed.

Lemma remove_first_none {A} (p : A -> bool) l : (forall x, In x l -> p x = false) -> remove_first p l = None.
Proof.
  induction l as [|y r IH]; intros H; [reflexivity|]. cbn [remove_first].
  rewrite (H y) by (left; reflexivity). rewrite IH; [reflexivity|]. intros x I. apply H. right. exact I.
Qed.

Lemma pick_In {A} c (l : list A) x : pick c l = Some x -> In x l.
Proof. apply nthN_In. Qed.

Lemma pick_some {A} c (l : list A) : l <> [] -> exists x, pick c l = Some x.
Proof.
  intros H. apply nthN_ex. destruct l as [|a l]; [congruence|].
  apply N.mod_lt. cbn [length]. lia.
Qed.

Lemma pick_reach {A} (l : list A) x : In x l -> exists c, pick c l = Some x.
Proof.
  intros H. destruct (In_nthN _ _ H) as (i & E). exists i. unfold pick.
  rewrite N.mod_small by (apply (nthN_lt _ _ _ E)). exact E.
Qed.

Lemma values_In {A} (m : list (bytes * A)) id x : In x (values m id) <-> In (id, x) m.
Proof.
  unfold values. rewrite in_map_iff. split.
  - intros ((i, y) & E & I). apply filter_In in I. cbn in E, I. destruct I as (I & Q).
    destruct (bytes_eqb_spec i id); [|discriminate Q]. subst. exact I.
  - intros I. exists (id, x). split; [reflexivity|]. apply filter_In. split; [exact I|].
    cbn. destruct (bytes_eqb_spec id id); congruence.
Qed.

Lemma perm_filter {A} (p : A -> bool) l l' : Permutation l l' -> Permutation (filter p l) (filter p l').
Proof.
  induction 1; cbn [filter].
  - constructor.
  - destruct (p x); [constructor|]; assumption.
  - destruct (p x), (p y); try apply perm_swap; apply Permutation_refl.
  - eapply perm_trans; eassumption.
Qed.

Lemma firstn_In {A} n (l : list A) x : In x (firstn n l) -> In x l.
Proof. intros H. rewrite <- (firstn_skipn n l). apply in_or_app. left. exact H. Qed.
Lemma skipn_In {A} n (l : list A) x : In x (skipn n l) -> In x l.
Proof. intros H. rewrite <- (firstn_skipn n l). apply in_or_app. right. exact H. Qed.

Lemma NoDup_app_l {A} (l r : list A) : NoDup (l ++ r) -> NoDup l.
Proof.
  induction l as [|x l IH]; intros H; [constructor|]. cbn in H. apply NoDup_cons_iff in H. destruct H as (A1 & A2).
  constructor; [|apply IH; exact A2]. intros I. apply A1. apply in_or_app. left. exact I.
Qed.

(** ** The index of a list of frames *)
Fixpoint index_from (i : N) (l : list (N * cframe)) : list (bytes * N) :=
  match l with
  | [] => []
  | (_, c) :: r => (id_of c, i) :: index_from (i + 1) r
  end.

Lemma index_app l : forall i r, index_from i (l ++ r) = index_from i l ++ index_from (i + N.of_nat (length l)) r.
Proof.
  induction l as [|(a, c) l IH]; intros i r; cbn [app index_from length].
  - f_equal. lia.
  - rewrite IH. do 3 f_equal. lia.
Qed.

Lemma index_In l : forall i id n, In (id, n) (index_from i l) <->
  exists a c, i <= n /\ nthN l (n - i) = Some (a, c) /\ id_of c = id.
Proof.
  induction l as [|(a, c) l IH]; intros i id n; cbn [index_from].
  - split; [intros []|]. intros (a & c & _ & E & _). unfold nthN in E. destruct (N.to_nat (n - i)); discriminate E.
  - cbn [In]. rewrite IH. split.
    + intros [E|(a' & c' & L & E & D)].
      * injection E as <- <-. exists a, c. split; [lia|]. split; [|reflexivity].
        unfold nthN. replace (N.to_nat (i - i)) with O by lia. reflexivity.
      * exists a', c'. split; [lia|]. split; [|exact D].
        unfold nthN in *. replace (N.to_nat (n - i)) with (S (N.to_nat (n - (i + 1)))) by lia. exact E.
    + intros (a' & c' & L & E & D). destruct (N.eq_dec n i) as [->|NE].
      * left. unfold nthN in E. replace (N.to_nat (i - i)) with O in E by lia. cbn in E. injection E as <- <-. congruence.
      * right. exists a', c'. split; [lia|]. split; [|exact D].
        unfold nthN in *. replace (N.to_nat (n - i)) with (S (N.to_nat (n - (i + 1)))) in E by lia. exact E.
Qed.

Lemma index_In0 l id n : In (id, n) (index_from 0 l) <-> exists a c, nthN l n = Some (a, c) /\ id_of c = id.
Proof.
  rewrite index_In. replace (n - 0) with n by lia. split.
  - intros (a & c & _ & E). eauto.
  - intros (a & c & E). exists a, c. split; [lia|exact E].
Qed.

Lemma index_NoDup l : forall i, NoDup (index_from i l).
Proof.
  induction l as [|(a, c) l IH]; intros i; cbn [index_from]; constructor.
  - rewrite index_In. intros (a' & c' & L & _). lia.
  - apply IH.
Qed.

(** ** The invariant; [D] marks the indices that are being taken out *)
Definition reg1 (v : version) (D : N -> bool) (fs : list (N * cframe)) (id : bytes) (l : list (N * N)) : Prop :=
  NoDup (map snd l) /\
  forall a i, In (a, i) l -> exists c, nthN fs i = Some (a, c) /\ D i = false /\ id_of c = id.

Record reg (v : version) (D : N -> bool) (st : ltag) : Prop := mkReg {
  r_nodup : NoDup (map fst (l_frames st));
  r_next : Forall (fun x => fst x < l_next st) (l_frames st);
  r_ids : Permutation (l_ids st) (filter (fun e => negb (D (snd e))) (index_from 0 (l_frames st)));
  r_tnd : NoDup (l_texts st);
  r_texts : forall id a, In (id, a) (l_texts st) -> text_id id = true /\
     exists i c t, nthN (l_frames st) i = Some (a, c) /\ D i = false /\ id_of c = id /\ f_body (c_frame c) = BText t;
  r_comms : reg1 v D (l_frames st) (comm_id v) (l_comms st);
  r_counts : reg1 v D (l_frames st) (count_id v) (l_counts st);
  r_popms : reg1 v D (l_frames st) (popm_id v) (l_popms st)
}.

Definition none (_ : N) : bool := false.
Definition andd (D : N -> bool) (i : N) (n : N) : bool := D n || (n =? i).

Lemma addr_unique (fs : list (N * cframe)) i j a c d : NoDup (map fst fs) ->
  nthN fs i = Some (a, c) -> nthN fs j = Some (a, d) -> i = j.
Proof.
  intros HN A C. unfold nthN in *.
  assert (A' : nth_error (map fst fs) (N.to_nat i) = Some a) by (rewrite nth_error_map, A; reflexivity).
  assert (C' : nth_error (map fst fs) (N.to_nat j) = Some a) by (rewrite nth_error_map, C; reflexivity).
  rewrite NoDup_nth_error in HN. assert (G : N.to_nat i = N.to_nat j); [|lia].
  apply HN; [|congruence]. apply nth_error_Some. congruence.
Qed.

Lemma at_addr_spec st i a c : NoDup (map fst (l_frames st)) -> nthN (l_frames st) i = Some (a, c) -> at_addr a st = Some c.
Proof.
  intros HN E. unfold at_addr.
  assert (G : forall fs, NoDup (map fst fs) -> In (a, c) fs -> find (fun x : N * cframe => fst x =? a) fs = Some (a, c)).
  { induction fs as [|(b, d) r IH]; intros M I; [destruct I|]. cbn [find fst].
    cbn [map fst] in M. apply NoDup_cons_iff in M. destruct M as (M1 & M2).
    destruct (b =? a) eqn:Q.
    - apply N.eqb_eq in Q. subst b. destruct I as [I|I]; [congruence|].
      exfalso. apply M1. change a with (fst (a, c)). apply in_map. exact I.
    - apply N.eqb_neq in Q. destruct I as [I|I]; [congruence|]. apply IH; assumption. }
  rewrite (G _ HN (nthN_In _ _ _ E)). reflexivity.
Qed.

Lemma beqb_true x y : bytes_eqb x y = true -> x = y.
Proof. destruct (bytes_eqb_spec x y); congruence. Qed.
Lemma beqb_false x y : bytes_eqb x y = false -> x <> y.
Proof. destruct (bytes_eqb_spec x y); congruence. Qed.
Lemma beqb_refl x : bytes_eqb x x = true.
Proof. destruct (bytes_eqb_spec x x); congruence. Qed.

Lemma is_entry_eq id n x : is_entry id n x = true -> x = (id, n).
Proof.
  destruct x as (i, m). unfold is_entry. cbn. intros H. apply andb_prop in H. destruct H as (A & C).
  apply beqb_true in A. apply N.eqb_eq in C. congruence.
Qed.

Lemma special_not_text v : text_id (comm_id v) = false /\ text_id (count_id v) = false /\ text_id (popm_id v) = false.
Proof. destruct v; vm_compute; auto. Qed.

Lemma special_distinct v : comm_id v <> count_id v /\ comm_id v <> popm_id v /\ count_id v <> popm_id v.
Proof. destruct v; vm_compute; repeat split; discriminate. Qed.

(** Entries left in one of the three lists after those of index [i] are gone. *)
Lemma reg1_weaken v D fs id l i c a :
  reg1 v D fs id l -> nthN fs i = Some (a, c) -> id_of c <> id -> reg1 v (andd D i) fs id l.
Proof.
  intros (HN & R) E NE. split; [exact HN|]. intros b j I. destruct (R b j I) as (d & X & Y & Z).
  exists d. split; [exact X|]. split; [|exact Z]. unfold andd. rewrite Y. cbn.
  apply N.eqb_neq. intros ->. rewrite X in E. injection E as -> ->. congruence.
Qed.

Lemma reg1_remove v D fs id l l' i :
  reg1 v D fs id l -> remove_first (has_idx i) l = Some l' -> reg1 v (andd D i) fs id l'.
Proof.
  intros (HN & R) E. destruct (remove_first_perm _ _ _ E) as ((b, j) & P & Q).
  unfold has_idx in P. cbn in P. apply N.eqb_eq in P. subst j.
  assert (ND : NoDup (map snd ((b, i) :: l'))).
  { eapply Permutation_NoDup; [|exact HN]. apply Permutation_map. exact Q. }
  cbn [map snd] in ND. apply NoDup_cons_iff in ND. destruct ND as (N1 & N2).
  split; [exact N2|]. intros a k I.
  assert (I' : In (a, k) l) by (eapply Permutation_in; [apply Permutation_sym; exact Q|right; exact I]).
  destruct (R a k I') as (d & X & Y & Z). exists d. split; [exact X|]. split; [|exact Z].
  unfold andd. rewrite Y. cbn. apply N.eqb_neq. intros ->. apply N1. change i with (snd (a, i)). apply in_map. exact I.
Qed.

Lemma ids_remove D fs l l' i id : Permutation l (filter (fun e => negb (D (snd e))) (index_from 0 fs)) ->
  remove_first (is_entry id i) l = Some l' -> 
  Permutation l' (filter (fun e => negb (andd D i (snd e))) (index_from 0 fs)) /\ D i = false.
Proof.
  intros P E. destruct (remove_first_perm _ _ _ E) as (x & PX & Q). apply is_entry_eq in PX. subst x.
  assert (I : In (id, i) (filter (fun e => negb (D (snd e))) (index_from 0 fs))).
  { eapply Permutation_in; [exact P|]. eapply Permutation_in; [apply Permutation_sym; exact Q|left; reflexivity]. }
  apply filter_In in I. destruct I as (I & DI). cbn [snd] in DI. split; [|destruct (D i); [discriminate DI|reflexivity]].
  apply NoDup_Permutation.
  - assert (HN : NoDup ((id, i) :: l')).
    { eapply Permutation_NoDup; [exact Q|]. eapply Permutation_NoDup; [apply Permutation_sym; exact P|].
      apply NoDup_filter. apply index_NoDup. }
    apply NoDup_cons_iff in HN. apply HN.
  - apply NoDup_filter. apply index_NoDup.
  - assert (HN : NoDup ((id, i) :: l')).
    { eapply Permutation_NoDup; [exact Q|]. eapply Permutation_NoDup; [apply Permutation_sym; exact P|].
      apply NoDup_filter. apply index_NoDup. }
    apply NoDup_cons_iff in HN. destruct HN as (N1 & N2).
    intros (k, n). rewrite filter_In. cbn [snd]. split.
    + intros J.
      assert (J' : In (k, n) (filter (fun e => negb (D (snd e))) (index_from 0 fs))).
      { eapply Permutation_in; [exact P|]. eapply Permutation_in; [apply Permutation_sym; exact Q|right; exact J]. }
      apply filter_In in J'. cbn [snd] in J'. destruct J' as (J1 & J2). split; [exact J1|].
      unfold andd. apply negb_true_iff. apply negb_true_iff in J2. rewrite J2. cbn.
      apply N.eqb_neq. intros ->.
      apply index_In0 in J1. apply index_In0 in I. destruct J1 as (a1 & c1 & X1 & Y1). destruct I as (a2 & c2 & X2 & Y2).
      rewrite X1 in X2. injection X2 as <- <-. apply N1. replace id with k by congruence. exact J.
    + intros (J & DJ). unfold andd in DJ. apply negb_true_iff in DJ. apply orb_false_iff in DJ. destruct DJ as (D1 & D2).
      assert (J' : In (k, n) ((id, i) :: l')).
      { eapply Permutation_in; [exact Q|]. eapply Permutation_in; [apply Permutation_sym; exact P|].
        apply filter_In. split; [exact J|]. cbn [snd]. rewrite D1. reflexivity. }
      destruct J' as [J'|J']; [|exact J']. injection J' as -> ->. rewrite N.eqb_refl in D2. discriminate D2.
Qed.

(** Taking out the entries of one frame. *)
Lemma dereg v D st i a c st' : reg v D st -> nthN (l_frames st) i = Some (a, c) ->
  remove_lookups v (id_of c) i st = Ok st' ->
  reg v (andd D i) st' /\ l_frames st' = l_frames st /\ l_next st' = l_next st.
Proof.
  intros R E H. unfold remove_lookups in H.
  destruct (special_not_text v) as (T1 & T2 & T3). destruct (special_distinct v) as (S1 & S2 & S3).
  set (id := id_of c) in *.
  (* texts keep clear of a frame whose identifier is not a text identifier *)
  assert (TX : text_id id = false -> forall k b, In (k, b) (l_texts st) -> text_id k = true /\
     exists j d t, nthN (l_frames st) j = Some (b, d) /\ andd D i j = false /\ id_of d = k /\ f_body (c_frame d) = BText t).
  { intros NT k b I. destruct (r_texts v D st R k b I) as (T & j & d & t & X & Y & Z & W). split; [exact T|].
    exists j, d, t. split; [exact X|]. split; [|split; [exact Z|exact W]].
    unfold andd. rewrite Y. cbn. apply N.eqb_neq. intros ->. rewrite X in E. injection E as -> ->.
    fold id in Z. congruence. }
  destruct (bytes_eqb id (comm_id v)) eqn:K1.
  { apply beqb_true in K1. destruct (remove_first (has_idx i) (l_comms st)) as [l|] eqn:F; [|discriminate H].
    cbn [bind l_ids l_frames l_next l_texts l_comms l_counts l_popms] in H.
    destruct (remove_first (is_entry id i) (l_ids st)) as [m|] eqn:G; [|discriminate H].
    apply Ok_inj in H. subst st'. cbn [l_frames l_next].
    split; [|split; reflexivity].
    constructor; cbn [l_frames l_next l_ids l_texts l_comms l_counts l_popms].
    - apply R. - apply R.
    - eapply ids_remove; [apply R|exact G].
    - apply R.
    - apply TX. rewrite K1. exact T1.
    - eapply reg1_remove; [apply R|exact F].
    - eapply reg1_weaken; [apply R|exact E|]. fold id. congruence.
    - eapply reg1_weaken; [apply R|exact E|]. fold id. congruence. }
  apply beqb_false in K1.
  destruct (bytes_eqb id (count_id v)) eqn:K2.
  { apply beqb_true in K2. destruct (remove_first (has_idx i) (l_counts st)) as [l|] eqn:F; [|discriminate H].
    cbn [bind l_ids l_frames l_next l_texts l_comms l_counts l_popms] in H.
    destruct (remove_first (is_entry id i) (l_ids st)) as [m|] eqn:G; [|discriminate H].
    apply Ok_inj in H. subst st'. cbn [l_frames l_next].
    split; [|split; reflexivity].
    constructor; cbn [l_frames l_next l_ids l_texts l_comms l_counts l_popms].
    - apply R. - apply R.
    - eapply ids_remove; [apply R|exact G].
    - apply R.
    - apply TX. rewrite K2. exact T2.
    - eapply reg1_weaken; [apply R|exact E|]. fold id. congruence.
    - eapply reg1_remove; [apply R|exact F].
    - eapply reg1_weaken; [apply R|exact E|]. fold id. congruence. }
  apply beqb_false in K2.
  destruct (bytes_eqb id (popm_id v)) eqn:K3.
  { apply beqb_true in K3. destruct (remove_first (has_idx i) (l_popms st)) as [l|] eqn:F; [|discriminate H].
    cbn [bind l_ids l_frames l_next l_texts l_comms l_counts l_popms] in H.
    destruct (remove_first (is_entry id i) (l_ids st)) as [m|] eqn:G; [|discriminate H].
    apply Ok_inj in H. subst st'. cbn [l_frames l_next].
    split; [|split; reflexivity].
    constructor; cbn [l_frames l_next l_ids l_texts l_comms l_counts l_popms].
    - apply R. - apply R.
    - eapply ids_remove; [apply R|exact G].
    - apply R.
    - apply TX. rewrite K3. exact T3.
    - eapply reg1_weaken; [apply R|exact E|]. fold id. congruence.
    - eapply reg1_weaken; [apply R|exact E|]. fold id. congruence.
    - eapply reg1_remove; [apply R|exact F]. }
  apply beqb_false in K3.
  destruct (text_id id) eqn:K4.
  { rewrite E in H. destruct (remove_first (is_entry id a) (l_texts st)) as [l|] eqn:F; [|destruct v; discriminate H].
    cbn [bind l_ids l_frames l_next l_texts l_comms l_counts l_popms] in H.
    destruct (remove_first (is_entry id i) (l_ids st)) as [m|] eqn:G; [|discriminate H].
    apply Ok_inj in H. subst st'. cbn [l_frames l_next].
    split; [|split; reflexivity].
    destruct (remove_first_perm _ _ _ F) as (x & PX & Q). apply is_entry_eq in PX. subst x.
    assert (HN : NoDup ((id, a) :: l)) by (eapply Permutation_NoDup; [exact Q|apply R]).
    apply NoDup_cons_iff in HN. destruct HN as (N1 & N2).
    constructor; cbn [l_frames l_next l_ids l_texts l_comms l_counts l_popms].
    - apply R. - apply R.
    - eapply ids_remove; [apply R|exact G].
    - exact N2.
    - intros k b I.
      assert (I' : In (k, b) (l_texts st)) by (eapply Permutation_in; [apply Permutation_sym; exact Q|right; exact I]).
      destruct (r_texts v D st R k b I') as (T & j & d & t & X & Y & Z & W). split; [exact T|].
      exists j, d, t. split; [exact X|]. split; [|split; [exact Z|exact W]].
      unfold andd. rewrite Y. cbn. apply N.eqb_neq. intros ->. rewrite X in E. injection E as -> ->.
      apply N1. rewrite <- Z in I. exact I.
    - eapply reg1_weaken; [apply R|exact E|]. exact K1.
    - eapply reg1_weaken; [apply R|exact E|]. exact K2.
    - eapply reg1_weaken; [apply R|exact E|]. exact K3. }
  cbn [bind] in H.
  destruct (remove_first (is_entry id i) (l_ids st)) as [m|] eqn:G; [|discriminate H].
  apply Ok_inj in H. subst st'. cbn [l_frames l_next].
  split; [|split; reflexivity].
  constructor; cbn [l_frames l_next l_ids l_texts l_comms l_counts l_popms].
  - apply R. - apply R.
  - eapply ids_remove; [apply R|exact G].
  - apply R.
  - apply TX. reflexivity.
  - eapply reg1_weaken; [apply R|exact E|exact K1].
  - eapply reg1_weaken; [apply R|exact E|exact K2].
  - eapply reg1_weaken; [apply R|exact E|exact K3].
Qed.

(** ** Putting a frame in a free place: at the end, or where one was taken out *)

(** What the overload demands of the frame. *)
Definition fits (v : version) (o : over) (c : cframe) : Prop :=
  match o with
  | OvBase => True
  | OvText => text_id (id_of c) = true /\ exists t, f_body (c_frame c) = BText t
  | OvCount => id_of c = count_id v
  | OvComm => id_of c = comm_id v
  | OvPopm => id_of c = popm_id v
  end.

Lemma fits_arg v a : wf_arg a -> fits v (over_of a) (frame_of v a).
Proof. intros H. destruct a; cbn; try reflexivity. split; [exact H|]. eexists. reflexivity. Qed.

(** [fs] with index [i] out of the register, and the same with [x] at [i]. *)
Definition placed (D : N -> bool) (fs : list (N * cframe)) (i : N) (x : N * cframe) (fs' : list (N * cframe)) : Prop :=
  nthN fs' i = Some x /\
  (forall j y, D j = false -> nthN fs j = Some y -> j <> i -> nthN fs' j = Some y) /\
  (forall j y, nthN fs' j = Some y -> j <> i -> nthN fs j = Some y /\ D j = false) /\
  NoDup (map fst fs').

Lemma reg1_add v D fs id l i x fs' : reg1 v D fs id l -> placed D fs i x fs' ->
  (forall j, D j = false -> j < N.of_nat (length fs) -> j <> i) ->
  reg1 v none fs' id l.
Proof.
  intros (HN & R) (P1 & P2 & P3 & P4) F. split; [exact HN|]. intros a j I.
  destruct (R a j I) as (c & X & Y & Z). exists c. split; [|split; [reflexivity|exact Z]].
  apply P2; [exact Y|exact X|]. apply F; [exact Y|]. eapply nthN_lt. exact X.
Qed.

Lemma reg1_add_new v D fs id l i a c fs' : reg1 v D fs id l -> placed D fs i (a, c) fs' ->
  (forall j, D j = false -> j < N.of_nat (length fs) -> j <> i) ->
  id_of c = id -> reg1 v none fs' id (l ++ [(a, i)]).
Proof.
  intros (HN & R) P F E. pose proof (reg1_add v D fs id l i (a, c) fs' (conj HN R) P F) as (N' & R').
  split.
  - rewrite map_app. cbn [map snd]. eapply Permutation_NoDup; [apply Permutation_cons_append|]. constructor; [|exact HN].
    intros I. apply in_map_iff in I. destruct I as ((b, j) & Q & I). cbn in Q. subst j.
    destruct (R b i I) as (d & X & Y & _). refine (F i Y _ eq_refl). eapply nthN_lt. exact X.
  - intros b j I. apply in_app_or in I. destruct I as [I|[I|[]]]; [apply R'; exact I|].
    injection I as <- <-. exists c. split; [exact (proj1 P)|]. split; [reflexivity|exact E].
Qed.

Lemma reg_put v D st o i c fs' : reg v D st -> fits v o c ->
  placed D (l_frames st) i (l_next st, c) fs' ->
  (forall j, D j = false -> j < N.of_nat (length (l_frames st)) -> j <> i) ->
  (forall x, In x fs' -> fst x <= l_next st) ->
  reg v none (add_lookups o (l_next st) (id_of c) i (bump (set_frames fs' st))).
Proof.
  intros R FT P F LE.
  assert (OLD : forall id a, In (id, a) (l_texts st) -> text_id id = true /\
     exists j d t, nthN fs' j = Some (a, d) /\ none j = false /\ id_of d = id /\ f_body (c_frame d) = BText t).
  { intros id a I. destruct (r_texts v D st R id a I) as (T & j & d & t & X & Y & Z & W). split; [exact T|].
    exists j, d, t. split; [|split; [reflexivity|split; [exact Z|exact W]]].
    apply (proj1 (proj2 P)); [exact Y|exact X|]. apply F; [exact Y|]. eapply nthN_lt. exact X. }
  constructor; cbn [add_lookups bump set_frames l_frames l_next l_ids l_texts l_comms l_counts l_popms].
  - exact (proj2 (proj2 (proj2 P))).
  - apply Forall_forall. intros x I. specialize (LE x I). lia.
  - apply NoDup_Permutation.
    + eapply Permutation_NoDup; [apply Permutation_cons_append|]. constructor.
      * intros I. eapply Permutation_in in I; [|apply R]. apply filter_In in I. cbn [snd] in I. destruct I as (I & DI).
        apply index_In0 in I. destruct I as (a & d & X & _). apply negb_true_iff in DI.
        refine (F i DI _ eq_refl). eapply nthN_lt. exact X.
      * eapply Permutation_NoDup; [apply Permutation_sym; apply R|]. apply NoDup_filter. apply index_NoDup.
    + apply NoDup_filter. apply index_NoDup.
    + intros (k, n). rewrite filter_In. cbn [snd none negb]. rewrite index_In0. split.
      * intros I. split; [|reflexivity]. apply in_app_or in I. destruct I as [I|[I|[]]].
        -- eapply Permutation_in in I; [|apply R]. apply filter_In in I. cbn [snd] in I. destruct I as (I & DI).
           apply index_In0 in I. destruct I as (a & d & X & Y). apply negb_true_iff in DI. exists a, d. split; [|exact Y].
           apply (proj1 (proj2 P)); [exact DI|exact X|]. apply F; [exact DI|]. eapply nthN_lt. exact X.
        -- injection I as <- <-. exists (l_next st), c. split; [exact (proj1 P)|reflexivity].
      * intros ((a & d & X & Y) & _). apply in_or_app. destruct (N.eq_dec n i) as [->|NE].
        -- right. left. destruct P as (P1 & _). rewrite P1 in X. injection X as <- <-. rewrite Y. reflexivity.
        -- left. destruct P as (_ & _ & P3 & _). destruct (P3 n _ X NE) as (X' & DN).
           eapply Permutation_in; [apply Permutation_sym; apply R|]. apply filter_In. split.
           ++ apply index_In0. exists a, d. split; [exact X'|exact Y].
           ++ cbn [snd]. rewrite DN. reflexivity.
  - destruct o; try apply R.
    eapply Permutation_NoDup; [apply Permutation_cons_append|]. constructor; [|apply R].
    intros I. destruct (r_texts v D st R _ _ I) as (_ & j & d & t & X & _).
    pose proof (r_next v D st R) as RN. rewrite Forall_forall in RN. specialize (RN _ (nthN_In _ _ _ X)). cbn in RN. lia.
  - intros id a I.
    assert (I' : In (id, a) (l_texts st) \/ (o = OvText /\ id = id_of c /\ a = l_next st)).
    { destruct o; try (left; exact I). apply in_app_or in I. destruct I as [I|[I|[]]]; [left; exact I|].
      right. injection I as <- <-. auto. }
    destruct I' as [I'|(-> & -> & ->)]; [apply OLD; exact I'|].
    destruct FT as (T & t & W). split; [exact T|]. exists i, c, t. split; [exact (proj1 P)|]. auto.
  - destruct o; first [eapply reg1_add; [apply R|exact P|exact F]|eapply reg1_add_new; [apply R|exact P|exact F|exact FT]].
  - destruct o; first [eapply reg1_add; [apply R|exact P|exact F]|eapply reg1_add_new; [apply R|exact P|exact F|exact FT]].
  - destruct o; first [eapply reg1_add; [apply R|exact P|exact F]|eapply reg1_add_new; [apply R|exact P|exact F|exact FT]].
Qed.

Lemma NoDup_snoc {A} (l : list A) x : NoDup l -> ~ In x l -> NoDup (l ++ [x]).
Proof. intros HN H. eapply Permutation_NoDup; [apply Permutation_cons_append|]. constructor; assumption. Qed.

Lemma insert_at_end {A} (x : A) l : insert_at (N.of_nat (length l)) x l = l ++ [x].
Proof. unfold insert_at. rewrite Nat2N.id, firstn_all, skipn_all. reflexivity. Qed.

Lemma next_fresh v D st c : reg v D st -> ~ In (l_next st, c) (l_frames st) /\ ~ In (l_next st) (map fst (l_frames st)).
Proof.
  intros R. pose proof (r_next v D st R) as RN. rewrite Forall_forall in RN.
  split; intros I.
  - specialize (RN _ I). cbn in RN. lia.
  - apply in_map_iff in I. destruct I as (x & E & I). specialize (RN x I). lia.
Qed.

Lemma placed_end v st c : reg v none st ->
  placed none (l_frames st) (size_l st) (l_next st, c) (insert_at (size_l st) (l_next st, c) (l_frames st)).
Proof.
  intros R. unfold size_l. rewrite insert_at_end. split; [apply nthN_app_at|]. split; [|split].
  - intros j y _ E _. rewrite nthN_app1; [exact E|]. eapply nthN_lt. exact E.
  - intros j y E NE. split; [|reflexivity]. pose proof (nthN_lt _ _ _ E) as L. rewrite app_length in L. cbn [length] in L.
    rewrite nthN_app1 in E by lia. exact E.
  - rewrite map_app. apply NoDup_snoc; [apply R|]. exact (proj2 (next_fresh v _ st c R)).
Qed.

Lemma reg_put_end v st o c : reg v none st -> fits v o c -> reg v none (put_at o (size_l st) c st).
Proof.
  intros R FT. unfold put_at. apply (reg_put v none); [exact R|exact FT|apply (placed_end v); exact R| |].
  - intros j _ L. unfold size_l. lia.
  - unfold size_l. rewrite insert_at_end. intros x I. apply in_app_or in I.
    pose proof (r_next v none st R) as RN. rewrite Forall_forall in RN.
    destruct I as [I|[<-|[]]]; [specialize (RN x I)|]; cbn; lia.
Qed.

Lemma placed_replace v st D i c : reg v (andd D i) st -> (forall j, D j = false) -> i < size_l st ->
  placed (andd D i) (l_frames st) i (l_next st, c) (replace_at i (l_next st, c) (l_frames st)).
Proof.
  intros R DF L. unfold size_l in L.
  destruct (nthN_ex (l_frames st) i L) as (x & E). destruct (nthN_split _ _ _ E) as (l1 & l2 & Q & LL).
  unfold replace_at. rewrite Q, <- LL, Nat2N.id.
  rewrite firstn_app, Nat.sub_diag, firstn_all, app_nil_r.
  replace (skipn (S (length l1)) (l1 ++ x :: l2)) with l2
    by (rewrite skipn_app; replace (S (length l1) - length l1)%nat with 1%nat by lia; rewrite skipn_all2 by lia; reflexivity).
  split; [apply nthN_app_at|]. split; [|split].
  - intros j y DJ EJ NE. unfold nthN in *.
    destruct (Nat.lt_ge_cases (N.to_nat j) (length l1)) as [LT|GE].
    + rewrite nth_error_app1 in * by exact LT. exact EJ.
    + rewrite nth_error_app2 in * by exact GE. destruct (N.to_nat j - length l1)%nat eqn:Z; [lia|]. exact EJ.
  - intros j y EJ NE. unfold nthN in *. split.
    + destruct (Nat.lt_ge_cases (N.to_nat j) (length l1)) as [LT|GE].
      * rewrite nth_error_app1 in * by exact LT. exact EJ.
      * rewrite nth_error_app2 in * by exact GE. destruct (N.to_nat j - length l1)%nat eqn:Z; [lia|]. exact EJ.
    + unfold andd. rewrite DF. cbn. apply N.eqb_neq. lia.
  - pose proof (r_nodup v _ st R) as ND. pose proof (proj2 (next_fresh v _ st c R)) as FR.
    rewrite Q in ND, FR. rewrite map_app in *. cbn [map fst] in *.
    eapply Permutation_NoDup; [apply Permutation_middle|].
    assert (ND' : NoDup (fst x :: map fst l1 ++ map fst l2)) by (eapply Permutation_NoDup; [apply Permutation_sym; apply Permutation_middle|exact ND]).
    apply NoDup_cons_iff in ND'. constructor; [|apply ND'].
    intros I. apply FR. apply in_app_or in I. apply in_or_app. destruct I as [I|I]; [left; exact I|right; right; exact I].
Qed.

Lemma reg_assign v i a st st' : reg v none st -> wf_arg a -> assign v i a st = Ok st' -> reg v none st'.
Proof.
  intros R W H. unfold assign in H. destruct (nthN (l_frames st) i) as [(b, c)|] eqn:E; [|discriminate H].
  destruct (remove_lookups v (id_of c) i st) as [st1| | |] eqn:RL; try discriminate H. cbn [bind] in H.
  apply Ok_inj in H. subst st'.
  destruct (dereg v none st i b c st1 R E RL) as (R1 & F1 & N1).
  assert (L : i < size_l st1) by (unfold size_l; rewrite F1; eapply nthN_lt; exact E).
  apply (reg_put v (andd none i)); [exact R1|apply fits_arg; exact W| | |].
  - apply (placed_replace v); [exact R1|reflexivity|exact L].
  - intros j DJ _. unfold andd, none in DJ. cbn in DJ. apply N.eqb_neq in DJ. exact DJ.
  - unfold replace_at. intros x I. pose proof (r_next v _ st1 R1) as RN. rewrite Forall_forall in RN.
    apply in_app_or in I. destruct I as [I|[<-|I]].
    + apply N.lt_le_incl. apply RN. eapply firstn_In. exact I.
    + cbn. lia.
    + apply N.lt_le_incl. apply RN. eapply skipn_In. exact I.
Qed.

(** ** Taking frames off the end *)
Lemma nthN_firstn {A} (l : list A) k i : i < k -> nthN (firstn (N.to_nat k) l) i = nthN l i.
Proof.
  intros H. unfold nthN. rewrite <- (firstn_skipn (N.to_nat k) l) at 2.
  destruct (Nat.lt_ge_cases (N.to_nat i) (length (firstn (N.to_nat k) l))) as [L|G].
  - rewrite nth_error_app1 by exact L. reflexivity.
  - rewrite nth_error_app2 by exact G.
    rewrite (proj2 (nth_error_None _ _)) by exact G.
    rewrite firstn_length in G. rewrite firstn_length.
    assert (length l <= N.to_nat k)%nat by lia. rewrite skipn_all2 by lia. destruct (_ - _)%nat; reflexivity.
Qed.

Lemma nthN_firstn_lt {A} (l : list A) k i x : nthN (firstn (N.to_nat k) l) i = Some x -> i < k.
Proof. intros H. apply nthN_lt in H. rewrite firstn_length in H. lia. Qed.

Definition tail_out (D : N -> bool) (k n : N) : Prop := forall j, j < n -> D j = true <-> k <= j.

Lemma reg1_cut v D fs id l k : reg1 v D fs id l -> tail_out D k (N.of_nat (length fs)) ->
  reg1 v none (firstn (N.to_nat k) fs) id l.
Proof.
  intros (HN & R) T. split; [exact HN|]. intros a i I. destruct (R a i I) as (c & X & Y & Z).
  exists c. split; [|split; [reflexivity|exact Z]].
  rewrite nthN_firstn; [exact X|]. pose proof (nthN_lt _ _ _ X) as L.
  destruct (N.lt_ge_cases i k) as [Q|Q]; [exact Q|]. apply (T i L) in Q. congruence.
Qed.

Lemma reg_cut v D st k : reg v D st -> tail_out D k (size_l st) ->
  reg v none (set_frames (firstn (N.to_nat k) (l_frames st)) st).
Proof.
  intros R T.
  assert (Q : forall j x, nthN (l_frames st) j = Some x -> D j = false -> nthN (firstn (N.to_nat k) (l_frames st)) j = Some x).
  { intros j x X Y. rewrite nthN_firstn; [exact X|]. pose proof (nthN_lt _ _ _ X) as L.
    destruct (N.lt_ge_cases j k) as [W|W]; [exact W|]. apply (T j L) in W. congruence. }
  constructor; cbn [set_frames l_frames l_next l_ids l_texts l_comms l_counts l_popms].
  - rewrite <- firstn_map. pose proof (r_nodup v D st R) as ND.
    rewrite <- (firstn_skipn (N.to_nat k) (map fst (l_frames st))) in ND.
    apply NoDup_app_l in ND. exact ND.
  - apply Forall_forall. intros x I. pose proof (r_next v D st R) as RN. rewrite Forall_forall in RN.
    apply RN. eapply firstn_In. exact I.
  - eapply perm_trans; [apply R|]. apply NoDup_Permutation; [apply NoDup_filter; apply index_NoDup| |].
    + apply NoDup_filter. apply index_NoDup.
    + intros (id, n). rewrite !filter_In. cbn [snd none negb]. rewrite !index_In0. split.
      * intros ((a & c & X & Y) & DN). apply negb_true_iff in DN. split; [|reflexivity].
        exists a, c. split; [apply Q; assumption|exact Y].
      * intros ((a & c & X & Y) & _). pose proof (nthN_firstn_lt _ _ _ _ X) as L.
        rewrite nthN_firstn in X by exact L. split; [eauto|].
        apply negb_true_iff. destruct (D n) eqn:E; [|reflexivity].
        apply (T n) in E; [lia|]. eapply nthN_lt. exact X.
  - apply R.
  - intros id a I. destruct (r_texts v D st R id a I) as (TI & j & d & t & X & Y & Z & W). split; [exact TI|].
    exists j, d, t. split; [apply Q; assumption|auto].
  - eapply reg1_cut; [apply R|exact T].
  - eapply reg1_cut; [apply R|exact T].
  - eapply reg1_cut; [apply R|exact T].
Qed.

(** ** Completeness, in the same manner *)
Definition full1 (D : N -> bool) (fs : list (N * cframe)) (id : bytes) (l : list (N * N)) : Prop :=
  forall i a c, nthN fs i = Some (a, c) -> D i = false -> id_of c = id -> In (a, i) l.
Record full (v : version) (D : N -> bool) (st : ltag) : Prop := mkFull {
  u_texts : forall i a c t, nthN (l_frames st) i = Some (a, c) -> D i = false -> f_body (c_frame c) = BText t ->
     In (id_of c, a) (l_texts st);
  u_comms : full1 D (l_frames st) (comm_id v) (l_comms st);
  u_counts : full1 D (l_frames st) (count_id v) (l_counts st);
  u_popms : full1 D (l_frames st) (popm_id v) (l_popms st)
}.

Lemma andd_false D i j : andd D i j = false -> D j = false /\ j <> i.
Proof. unfold andd. intros H. apply orb_false_iff in H. destruct H as (A & C). apply N.eqb_neq in C. auto. Qed.

Lemma full1_weaken D fs id l i : full1 D fs id l -> full1 (andd D i) fs id l.
Proof. intros H j a c X Y Z. apply andd_false in Y. eapply H; [exact X|apply Y|exact Z]. Qed.

Lemma full1_remove D fs id l l' i : full1 D fs id l -> remove_first (has_idx i) l = Some l' -> full1 (andd D i) fs id l'.
Proof.
  intros H E j a c X Y Z. apply andd_false in Y. destruct Y as (Y & NE).
  destruct (remove_first_perm _ _ _ E) as ((b, k) & P & Q). unfold has_idx in P. cbn in P. apply N.eqb_eq in P. subst k.
  pose proof (H j a c X Y Z) as I. eapply Permutation_in in I; [|exact Q].
  destruct I as [I|I]; [|exact I]. congruence.
Qed.

Lemma dereg_full v D st i a c st' : reg v D st -> full v D st -> nthN (l_frames st) i = Some (a, c) ->
  remove_lookups v (id_of c) i st = Ok st' -> full v (andd D i) st'.
Proof.
  intros RG R E H. unfold remove_lookups in H. set (id := id_of c) in *.
  assert (TX : forall j b d t, nthN (l_frames st) j = Some (b, d) -> andd D i j = false ->
     f_body (c_frame d) = BText t -> In (id_of d, b) (l_texts st)).
  { intros j b d t X Y Z. apply andd_false in Y. eapply (u_texts v D st R); [exact X|apply Y|exact Z]. }
  destruct (bytes_eqb id (comm_id v)) eqn:K1.
  { destruct (remove_first (has_idx i) (l_comms st)) as [l|] eqn:F; [|discriminate H].
    cbn [bind l_ids l_frames l_next l_texts l_comms l_counts l_popms] in H.
    destruct (remove_first (is_entry id i) (l_ids st)) as [m|] eqn:G; [|discriminate H].
    apply Ok_inj in H. subst st'.
    constructor; cbn [l_frames l_next l_ids l_texts l_comms l_counts l_popms].
    - exact TX.
    - eapply full1_remove; [apply R|exact F].
    - apply full1_weaken; apply R.
    - apply full1_weaken; apply R. }
  destruct (bytes_eqb id (count_id v)) eqn:K2.
  { destruct (remove_first (has_idx i) (l_counts st)) as [l|] eqn:F; [|discriminate H].
    cbn [bind l_ids l_frames l_next l_texts l_comms l_counts l_popms] in H.
    destruct (remove_first (is_entry id i) (l_ids st)) as [m|] eqn:G; [|discriminate H].
    apply Ok_inj in H. subst st'.
    constructor; cbn [l_frames l_next l_ids l_texts l_comms l_counts l_popms].
    - exact TX.
    - apply full1_weaken; apply R.
    - eapply full1_remove; [apply R|exact F].
    - apply full1_weaken; apply R. }
  destruct (bytes_eqb id (popm_id v)) eqn:K3.
  { destruct (remove_first (has_idx i) (l_popms st)) as [l|] eqn:F; [|discriminate H].
    cbn [bind l_ids l_frames l_next l_texts l_comms l_counts l_popms] in H.
    destruct (remove_first (is_entry id i) (l_ids st)) as [m|] eqn:G; [|discriminate H].
    apply Ok_inj in H. subst st'.
    constructor; cbn [l_frames l_next l_ids l_texts l_comms l_counts l_popms].
    - exact TX.
    - apply full1_weaken; apply R.
    - apply full1_weaken; apply R.
    - eapply full1_remove; [apply R|exact F]. }
  destruct (text_id id) eqn:K4.
  { rewrite E in H. destruct (remove_first (is_entry id a) (l_texts st)) as [l|] eqn:F; [|destruct v; discriminate H].
    cbn [bind l_ids l_frames l_next l_texts l_comms l_counts l_popms] in H.
    destruct (remove_first (is_entry id i) (l_ids st)) as [m|] eqn:G; [|discriminate H].
    apply Ok_inj in H. subst st'.
    destruct (remove_first_perm _ _ _ F) as (x & PX & Q). apply is_entry_eq in PX. subst x.
    constructor; cbn [l_frames l_next l_ids l_texts l_comms l_counts l_popms].
    - intros j b d t X Y Z. pose proof (TX j b d t X Y Z) as I. eapply Permutation_in in I; [|exact Q].
      destruct I as [I|I]; [|exact I]. apply andd_false in Y. injection I as _ <-.
      destruct Y as (_ & Y). destruct Y. eapply addr_unique; [apply RG|exact X|exact E].
    - apply full1_weaken; apply R.
    - apply full1_weaken; apply R.
    - apply full1_weaken; apply R. }
  cbn [bind] in H.
  destruct (remove_first (is_entry id i) (l_ids st)) as [m|] eqn:G; [|discriminate H].
  apply Ok_inj in H. subst st'.
  constructor; cbn [l_frames l_next l_ids l_texts l_comms l_counts l_popms].
  - exact TX.
  - apply full1_weaken; apply R.
  - apply full1_weaken; apply R.
  - apply full1_weaken; apply R.
Qed.

(** The overload registers the frame wherever it belongs. *)
Definition fits_full (v : version) (o : over) (c : cframe) : Prop :=
  (forall t, f_body (c_frame c) = BText t -> o = OvText) /\
  (id_of c = comm_id v -> o = OvComm) /\ (id_of c = count_id v -> o = OvCount) /\ (id_of c = popm_id v -> o = OvPopm).

Lemma id_clone v c : id_of (clone v c) = id_of c.
Proof. destruct v; reflexivity. Qed.
Lemma body_clone v c : f_body (c_frame (clone v c)) = f_body (c_frame c).
Proof. destruct v; reflexivity. Qed.

Lemma fits_full_arg v a : wf_arg a -> typed_arg v a -> fits_full v (over_of a) (frame_of v a).
Proof.
  destruct (special_not_text v) as (T1 & T2 & T3). destruct (special_distinct v) as (S1 & S2 & S3).
  intros W T. destruct a as [c|id fl t|fl b|fl c|fl p]; cbn [over_of frame_of].
  - cbn in T. destruct T as (A & C & P & X). unfold fits_full. rewrite id_clone, body_clone.
    repeat split; intros; try contradiction. destruct (X _ H).
  - cbn in W. unfold fits_full, id_of; cbn. repeat split; intros; congruence.
  - unfold fits_full, id_of; cbn. repeat split; intros; congruence.
  - unfold fits_full, id_of; cbn. repeat split; intros; congruence.
  - unfold fits_full, id_of; cbn. repeat split; intros; congruence.
Qed.

Lemma full_put v D st o i c fs' : full v D st -> fits_full v o c ->
  placed D (l_frames st) i (l_next st, c) fs' ->
  full v none (add_lookups o (l_next st) (id_of c) i (bump (set_frames fs' st))).
Proof.
  intros R (F1 & F2 & F3 & F4) (P1 & P2 & P3 & P4).
  constructor; cbn [add_lookups bump set_frames l_frames l_next l_ids l_texts l_comms l_counts l_popms].
  - intros j a d t X _ Z. destruct (N.eq_dec j i) as [->|NE].
    + rewrite P1 in X. injection X as <- <-. rewrite (F1 t Z). apply in_or_app. right. left. reflexivity.
    + destruct (P3 j _ X NE) as (X' & Y). pose proof (u_texts v D st R j a d t X' Y Z) as I.
      destruct o; try exact I. apply in_or_app. left. exact I.
  - intros j a d X _ Z. destruct (N.eq_dec j i) as [->|NE].
    + rewrite P1 in X. injection X as <- <-. rewrite (F2 Z). apply in_or_app. right. left. reflexivity.
    + destruct (P3 j _ X NE) as (X' & Y). pose proof (u_comms v D st R j a d X' Y Z) as I.
      destruct o; try exact I. apply in_or_app. left. exact I.
  - intros j a d X _ Z. destruct (N.eq_dec j i) as [->|NE].
    + rewrite P1 in X. injection X as <- <-. rewrite (F3 Z). apply in_or_app. right. left. reflexivity.
    + destruct (P3 j _ X NE) as (X' & Y). pose proof (u_counts v D st R j a d X' Y Z) as I.
      destruct o; try exact I. apply in_or_app. left. exact I.
  - intros j a d X _ Z. destruct (N.eq_dec j i) as [->|NE].
    + rewrite P1 in X. injection X as <- <-. rewrite (F4 Z). apply in_or_app. right. left. reflexivity.
    + destruct (P3 j _ X NE) as (X' & Y). pose proof (u_popms v D st R j a d X' Y Z) as I.
      destruct o; try exact I. apply in_or_app. left. exact I.
Qed.

Lemma full_put_end v st o c : reg v none st -> full v none st -> fits_full v o c -> full v none (put_at o (size_l st) c st).
Proof. intros R F FT. unfold put_at. apply (full_put v none); [exact F|exact FT|apply (placed_end v); exact R]. Qed.

Lemma full_cut v D st k : full v D st -> tail_out D k (size_l st) ->
  full v none (set_frames (firstn (N.to_nat k) (l_frames st)) st).
Proof.
  intros R T.
  assert (Q : forall j x, nthN (firstn (N.to_nat k) (l_frames st)) j = Some x -> nthN (l_frames st) j = Some x /\ D j = false).
  { intros j x X. pose proof (nthN_firstn_lt _ _ _ _ X) as L. rewrite nthN_firstn in X by exact L. split; [exact X|].
    destruct (D j) eqn:E; [|reflexivity]. apply (T j) in E; [lia|]. eapply nthN_lt. exact X. }
  constructor; cbn [set_frames l_frames l_next l_ids l_texts l_comms l_counts l_popms].
  - intros i a c t X _ Z. destruct (Q _ _ X) as (X' & Y). eapply (u_texts v D st R); eassumption.
  - intros i a c X _ Z. destruct (Q _ _ X) as (X' & Y). eapply (u_comms v D st R); eassumption.
  - intros i a c X _ Z. destruct (Q _ _ X) as (X' & Y). eapply (u_counts v D st R); eassumption.
  - intros i a c X _ Z. destruct (Q _ _ X) as (X' & Y). eapply (u_popms v D st R); eassumption.
Qed.

(** ** Single edits *)
Lemma full_assign v i a st st' : reg v none st -> full v none st -> wf_arg a -> typed_arg v a ->
  assign v i a st = Ok st' -> full v none st'.
Proof.
  intros R F W T H. unfold assign in H. destruct (nthN (l_frames st) i) as [(b, c)|] eqn:E; [|discriminate H].
  destruct (remove_lookups v (id_of c) i st) as [st1| | |] eqn:RL; try discriminate H. cbn [bind] in H.
  apply Ok_inj in H. subst st'.
  destruct (dereg v none st i b c st1 R E RL) as (R1 & F1 & N1).
  assert (L : i < size_l st1) by (unfold size_l; rewrite F1; eapply nthN_lt; exact E).
  apply (full_put v (andd none i)); [eapply dereg_full; eassumption|apply fits_full_arg; assumption|].
  apply (placed_replace v); [exact R1|reflexivity|exact L].
Qed.

(** A frame after the erased ones moves. *)
Lemma cut_only_end st fs i n : NoDup (map fst (l_frames st)) ->
  fs = firstn (N.to_nat i) (l_frames st) ++ skipn (N.to_nat i + n) (l_frames st) ->
  (0 < n)%nat -> i + N.of_nat n <= size_l st ->
  (forall a i j c c', nthN (l_frames st) i = Some (a, c) -> nthN fs j = Some (a, c') -> i = j) ->
  fs = firstn (N.to_nat i) (l_frames st) /\ size_l st = i + N.of_nat n.
Proof.
  intros ND EQ NP L KP. unfold size_l in *.
  destruct (skipn (N.to_nat i + n) (l_frames st)) as [|(a, c) r] eqn:SK.
  - rewrite app_nil_r in EQ. split; [exact EQ|].
    assert (length (skipn (N.to_nat i + n) (l_frames st)) = 0%nat) by (rewrite SK; reflexivity).
    rewrite skipn_length in H. lia.
  - exfalso. assert (LI : N.of_nat (length (firstn (N.to_nat i) (l_frames st))) = i) by (rewrite firstn_length; lia).
    assert (X : nthN fs i = Some (a, c)) by (rewrite EQ; rewrite <- LI at 2; apply nthN_app_at).
    assert (Y : nthN (l_frames st) (i + N.of_nat n) = Some (a, c)).
    { rewrite <- (firstn_skipn (N.to_nat i + n) (l_frames st)), SK.
      replace (i + N.of_nat n) with (N.of_nat (length (firstn (N.to_nat i + n) (l_frames st)))) by (rewrite firstn_length; lia).
      apply nthN_app_at. }
    specialize (KP _ _ _ _ _ Y X). lia.
Qed.

Lemma erase_lookups_reg v n : forall D i st st', reg v D st -> erase_lookups v n i st = Ok st' ->
  exists D', reg v D' st' /\ (full v D st -> full v D' st') /\ l_frames st' = l_frames st /\ i + N.of_nat n <= N.max i (size_l st) /\
    forall j, D' j = true <-> D j = true \/ (i <= j /\ j < i + N.of_nat n).
Proof.
  induction n as [|n IH]; intros D i st st' R H; cbn [erase_lookups] in H.
  - apply Ok_inj in H. subst st'. exists D. split; [exact R|]. split; [auto|]. split; [reflexivity|]. split; [lia|].
    intros j. split; [auto|]. intros [A|A]; [exact A|lia].
  - destruct (nthN (l_frames st) i) as [(a, c)|] eqn:E; [|discriminate H].
    destruct (remove_lookups v (id_of c) i st) as [st1| | |] eqn:RL; try discriminate H. cbn [bind] in H.
    destruct (dereg v D st i a c st1 R E RL) as (R1 & F1 & N1).
    destruct (IH _ _ _ _ R1 H) as (D' & R' & FU & F' & L & Q). exists D'. split; [exact R'|].
    split; [|split; [congruence|split]].
    + intros FF. apply FU. eapply dereg_full; eassumption.
    + pose proof (nthN_lt _ _ _ E) as LT. unfold size_l in *. rewrite F1 in L. lia.
    + intros j. rewrite Q. unfold andd. rewrite orb_true_iff, N.eqb_eq. split.
      * intros [[A|A]|A]; [left; exact A|right; lia|right; lia].
      * intros [A|A]; [left; left; exact A|]. destruct (N.eq_dec j i) as [->|NE]; [left; right; reflexivity|right; lia].
Qed.

Definition no_move (st st' : ltag) : Prop := keeps_places st st'.

Lemma erase_range_reg v i n st st' : reg v none st -> erase_range v i n st = Ok st' -> keeps_places st st' ->
  reg v none st' /\ (full v none st -> full v none st').
Proof.
  intros R H K. unfold erase_range in H.
  destruct (erase_lookups v n i st) as [st1| | |] eqn:E; try discriminate H. cbn [bind] in H. apply Ok_inj in H.
  destruct (erase_lookups_reg v n none i st st1 R E) as (D' & R' & FU & F' & L & Q).
  destruct n as [|n].
  - cbn [erase_lookups] in E. apply Ok_inj in E. subst st1. rewrite Nat.add_0_r, firstn_skipn in H.
    replace (set_frames (l_frames st) st) with st in H by (destruct st; reflexivity). subst st'. auto.
  - assert (KP : forall a i j c c', nthN (l_frames st) i = Some (a, c) -> nthN (l_frames st') j = Some (a, c') -> i = j)
      by (intros; eapply K; eassumption).
    subst st'. cbn [set_frames l_frames] in KP. rewrite F' in KP.
    destruct (cut_only_end st _ i (S n) (r_nodup v none st R) eq_refl ltac:(lia) ltac:(lia) KP) as (EQ & SZ).
    rewrite F', EQ, <- F'.
    assert (T : tail_out D' i (size_l st1)).
    { intros j LJ. rewrite Q. unfold size_l in LJ, SZ. rewrite F' in LJ. unfold none. split.
      - intros [A|A]; [discriminate A|lia].
      - intros A. right. lia. }
    split; [apply (reg_cut v D'); assumption|]. intros FF. apply (full_cut v D'); auto.
Qed.

Lemma remove_at_range {A} (l : list A) i : remove_at i l = firstn (N.to_nat i) l ++ skipn (N.to_nat i + 1) l.
Proof. unfold remove_at. do 2 f_equal. lia. Qed.

Lemma erase_as_range v i st : erase v i st = erase_range v i 1 st.
Proof.
  unfold erase, erase_range. cbn [erase_lookups]. destruct (nthN (l_frames st) i) as [(a, c)|]; [|reflexivity].
  destruct (remove_lookups v (id_of c) i st); try reflexivity. cbn [bind]. rewrite remove_at_range. reflexivity.
Qed.

(** What the first table says of an entry. *)
Lemma ids_entry v D st id i : reg v D st -> In (id, i) (l_ids st) ->
  D i = false /\ exists a c, nthN (l_frames st) i = Some (a, c) /\ id_of c = id.
Proof.
  intros R I. eapply Permutation_in in I; [|apply R]. apply filter_In in I. cbn [snd] in I. destruct I as (I & DI).
  apply negb_true_iff in DI. split; [exact DI|]. apply index_In0. exact I.
Qed.

Lemma delete_as_erase v c k st st' : reg v none st -> delete_frame v c k st = Ok st' ->
  st' = st \/ exists i, erase v i st = Ok st'.
Proof.
  intros R H. unfold delete_frame in H. destruct (frame_id_of v k) as [id| | |]; try discriminate H. cbn [bind] in H.
  destruct (pick c (values (l_ids st) id)) as [idx|] eqn:P; [|apply Ok_inj in H; left; congruence].
  apply pick_In, values_In in P. destruct (ids_entry v none st id idx R P) as (_ & a & d & E & ID).
  right. exists idx. unfold erase. rewrite E, ID.
  destruct (remove_lookups v id idx st) as [st1| | |]; try discriminate H. cbn [bind] in *.
  destruct (idx <? size_l st1); [exact H|discriminate H].
Qed.

(** ** Changing the text of a frame *)
Lemma edit_at_nth a b st i : nthN (l_frames (edit_at a b st)) i =
  match nthN (l_frames st) i with
  | Some (x, c) => Some (x, if x =? a then edit_body b c else c)
  | None => None
  end.
Proof.
  unfold edit_at, nthN. cbn [set_frames l_frames]. rewrite nth_error_map.
  destruct (nth_error (l_frames st) (N.to_nat i)) as [(x, c)|]; [|reflexivity]. cbn. destruct (x =? a); reflexivity.
Qed.

Lemma edit_at_fst a b st : map fst (l_frames (edit_at a b st)) = map fst (l_frames st).
Proof.
  unfold edit_at. cbn [set_frames l_frames]. rewrite map_map. apply map_ext. intros (x, c). cbn. destruct (x =? a); reflexivity.
Qed.

Lemma edit_index a b fs : forall i, index_from i (map (fun x : N * cframe => if fst x =? a then (fst x, edit_body b (snd x)) else x) fs) = index_from i fs.
Proof.
  induction fs as [|(x, c) r IH]; intros i; [reflexivity|]. cbn [map fst snd index_from].
  destruct (x =? a); cbn [index_from]; rewrite IH; reflexivity.
Qed.

Lemma edit_id a b c (x : N) : id_of (if x =? a then edit_body b c else c) = id_of c.
Proof. destruct (x =? a); reflexivity. Qed.

Lemma reg1_edit v a b st id l : reg1 v none (l_frames st) id l -> reg1 v none (l_frames (edit_at a b st)) id l.
Proof.
  intros (HN & R). split; [exact HN|]. intros x i I. destruct (R x i I) as (c & X & Y & Z).
  exists (if x =? a then edit_body b c else c). rewrite edit_at_nth, X. split; [reflexivity|]. split; [reflexivity|].
  rewrite edit_id. exact Z.
Qed.

Lemma reg_edit v a t st : reg v none st -> reg v none (edit_at a (BText t) st).
Proof.
  intros R. constructor; cbn [l_next l_ids l_texts l_comms l_counts l_popms edit_at set_frames].
  - rewrite edit_at_fst. apply R.
  - pose proof (r_next v none st R) as RN. rewrite <- Forall_map with (f := fst) (P := fun y => y < l_next st) in *.
    rewrite edit_at_fst. exact RN.
  - unfold edit_at. cbn [l_frames set_frames]. rewrite edit_index. apply R.
  - apply R.
  - intros id x I. destruct (r_texts v none st R id x I) as (TI & j & d & u & X & Y & Z & W). split; [exact TI|].
    exists j, (if x =? a then edit_body (BText t) d else d), (if x =? a then t else u).
    rewrite edit_at_nth, X. split; [reflexivity|]. split; [reflexivity|]. rewrite edit_id. split; [exact Z|].
    destruct (x =? a); [reflexivity|exact W].
  - apply reg1_edit. apply R.
  - apply reg1_edit. apply R.
  - apply reg1_edit. apply R.
Qed.

Lemma full1_edit a b st id l : full1 none (l_frames st) id l -> full1 none (l_frames (edit_at a b st)) id l.
Proof.
  intros F i x c X Y Z. rewrite edit_at_nth in X. destruct (nthN (l_frames st) i) as [(y, d)|] eqn:E; [|discriminate X].
  injection X as <- <-. rewrite edit_id in Z. eapply F; eassumption.
Qed.

Lemma full_edit v a t st id : full v none st -> reg v none st -> In (id, a) (l_texts st) -> full v none (edit_at a (BText t) st).
Proof.
  intros F R IT. constructor; cbn [l_texts l_comms l_counts l_popms edit_at set_frames]; try (apply full1_edit; apply F).
  intros i x c u X _ Z. rewrite edit_at_nth in X. destruct (nthN (l_frames st) i) as [(y, d)|] eqn:E; [|discriminate X].
  injection X as <- <-. rewrite edit_id. destruct (y =? a) eqn:Q.
  - apply N.eqb_eq in Q. subst y. destruct (r_texts v none st R id a IT) as (_ & j & d' & u' & X' & _ & ID & _).
    pose proof (addr_unique _ _ _ _ _ _ (r_nodup v none st R) E X') as ->. rewrite E in X'. injection X' as <-.
    rewrite ID. exact IT.
  - eapply (u_texts v none st F); [exact E|reflexivity|exact Z].
Qed.

(** ** All edits *)
Lemma insert_only_end v i a st : reg v none st -> i <= size_l st -> keeps_places st (put_at (over_of a) i (frame_of v a) st) -> i = size_l st.
Proof.
  intros R L K. destruct (N.eq_dec i (size_l st)) as [E|NE]; [exact E|]. exfalso.
  assert (LT : i < N.of_nat (length (l_frames st))) by (unfold size_l in *; lia).
  destruct (nthN_ex _ _ LT) as ((x, c) & E).
  assert (G : i = i + 1); [|lia].
  eapply K; [exact E|]. cbn [put_at add_lookups bump set_frames l_frames].
  destruct (nthN_split _ _ _ E) as (l1 & l2 & Q & LL). unfold insert_at. rewrite Q.
  replace (N.to_nat i) with (length l1) by lia. rewrite firstn_app, skipn_app, Nat.sub_diag, firstn_all, skipn_all.
  cbn [firstn skipn app]. rewrite app_nil_r.
  replace (l1 ++ (l_next st, frame_of v a) :: (x, c) :: l2) with ((l1 ++ [(l_next st, frame_of v a)]) ++ (x, c) :: l2)
    by (rewrite <- app_assoc; reflexivity).
  replace (i + 1) with (N.of_nat (length (l1 ++ [(l_next st, frame_of v a)]))) by (rewrite app_length; cbn [length]; lia).
  apply nthN_app_at.
Qed.

Lemma mem_text v id : mem_id id (match v with V22 => text_ids22 | _ => text_ids4 end) = true -> text_id id = true.
Proof.
  intros M. unfold mem_id in M. apply existsb_exists in M. destruct M as (x & I & E). apply beqb_true in E. subst x.
  assert (G : forallb text_id (match v with V22 => text_ids22 | _ => text_ids4 end) = true) by (destruct v; vm_compute; reflexivity).
  rewrite forallb_forall in G. apply G. exact I.
Qed.

Lemma kind_text v id : kind_of v id = KText -> text_id id = true.
Proof.
  intros H. apply (mem_text v). destruct v; unfold kind_of in H;
  match goal with |- ?m = true => destruct m; [reflexivity|] end;
  repeat (match goal with H : context [bytes_eqb ?a ?b] |- _ => destruct (bytes_eqb a b) end); discriminate H.
Qed.

Lemma fits_parsed v f : parsed_frame v f -> 
  fits v (over_of_kind (kind_of_body (f_body f))) (new_frame f) /\ fits_full v (over_of_kind (kind_of_body (f_body f))) (new_frame f).
Proof.
  unfold parsed_frame. intros P. rewrite <- P.
  assert (KC : f_id f = comm_id v -> kind_of v (f_id f) = KComm) by (intros ->; destruct v; reflexivity).
  assert (KN : f_id f = count_id v -> kind_of v (f_id f) = KCount) by (intros ->; destruct v; reflexivity).
  assert (KP : f_id f = popm_id v -> kind_of v (f_id f) = KPopm) by (intros ->; destruct v; reflexivity).
  assert (RC : kind_of v (f_id f) = KComm -> f_id f = comm_id v /\ True).
  { destruct v; cbn [kind_of comm_id]; repeat (match goal with |- context [bytes_eqb ?a ?b] => destruct (bytes_eqb_spec a b) as [->|] end);
      try discriminate; auto; destruct (mem_id (f_id f) _); discriminate. }
  assert (RN : kind_of v (f_id f) = KCount -> f_id f = count_id v /\ True).
  { destruct v; cbn [kind_of count_id]; repeat (match goal with |- context [bytes_eqb ?a ?b] => destruct (bytes_eqb_spec a b) as [->|] end);
      try discriminate; auto; destruct (mem_id (f_id f) _); discriminate. }
  assert (RP : kind_of v (f_id f) = KPopm -> f_id f = popm_id v /\ True).
  { destruct v; cbn [kind_of popm_id]; repeat (match goal with |- context [bytes_eqb ?a ?b] => destruct (bytes_eqb_spec a b) as [->|] end);
      try discriminate; auto; destruct (mem_id (f_id f) _); discriminate. }
  assert (RT : kind_of v (f_id f) = KText -> text_id (f_id f) = true) by apply kind_text.
  split.
  - destruct (kind_of v (f_id f)) eqn:K; cbn [over_of_kind fits]; try exact I;
      unfold id_of; cbn [new_frame c_frame].
    + split; [apply RT; reflexivity|]. destruct (f_body f) eqn:FB; try discriminate P. eexists. reflexivity.
    + apply RC. reflexivity.
    + apply RN. reflexivity.
    + apply RP. reflexivity.
  - unfold fits_full, id_of. cbn [new_frame c_frame]. split; [|split; [|split]].
    + intros t FB. rewrite P, FB. reflexivity.
    + intros E. rewrite (KC E). reflexivity.
    + intros E. rewrite (KN E). reflexivity.
    + intros E. rewrite (KP E). reflexivity.
Qed.

Lemma nthN_nil {A} i (x : A) : nthN [] i <> Some x.
Proof. unfold nthN. destruct (N.to_nat i); discriminate. Qed.

Lemma reg_empty v : reg v none empty_ltag /\ full v none empty_ltag.
Proof.
  assert (R1 : forall id, reg1 v none [] id []) by (intros id; split; [constructor|intros a i []]).
  assert (F1 : forall id, full1 none [] id []) by (intros id i a c X; destruct (nthN_nil _ _ X)).
  split; constructor; cbn [empty_ltag l_frames l_next l_ids l_texts l_comms l_counts l_popms]; try apply R1; try apply F1.
  1, 2, 4: constructor.
  - apply Permutation_refl.
  - intros k a [].
  - intros i a c t X. destruct (nthN_nil _ _ X).
Qed.

Lemma reg_of_frames v fs : Forall (parsed_frame v) fs -> reg v none (of_frames fs) /\ full v none (of_frames fs).
Proof.
  unfold of_frames. generalize (proj1 (reg_empty v)) (proj2 (reg_empty v)). generalize empty_ltag.
  induction fs as [|f r IH]; intros st R F P; [auto|]. cbn [fold_left]. apply Forall_cons_iff in P. destruct P as (P1 & P2).
  destruct (fits_parsed v f P1) as (A & C). apply IH; [| |exact P2]; unfold parsed.
  - apply reg_put_end; assumption.
  - apply full_put_end; assumption.
Qed.

Lemma reg_apply v ic e st st' : reg v none st -> wf_edit e -> apply_edit v ic e st = Ok st' -> keeps_places st st' ->
  reg v none st' /\ (full v none st -> typed_edit v e -> full v none st').
Proof.
  intros R W H K. destruct e as [a|i a|i|i n|c k|i a|fl c|fl t|c id s src bom rsp]; cbn [apply_edit wf_edit typed_edit] in *.
  - apply Ok_inj in H. subst st'. unfold push_back. split.
    + apply reg_put_end; [exact R|apply fits_arg; exact W].
    + intros F T. apply full_put_end; [exact R|exact F|apply fits_full_arg; assumption].
  - unfold insert in H. destruct (i <=? size_l st) eqn:L; [|discriminate H]. apply N.leb_le in L. apply Ok_inj in H. subst st'.
    rewrite (insert_only_end v i a st R L K). split.
    + apply reg_put_end; [exact R|apply fits_arg; exact W].
    + intros F T. apply full_put_end; [exact R|exact F|apply fits_full_arg; assumption].
  - rewrite erase_as_range in H. destruct (erase_range_reg v i 1 st st' R H K) as (A & C). auto.
  - destruct (erase_range_reg v i n st st' R H K) as (A & C). auto.
  - destruct (delete_as_erase v c k st st' R H) as [->|(i & E)]; [auto|].
    rewrite erase_as_range in E. destruct (erase_range_reg v i 1 st st' R E K) as (A & C). auto.
  - split; [eapply reg_assign; eassumption|]. intros F T. eapply full_assign; eassumption.
  - unfold add_comment, add_made in H. destruct v; try discriminate H. apply Ok_inj in H. subst st'. split; [|intros _ []].
    apply reg_put_end; [exact R|exact I].
  - unfold add_txxx, add_made in H. destruct v; try discriminate H. apply Ok_inj in H. subst st'. split.
    + apply reg_put_end; [exact R|exact I].
    + intros F _. apply full_put_end; [exact R|exact F|]. unfold fits_full, id_of. cbn [new_frame c_frame f_body f_id].
      split; [intros u Q; discriminate Q|]. repeat split; intros Q; vm_compute in Q; discriminate Q.
  - unfold set_text_frame in H. destruct (pick c (values (l_texts st) id)) as [a|] eqn:P.
    + destruct (at_addr a st); [|discriminate H]. destruct (text_set v ic s src bom rsp) as [t| | |]; try discriminate H.
      cbn [bind] in H. apply Ok_inj in H. subst st'. split; [apply reg_edit; exact R|]. intros F _.
      apply pick_In, values_In in P. eapply full_edit; eassumption.
    + destruct (text_new v ic s src bom rsp) as [t| | |]; try discriminate H. cbn [bind] in H. apply Ok_inj in H. subst st'.
      assert (FT : fits v OvText (new_frame (mkFrame id no_flags (BText t)))) by (split; [exact W|eexists; reflexivity]).
      split; [apply reg_put_end; assumption|]. intros F _. apply full_put_end; [exact R|exact F|].
      destruct (special_not_text v) as (T1 & T2 & T3). unfold fits_full, id_of. cbn [new_frame c_frame f_body f_id].
      split; [reflexivity|]. repeat split; intros Q; congruence.
Qed.

Lemma history_reg v ic st : history v ic st -> reg v none st.
Proof.
  induction 1 as [fs P|st e st' H IH W E K]; [apply reg_of_frames; exact P|].
  eapply reg_apply; eassumption.
Qed.

Lemma typed_history_reg v ic st : typed_history v ic st -> reg v none st /\ full v none st.
Proof.
  induction 1 as [fs P|st e st' H IH W T E K]; [apply reg_of_frames; exact P|].
  destruct IH as (R & F). destruct (reg_apply v ic e st st' R W E K) as (R' & F'). auto.
Qed.

(** ** What queries answer *)
Lemma with_id_In id st f : In f (with_id id (frames_of st)) <-> exists i a c, nthN (l_frames st) i = Some (a, c) /\ c_frame c = f /\ id_of c = id.
Proof.
  unfold with_id, frames_of. rewrite filter_In, in_map_iff. split.
  - intros (((a, c) & E & I) & Q). cbn in E. subst f. destruct (In_nthN _ _ I) as (i & X). exists i, a, c.
    split; [exact X|]. split; [reflexivity|]. apply beqb_true. exact Q.
  - intros (i & a & c & X & <- & ID). split.
    + exists (a, c). split; [reflexivity|]. eapply nthN_In. exact X.
    + unfold id_of in ID. rewrite ID. apply beqb_refl.
Qed.

Lemma index_count id l : forall i, length (filter (fun x : bytes * N => bytes_eqb (fst x) id) (index_from i l)) =
  length (with_id id (map (fun x => c_frame (snd x)) l)).
Proof.
  unfold with_id. induction l as [|(a, c) r IH]; intros i; [reflexivity|]. cbn [index_from map filter fst snd].
  unfold id_of. destruct (bytes_eqb (f_id (c_frame c)) id); cbn [length]; rewrite IH; reflexivity.
Qed.

Lemma filter_true {A} (l : list A) : filter (fun _ => true) l = l.
Proof. induction l as [|x r IH]; [reflexivity|]. cbn. rewrite IH. reflexivity. Qed.

Lemma ids_full v st : reg v none st -> Permutation (l_ids st) (index_from 0 (l_frames st)).
Proof. intros R. eapply perm_trans; [apply R|]. unfold none. cbn. rewrite filter_true. apply Permutation_refl. Qed.

Lemma ids_agree_l v st : reg v none st -> ids_agree st.
Proof.
  intros R id. split.
  - unfold has_frame, values. rewrite map_length. f_equal.
    rewrite (Permutation_length (perm_filter _ _ _ (ids_full v st R))). apply index_count.
  - intros NE c. unfold get_frame.
    destruct (with_id id (frames_of st)) as [|f0 r] eqn:W; [congruence|].
    assert (I0 : In f0 (with_id id (frames_of st))) by (rewrite W; left; reflexivity). rewrite <- W.
    apply with_id_In in I0. destruct I0 as (i0 & a0 & c0 & X0 & _ & ID0).
    assert (V : values (l_ids st) id <> []).
    { intros V. assert (I : In i0 (values (l_ids st) id)); [|rewrite V in I; destruct I].
      apply values_In. eapply Permutation_in; [apply Permutation_sym; apply (ids_full v st R)|].
      apply index_In0. eauto. }
    destruct (pick_some c _ V) as (i & P). rewrite P. apply pick_In, values_In in P.
    destruct (ids_entry v none st id i R P) as (_ & a & d & X & ID). rewrite X.
    exists (c_frame d). split; [reflexivity|]. apply with_id_In. exists i, a, d. auto.
Qed.

Lemma texts_sound_l v st : reg v none st -> texts_sound st.
Proof.
  intros R c id. unfold find_text. destruct (pick c (values (l_texts st) id)) as [a|] eqn:P; [|left; reflexivity].
  right. apply pick_In, values_In in P. destruct (r_texts v none st R id a P) as (_ & i & d & t & X & _ & ID & W).
  rewrite (at_addr_spec st i a d (r_nodup v none st R) X), W. exists (c_frame d), t. split; [reflexivity|].
  split; [|exact W]. apply with_id_In. exists i, a, d. auto.
Qed.

Lemma texts_complete_l v st : reg v none st -> full v none st -> texts_complete st.
Proof.
  intros R F f t I FB c. unfold frames_of in I. apply in_map_iff in I. destruct I as ((a, d) & <- & I). cbn [snd] in *.
  destruct (In_nthN _ _ I) as (i & X).
  pose proof (u_texts v none st F i a d t X eq_refl FB) as IT.
  assert (V : values (l_texts st) (f_id (c_frame d)) <> []).
  { intros V. apply values_In in IT. unfold id_of in IT. rewrite V in IT. destruct IT. }
  destruct (pick_some c _ V) as (b & P). unfold find_text. rewrite P.
  apply pick_In, values_In in P. destruct (r_texts v none st R _ _ P) as (_ & j & d' & t' & X' & _ & _ & W).
  rewrite (at_addr_spec st j b d' (r_nodup v none st R) X'), W. eauto.
Qed.

Lemma get_all_spec v st id l : reg v none st -> reg1 v none (l_frames st) id l ->
  exists bs, get_all st l = Ok bs /\
    (forall b, In b bs <-> exists a i c, In (a, i) l /\ nthN (l_frames st) i = Some (a, c) /\ f_body (c_frame c) = b) /\
    Permutation bs (map (fun x => match nthN (l_frames st) (snd x) with Some (_, c) => f_body (c_frame c) | None => BUnknown [] end) l).
Proof.
  intros R (_ & H). induction l as [|(a, i) r IH].
  - exists []. split; [reflexivity|]. split; [|constructor]. intros b. split; [intros []|]. intros (? & ? & ? & [] & _).
  - destruct IH as (bs & E & Q & P); [intros; apply H; right; assumption|].
    destruct (H a i (or_introl eq_refl)) as (c & X & _ & _). cbn [get_all].
    rewrite (at_addr_spec st i a c (r_nodup v none st R) X), E. cbn [bind]. eexists. split; [reflexivity|]. split.
    + intros b. cbn [In]. rewrite Q. split.
      * intros [<-|(a' & i' & c' & I & X' & W)]; [exists a, i, c; auto|exists a', i', c'; auto].
      * intros (a' & i' & c' & [I|I] & X' & W).
        -- injection I as <- <-. rewrite X in X'. injection X' as <-. left. exact W.
        -- right. exists a', i', c'. auto.
    + cbn [map snd]. rewrite X. constructor. exact P.
Qed.

Lemma lists_sound_l v st : reg v none st -> lists_sound v st.
Proof.
  intros R.
  assert (G : forall id l, reg1 v none (l_frames st) id l -> exists bs, get_all st l = Ok bs /\
     forall b, In b bs -> exists f, In f (with_id id (frames_of st)) /\ f_body f = b).
  { intros id l H. destruct (get_all_spec v st id l R H) as (bs & E & Q & _). exists bs. split; [exact E|].
    intros b I. apply Q in I. destruct I as (a & i & c & I & X & W). destruct H as (_ & H).
    destruct (H a i I) as (c' & X' & _ & ID). rewrite X in X'. injection X' as <-.
    exists (c_frame c). split; [|exact W]. apply with_id_In. exists i, a, c. auto. }
  split; [|split]; apply G; apply R.
Qed.

Lemma index_map id l : forall i fs, (forall k x, nthN l k = Some x -> nthN fs (i + k) = Some x) ->
  map (fun x : bytes * N => match nthN fs (snd x) with Some (_, c) => f_body (c_frame c) | None => BUnknown [] end)
      (filter (fun x => bytes_eqb (fst x) id) (index_from i l)) =
  map f_body (with_id id (map (fun x => c_frame (snd x)) l)).
Proof.
  unfold with_id. induction l as [|(a, c) r IH]; intros i fs H; [reflexivity|]. cbn [index_from map filter fst snd].
  assert (H' : forall k x, nthN r k = Some x -> nthN fs (i + 1 + k) = Some x).
  { intros k x E. replace (i + 1 + k) with (i + (k + 1)) by lia. apply H. unfold nthN in *.
    replace (N.to_nat (k + 1)) with (S (N.to_nat k)) by lia. exact E. }
  unfold id_of. destruct (bytes_eqb (f_id (c_frame c)) id); cbn [map snd].
  - rewrite (IH _ fs H'). rewrite <- (N.add_0_r i) at 1. rewrite (H 0 (a, c) eq_refl). reflexivity.
  - apply IH. exact H'.
Qed.

Lemma full_list v st id l : reg v none st -> reg1 v none (l_frames st) id l -> full1 none (l_frames st) id l ->
  exists bs, get_all st l = Ok bs /\ Permutation bs (map f_body (with_id id (frames_of st))).
Proof.
  intros R H F. destruct (get_all_spec v st id l R H) as (bs & E & _ & P). exists bs. split; [exact E|].
  eapply perm_trans; [exact P|].
  unfold frames_of. rewrite <- (index_map id (l_frames st) 0 (l_frames st)) by (intros k x X; exact X).
  rewrite <- (map_map snd (fun i => match nthN (l_frames st) i with Some (_, c) => f_body (c_frame c) | None => BUnknown [] end)).
  rewrite <- (map_map (@snd bytes N) (fun i => match nthN (l_frames st) i with Some (_, c) => f_body (c_frame c) | None => BUnknown [] end)).
  apply Permutation_map. destruct H as (ND & H). apply NoDup_Permutation.
  - exact ND.
  - assert (NS : forall m i, NoDup (map snd (filter (fun x : bytes * N => bytes_eqb (fst x) id) (index_from i m))) /\
        forall k, In k (map snd (filter (fun x : bytes * N => bytes_eqb (fst x) id) (index_from i m))) -> i <= k).
    { induction m as [|(a, c) r IH]; intros i; cbn [index_from filter fst].
      - split; [constructor|intros k []].
      - destruct (IH (i + 1)) as (A & C). destruct (bytes_eqb (id_of c) id); cbn [map snd].
        + split; [constructor; [intros I; specialize (C _ I); lia|exact A]|]. intros k [<-|I]; [lia|]. specialize (C k I). lia.
        + split; [exact A|]. intros k I. specialize (C k I). lia. }
    apply NS.
  - intros i. rewrite !in_map_iff. split.
    + intros ((a, j) & E' & I). cbn in E'. subst j. destruct (H a i I) as (c & X & _ & ID). exists (id, i). split; [reflexivity|].
      apply filter_In. split; [|apply beqb_refl]. apply index_In0. eauto.
    + intros ((k, j) & E' & I). cbn in E'. subst j. apply filter_In in I. destruct I as (I & Q). apply beqb_true in Q. cbn in Q. subst k.
      apply index_In0 in I. destruct I as (a & c & X & ID). exists (a, i). split; [reflexivity|]. eapply F; [exact X|reflexivity|exact ID].
Qed.

Lemma lists_complete_l v st : reg v none st -> full v none st -> lists_complete v st.
Proof. intros R F. split; [|split]; apply (full_list v); try apply R; try apply F; exact R. Qed.
