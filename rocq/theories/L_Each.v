(** * Lemmas: taking frames out of a tag one at a time. *)
From Coq Require Import Sorting.Permutation.
From Verif Require Import Base M_Charset M_Payload M_Frame M_TextId M_Lookup S_Lookup L_Lookup M_Move S_Move M_Each.
#[local] Open Scope N_scope.

Lemma bind_ok' {A C} (x : outcome A) (f : A -> outcome C) y : bind x f = Ok y -> exists a, x = Ok a /\ f a = Ok y.
Proof. destruct x; cbn; intros H; try discriminate H. now exists a. Qed.

Lemma first_kept {A} (p : A -> bool) l l' x : remove_first p l = Some l' -> In x l -> p x = false -> In x l'.
Proof.
  intros H I F. destruct (remove_first_perm p l l' H) as (y & Y & Q). apply (Permutation_in _ Q) in I. destruct I as [<-|I]; [congruence|exact I].
Qed.

Lemma remove_ids v id i st st1 : remove_lookups v id i st = Ok st1 ->
  remove_first (is_entry id i) (l_ids st) = Some (l_ids st1) /\ l_frames st1 = l_frames st.
Proof.
  unfold remove_lookups. intros H. apply bind_ok' in H as (st0 & H0 & H).
  assert (E : l_ids st0 = l_ids st /\ l_frames st0 = l_frames st).
  { destruct (bytes_eqb id (comm_id v)); [destruct (remove_first (has_idx i) (l_comms st)); [|discriminate H0]; injection H0 as <-; split; reflexivity|].
    destruct (bytes_eqb id (count_id v)); [destruct (remove_first (has_idx i) (l_counts st)); [|discriminate H0]; injection H0 as <-; split; reflexivity|].
    destruct (bytes_eqb id (popm_id v)); [destruct (remove_first (has_idx i) (l_popms st)); [|discriminate H0]; injection H0 as <-; split; reflexivity|].
    destruct (text_id id); [|injection H0 as <-; split; reflexivity].
    destruct (nthN (l_frames st) i) as [[a d]|]; [|discriminate H0].
    destruct (remove_first (is_entry id a) (l_texts st)); [injection H0 as <-; split; reflexivity|destruct v; discriminate H0]. }
  destruct E as (E1 & E2). rewrite E1, E2 in H. destruct (remove_first (is_entry id i) (l_ids st)) as [l|]; [|discriminate H].
  injection H as <-. split; [reflexivity|exact E2] || (split; reflexivity).
Qed.

Lemma erase_ok v i st st1 : erase v i st = Ok st1 -> exists a c, nthN (l_frames st) i = Some (a, c) /\
  remove_first (is_entry (id_of c) i) (l_ids st) = Some (l_ids st1) /\ l_frames st1 = remove_at i (l_frames st).
Proof.
  unfold erase. intros H. destruct (nthN (l_frames st) i) as [[a c]|]; [|discriminate H]. exists a, c. split; [reflexivity|].
  apply bind_ok' in H as (st0 & H0 & H). apply remove_ids in H0 as (E1 & E2). injection H as <-. cbn [set_frames l_ids l_frames].
  rewrite E2. now split.
Qed.

Lemma nth_remove {A} i (l : list A) j : i <= j -> i < N.of_nat (length l) -> nthN (remove_at i l) j = nthN l (j + 1).
Proof.
  intros H L. unfold nthN, remove_at. rewrite nth_error_app2 by (rewrite firstn_length; lia). rewrite firstn_length.
  replace (Nat.min (N.to_nat i) (length l)) with (N.to_nat i) by lia.
  rewrite <- (firstn_skipn (S (N.to_nat i)) l) at 2. rewrite nth_error_app2 by (rewrite firstn_length; lia).
  rewrite firstn_length. f_equal. lia.
Qed.
Lemma nth_remove_lt {A} i (l : list A) j : j < i -> nthN (remove_at i l) j = nthN l j.
Proof.
  intros H. unfold nthN, remove_at. destruct (le_lt_dec (length l) (N.to_nat j)) as [L|L].
  - rewrite (proj2 (nth_error_None l _)) by lia. apply nth_error_None. rewrite app_length, firstn_length, skipn_length. lia.
  - rewrite nth_error_app1 by (rewrite firstn_length; lia). rewrite <- (firstn_skipn (N.to_nat i) l) at 2.
    rewrite nth_error_app1 by (rewrite firstn_length; lia). reflexivity.
Qed.

Lemma frame_nth st i : nthN (frames_of st) i = match nthN (l_frames st) i with Some x => Some (c_frame (snd x)) | None => None end.
Proof. unfold frames_of, nthN. rewrite nth_error_map. now destruct (nth_error (l_frames st) (N.to_nat i)). Qed.

(** After one frame has been taken out, which may be taken out after it? *)
Lemma after_one v st i j st1 st2 : reg v none st -> erase v i st = Ok st1 -> i <= j -> erase v j st1 = Ok st2 ->
  i < j /\ exists f g, nthN (frames_of st) j = Some f /\ nthN (frames_of st) (j + 1) = Some g /\ f_id f = f_id g.
Proof.
  intros R E1 L E2. apply erase_ok in E1 as (a & c & X & RI & F). apply erase_ok in E2 as (a' & c' & X' & RI' & _).
  pose proof (ids_full v st R) as P0. destruct (remove_first_perm _ _ _ RI) as (y & Y & Q). apply is_entry_eq in Y. subst y.
  destruct (remove_first_perm _ _ _ RI') as (y & Y & Q'). apply is_entry_eq in Y. subst y.
  assert (I1 : In (id_of c', j) (l_ids st1)) by (apply (Permutation_in _ (Permutation_sym Q')); now left).
  assert (I2 : In (id_of c', j) (index_from 0 (l_frames st))).
  { apply (Permutation_in _ P0). apply (Permutation_in _ (Permutation_sym Q)). now right. }
  apply index_In0 in I2 as (b & d & N1 & D1). rewrite F, nth_remove in X'; [|exact L|exact (nthN_lt _ _ _ X)].
  assert (NE : i <> j).
  { intros <-. rewrite X in N1. injection N1 as <- <-. rewrite <- D1 in I1.
    assert (ND : NoDup ((id_of c, i) :: l_ids st1)).
    { eapply Permutation_NoDup; [exact Q|]. eapply Permutation_NoDup; [apply Permutation_sym; exact P0|apply index_NoDup]. }
    apply NoDup_cons_iff in ND as (ND & _). contradiction. }
  split; [lia|]. exists (c_frame d), (c_frame c'). rewrite !frame_nth, N1, X'. now split; [|split].
Qed.

(** ** From the front *)
Lemma each_skip v p : forall k n i st, (forall m, (m < k)%nat -> exists x, nthN (l_frames st) (i + N.of_nat m) = Some x /\ p (c_frame (snd x)) = false) ->
  each_from v p (k + n) i st = each_from v p n (i + N.of_nat k) st.
Proof.
  induction k as [|k IH]; intros n i st H; [now rewrite N.add_0_r|].
  cbn [Nat.add each_from]. destruct (H O ltac:(lia)) as ((a & c) & X & F). rewrite N.add_0_r in X. rewrite X. cbn [snd] in F. rewrite F.
  rewrite IH; [f_equal; lia|]. intros m L. destruct (H (S m) ltac:(lia)) as (x & Y). exists x. now replace (i + 1 + N.of_nat m) with (i + N.of_nat (S m)) by lia.
Qed.

Lemma frames_remove i (l : list (N * cframe)) st : l_frames st = remove_at i l ->
  frames_of st = remove_at i (map (fun x => c_frame (snd x)) l).
Proof. unfold frames_of, remove_at. intros ->. rewrite map_app, firstn_map, skipn_map. reflexivity. Qed.

Lemma remove_mid {A} (l1 l2 : list A) x : remove_at (N.of_nat (length l1)) (l1 ++ x :: l2) = l1 ++ l2.
Proof.
  unfold remove_at. rewrite Nat2N.id. f_equal.
  - now rewrite firstn_app, firstn_all, Nat.sub_diag, app_nil_r.
  - rewrite skipn_app, skipn_all2 by lia. replace (S (length l1) - length l1)%nat with 1%nat by lia. reflexivity.
Qed.

Lemma each_frames v p : forall n A Z st st', each_from v p n (N.of_nat (length A)) st = Ok st' ->
  frames_of st = A ++ Z -> length Z = n -> frames_of st' = A ++ kept p Z.
Proof.
  induction n as [|n IH]; intros A Z st st' H E L; cbn [each_from] in H.
  - injection H as <-. destruct Z; [exact E|discriminate L].
  - destruct (nthN (l_frames st) (N.of_nat (length A))) as [[a c]|] eqn:X; [|discriminate H].
    assert (XF : nthN (frames_of st) (N.of_nat (length A)) = Some (c_frame c)) by now rewrite frame_nth, X.
    destruct Z as [|z Z]; [discriminate L|]. rewrite E, nthN_app_at in XF. injection XF as ->. injection L as L.
    unfold kept. cbn [filter]. fold (kept p Z). destruct (p (c_frame c)) eqn:PC; cbn [negb].
    + apply bind_ok' in H as (st1 & H1 & H). apply erase_ok in H1 as (a' & c' & _ & _ & F). apply frames_remove in F.
      fold (frames_of st) in F. rewrite E, remove_mid in F. exact (IH A Z st1 st' H F L).
    + replace (N.of_nat (length A) + 1) with (N.of_nat (length (A ++ [c_frame c]))) in H by (rewrite app_length; cbn; lia).
      rewrite (IH (A ++ [c_frame c]) Z st st' H); [now rewrite <- app_assoc|now rewrite <- app_assoc|exact L].
Qed.

(** The first two frames that are to go. *)
Lemma each_two v p st st' A f M g Z : reg v none st -> frames_of st = A ++ f :: M ++ g :: Z ->
  (forall x, In x A -> p x = false) -> p f = true -> (forall x, In x M -> p x = false) -> p g = true ->
  erase_each v p st = Ok st' -> exists M' h, M = M' ++ [h] /\ f_id h = f_id g.
Proof.
  intros R E PA PF PM PG H. unfold erase_each in H.
  assert (LF : length (l_frames st) = (length A + S (length M + S (length Z)))%nat).
  { rewrite <- (map_length (fun x => c_frame (snd x))). fold (frames_of st). rewrite E, app_length. cbn [length]. now rewrite app_length. }
  rewrite LF in H. rewrite each_skip in H.
  2:{ intros m Lm. cbn [N.add]. assert (X : exists x, nthN (l_frames st) (N.of_nat m) = Some x) by (apply nthN_ex; lia).
      destruct X as (x & X). exists x. split; [exact X|]. apply PA.
      assert (Y : nthN (frames_of st) (N.of_nat m) = Some (c_frame (snd x))) by now rewrite frame_nth, X.
      rewrite E, nthN_app1 in Y by lia. exact (nthN_In _ _ _ Y). }
  rewrite N.add_0_l in H. cbn [each_from] in H.
  destruct (nthN (l_frames st) (N.of_nat (length A))) as [[a c]|] eqn:X; [|discriminate H].
  assert (XF : nthN (frames_of st) (N.of_nat (length A)) = Some (c_frame c)) by now rewrite frame_nth, X.
  rewrite E, nthN_app_at in XF. injection XF as ->. rewrite PF in H. apply bind_ok' in H as (st1 & H1 & H).
  pose proof H1 as H1'. apply erase_ok in H1' as (a' & c' & _ & _ & F). pose proof F as G. apply frames_remove in G. fold (frames_of st) in G. rewrite E, remove_mid in G.
  assert (LF1 : (length (l_frames st1) = length A + (length M + S (length Z)))%nat).
  { rewrite <- (map_length (fun x => c_frame (snd x))). fold (frames_of st1). rewrite G, !app_length. reflexivity. }
  rewrite each_skip in H.
  2:{ intros m Lm. assert (Y0 : exists x, nthN (l_frames st1) (N.of_nat (length A) + N.of_nat m) = Some x) by (apply nthN_ex; lia).
      destruct Y0 as (x & X0). exists x. split; [exact X0|]. apply PM.
      assert (Y : nthN (frames_of st1) (N.of_nat (length A) + N.of_nat m) = Some (c_frame (snd x))) by now rewrite frame_nth, X0.
      rewrite G in Y. unfold nthN in Y. rewrite nth_error_app2 in Y by lia. rewrite nth_error_app1 in Y by lia. exact (nth_error_In _ _ Y). }
  cbn [each_from] in H. replace (N.of_nat (length A) + N.of_nat (length M)) with (N.of_nat (length (A ++ M))) in H by (rewrite app_length; lia).
  destruct (nthN (l_frames st1) (N.of_nat (length (A ++ M)))) as [[b d]|] eqn:X1; [|discriminate H].
  assert (XG : nthN (frames_of st1) (N.of_nat (length (A ++ M))) = Some (c_frame d)) by now rewrite frame_nth, X1.
  rewrite G, app_assoc, nthN_app_at in XG. injection XG as ->. rewrite PG in H. apply bind_ok' in H as (st2 & H2 & _).
  destruct (after_one v st (N.of_nat (length A)) (N.of_nat (length (A ++ M))) st1 st2 R H1) as (LT & h & g' & N1 & N2 & I0); [rewrite app_length; lia|exact H2|].
  rewrite E in N1, N2. 
  destruct M as [|m0 M0] using rev_ind; [rewrite app_nil_r in LT; lia|]. exists M0, m0. split; [reflexivity|].
  rewrite <- app_assoc in N1, N2. cbn [app] in N1, N2. 
  replace (N.of_nat (length (A ++ M0 ++ [m0]))) with (N.of_nat (length (A ++ c_frame c :: M0))) in N1 by (rewrite !app_length; cbn [length]; rewrite ?app_length; cbn [length]; lia).
  replace (N.of_nat (length (A ++ M0 ++ [m0])) + 1) with (N.of_nat (length (A ++ c_frame c :: M0 ++ [m0]))) in N2 by (rewrite !app_length; cbn [length]; rewrite ?app_length; cbn [length]; lia).
  replace (A ++ c_frame c :: M0 ++ m0 :: c_frame d :: Z) with ((A ++ c_frame c :: M0) ++ m0 :: c_frame d :: Z) in N1 by (rewrite <- app_assoc; reflexivity).
  replace (A ++ c_frame c :: M0 ++ m0 :: c_frame d :: Z) with ((A ++ c_frame c :: M0 ++ [m0]) ++ c_frame d :: Z) in N2 by (rewrite <- app_assoc; cbn [app]; rewrite <- app_assoc; reflexivity).
  rewrite nthN_app_at in N1, N2. injection N1 as <-. injection N2 as <-. exact I0.
Qed.

(** ** From the back *)
Definition below (v : version) (p : frame -> bool) (n : N) (st : ltag) : Prop :=
  NoDup (map fst (l_frames st)) /\ forall k a c, k < n -> nthN (l_frames st) k = Some (a, c) ->
    In (id_of c, k) (l_ids st) /\ (id_of c = comm_id v -> In (a, k) (l_comms st)) /\ (id_of c = count_id v -> In (a, k) (l_counts st)) /\
    (id_of c = popm_id v -> In (a, k) (l_popms st)) /\ (text_id (id_of c) = true -> p (c_frame c) = true -> In (id_of c, a) (l_texts st)).

Lemma dup_remove {A} i (l : list A) : NoDup l -> NoDup (remove_at i l).
Proof.
  intros H. unfold remove_at. destruct (le_lt_dec (length l) (N.to_nat i)) as [L|L].
  - rewrite skipn_all2, app_nil_r, firstn_all2 by lia. exact H.
  - destruct (nth_error l (N.to_nat i)) as [x|] eqn:E; [|apply nth_error_None in E; lia].
    apply nth_error_split in E as (l1 & l2 & -> & L1). rewrite <- L1.
    rewrite firstn_app, firstn_all, Nat.sub_diag, app_nil_r, skipn_app, skipn_all2 by lia.
    replace (S (length l1) - length l1)%nat with 1%nat by lia. cbn [firstn skipn app].  exact (NoDup_remove_1 _ _ _ H).
Qed.

Lemma below_erase v p m st a c : below v p (m + 1) st -> nthN (l_frames st) m = Some (a, c) -> p (c_frame c) = true ->
  exists st1, erase v m st = Ok st1 /\ below v p m st1 /\ l_frames st1 = remove_at m (l_frames st).
Proof.
  intros (ND & H) X PC. destruct (H m a c ltac:(lia) X) as (I1 & I2 & I3 & I4 & I5).
  assert (FI : forall l : list (N * N), In (a, m) l -> exists l', remove_first (has_idx m) l = Some l').
  { intros l I. apply (remove_first_some _ _ (a, m) I). unfold has_idx. cbn. apply N.eqb_refl. }
  assert (KI : forall (l l' : list (N * N)) b k, remove_first (has_idx m) l = Some l' -> In (b, k) l -> k < m -> In (b, k) l').
  { intros l l' b k Q I L. apply (first_kept _ _ _ _ Q I). unfold has_idx. cbn. apply N.eqb_neq. lia. }
  assert (FE : forall id n (l : list (bytes * N)), In (id, n) l -> exists l', remove_first (is_entry id n) l = Some l').
  { intros id n l I. apply (remove_first_some _ _ (id, n) I). unfold is_entry. cbn. now rewrite beqb_refl, N.eqb_refl. }
  assert (KE : forall id n (l l' : list (bytes * N)) id' k, remove_first (is_entry id n) l = Some l' -> In (id', k) l -> k <> n -> In (id', k) l').
  { intros id n l l' id' k Q I L. apply (first_kept _ _ _ _ Q I). unfold is_entry. cbn. apply andb_false_iff. right. now apply N.eqb_neq. }
  destruct (FE (id_of c) m _ I1) as (ids & RI).
  assert (FIN : forall t co cn po,
    (forall k b d, k < m -> nthN (l_frames st) k = Some (b, d) ->
      (id_of d = comm_id v -> In (b, k) co) /\ (id_of d = count_id v -> In (b, k) cn) /\ (id_of d = popm_id v -> In (b, k) po) /\
      (text_id (id_of d) = true -> p (c_frame d) = true -> In (id_of d, b) t)) ->
    below v p m (mkL (remove_at m (l_frames st)) (l_next st) ids t co cn po)).
  { intros t co cn po Q. split.
    - cbn [l_frames]. unfold remove_at. rewrite map_app, <- firstn_map, <- skipn_map. exact (dup_remove m _ ND).
    - intros k b d L Y. cbn [l_frames l_ids l_comms l_counts l_popms l_texts] in *. rewrite nth_remove_lt in Y by exact L.
      destruct (Q k b d L Y) as (Q1 & Q2 & Q3 & Q4). split; [|tauto].
      apply (KE _ _ _ _ _ _ RI); [apply (H k b d ltac:(lia) Y)|lia]. }
  unfold erase. rewrite X. unfold remove_lookups.
  assert (OLD : forall k b d, k < m -> nthN (l_frames st) k = Some (b, d) -> 
      (id_of d = comm_id v -> In (b, k) (l_comms st)) /\ (id_of d = count_id v -> In (b, k) (l_counts st)) /\ (id_of d = popm_id v -> In (b, k) (l_popms st)) /\
      (text_id (id_of d) = true -> p (c_frame d) = true -> In (id_of d, b) (l_texts st))).
  { intros k b d L Y. destruct (H k b d ltac:(lia) Y) as (_ & Q). exact Q. }
  destruct (bytes_eqb (id_of c) (comm_id v)) eqn:K1.
  { destruct (FI _ (I2 (beqb_true _ _ K1))) as (l & RL). rewrite RL. cbn [bind l_ids]. rewrite RI. cbn [bind set_frames l_frames l_next l_ids l_texts l_comms l_counts l_popms].
    eexists. split; [reflexivity|]. split; [|reflexivity]. apply FIN. intros k b d L Y. destruct (OLD k b d L Y) as (O1 & O2 & O3 & O4).
    split; [intros E; exact (KI _ _ _ _ RL (O1 E) L)|tauto]. }
  destruct (bytes_eqb (id_of c) (count_id v)) eqn:K2.
  { destruct (FI _ (I3 (beqb_true _ _ K2))) as (l & RL). rewrite RL. cbn [bind l_ids]. rewrite RI. cbn [bind set_frames l_frames l_next l_ids l_texts l_comms l_counts l_popms].
    eexists. split; [reflexivity|]. split; [|reflexivity]. apply FIN. intros k b d L Y. destruct (OLD k b d L Y) as (O1 & O2 & O3 & O4).
    split; [exact O1|]. split; [intros E; exact (KI _ _ _ _ RL (O2 E) L)|tauto]. }
  destruct (bytes_eqb (id_of c) (popm_id v)) eqn:K3.
  { destruct (FI _ (I4 (beqb_true _ _ K3))) as (l & RL). rewrite RL. cbn [bind l_ids]. rewrite RI. cbn [bind set_frames l_frames l_next l_ids l_texts l_comms l_counts l_popms].
    eexists. split; [reflexivity|]. split; [|reflexivity]. apply FIN. intros k b d L Y. destruct (OLD k b d L Y) as (O1 & O2 & O3 & O4).
    split; [exact O1|]. split; [exact O2|]. split; [intros E; exact (KI _ _ _ _ RL (O3 E) L)|exact O4]. }
  destruct (text_id (id_of c)) eqn:K4.
  { rewrite X. destruct (FE _ _ _ (I5 eq_refl PC)) as (l & RL). rewrite RL. cbn [bind l_ids]. rewrite RI. cbn [bind set_frames l_frames l_next l_ids l_texts l_comms l_counts l_popms].
    eexists. split; [reflexivity|]. split; [|reflexivity]. apply FIN. intros k b d L Y. destruct (OLD k b d L Y) as (O1 & O2 & O3 & O4).
    split; [exact O1|]. split; [exact O2|]. split; [exact O3|]. intros E E'. apply (KE _ _ _ _ _ _ RL (O4 E E')).
    intros ->. assert (k = m) by exact (addr_unique _ _ _ _ _ _ ND Y X). lia. }
  cbn [bind l_ids]. rewrite RI. cbn [bind set_frames l_frames l_next l_ids l_texts l_comms l_counts l_popms].
  eexists. split; [reflexivity|]. split; [|reflexivity]. apply FIN. exact OLD.
Qed.

Lemma below_less v p m st : below v p (m + 1) st -> below v p m st.
Proof. intros (ND & H). split; [exact ND|]. intros k a c L. apply H. lia. Qed.

Lemma before_done v p : forall A Z st, below v p (N.of_nat (length A)) st -> frames_of st = A ++ Z ->
  exists st', each_before v p (length A) st = Ok st' /\ frames_of st' = kept p A ++ Z.
Proof.
  induction A as [|f A IH] using rev_ind; intros Z st W E; [now exists st|].
  rewrite app_length in *. cbn [length] in *. rewrite Nat.add_1_r in *. cbn [each_before].
  replace (N.of_nat (S (length A))) with (N.of_nat (length A) + 1) in W by lia.
  assert (XF : nthN (frames_of st) (N.of_nat (length A)) = Some f) by (rewrite E, <- app_assoc; apply nthN_app_at).
  rewrite frame_nth in XF. destruct (nthN (l_frames st) (N.of_nat (length A))) as [[a c]|] eqn:X; [|discriminate XF]. cbn [snd] in XF. injection XF as <-.
  unfold kept. rewrite filter_app. fold (kept p A). cbn [filter]. destruct (p (c_frame c)) eqn:PC; cbn [negb].
  - destruct (below_erase v p _ st a c W X PC) as (st1 & E1 & W1 & F1). rewrite E1. cbn [bind].
    apply frames_remove in F1. fold (frames_of st) in F1. rewrite E, <- app_assoc in F1. cbn [app] in F1. rewrite remove_mid in F1.
    rewrite app_nil_r. exact (IH Z st1 W1 F1).
  - cbn [bind]. apply below_less in W. rewrite <- app_assoc in E. destruct (IH ([c_frame c] ++ Z) st W E) as (st' & G1 & G2).
    exists st'. split; [exact G1|]. rewrite G2, <- app_assoc. reflexivity.
Qed.

Lemma below_all v p st : reg v none st -> full v none st -> (forall f, In f (frames_of st) -> p f = true -> ~ odd_text f) ->
  below v p (N.of_nat (length (l_frames st))) st.
Proof.
  intros R F NO. split; [apply R|]. intros k a c L X. split; [|split; [|split; [|split]]].
  - apply (Permutation_in _ (Permutation_sym (ids_full v st R))). apply index_In0. now exists a, c.
  - intros E. exact (u_comms v none st F k a c X eq_refl E).
  - intros E. exact (u_counts v none st F k a c X eq_refl E).
  - intros E. exact (u_popms v none st F k a c X eq_refl E).
  - intros T PC. assert (B0 : exists t, f_body (c_frame c) = BText t).
    { destruct (f_body (c_frame c)) eqn:B1; eauto; exfalso; apply (NO (c_frame c)); try exact PC.
      all: try (apply in_map_iff; exists (a, c); split; [reflexivity|exact (nthN_In _ _ _ X)]).
      all: split; [exact T|]; intros t0 E; rewrite B1 in E; discriminate E. }
    destruct B0 as (t & B0). exact (u_texts v none st F k a c t X eq_refl B0).
Qed.
