(** * Lemmas: what a tag answers once frames have been removed. *)
From Coq Require Import Sorting.Permutation.
From Verif Require Import Base M_Charset M_Payload M_Frame M_TextId M_Lookup M_Move S_Lookup S_Move L_Lookup L_Move.
#[local] Open Scope N_scope.

Lemma frames_of_filter p st st' : l_frames st' = filter (fun x => negb (out p x)) (l_frames st) ->
  frames_of st' = kept p (frames_of st).
Proof. intros H. unfold frames_of. rewrite H. apply kept_frames. Qed.

Lemma in_frames_of st f : In f (frames_of st) <-> exists x, In x (l_frames st) /\ c_frame (snd x) = f.
Proof.
  unfold frames_of. rewrite in_map_iff. split; intros (x & H1 & H2); exists x; auto.
Qed.

Lemma removed_l v ic st p : typed_history v ic st ->
  (forall f, In f (frames_of st) -> p f = true -> ~ odd_text f) ->
  exists st', erase_remove v p st = Ok st' /\ frames_of st' = kept p (frames_of st).
Proof.
  intros H NO. destruct (typed_history_reg _ _ _ H) as (R & F). pose proof (typed_history_apt _ _ _ H) as A.
  destruct (erase_remove_spec v p st R F A) as [((x & I & O & B) & _)|(_ & st' & E & L & _)].
  - exfalso. apply (NO (c_frame (snd x))); [apply in_frames_of; eauto|exact O|exact B].
  - exists st'. split; [exact E|]. apply frames_of_filter. exact L.
Qed.

Lemma odd_l v ic st p f : typed_history v ic st -> In f (frames_of st) -> p f = true -> odd_text f ->
  erase_remove v p st = match v with V22 => Throw LogicError | _ => UB BadIterator end.
Proof.
  intros H I P O. destruct (typed_history_reg _ _ _ H) as (R & F). pose proof (typed_history_apt _ _ _ H) as A.
  destruct (erase_remove_spec v p st R F A) as [(_ & B)|(PL & _)]; [exact B|].
  exfalso. apply in_frames_of in I. destruct I as (x & I & <-). exact (plain_not_odd _ (PL x I P) O).
Qed.

(** ** Queries *)
Lemma after_fst p st : map fst (after p st) = filter (fun x => negb (out p x)) (l_frames st).
Proof. apply gi_filter. Qed.

Lemma count_tabs v G st id : tabs v G st -> map fst G = l_frames st ->
  has_frame st id = N.of_nat (length (with_id id (frames_of st))).
Proof.
  intros T E. unfold has_frame, values. rewrite map_length. f_equal.
  rewrite (Permutation_length (perm_filter _ _ _ (t_ids v G st T))).
  unfold with_id, frames_of. rewrite <- E. clear. induction G as [|g r IH]; [reflexivity|].
  cbn [map filter]. unfold gent at 1. cbn [fst]. change (f_id (c_frame (snd (fst g)))) with (gid g).
  destruct (bytes_eqb (gid g) id); cbn [length]; [f_equal|]; exact IH.
Qed.

Lemma texts_tabs v G st : tabs v G st -> map fst G = l_frames st -> NoDup (map fst (l_frames st)) ->
  texts_sound st /\ texts_complete st.
Proof.
  intros T E ND.
  assert (FIND : forall id a, In (id, a) (l_texts st) -> exists i c t, nthN (l_frames st) i = Some (a, c) /\ id_of c = id /\ f_body (c_frame c) = BText t).
  { intros id a I. apply (Permutation_in _ (t_texts v G st T)) in I. apply in_map_iff in I.
    destruct I as ([[b c] n] & Q & I). apply filter_In in I. destruct I as (I & P).
    unfold gtxt, gid in Q. cbn [fst snd] in Q. injection Q as <- <-.
    apply (in_map fst) in I. rewrite E in I. cbn [fst] in I. apply In_nthN in I. destruct I as (i & I).
    unfold gtext in P. cbn [fst snd] in P. destruct (f_body (c_frame c)) as [x|x|x|x|x|x|x|x|x|x] eqn:F; try discriminate P.
    exists i, c, x. auto. }
  split.
  - intros c id. unfold find_text. destruct (pick c (values (l_texts st) id)) as [a|] eqn:P; [|left; reflexivity]. right.
    apply pick_In in P. apply values_In in P. destruct (FIND id a P) as (i & d & t & H1 & H2 & H3).
    rewrite (at_addr_spec st i a d ND H1). rewrite H3. exists (c_frame d), t. split; [reflexivity|]. split; [|exact H3].
    apply with_id_In. exists i, a, d. auto.
  - intros f t I B c. unfold find_text.
    apply in_frames_of in I. destruct I as ([a d] & I & <-). cbn [snd] in *.
    assert (IT : In (id_of d, a) (l_texts st)).
    { rewrite <- E in I. apply in_map_iff in I. destruct I as ([x n] & Q & I). cbn [fst] in Q. subst x.
      eapply Permutation_in; [apply Permutation_sym; exact (t_texts v G st T)|]. apply in_map_iff. exists (a, d, n).
      split; [reflexivity|]. apply filter_In. split; [exact I|]. unfold gtext. cbn [fst snd]. rewrite B. reflexivity. }
    destruct (pick_some c (values (l_texts st) (id_of d))) as (b & Hb).
    { intros Q. apply values_In in IT. rewrite Q in IT. destruct IT. }
    change (f_id (c_frame d)) with (id_of d). rewrite Hb. apply pick_In in Hb. apply values_In in Hb.
    destruct (FIND _ _ Hb) as (i & d' & t' & H1 & H2 & H3). rewrite (at_addr_spec st i b d' ND H1), H3. eauto.
Qed.

Lemma queries_l v ic st p st' : typed_history v ic st -> erase_remove v p st = Ok st' ->
  frames_of st' = kept p (frames_of st) /\
  (forall id, has_frame st' id = N.of_nat (length (with_id id (kept p (frames_of st))))) /\
  texts_sound st' /\ texts_complete st'.
Proof.
  intros H E. destruct (typed_history_reg _ _ _ H) as (R & F). pose proof (typed_history_apt _ _ _ H) as A.
  destruct (erase_remove_spec v p st R F A) as [(_ & B)|(_ & s & E' & L & T)]; [rewrite E in B; destruct v; discriminate B|].
  rewrite E in E'. apply Ok_inj in E'. subst s.
  assert (FR : frames_of st' = kept p (frames_of st)) by (apply frames_of_filter; exact L).
  assert (G : map fst (after p st) = l_frames st') by (rewrite L; apply after_fst).
  split; [exact FR|]. split.
  - intros id. rewrite <- FR. eapply count_tabs; eassumption.
  - eapply texts_tabs; [exact T|exact G|]. rewrite L. apply NoDup_map_filter. apply R.
Qed.

(** ** Lookup by name *)
Lemma filter_shorter {A} (q : A -> bool) l x : In x l -> q x = false -> (length (filter q l) < length l)%nat.
Proof.
  induction l as [|y r IH]; intros I Q; [destruct I|]. cbn [filter].
  assert (LE : (length (filter q r) <= length r)%nat).
  { clear. induction r as [|z s IH]; cbn [filter length]; [lia|]. destruct (q z); cbn [length]; lia. }
  destruct I as [->|I]; [rewrite Q; cbn [length]; lia|]. specialize (IH I Q). destruct (q y); cbn [length]; lia.
Qed.

Lemma nth_frames st i f : nthN (frames_of st) i = Some f -> exists a c, nthN (l_frames st) i = Some (a, c) /\ c_frame c = f.
Proof.
  unfold frames_of, nthN. rewrite nth_error_map. destruct (nth_error (l_frames st) (N.to_nat i)) as [[a c]|]; [|discriminate].
  cbn [option_map snd]. intros H. injection H as <-. eauto.
Qed.

(** A frame that stays is still registered under the place it had. *)
Lemma stale_l v ic st p st' i f : typed_history v ic st -> erase_remove v p st = Ok st' ->
  nthN (frames_of st) i = Some f -> p f = false ->
  exists c, get_frame c st' (f_id f) =
    match nthN (kept p (frames_of st)) i with Some g => Ok g | None => Throw OutOfRange end.
Proof.
  intros H E I P. destruct (typed_history_reg _ _ _ H) as (R & F). pose proof (typed_history_apt _ _ _ H) as A.
  destruct (erase_remove_spec v p st R F A) as [(_ & B)|(_ & s & E' & L & T)]; [rewrite E in B; destruct v; discriminate B|].
  rewrite E in E'. apply Ok_inj in E'. subst s.
  destruct (nth_frames _ _ _ I) as (a & c & N1 & <-).
  assert (IG : In (a, c, i) (after p st)).
  { unfold after. apply filter_In. split; [apply gi_In; split; [lia|rewrite N.sub_0_r; exact N1]|].
    unfold gout, out. cbn [fst snd]. rewrite P. reflexivity. }
  assert (IE : In (id_of c, i) (l_ids st')).
  { eapply Permutation_in; [apply Permutation_sym; exact (t_ids _ _ _ T)|]. apply in_map_iff. exists (a, c, i). auto. }
  apply values_In in IE. destruct (pick_reach _ _ IE) as (k & K). exists k. unfold get_frame. change (f_id (c_frame c)) with (id_of c).
  rewrite K. rewrite <- (frames_of_filter p st st' L). unfold frames_of, nthN. rewrite nth_error_map.
  destruct (nth_error (l_frames st') (N.to_nat i)) as [[b d]|]; reflexivity.
Qed.

(** ** Comments *)
Lemma remove_comm v i st st' : remove_lookups v (comm_id v) i st = Ok st' ->
  remove_first (has_idx i) (l_comms st) = Some (l_comms st') /\ l_frames st' = l_frames st.
Proof.
  intros H. split; [|eapply remove_lookups_frames; exact H]. unfold remove_lookups in H. rewrite beqb_refl in H.
  destruct (remove_first (has_idx i) (l_comms st)) as [l|]; [|discriminate H]. cbn [bind l_ids] in H.
  destruct (remove_first (is_entry (comm_id v) i) (l_ids st)) as [m|]; [|discriminate H].
  apply Ok_inj in H. subst st'. reflexivity.
Qed.
Lemma move_comm v i j st st' a c : nthN (l_frames st) i = Some (a, c) -> id_of c = comm_id v -> move_assign v i j st = Ok st' ->
  exists l y, remove_first (has_idx i) (l_comms st) = Some l /\ l_comms st' = l ++ [(a, j)] /\
    nthN (l_frames st) j = Some y /\ l_frames st' = replace_at j (a, c) (replace_at i y (l_frames st)).
Proof.
  intros E K H. unfold move_assign in H. rewrite E in H. destruct (nthN (l_frames st) j) as [y|]; [|discriminate H].
  cbn [fst snd] in H. rewrite K in H.
  destruct (remove_lookups v (comm_id v) i st) as [s|ee|u|] eqn:RL; try discriminate H. cbn [bind] in H.
  destruct (remove_comm _ _ _ _ RL) as (R1 & R2).
  assert (O : over_moved v c = Ok OvComm \/ exists e, over_moved v c = Throw e).
  { unfold over_moved. rewrite K. rewrite (proj2 (beqb_neq (comm_id v) (count_id v))) by (apply special_distinct).
    rewrite beqb_refl. destruct (f_body (c_frame c)); eauto. }
  destruct O as [O|(e & O)]; rewrite O in H; [|discriminate H]. cbn [bind] in H. apply Ok_inj in H. subst st'.
  exists (l_comms s), y. cbn [add_lookups set_frames l_comms l_frames]. rewrite R2. auto.
Qed.

Lemma remove_first_keeps (i m a : N) l l' : remove_first (has_idx i) l = Some l' -> m <> i -> In (a, m) l -> In (a, m) l'.
Proof.
  revert l'. induction l as [|[b n] r IH]; intros l' H NE I; [discriminate H|]. cbn [remove_first] in H. unfold has_idx at 1 in H. cbn [snd] in H.
  destruct (n =? i) eqn:Q.
  - injection H as <-. destruct I as [I|I]; [|exact I]. injection I as -> ->. apply N.eqb_eq in Q. contradiction.
  - destruct (remove_first (has_idx i) r) as [r'|]; [|discriminate H]. injection H as <-.
    destruct I as [I|I]; [left; exact I|right; apply IH; auto].
Qed.
Lemma remove_first_app_l {A} (q : A -> bool) l r x : In x l -> q x = true ->
  exists l', remove_first q (l ++ r) = Some (l' ++ r) /\ remove_first q l = Some l'.
Proof.
  induction l as [|y s IH]; intros I Q; [destruct I|]. cbn [app remove_first].
  destruct (q y) eqn:Y; [exists s; auto|]. destruct I as [->|I]; [congruence|].
  destruct (IH I Q) as (l' & -> & ->). exists (y :: l'). auto.
Qed.
Lemma remove_first_app_r {A} (q : A -> bool) l r : (forall x, In x l -> q x = false) ->
  remove_first q (l ++ r) = match remove_first q r with Some r' => Some (l ++ r') | None => None end.
Proof.
  induction l as [|y s IH]; intros H; cbn [app remove_first]; [destruct (remove_first q r); reflexivity|].
  rewrite (H y (or_introl eq_refl)). rewrite IH by (intros x I; apply H; right; exact I).
  destruct (remove_first q r); reflexivity.
Qed.

(** The comment that goes, with address [a], is at [d]; all that follow stay. *)
Definition at_d (v : version) (st : ltag) (d a : N) (c : cframe) (pre rest : list (N * cframe)) : Prop :=
  l_frames st = pre ++ (a, c) :: rest /\ N.of_nat (length pre) = d /\ id_of c = comm_id v.

Lemma at_step v st d a c pre y rest st' : at_d v st d a c pre (y :: rest) -> move_assign v d (d + 1) st = Ok st' ->
  at_d v st' (d + 1) a c (pre ++ [y]) rest /\ exists l, remove_first (has_idx d) (l_comms st) = Some l /\ l_comms st' = l ++ [(a, d + 1)].
Proof.
  intros (E & L & K) H.
  assert (N1 : nthN (l_frames st) d = Some (a, c)) by (rewrite E; apply nthN_mid; exact L).
  destruct (move_comm v d (d + 1) st st' a c N1 K H) as (l & z & R & C & Z & FR).
  assert (z = y).
  { rewrite E in Z. replace (pre ++ (a, c) :: y :: rest) with ((pre ++ [(a, c)]) ++ y :: rest) in Z by (rewrite <- app_assoc; reflexivity).
    rewrite (nthN_mid (pre ++ [(a, c)]) rest y (d + 1)) in Z; [congruence|]. rewrite app_length. cbn [length]. lia. }
  subst z. split; [|exists l; auto]. split; [|split; [rewrite app_length; cbn [length]; lia|exact K]].
  rewrite FR, E. rewrite (replace_mid pre (y :: rest) y (a, c) d L).
  replace (pre ++ y :: y :: rest) with ((pre ++ [y]) ++ y :: rest) by (rewrite <- app_assoc; reflexivity).
  apply replace_mid. rewrite app_length. cbn [length]. lia.
Qed.

Lemma lost_stays v p rest : forall pre st d a c m d' st', at_d v st d a c pre rest -> (forall x, In x rest -> out p x = false) ->
  In (a, m) (l_comms st) -> m < d ->
  shift_kept v p (length rest) d (d + 1) st = Ok (d', st') ->
  In (a, m) (l_comms st') /\ at_d v st' d' a c (pre ++ rest) [] /\ d <= d'.
Proof.
  induction rest as [|[b e] rest IH]; intros pre st d a c m d' st' AT Q I LT H; cbn [length shift_kept] in H.
  - apply Ok_inj in H. injection H as <- <-. rewrite app_nil_r. split; [exact I|]. split; [exact AT|lia].
  - destruct AT as (E & L & K).
    assert (NJ : nthN (l_frames st) (d + 1) = Some (b, e)).
    { rewrite E. replace (pre ++ (a, c) :: (b, e) :: rest) with ((pre ++ [(a, c)]) ++ (b, e) :: rest) by (rewrite <- app_assoc; reflexivity).
      apply nthN_mid. rewrite app_length. cbn [length]. lia. }
    rewrite NJ in H. pose proof (Q (b, e) (or_introl eq_refl)) as QB. unfold out in QB. cbn [snd] in QB. rewrite QB in H.
    destruct (move_assign v d (d + 1) st) as [s|ee|u|] eqn:MV; try discriminate H. cbn [bind] in H.
    destruct (at_step v st d a c pre (b, e) rest s (conj E (conj L K)) MV) as (AT' & l & R & C).
    destruct (IH (pre ++ [(b, e)]) s (d + 1) a c m d' st' AT') as (X & Y & Z); [intros x Hx; apply Q; right; exact Hx| |lia|exact H|].
    + rewrite C. apply in_or_app. left. eapply remove_first_keeps; [exact R|lia|exact I].
    + rewrite <- app_assoc in Y. split; [exact X|]. split; [exact Y|lia].
Qed.

Lemma comes_lost v p rest : forall pre st d a c lc j b d' st', at_d v st d a c pre rest -> (forall x, In x rest -> out p x = false) ->
  l_comms st = lc ++ [(a, d)] -> In (b, j) lc -> d <= j -> j <= d + N.of_nat (length rest) ->
  shift_kept v p (length rest) d (d + 1) st = Ok (d', st') ->
  at_d v st' d' a c (pre ++ rest) [] /\
  ((exists m, m < d' /\ In (a, m) (l_comms st')) \/ exists lc', l_comms st' = lc' ++ [(a, d')] /\ exists b', In (b', d') lc').
Proof.
  induction rest as [|[e0 e] rest IH]; intros pre st d a c lc j b d' st' AT Q C I LE LT H; cbn [length shift_kept] in H.
  - apply Ok_inj in H. injection H as <- <-. rewrite app_nil_r. split; [exact AT|]. right. exists lc. split; [exact C|].
    exists b. cbn [length] in LT. replace d with j by lia. exact I.
  - destruct AT as (E & L & K).
    assert (NJ : nthN (l_frames st) (d + 1) = Some (e0, e)).
    { rewrite E. replace (pre ++ (a, c) :: (e0, e) :: rest) with ((pre ++ [(a, c)]) ++ (e0, e) :: rest) by (rewrite <- app_assoc; reflexivity).
      apply nthN_mid. rewrite app_length. cbn [length]. lia. }
    rewrite NJ in H. pose proof (Q (e0, e) (or_introl eq_refl)) as QB. unfold out in QB. cbn [snd] in QB. rewrite QB in H.
    destruct (move_assign v d (d + 1) st) as [s|ee|u|] eqn:MV; try discriminate H. cbn [bind] in H.
    destruct (at_step v st d a c pre (e0, e) rest s (conj E (conj L K)) MV) as (AT' & l & R & C').
    rewrite C in R.
    destruct (existsb (has_idx d) lc) eqn:X.
    + apply existsb_exists in X. destruct X as (x & X1 & X2).
      destruct (remove_first_app_l (has_idx d) lc [(a, d)] x X1 X2) as (l' & R1 & _). rewrite R1 in R. injection R as <-.
      destruct (lost_stays v p rest (pre ++ [(e0, e)]) s (d + 1) a c d d' st' AT') as (Y1 & Y2 & Y3);
        [intros y Hy; apply Q; right; exact Hy| |lia|exact H|].
      * rewrite C'. rewrite <- app_assoc. apply in_or_app. right. left. reflexivity.
      * rewrite <- app_assoc in Y2. split; [exact Y2|]. left. exists d. split; [lia|exact Y1].
    + assert (NX : forall x, In x lc -> has_idx d x = false).
      { intros x Hx. destruct (has_idx d x) eqn:W; [|reflexivity]. exfalso.
        assert (existsb (has_idx d) lc = true) by (apply existsb_exists; eauto). congruence. }
      rewrite (remove_first_app_r _ _ _ NX) in R. cbn [remove_first] in R. unfold has_idx in R at 1. cbn [snd] in R. rewrite N.eqb_refl in R.
      injection R as <-. rewrite app_nil_r in C'.
      assert (j <> d).
      { intros ->. pose proof (NX _ I) as W. unfold has_idx in W. cbn [snd] in W. rewrite N.eqb_refl in W. discriminate W. }
      destruct (IH (pre ++ [(e0, e)]) s (d + 1) a c lc j b d' st' AT') as (Y1 & Y2); try assumption; try lia.
      * intros x Hx. apply Q. right. exact Hx.
      * cbn [length] in LT. lia.
      * rewrite <- app_assoc in Y1. auto.
Qed.

Lemma get_all_dangling st l a n : In (a, n) l -> at_addr a st = None -> get_all st l = UB Dangling.
Proof.
  induction l as [|[b m] r IH]; intros I H; [destruct I|]. cbn [get_all]. destruct (at_addr b st) as [f|] eqn:E; [|reflexivity].
  destruct I as [I|I]; [injection I as -> ->; congruence|]. rewrite (IH I H). reflexivity.
Qed.

Lemma at_addr_none a st : ~ In a (map fst (l_frames st)) -> at_addr a st = None.
Proof.
  intros H. unfold at_addr. destruct (find (fun x => fst x =? a) (l_frames st)) as [[b c]|] eqn:E; [|reflexivity].
  exfalso. apply find_some in E. destruct E as (I & Q). cbn [fst] in Q. apply N.eqb_eq in Q. subst b. apply H.
  apply (in_map fst) in I. exact I.
Qed.

Lemma map_split {A C} (f : A -> C) l x m : map f l = x ++ m -> exists l1 l2, l = l1 ++ l2 /\ map f l1 = x /\ map f l2 = m.
Proof.
  revert l. induction x as [|y x IH]; intros l H; [exists [], l; auto|]. destruct l as [|z l]; [discriminate H|].
  cbn [map app] in H. injection H as H1 H2. destruct (IH l H2) as (l1 & l2 & -> & H3 & H4). exists (z :: l1), l2.
  split; [reflexivity|]. split; [cbn [map]; congruence|exact H4].
Qed.

Lemma comments_l v ic st p st' fs1 x fs2 : typed_history v ic st -> frames_of st = fs1 ++ x :: fs2 ->
  f_id x = comm_id v -> p x = true -> (forall f, In f (fs1 ++ fs2) -> p f = false) ->
  (exists k, In k fs2 /\ f_id k = comm_id v) ->
  erase_remove v p st = Ok st' -> get_comments st' = UB Dangling.
Proof.
  intros H E IX PX PO (k & Hk & Ik) ER.
  destruct (typed_history_reg _ _ _ H) as (R & F). pose proof (r_nodup v none st R) as ND.
  unfold frames_of in E. destruct (map_split _ _ _ _ E) as (pre & r & E1 & E2 & E3).
  destruct r as [|[a c] post]; [discriminate E3|]. cbn [map snd] in E3. injection E3 as E3 E4.
  assert (QP : forall y, In y pre -> out p y = false).
  { intros y I. apply PO. apply in_or_app. left. rewrite <- E2. apply in_map_iff. exists y. auto. }
  assert (QQ : forall y, In y post -> out p y = false).
  { intros y I. apply PO. apply in_or_app. right. rewrite <- E4. apply in_map_iff. exists y. auto. }
  assert (KC : id_of c = comm_id v) by (unfold id_of; congruence).
  rewrite <- E4 in Hk. apply in_map_iff in Hk. destruct Hk as ([b kc] & Q & Hk). cbn [snd] in Q.
  apply In_nthN in Hk. destruct Hk as (o & Ho).
  set (d := N.of_nat (length pre)) in *.
  assert (NK : nthN (l_frames st) (d + 1 + o) = Some (b, kc)).
  { rewrite E1. unfold nthN in *. unfold d. rewrite nth_error_app2 by lia.
    replace (N.to_nat (N.of_nat (length pre) + 1 + o) - length pre)%nat with (S (N.to_nat o)) by lia. exact Ho. }
  assert (LO : o < N.of_nat (length post)) by (eapply nthN_lt; exact Ho).
  assert (IK : In (b, d + 1 + o) (l_comms st)).
  { apply (u_comms v none st F _ _ _ NK eq_refl). unfold id_of. congruence. }
  assert (NX : nthN (l_frames st) d = Some (a, c)) by (rewrite E1; apply nthN_app_at).
  assert (FF : find_frame p (l_frames st) = length pre).
  { rewrite E1. clear - QP PX E3. induction pre as [|[b e] q IH]; cbn [app find_frame].
    - rewrite E3, PX. reflexivity.
    - pose proof (QP (b, e) (or_introl eq_refl)) as W. unfold out in W. cbn [snd] in W. rewrite W. cbn [length]. f_equal.
      apply IH. intros y I. apply QP. right. exact I. }
  assert (LL : length (l_frames st) = (length pre + S (length post))%nat) by (rewrite E1, app_length; reflexivity).
  assert (LP : length post = S (length post - 1)) by lia.
  unfold erase_remove, remove_if in ER. rewrite FF in ER.
  rewrite (proj2 (Nat.eqb_neq _ _)) in ER by lia.
  replace (length (l_frames st) - S (length pre))%nat with (length post) in ER by lia. fold d in ER.
  destruct (shift_kept v p (length post) d (d + 1) st) as [[d' st1]|ee|u|] eqn:SK; try discriminate ER. cbn [bind] in ER.
  destruct post as [|y post']; [discriminate LP|]. cbn [length shift_kept] in SK.
  assert (NY : nthN (l_frames st) (d + 1) = Some y).
  { rewrite E1. replace (pre ++ (a, c) :: y :: post') with ((pre ++ [(a, c)]) ++ y :: post') by (rewrite <- app_assoc; reflexivity).
    apply nthN_mid. rewrite app_length. cbn [length]. unfold d. lia. }
  rewrite NY in SK. destruct y as [yb ye]. pose proof (QQ (yb, ye) (or_introl eq_refl)) as W. unfold out in W. cbn [snd] in W. rewrite W in SK.
  destruct (move_assign v d (d + 1) st) as [s|ee|u|] eqn:MV; try discriminate SK. cbn [bind] in SK.
  destruct (at_step v st d a c pre (yb, ye) post' s) as (AT & l & RL & CL); [split; [exact E1|split; [reflexivity|exact KC]]|exact MV|].
  assert (IK' : In (b, d + 1 + o) l) by (eapply remove_first_keeps; [exact RL|lia|exact IK]).
  destruct (comes_lost v p post' (pre ++ [(yb, ye)]) s (d + 1) a c l (d + 1 + o) b d' st1) as (ATe & LOST); try assumption; try lia.
  { intros z Hz. apply QQ. right. exact Hz. }
  { cbn [length] in LO. lia. }
  destruct ATe as (A1 & A2 & A3).
  assert (LN : (length (l_frames st1) - N.to_nat d' = 1)%nat).
  { rewrite A1, app_length. cbn [length]. lia. }
  rewrite LN in ER. unfold erase_range in ER. cbn [erase_lookups] in ER.
  assert (NL : nthN (l_frames st1) d' = Some (a, c)) by (rewrite A1; apply nthN_mid; exact A2).
  rewrite NL, A3 in ER. destruct (remove_lookups v (comm_id v) d' st1) as [st2|ee|u|] eqn:RM; try discriminate ER. cbn [bind] in ER.
  apply Ok_inj in ER. subst st'. destruct (remove_comm _ _ _ _ RM) as (RC & RF).
  assert (EX : exists m, In (a, m) (l_comms st2)).
  { destruct LOST as [(m & M1 & M2)|(lc' & M1 & b' & M2)].
    - exists m. eapply remove_first_keeps; [exact RC|lia|exact M2].
    - exists d'. rewrite M1 in RC.
      destruct (remove_first_app_l (has_idx d') lc' [(a, d')] (b', d') M2) as (l' & R1 & _); [unfold has_idx; apply N.eqb_refl|].
      rewrite R1 in RC. injection RC as <-. apply in_or_app. right. left. reflexivity. }
  destruct EX as (m & EX). unfold get_comments. eapply get_all_dangling; [cbn [set_frames l_comms]; exact EX|].
  apply at_addr_none. cbn [set_frames l_frames]. rewrite RF, A1.
  replace (N.to_nat d') with (length ((pre ++ [(yb, ye)]) ++ post')) by lia.
  rewrite firstn_app, firstn_all, Nat.sub_diag. cbn [firstn]. rewrite app_nil_r.
  rewrite skipn_all2 by (rewrite app_length; cbn [length]; lia). rewrite app_nil_r.
  rewrite E1 in ND. rewrite map_app in ND.
  change (map fst ((a, c) :: (yb, ye) :: post')) with (a :: map fst ((yb, ye) :: post')) in ND.
  apply NoDup_remove_2 in ND. rewrite <- map_app in ND. rewrite <- app_assoc. cbn [app]. exact ND.
Qed.

(** ** One move by itself *)
Lemma nthN_replace {A} (l : list A) i x k : i < N.of_nat (length l) ->
  nthN (replace_at i x l) k = if k =? i then Some x else nthN l k.
Proof.
  intros LT. unfold replace_at, nthN. set (n := N.to_nat i). set (m := N.to_nat k).
  assert (LF : length (firstn n l) = n) by (apply firstn_length_le; lia).
  destruct (k =? i) eqn:Q.
  - apply N.eqb_eq in Q. subst k. rewrite nth_error_app2 by lia. rewrite LF. replace (m - n)%nat with O by lia. reflexivity.
  - apply N.eqb_neq in Q. destruct (Nat.lt_ge_cases m n) as [H|H].
    + rewrite nth_error_app1 by lia. rewrite <- (firstn_skipn n l) at 2. rewrite nth_error_app1 by lia. reflexivity.
    + rewrite nth_error_app2 by lia. rewrite LF. replace (m - n)%nat with (S (m - S n)) by lia. cbn [nth_error].
      rewrite <- (firstn_skipn (S n) l) at 2. rewrite nth_error_app2 by (rewrite firstn_length; lia).
      rewrite firstn_length_le by lia. reflexivity.
Qed.
Lemma replace_length {A} (l : list A) i x : i < N.of_nat (length l) -> length (replace_at i x l) = length l.
Proof.
  intros LT. unfold replace_at. rewrite app_length. cbn [length]. rewrite firstn_length_le by lia. rewrite skipn_length. lia.
Qed.
Lemma nthN_map {A C} (f : A -> C) l i : nthN (map f l) i = match nthN l i with Some x => Some (f x) | None => None end.
Proof. unfold nthN. rewrite nth_error_map. destruct (nth_error l (N.to_nat i)); reflexivity. Qed.

Lemma move_swaps v i j st st' : move_assign v i j st = Ok st' -> swapped i j (frames_of st) (frames_of st').
Proof.
  unfold move_assign. destruct (nthN (l_frames st) i) as [x|] eqn:X; [|discriminate]. destruct (nthN (l_frames st) j) as [y|] eqn:Y; [|discriminate].
  intros H. destruct (remove_lookups v (id_of (snd x)) i st) as [s|e|u|] eqn:R; try discriminate H. cbn [bind] in H.
  destruct (over_moved v (snd x)) as [o|e|u|]; try discriminate H. cbn [bind] in H. apply Ok_inj in H. subst st'.
  pose proof (remove_lookups_frames _ _ _ _ _ R) as F. unfold frames_of. cbn [add_lookups set_frames l_frames]. rewrite F.
  pose proof (nthN_lt _ _ _ X) as LX. pose proof (nthN_lt _ _ _ Y) as LY.
  assert (LR : j < N.of_nat (length (replace_at i y (l_frames st)))) by (rewrite replace_length; assumption).
  unfold swapped. rewrite !nthN_map, !map_length, (replace_length _ j x LR), (replace_length _ i y LX).
  rewrite !(nthN_replace _ j x _ LR), !(nthN_replace _ i y _ LX), N.eqb_refl, N.eqb_refl, X, Y.
  split; [reflexivity|]. split.
  - destruct (i =? j) eqn:Q; [|reflexivity]. apply N.eqb_eq in Q. subst j. congruence.
  - split; [reflexivity|]. intros k K1 K2. rewrite !nthN_map, (nthN_replace _ j x _ LR), (nthN_replace _ i y _ LX).
    rewrite (proj2 (N.eqb_neq k j) K2), (proj2 (N.eqb_neq k i) K1). reflexivity.
Qed.

Lemma move_l v ic st i j f : typed_history v ic st -> nthN (frames_of st) i = Some f -> j < size_l st -> ~ odd_text f ->
  exists st', move_assign v i j st = Ok st' /\ swapped i j (frames_of st) (frames_of st').
Proof.
  intros H I J O. destruct (typed_history_reg _ _ _ H) as (R & F). pose proof (typed_history_apt _ _ _ H) as A.
  destruct (nth_frames _ _ _ I) as (a & c & N1 & <-).
  assert (P : plain c) by (destruct (plain_or_odd c) as [P|P]; [exact P|contradiction]).
  pose proof (tabs_start v st R F A) as T.
  assert (IG : In (a, c, i) (gi 0 (l_frames st))) by (apply gi_In; split; [lia|rewrite N.sub_0_r; exact N1]).
  apply in_split in IG. destruct IG as (G1 & G2 & EG). rewrite EG in T.
  pose proof (tabs_perm v _ _ st (Permutation_sym (Permutation_middle G1 G2 (a, c, i))) T) as T'.
  assert (AC : apt v (c_frame c)) by (apply (A (a, c)); eapply nthN_In; exact N1).
  destruct (take_out v _ st a c i T' N1 AC P) as (s & RL & _ & _).
  destruct (over_moved_ok v c AC P) as (o & Ho).
  destruct (nthN_ex (l_frames st) j J) as (y & Y).
  assert (E : exists st', move_assign v i j st = Ok st').
  { unfold move_assign. rewrite N1, Y. cbn [fst snd]. rewrite RL. cbn [bind]. rewrite Ho. cbn [bind]. eauto. }
  destruct E as (st' & E). exists st'. split; [exact E|]. eapply move_swaps; exact E.
Qed.

(** ** Nothing that stays comes after anything that goes *)
Lemma shift_none v p rest : forall pre st d j, l_frames st = pre ++ rest -> N.of_nat (length pre) = j ->
  (forall x, In x rest -> out p x = true) -> shift_kept v p (length rest) d j st = Ok (d, st).
Proof.
  induction rest as [|[b c] r IH]; intros pre st d j E L Q; [reflexivity|]. cbn [length shift_kept].
  assert (NJ : nthN (l_frames st) j = Some (b, c)) by (rewrite E; apply nthN_mid; exact L). rewrite NJ.
  pose proof (Q (b, c) (or_introl eq_refl)) as W. unfold out in W. cbn [snd] in W. rewrite W.
  apply (IH (pre ++ [(b, c)])); [rewrite E, <- app_assoc; reflexivity|rewrite app_length; cbn [length]; lia|].
  intros x I. apply Q. right. exact I.
Qed.

Lemma tail_l v ic st p fs1 fs2 st' : typed_history v ic st -> frames_of st = fs1 ++ fs2 ->
  (forall f, In f fs1 -> p f = false) -> (forall f, In f fs2 -> p f = true) ->
  erase_remove v p st = Ok st' -> typed_history v ic st'.
Proof.
  intros H E P1 P2 ER. destruct (typed_history_reg _ _ _ H) as (R & F).
  unfold frames_of in E. destruct (map_split _ _ _ _ E) as (pre & post & E1 & E2 & E3).
  assert (Q1 : forall y, In y pre -> out p y = false).
  { intros y I. apply P1. rewrite <- E2. apply in_map_iff. exists y. auto. }
  assert (Q2 : forall y, In y post -> out p y = true).
  { intros y I. apply P2. rewrite <- E3. apply in_map_iff. exists y. auto. }
  assert (LL : length (l_frames st) = (length pre + length post)%nat) by (rewrite E1, app_length; reflexivity).
  assert (FF : find_frame p (l_frames st) = length pre).
  { rewrite E1. clear - Q1 Q2. induction pre as [|[b e] q IH]; cbn [app find_frame].
    - destruct post as [|[b e] r]; [reflexivity|]. cbn [find_frame]. pose proof (Q2 (b, e) (or_introl eq_refl)) as W.
      unfold out in W. cbn [snd] in W. rewrite W. reflexivity.
    - pose proof (Q1 (b, e) (or_introl eq_refl)) as W. unfold out in W. cbn [snd] in W. rewrite W. cbn [length]. f_equal.
      apply IH. intros y I. apply Q1. right. exact I. }
  assert (RI : remove_if v p st = Ok (N.of_nat (length pre), st)).
  { unfold remove_if. rewrite FF. destruct (Nat.eqb (length pre) (length (l_frames st))) eqn:Q.
    - apply Nat.eqb_eq in Q. unfold size_l. rewrite <- Q. reflexivity.
    - destruct post as [|x r]; [cbn [length] in LL; apply Nat.eqb_neq in Q; lia|].
      replace (length (l_frames st) - S (length pre))%nat with (length r) by (cbn [length] in LL; lia).
      apply (shift_none v p r (pre ++ [x])); [rewrite E1, <- app_assoc; reflexivity|rewrite app_length; cbn [length]; lia|].
      intros z I. apply Q2. right. exact I. }
  unfold erase_remove in ER. rewrite RI in ER. cbn [bind] in ER. rewrite Nat2N.id in ER.
  set (n := (length (l_frames st) - length pre)%nat) in *.
  apply (T_edit v ic st (EEraseRange (N.of_nat (length pre)) n) st' H); [exact Logic.I|exact Logic.I|exact ER|].
  unfold erase_range in ER. destruct (erase_lookups v n (N.of_nat (length pre)) st) as [s|e|u|] eqn:EL; try discriminate ER.
  cbn [bind] in ER. apply Ok_inj in ER. subst st'. intros a i j c c' X Y. cbn [set_frames l_frames] in Y.
  rewrite (erase_lookups_frames _ _ _ _ _ EL) in Y. rewrite Nat2N.id in Y.
  rewrite (skipn_all2 (n := (length pre + n)%nat)) in Y by (unfold n; lia). rewrite app_nil_r in Y.
  rewrite <- (Nat2N.id (length pre)) in Y. pose proof (nthN_firstn_lt _ _ _ _ Y) as LT. rewrite (nthN_firstn _ _ _ LT) in Y.
  eapply addr_unique; [apply R|exact X|exact Y].
Qed.
